(** Model of what kanjiStats reports: libs/stats/src/Stats.cpp and libs/stats/src/Utf8Count.cpp:61-66: the functions of
    StatsReportModel with what() of what they throw (ErrStatsProofs shows that they are the same otherwise). *)
From Verif Require Import StatsReportModel.
From Verif Require Export ErrBaseMain.
Open Scope N_scope.

(** what() of exceptions of the standard library: [stdWhat] *)
Section Stats.
  Variable stdWhat : exn -> bytes.
  Variable findUcd : bytes -> bool.
  Variable findByName : bytes -> option StatsModel.Entry.
  Variable order : list StatsModel.SCount -> list StatsModel.SCount.
  Variable fs : bytes -> option CountModel.node.
  (** Utf8Count.cpp:61-66: std::filesystem::exists *)
  Definition exists_ (p : bytes) : bool :=
    match fs p with Some n => match CountModel.resolve n with Some _ => true | None => false end | None => false end.
  (** Stats.cpp:51-92: each of the threads calls addFile first (Stats.cpp:144) *)
  Definition countKanjiT (showBreakdown verbose : bool) (top : bytes) : printedT unit :=
    if exists_ top then outT stdWhat (countKanji findUcd findByName order fs showBreakdown verbose top)
    else ([], Says DomainError (b_ "file not found: " ++ top)).
  (** Stats.cpp:48 *)
  Fixpoint countAllT (showBreakdown verbose : bool) (files : list bytes) (text : bytes) : printedT unit :=
    match files with
    | [] => (text, Got tt)
    | f :: r => match countKanjiT showBreakdown verbose f with
                | (t, Got _) => countAllT showBreakdown verbose r (text ++ t)
                | (t, e) => (text ++ t, e)
                end
    end.
  (** Stats.cpp:29-45 *)
  Fixpoint statsLoopT (fuel : nat) (a : Args) (i : N) (breakdown endOptions verbose : bool) (files : list bytes) : res StatsReportModel.Command :=
    match fuel with
    | O => Unfinished
    | S f =>
        if i <? argc a then
          arg <~ argAtT a i ;;
          let continue b e v l := next <~ nextArgT f a i ;; statsLoopT f a next b e v l in
          if negb endOptions && BlockModel.startsWith arg (b_ "-") then
            if beq arg (b_ "-h") then Got Help
            else if beq arg (b_ "-b") then continue true endOptions verbose files
            else if beq arg (b_ "-v") then continue breakdown endOptions true files
            else if beq arg (b_ "--") then continue breakdown true verbose files
            else Says DomainError (b_ "illegal option '" ++ arg ++ b_ "' use -h for help")
          else continue breakdown endOptions verbose (files ++ [arg])
        else Got (Count breakdown verbose files)
    end.
  Definition statsArgsT (fuel : nat) (a : Args) : res StatsReportModel.Command :=
    i <~ nextArgT fuel a 0 ;; statsLoopT fuel a i false false false [].
  (** Stats.cpp:26-49 *)
  Definition statsT (fuel : nat) (a : Args) (debug : bool) : printedT unit :=
    match statsArgsT fuel a with
    | Got Help => (StatsReportModel.HelpText, Got tt)
    | Got (Count breakdown verbose files) =>
        match files with
        | [] => if negb debug then ([], Says DomainError (b_ "please specify at least one option or '-h' for help")) else ([], Got tt)
        | _ => countAllT breakdown verbose files []
        end
    | x => failT x
    end.
End Stats.
