(** Model of what kanaConvert and kanjiFormat write to std::cerr: libs/kana/src/KanaConvert.cpp, apps/convertMain.cpp and
    apps/formatMain.cpp: the functions of ProgramModel and MainModel with what() of what they throw (ErrConvertProofs shows that they
    are the same otherwise). *)
From Verif Require Import ProgramModel.
From Verif Require FormatModel.
From Verif Require Export ErrBaseMain.
Open Scope N_scope.

Section Other.
(** what() of exceptions of the standard library *)
Variable stdWhat : exn -> bytes.

(** ** kanaConvert *)
(** KanaConvert.cpp:140-161 *)
Definition processArgT (p : Prog) (arg : bytes) : res (option Prog) :=
  let setBool (q : Prog) : res (option Prog) :=
    if pInteractive p || pSuppress p || pKana p || pMarkdown p
    then Says DomainError (b_ "can only specify one of -i, -m, -n, or -p") else Got (Some q) in
  if beq arg (b_ "-i") then setBool (MkProg true (pSuppress p) (pKana p) (pMarkdown p) (pConv p) (pStrings p))
  else if beq arg (b_ "-m") then setBool (MkProg (pInteractive p) (pSuppress p) (pKana p) true (pConv p) (pStrings p))
  else if beq arg (b_ "-n") then setBool (MkProg (pInteractive p) true (pKana p) (pMarkdown p) (pConv p) (pStrings p))
  else if beq arg (b_ "-p") then setBool (MkProg (pInteractive p) (pSuppress p) true (pMarkdown p) (pConv p) (pStrings p))
  else if dashed arg then
    match charTypeArgs (pConv p) arg with
    | Some v => Got (Some (withConv p v))
    | None => Says DomainError (b_ "illegal option: " ++ arg)
    end
  else Got None.
(** KanaConvert.cpp:113 *)
Fixpoint restArgsT (fuel : nat) (a : Args) (i : N) : res (list bytes * N) :=
  match fuel with
  | O => Unfinished
  | S f =>
      let i := u16 (i + 1) in
      if i <? argc a then s <~ argAtT a i ;; '(l, j) <~ restArgsT f a i ;; Got (s :: l, j) else Got ([], i)
  end.
(** KanaConvert.cpp:111-122 *)
Fixpoint readLoopT (fuel : nat) (a : Args) (i : N) (p : Prog) : res (option Prog) :=
  match fuel with
  | O => Unfinished
  | S f =>
      if i <? argc a then
        arg <~ argAtT a i ;;
        if beq arg (b_ "--") then
          '(l, j) <~ restArgsT f a i ;; readLoopT f a (u16 (j + 1)) (withStrings p l)
        else if beq arg (b_ "-?") then Got None
        else if beq arg (b_ "-f") then
          let i := u16 (i + 1) in
          if argc a <=? i then Says DomainError (b_ "-f must be followed by a flag value")
          else
            arg <~ argAtT a i ;;
            match arg with
            | [c] => match flagArgs (pConv p) c with
                     | Some v => readLoopT f a (u16 (i + 1)) (withConv p v)
                     | None => Says DomainError (b_ "illegal option for -f: " ++ arg)
                     end
            | _ => Says DomainError (b_ "illegal option for -f: " ++ arg)
            end
        else
          o <~ processArgT p arg ;;
          readLoopT f a (u16 (i + 1)) (match o with Some q => q | None => withStrings p [arg] end)
      else Got (Some p)
  end.
Definition readProgramT (fuel : nat) (a : Args) : res (option Prog) := readLoopT fuel a 1 noProg.
(** KanaConvert.cpp:107-138 *)
Definition programT (ltr : bool) (fuel : nat) (a : Args) (terminal : bool) (i : istream) : printedT unit :=
  match readProgramT fuel a with
  | Got None => outT stdWhat (say (usage true))
  | Got (Some p) =>
      match pStrings p with
      | _ :: _ =>
          if pInteractive p || pKana p || pMarkdown p
          then ([], Says DomainError (b_ "'string' args can't be combined with '-i', '-m' or '-p'"))
          else outT stdWhat (startStrings ltr (pConv p) (pStrings p))
      | [] =>
          if pKana p || pMarkdown p then outT stdWhat (printKanaChart (pMarkdown p))
          else if terminal && negb (pInteractive p)
          then ([], Says DomainError (b_ "provide one or more 'strings' or '-i' for interactive mode"))
          else outT stdWhat (getInput ltr fuel (pInteractive p) (pSuppress p) (pConv p) i)
      end
  | x => failT x
  end.
(** apps/convertMain.cpp:3-11: std::cout, std::cerr and the end *)
Definition convertWhole (ltr : bool) (fuel : nat) (l : list bytes) (terminal : bool) (i : istream) : bytes * (bytes * Ended) :=
  let '(t, x) := match mainArgsT l with Got a => programT ltr fuel a terminal i | y => failT y end in (t, caught x).

(** ** kanjiFormat *)
Section Format.
Variable fs : bytes -> option CountModel.node.
Variable writable : bytes -> bool.
(** formatMain.cpp:12-43 *)
Definition formatT (a : Args) : printedT unit :=
  if argc a <? 2 then ([], Says DomainError (b_ "specify a file to format"))
  else
    match argAtT a 1 with
    | Got file =>
        if isRegular fs file then
          match FormatModel.format (if writable file then contentsOf fs file else []) with
          | Val t => (t, Got tt)
          | x => failT (withText stdWhat x)
          end
        else ([], Says DomainError (b_ "file not found: " ++ file))
    | x => failT x
    end.
(** formatMain.cpp:45-53 *)
Definition formatWhole (l : list bytes) : bytes * (bytes * Ended) :=
  let '(t, x) := match mainArgsT l with Got a => formatT a | y => failT y end in (t, caught x).
End Format.
End Other.
