(** Model of the threads of kanjiStats (libs/stats/src/Stats.cpp:48-92 and 140-179): countKanji
    starts one thread for each row and then waits for their results in order.  Any thread can run
    next at any time.  One step of a thread is: a line written, counting all files, or adding one
    entry of the map to the total.  Counting reads only the files and constant data and writes only
    objects of its own thread, so it is one step.  Not modelled: std::async failing to start a
    thread. *)
From Verif Require Export StatsReportModel.
Open Scope N_scope.

Section Threads.
  (** as in StatsReportModel.v *)
  Variable findUcd : bytes -> bool.
  Variable findByName : bytes -> option Entry.
  Variable order : list SCount -> list SCount.
  Variable fs : bytes -> option node.
  Variables showBreakdown verbose : bool.

  (** where a thread is in [Pred::run]: before Stats.cpp:153, 158, 159, in the loop of 161-165 and before 166 *)
  Inductive Place :=
  | Begin
  | AddFile
  | PrintHeader (c : Counter)
  | Entries (c : Counter) (rest : smap N)
  | PrintTotal (c : Counter)
  | Ended.
  (** the Pred object ([_total] and [_os], Stats.h:102-103) with the place of its thread and the state of its future *)
  Record Pred := { pPlace : Place; pTotal : N; pOs : bytes; pFuture : option (out bytes) }.
  Definition newPred : Pred := {| pPlace := Begin; pTotal := 0; pOs := []; pFuture := None |}.
  Definition at_place (p : Pred) (l : Place) : Pred := {| pPlace := l; pTotal := pTotal p; pOs := pOs p; pFuture := pFuture p |}.
  Definition write (p : Pred) (s : bytes) : Pred := {| pPlace := pPlace p; pTotal := pTotal p; pOs := pOs p ++ s; pFuture := pFuture p |}.
  Definition addTotal (p : Pred) (n : N) : Pred := {| pPlace := pPlace p; pTotal := pTotal p + n; pOs := pOs p; pFuture := pFuture p |}.
  (** the function returns or throws: the future is ready and the thread has ended *)
  Definition finish (p : Pred) (r : out bytes) : Pred := {| pPlace := Ended; pTotal := pTotal p; pOs := pOs p; pFuture := Some r |}.
  (** the result of an expression or its exception *)
  Definition orElse {A} (r : out A) (f : A -> Pred) (p : Pred) : Pred :=
    match r with
    | Val a => f a
    | Throw e => finish p (Throw e)
    | Ub => finish p Ub
    | Fuel => finish p Fuel
    end.

  (** Stats.cpp:140-179: the next step of the thread of row [i] *)
  Definition threadStep (i : nat) (top : bytes) (row : bytes * (bytes -> out bool)) (p : Pred) : option Pred :=
    let name := fst row in
    let isHiragana := beq name (b_ "Hiragana") in
    let isUnrecognized := beq name (b_ "Unrecognized") in
    let isKanji := isKanjiRow name in
    let isCommonKanji := isKanji && BlockModel.startsWith name (b_ "Common") in
    let removes := isHiragana || beq name (b_ "Katakana") || beq name (b_ "MB-Letter") in
    match pPlace p with
    | Begin => Some (at_place (if isHiragana && verbose then write p (b_ ">>> Showing all Furigana replacements:" ++ [10]) else p) AddFile)
    | AddFile =>
        Some (orElse (addFileV (if removes then Some removeFurigana else None) (snd row) (isHiragana && verbose)
                       (fs top) (filename top) (isKanji || isUnrecognized || (isHiragana && verbose)) true true (newCounter, pOs p))
                (fun r => {| pPlace := PrintHeader (fst (snd r)); pTotal := pTotal p; pOs := snd (snd r); pFuture := pFuture p |}) p)
    | PrintHeader c => Some (at_place (match i with O => write p (printHeaderInfo top c) | _ => p end) (Entries c (cMap c)))
    | Entries c [] => Some (at_place p (PrintTotal c))
    | Entries c (e :: r) => Some (at_place (addTotal p (snd e)) (Entries c r))
    | PrintTotal c =>
        let frequency := order (rowCounts findByName isKanji (cMap c)) in
        let total := pTotal p in
        Some (if negb (total =? 0) then
                orElse (if isUnrecognized || (isKanji && showBreakdown) then printBreakdown name showBreakdown c frequency else Val [])
                  (fun breakdown =>
                     let p := write p (printTotalAndUnique name total (len frequency)
                                ++ (if isCommonKanji then b_ ", 100.00%" ++ [10] ++ printKanjiTypeCounts total frequency
                                    else if isKanji then printRareExamples frequency else [10])
                                ++ breakdown) in
                     finish p (Val (pOs p))) p
              else finish p (Val (pOs p)))
    | Ended => None
    end.

  (** where the main thread is: starting the threads (Stats.cpp:63-75), getting the result of thread [i] (76), reading the
      totals (77-91, those read so far), leaving countKanji with an exception, and after the last file *)
  Inductive MainPlace := Starting | Getting (i : nat) | Totals (ns : list N) | Leaving (r : out unit) | Finished (r : out unit).
  (** [sText] is what was printed; [sFile] is the file being counted and [sFiles] are the next ones (Stats.cpp:48) *)
  Record State := { sPlace : MainPlace; sText : bytes; sFile : bytes; sFiles : list bytes; sPreds : list Pred }.
  Definition go (s : State) (l : MainPlace) : State :=
    {| sPlace := l; sText := sText s; sFile := sFile s; sFiles := sFiles s; sPreds := sPreds s |}.
  Definition print (s : State) (t : bytes) : State :=
    {| sPlace := sPlace s; sText := sText s ++ t; sFile := sFile s; sFiles := sFiles s; sPreds := sPreds s |}.
  Definition with_preds (s : State) (l : list Pred) : State :=
    {| sPlace := sPlace s; sText := sText s; sFile := sFile s; sFiles := sFiles s; sPreds := l |}.
  Definition isEnded (p : Pred) : bool := match pPlace p with Ended => true | _ => false end.
  (** the next step of the main thread; [None]: it waits or has finished *)
  Definition mainStep (s : State) : option State :=
    match sPlace s with
    | Starting =>
        if (List.length (sPreds s) <? List.length (rows findUcd))%nat then Some (with_preds s (sPreds s ++ [newPred]))
        else Some (go s (Getting 0))
    | Getting i =>
        if (i <? List.length (rows findUcd))%nat then
          match nth_error (sPreds s) i with
          | Some p => match pFuture p with
                      | Some (Val t) => Some (go (print s t) (Getting (S i)))
                      | Some (Throw e) => Some (go s (Leaving (Throw e)))
                      | Some Ub => Some (go s (Leaving Ub))
                      | Some Fuel => Some (go s (Leaving Fuel))
                      | None => None
                      end
          | None => None
          end
        else Some (go s (Totals []))
    | Totals ns =>
        if (List.length ns <? IncludeInTotals)%nat then
          match nth_error (sPreds s) (List.length ns) with Some p => Some (go s (Totals (ns ++ [pTotal p]))) | None => None end
        else
          let s := print s (totalLine (combine (map fst (rows findUcd)) ns)) in
          match sFiles s with
          | [] => Some (go s (Finished (Val tt)))
          | f :: r => Some {| sPlace := Starting; sText := sText s; sFile := f; sFiles := r; sPreds := [] |}
          end
    | Leaving r => if forallb isEnded (sPreds s) then Some (go s (Finished r)) else None (* the destructor of a future waits *)
    | Finished _ => None
    end.

  (** one step of the program: the main thread or any other *)
  Inductive step (s : State) : State -> Prop :=
  | step_main : forall s', mainStep s = Some s' -> step s s'
  | step_thread : forall i row p p', nth_error (rows findUcd) i = Some row -> nth_error (sPreds s) i = Some p ->
      threadStep i (sFile s) row p = Some p' -> step s (with_preds s (update (sPreds s) i p')).
  (** some steps, with their number *)
  Inductive steps : nat -> State -> State -> Prop :=
  | steps_none : forall s, steps 0 s s
  | steps_more : forall n s s1 s2, step s s1 -> steps n s1 s2 -> steps (S n) s s2.
  Definition initial (f : bytes) (files : list bytes) : State :=
    {| sPlace := Starting; sText := []; sFile := f; sFiles := files; sPreds := [] |}.
End Threads.
