(** Model of Choice.cpp:58-66 and 119-142: a Choice made without an input stream reads single keys from the
    terminal.  The terminal and the results of read() are parameters; the texts of errno that perror appends
    are left out. *)
From Verif Require Export ChoiceModel.
Open Scope N_scope.

(** struct termios; [sOthers] is all but c_lflag, c_cc[VMIN] and c_cc[VTIME] *)
Record Settings := MkSettings { sLocal : N; sMin : N; sTime : N; sOthers : bytes }.
(** Choice.cpp:121: settings{} *)
Definition noSettings : Settings := MkSettings 0 0 0 [].
(** what read(0, &c, 1) gives: a byte, 0 or -1 *)
Inductive ReadResult := ReadKey (c : N) | ReadEnd | ReadError.
(** [tTty]: the settings of file 0, None if it is not a terminal (tcgetattr and tcsetattr give -1); [tReads]: results of the calls
    of read to come, ReadEnd after these; [tErrors]: what perror was called with; [tModes]: the settings each read was done with *)
Record Term := MkTerm { tTty : option Settings; tReads : list ReadResult; tErrors : list bytes; tModes : list (option Settings) }.

Section Terminal.
  (** the numbers of the bits ICANON and ECHO *)
  Variables icanon echo : N.

  (** termios(3): tcgetattr *)
  Definition tcgetattr (t : Term) : option Settings := tTty t.
  (** termios(3): tcsetattr; with [msg] for perror (Choice.cpp:128-129 and 136-137) *)
  Definition setAttr (s : Settings) (msg : bytes) (t : Term) : Term :=
    match tTty t with
    | Some _ => MkTerm (Some s) (tReads t) (tErrors t) (tModes t)
    | None => MkTerm None (tReads t) (tErrors t ++ [msg]) (tModes t)
    end.
  (** Choice.cpp:131-132 *)
  Definition readOne (t : Term) : N * Term :=
    let modes := tModes t ++ [tTty t] in
    match tReads t with
    | ReadKey c :: r => (c, MkTerm (tTty t) r (tErrors t) modes)
    | ReadEnd :: r => (0, MkTerm (tTty t) r (tErrors t) modes)
    | ReadError :: r => (0, MkTerm (tTty t) r (tErrors t ++ [b_ "read()"]) modes)
    | [] => (0, MkTerm (tTty t) [] (tErrors t) modes)
    end.
  (** Choice.cpp:119-140 getOneChar *)
  Definition getOneChar (t : Term) : N * Term :=
    let '(s, t) := match tcgetattr t with
                   | Some s => (s, t)
                   | None => (noSettings, MkTerm (tTty t) (tReads t) (tErrors t ++ [b_ "tcsetattr()"]) (tModes t))
                   end in
    let s := MkSettings (N.ldiff (N.ldiff (sLocal s) (2 ^ icanon)) (2 ^ echo)) 1 0 (sOthers s) in
    let t := setAttr s (b_ "tcsetattr() - turning on raw mode") t in
    let '(c, t) := readOne t in
    let s := MkSettings (N.lor (N.lor (sLocal s) (2 ^ icanon)) (2 ^ echo)) (sMin s) (sTime s) (sOthers s) in
    (c, setAttr s (b_ "tcsetattr() - turning off raw mode") t).

  (** Choice.cpp:53-69 without an input stream *)
  Fixpoint keyLoop (fuel : nat) (m : Choices) (def : option N) (prompt : bytes) (t : Term) (written : bytes) : out (N * Term * bytes) :=
    match fuel with
    | O => Fuel
    | S f =>
        let written := written ++ prompt in
        let '(choice, t) := getOneChar t in
        let line := if choice =? 10 then [] else [choice] in
        let written := written ++ [10] in
        match line, def with
        | [], Some d => Val (d, t, written)
        | [c], _ => if hasKey c m then Val (c, t, written) else keyLoop f m def prompt t written
        | _, _ => keyLoop f m def prompt t written
        end
    end.
  (** Choice.cpp:32-70 get *)
  Definition getKey (fuel : nat) (q : Quit) (msg : bytes) (useQuit : bool) (choices : Choices) (def : option N) (t : Term)
      : out (N * Term * bytes) :=
    '(m, p) <- prepare q msg useQuit choices def ;; keyLoop fuel m def p t [].
End Terminal.
