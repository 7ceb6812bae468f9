(** Model of kanaConvert used at a terminal (libs/kana/src/KanaConvert.cpp:107-138 and 238-272 when no input stream was given): lines are
    read with std::cin, and flags with single keys of the same terminal (Choice.cpp:58-66).  [i] is all that is typed: a line is given to the
    program when Enter was pressed, and the keys after it are still there when a flag is asked for.  Keys that edit a line are left out. *)
From Verif Require Export ProgramModel TermModel.
Open Scope N_scope.

(** what is left of the keys *)
Definition keysLeft (l : list ReadResult) : bytes := flat_map (fun r => match r with ReadKey c => [c] | _ => [] end) l.

Section Console.
  (** see ConverterModel *)
  Variable ltr : bool.
  (** see TermModel; the settings of the terminal *)
  Variables icanon echo : N.
  Variable settings : Settings.

  (** KanaConvert.cpp:263 with Choice.cpp:58-66 *)
  Definition askFlagKey (fuel : nat) (v : Conv) (i : istream) : W (Conv * istream) :=
    match getKey icanon echo fuel None flagMessage true flagChoices None (MkTerm (Some settings) (map ReadKey (inRest i)) [] []) with
    | Val (c, t, w) => (w, Val (match flagArgs v c with Some v' => v' | None => v end, MkIn (keysLeft (tReads t)) (inEof i)))
    | Throw e => ([], Throw e)
    | Ub => ([], Ub)
    | Fuel => ([], Fuel)
    end.
  (** KanaConvert.cpp:256-272 processLine: other lines are handled as in ProgramModel *)
  Definition processLineKey (fuel : nat) (v : Conv) (line : bytes) (i : istream) : W (bool * Conv * istream) :=
    if beq line (b_ "f") then
      wbind (askFlagKey fuel v i) (fun '(v, i) => wbind (say (optionsText v)) (fun _ => wret (false, v, i)))
    else processLine fuel v line i.
  (** KanaConvert.cpp:240-244: the loop over the lines, [_interactive] is set *)
  Fixpoint consoleLoop (fuel : nat) (suppress : bool) (v : Conv) (i : istream) : W unit :=
    match fuel with
    | O => ([], Fuel)
    | S f =>
        if getlineOk i then
          let '(line, i) := getline i [] in
          if beq line (b_ "q") then wret tt
          else
            wbind (processLineKey f v line i) (fun '(text, v, i) =>
            wbind (if text : bool then wbind (sayText ltr v line) (fun _ => if suppress then wret tt else say [10]) else wret tt)
              (fun _ => consoleLoop f suppress v i))
        else wret tt
    end.
  (** KanaConvert.cpp:107-138 and 238-245: the constructor, where isatty(fileno(stdin)) is true *)
  Definition console (fuel : nat) (a : Args) (i : istream) : W unit :=
    wbind (lift (readProgram fuel a)) (fun o =>
    match o with
    | None => say (usage true)
    | Some p =>
        match pStrings p with
        | _ :: _ =>
            if pInteractive p || pKana p || pMarkdown p then lift (Throw DomainError)
            else startStrings ltr (pConv p) (pStrings p)
        | [] =>
            if pKana p || pMarkdown p then printKanaChart (pMarkdown p)
            else if negb (pInteractive p) then lift (Throw DomainError)
            else wbind (say (optionsText (pConv p))) (fun _ => consoleLoop fuel (pSuppress p) (pConv p) i)
        end
    end).
End Console.
