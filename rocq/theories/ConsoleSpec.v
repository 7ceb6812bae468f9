(** Specification of kanaConvert at a terminal. *)
From Verif Require Export ProgramSpec ConsoleModel.
Open Scope N_scope.

(** the first line of what is typed, and what follows it *)
Definition first_line (text s r : bytes) : Prop :=
  ~ In 10 s /\ (text = s ++ 10 :: r \/ (text = s /\ s <> [] /\ r = [])).
Definition sets_flag (c : N) : Prop := exists n, flag_letter c n.
(** one step: a line that is handled as one of a given input, or the line "f" and keys up to the first one that stands for a flag.  No Enter
    is needed after that key, and for each key the prompt is shown with a line feed *)
Inductive key_step (ltr : bool) (v : Conv) : bytes -> bytes -> Conv -> bytes -> Prop :=
| ks_line : forall text s r w v', first_line text s r -> step ltr true true v [s] w v' [] -> key_step ltr v text w v' r
| ks_flag : forall others c n r v', Forall (fun k => ~ sets_flag k) others -> flag_letter c n ->
    v' = MkConv (cSource v) (cTarget v) (N.setbit (cFlags v) n) ->
    key_step ltr v (b_ "f" ++ 10 :: others ++ c :: r) (concat (repeat (flag_prompt ++ [10]) (S (length others))) ++ options_shown v') v' r.
Inductive key_steps (ltr : bool) (v : Conv) : bytes -> bytes -> Conv -> bytes -> Prop :=
| kss_none : forall text, key_steps ltr v text [] v text
| kss_one : forall text w v' text' w' v'' text'', key_step ltr v text w v' text' ->
    key_steps ltr v' text' w' v'' text'' -> key_steps ltr v text (w ++ w') v'' text''.
(** a session that ends: with the input or with the line "q" *)
Definition key_session (ltr : bool) (v : Conv) (text w : bytes) : Prop :=
  exists v' text', key_steps ltr v text w v' text' /\ (text' = [] \/ exists r, first_line text' (b_ "q") r).
(** a session in which a flag is asked for, and no key for one is pressed *)
Definition key_waits (ltr : bool) (v : Conv) (text : bytes) : Prop :=
  exists w v' text' others, key_steps ltr v text w v' text' /\ first_line text' (b_ "f") others /\ Forall (fun k => ~ sets_flag k) others.

(** steps over lines of a given input in which each question for a flag is answered by the next line *)
Inductive at_once (ltr : bool) (v : Conv) : list bytes -> bytes -> Conv -> list bytes -> Prop :=
| ao_none : forall ls, at_once ltr v ls [] v ls
| ao_line : forall s ls w v' w' v'' ls'', step ltr true true v (s :: ls) w v' ls -> at_once ltr v' ls w' v'' ls'' -> at_once ltr v (s :: ls) (w ++ w') v'' ls''
| ao_flag : forall c ls w v' w' v'' ls'', step ltr true true v (b_ "f" :: [c] :: ls) w v' ls -> at_once ltr v' ls w' v'' ls'' ->
    at_once ltr v (b_ "f" :: [c] :: ls) (w ++ w') v'' ls''.
(** the lines, each with its Enter *)
Definition entered (ls : list bytes) : bytes := flat_map (fun l => l ++ [10]) ls.
(** the second text is the first one with a line feed after some of the prompts for flags *)
Inductive more_breaks : bytes -> bytes -> Prop :=
| mb_nil : more_breaks [] []
| mb_same : forall x w w', more_breaks w w' -> more_breaks (x ++ w) (x ++ w')
| mb_prompt : forall w w', more_breaks w w' -> more_breaks (flag_prompt ++ w) (flag_prompt ++ [10] ++ w').
