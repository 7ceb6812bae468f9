(** Specification of the command line of the quiz program, from its help text. *)
From Verif Require Export LaunchModel ArgsSpec ColumnFileSpec.
Open Scope N_scope.

(** the arguments that are left when the options of KanjiData are taken out *)
Fixpoint kept (l : list bytes) : list bytes :=
  match l with
  | [] => []
  | a :: r =>
      if beq a (b_ "-data") then match r with [] => [] | _ :: r' => kept r' end
      else if beq a (b_ "-debug") || beq a (b_ "-info") then kept r
      else a :: kept r
  end.

(** the meaning of one option: mode with order and first question, quiz type with list, or
    showing meanings *)
Inductive opt := OMode (m : ProgramMode) (o : QuestionOrder) (q : N) | OType (t : N) (l : option N) | OMeanings.

(** the letters of the modes *)
Definition mode_letter (x : N) (m : ProgramMode) : Prop := (x = 114 /\ m = Review) \/ (x = 116 /\ m = QuizMode).
(** the letter of a quiz type and the keys of its lists *)
Inductive list_keys : N -> bytes -> Prop :=
| keys_f : list_keys 102 (b_ "0123456789")
| keys_g : list_keys 103 (b_ "123456s")
| keys_k : list_keys 107 (b_ "123456789abc")
| keys_l : list_keys 108 (b_ "12345")
| keys_m : list_keys 109 (b_ "1234")
| keys_p : list_keys 112 (b_ "1234").

(** the documented forms of an option *)
Inductive documented : bytes -> opt -> Prop :=
| doc_mode : forall x m, mode_letter x m -> documented [45; x] (OMode m NoOrder 0)
| doc_random : forall x m, mode_letter x m -> documented [45; x; 48] (OMode m RandomOrder 0)
| doc_number : forall x m s, mode_letter x m -> numeral s -> s <> [48] -> decimal s <= 65535 ->
    documented (45 :: x :: s) (OMode m FromBeginning (decimal s))
| doc_plus : forall x m s, mode_letter x m -> numeral s -> decimal s <= 65535 ->
    documented (45 :: x :: 43 :: s) (OMode m FromBeginning (decimal s))
| doc_minus : forall x m s, mode_letter x m -> numeral s -> decimal s <= 65535 ->
    documented (45 :: x :: 45 :: s) (OMode m FromEnd (decimal s))
| doc_type : forall t ks, list_keys t ks -> documented [45; t] (OType t None)
| doc_list : forall t ks c, list_keys t ks -> In c ks -> documented [45; t; c] (OType t (Some c))
| doc_meanings : documented (b_ "-s") OMeanings.

Definition is_mode_opt (o : opt) : bool := match o with OMode _ _ _ => true | _ => false end.
Definition is_type_opt (o : opt) : bool := match o with OType _ _ => true | _ => false end.
(** options that can be given together *)
Definition options (l : list bytes) (os : list opt) : Prop :=
  Forall2 documented l os
  /\ (length (filter is_mode_opt os) <= 1)%nat /\ (length (filter is_type_opt os) <= 1)%nat.
(** the settings that these options stand for *)
Definition settings (os : list opt) (p : Settings) : Prop :=
  (forall m o q, In (OMode m o q) os -> sMode p = m /\ sOrder p = o /\ sQuestion p = q)
  /\ ((forall m o q, ~ In (OMode m o q) os) -> sMode p = NoMode /\ sOrder p = NoOrder /\ sQuestion p = 0)
  /\ (forall t l, In (OType t l) os -> sType p = Some t /\ sList p = l)
  /\ ((forall t l, ~ In (OType t l) os) -> sType p = None /\ sList p = None)
  /\ (sMeanings p = true <-> In OMeanings os).

(** an argument that is not an option: it does not start with '-', or is only that *)
Definition not_option (a : bytes) : Prop := a = [] \/ a = [45] \/ exists c r, a = c :: r /\ c <> 45.

(** what the arguments stand for *)
Inductive command : list bytes -> Command -> Prop :=
| cmd_options : forall l os p, options l os -> settings os p -> command l (Options p)
| cmd_options_end : forall l os p, options l os -> settings os p -> command (l ++ [b_ "--"]) (Options p)
| cmd_help : forall l os r, options l os -> command (l ++ b_ "-h" :: r) HelpMessage
| cmd_kanji : forall l os a r, options l os -> not_option a -> command (l ++ a :: r) (KanjiDetails a)
| cmd_kanji_end : forall l os a r, options l os -> command (l ++ b_ "--" :: a :: r) (KanjiDetails a).

(** a mode option with a number that std::stoul cannot convert, with what it throws *)
Inductive unconvertible : bytes -> exn -> Prop :=
| unc_sign : forall x m c, mode_letter x m -> c = 43 \/ c = 45 -> unconvertible [45; x; c] StdInvalidArgument
| unc_large : forall x m s, mode_letter x m -> numeral s -> 2 ^ 64 <= decimal s -> unconvertible (45 :: x :: s) StdOutOfRange
| unc_large_sign : forall x m c s, mode_letter x m -> c = 43 \/ c = 45 -> numeral s -> 2 ^ 64 <= decimal s ->
    unconvertible (45 :: x :: c :: s) StdOutOfRange.
