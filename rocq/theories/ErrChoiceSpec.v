(** Specification of the messages about choices. *)
From Verif Require Export ChoiceSpec ErrChoiceModel.
From Verif Require Export ErrBase.
Open Scope N_scope.

(** the value of a char *)
Definition char_value (signed : bool) (c : N) : Z := if signed && (128 <=? c) then (Z.of_N c - 256)%Z else Z.of_N c.
(** two digits *)
Definition hex_text (c : N) (s : bytes) : Prop :=
  exists a b x y, s = [a; b] /\ nth_error (b_ "0123456789abcdef") x = Some a /\ nth_error (b_ "0123456789abcdef") y = Some b /\ c = 16 * N.of_nat x + N.of_nat y.
Definition not_printable (what : bytes) (c : N) (w : bytes) : Prop := ~ printable c /\ exists h, hex_text c h /\ w = what ++ b_ " is non-printable: 0x" ++ h.
(** the quit option is none of the choices *)
Definition quit_free (q : Quit) (m : Choices) : Prop := forall c d, q = Some (c, d) -> ~ In c (map fst m).

Inductive choice_says (signed : bool) (q : Quit) (useQuit : bool) (m : Choices) (def : option N) : bytes -> Prop :=
| cs_quit : forall c d, q = Some (c, d) -> In c (map fst m) -> choice_says signed q useQuit m def (b_ "quit option '" ++ [c] ++ b_ "' already in choices")
| cs_none : quit_free q m -> (forall c, ~ allowed q useQuit m c) -> choice_says signed q useQuit m def (b_ "must specify at least one choice")
| cs_option : forall c w, quit_free q m -> allowed q useQuit m c ->
    (forall c', allowed q useQuit m c' -> ~ printable c' -> (char_value signed c <= char_value signed c')%Z) ->
    not_printable (b_ "option") c w -> choice_says signed q useQuit m def w
| cs_default : forall c, quit_free q m -> (exists x, allowed q useQuit m x) -> (forall x, allowed q useQuit m x -> printable x) ->
    def = Some c -> ~ allowed q useQuit m c -> choice_says signed q useQuit m def (b_ "default option '" ++ [c] ++ b_ "' not in choices").

Inductive range_says (signed : bool) (q : Quit) (a b : N) (useQuit : bool) (m : Choices) (def : option N) : bytes -> Prop :=
| rs_first : forall w, not_printable (b_ "first range option") a w -> range_says signed q a b useQuit m def w
| rs_last : forall w, printable a -> not_printable (b_ "last range option") b w -> range_says signed q a b useQuit m def w
| rs_order : printable a -> printable b -> b < a ->
    range_says signed q a b useQuit m def (b_ "first range option '" ++ [a] ++ b_ "' is greater than last '" ++ [b] ++ b_ "'")
| rs_taken : forall c, printable a -> printable b -> a <= c <= b -> In c (map fst m) -> (forall x, a <= x < c -> ~ In x (map fst m)) ->
    range_says signed q a b useQuit m def (b_ "range option '" ++ [c] ++ b_ "' already in choices")
| rs_rest : forall m' w, printable a -> printable b -> a <= b -> (forall x, a <= x <= b -> ~ In x (map fst m)) ->
    is_map m' -> (forall e, In e m' <-> In e m \/ (snd e = [] /\ a <= fst e <= b)) -> choice_says signed q useQuit m' def w -> range_says signed q a b useQuit m def w.
