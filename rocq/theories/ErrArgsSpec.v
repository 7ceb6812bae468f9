(** Specification of the messages about a wrong command line of the quiz program. *)
From Verif Require Export LaunchSpec.
From Verif Require Export ErrBase.
Open Scope N_scope.

Definition has_mode (os : list opt) : Prop := exists m o q, In (OMode m o q) os.
Definition has_type (os : list opt) : Prop := exists t l, In (OType t l) os.
(** what follows the letter of a mode: digits after at most one sign *)
Definition number_text (s t : bytes) : Prop := (s = t \/ exists c, (c = 43 \/ c = 45) /\ s = c :: t) /\ Forall is_digit t.

(** [complaint os a e w]: after the options [os], the argument [a] is answered with an exception [e] that says [w] *)
Inductive complaint (std : exn -> bytes) (os : list opt) : bytes -> exn -> bytes -> Prop :=
| cp_two_modes : forall x m s, mode_letter x m -> has_mode os ->
    complaint std os (45 :: x :: s) DomainError (b_ "only one mode (-r or -t) can be specified, use -h for help")
| cp_mode_format : forall x m s, mode_letter x m -> ~ has_mode os -> (forall t, ~ number_text s t) ->
    complaint std os (45 :: x :: s) DomainError (b_ "invalid format for '-" ++ x :: b_ "', use -h for help")
| cp_mode_limit : forall x m s t, mode_letter x m -> ~ has_mode os -> number_text s t -> 65535 < decimal t < 2 ^ 64 ->
    complaint std os (45 :: x :: s) DomainError (b_ "value for '-" ++ x :: b_ "' exceeds limit")
| cp_mode_std : forall a e, ~ has_mode os -> unconvertible a e -> complaint std os a e (std e)
| cp_two_types : forall t ks s, list_keys t ks -> has_type os ->
    complaint std os (45 :: t :: s) DomainError (b_ "only one quiz type can be specified, use -h for help")
| cp_type_format : forall t ks s, list_keys t ks -> ~ has_type os -> s <> [] -> (forall c, In c ks -> s <> [c]) ->
    complaint std os (45 :: t :: s) DomainError (b_ "invalid format for '-" ++ t :: b_ "', use -h for help")
| cp_illegal : forall x s, (forall m, ~ mode_letter x m) -> (forall ks, ~ list_keys x ks) -> ~ In (45 :: x :: s) [b_ "-h"; b_ "--"; b_ "-s"] ->
    complaint std os (45 :: x :: s) DomainError (b_ "illegal option '" ++ (45 :: x :: s) ++ b_ "', use -h for help").

(** the first argument that cannot be read after legal options, with what is said about it *)
Definition first_complaint (std : exn -> bytes) (l : list bytes) (e : exn) (w : bytes) : Prop :=
  exists before a after os, l = before ++ a :: after /\ options before os /\ complaint std os a e w.

(** ** The arguments of main *)
(** a number as it is written: decimal digits without a leading zero *)
Definition written (d : bytes) (x : N) : Prop := Forall is_digit d /\ d <> [] /\ decimal d = x /\ (hd_error d = Some 48 -> d = [48]).
