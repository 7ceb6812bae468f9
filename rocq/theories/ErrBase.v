(** Results of code that throws exceptions with a text.  [out] of Base has the exceptions without their text; [plain] forgets it. *)
From Verif Require Export Base StringModel.
Open Scope N_scope.

(** [Says e s]: throws [e] whose what() is [s] *)
Inductive res (A : Type) := Got (x : A) | Says (e : exn) (what : bytes) | Undefined | Unfinished.
Arguments Got {A}. Arguments Says {A}. Arguments Undefined {A}. Arguments Unfinished {A}.
Definition plain {A} (r : res A) : out A :=
  match r with Got x => Val x | Says e _ => Throw e | Undefined => Ub | Unfinished => Fuel end.
Definition rbind {A B} (m : res A) (f : A -> res B) : res B :=
  match m with Got x => f x | Says e s => Says e s | Undefined => Undefined | Unfinished => Unfinished end.
Notation "x <~ e ;; k" := (rbind e (fun x => k)) (at level 100, e at next level, right associativity).
Notation "' pat <~ e ;; k" := (rbind e (fun x => match x with pat => k end))
  (at level 100, pat pattern, e at next level, right associativity).

Lemma plain_bind : forall A B (m : res A) (f : A -> res B), plain (rbind m f) = obind (plain m) (fun x => plain (f x)).
Proof. intros A B [x|e s| |] f; reflexivity. Qed.
Lemma plain_bind2 : forall A B (m : res A) (f : A -> res B) (g : A -> out B),
  (forall x, plain (f x) = g x) -> plain (rbind m f) = obind (plain m) g.
Proof. intros A B [x|e s| |] f g H; cbn; auto. Qed.

(** [s] in quotes *)
Definition quoted (s : bytes) : bytes := b_ "'" ++ s ++ b_ "'".
