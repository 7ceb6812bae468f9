(** Facts about the shared vocabulary. *)
From Verif Require Export Base.
From Coq Require Export ZifyBool ZifyNat ZifyN.
Ltac Zify.zify_post_hook ::= Z.div_mod_to_equations.

Lemma beq_eq : forall a b, beq a b = true <-> a = b.
Proof.
  induction a as [|x a IH]; destruct b as [|y b]; cbn [beq]; split; intro H;
    try discriminate; try reflexivity.
  - apply andb_true_iff in H. destruct H as [H1 H2].
    apply N.eqb_eq in H1. apply IH in H2. subst. reflexivity.
  - inversion H; subst. rewrite N.eqb_refl. cbn. apply IH. reflexivity.
Qed.

Lemma beq_refl : forall a, beq a a = true.
Proof. intro a. apply beq_eq. reflexivity. Qed.

Lemma beq_neq : forall a b, beq a b = false <-> a <> b.
Proof.
  intros a b. destruct (beq a b) eqn:E.
  - apply beq_eq in E. split; [discriminate|]. intro H. contradiction.
  - split; [|reflexivity]. intros _ H. apply beq_eq in H. congruence.
Qed.

Lemma beq_sym : forall a b, beq a b = beq b a.
Proof.
  intros a b. destruct (beq a b) eqn:E.
  - apply beq_eq in E. subst. symmetry. apply beq_refl.
  - symmetry. apply beq_neq. apply beq_neq in E. congruence.
Qed.

Definition bytes_eq_dec : forall a b : bytes, {a = b} + {a <> b} :=
  list_eq_dec N.eq_dec.

(** [0; 1; ...; n-1] *)
Fixpoint upto_aux (n : nat) (start : N) : list N :=
  match n with O => [] | S n' => start :: upto_aux n' (N.succ start) end.
Definition upto (n : N) : list N := upto_aux (N.to_nat n) 0.

Lemma in_upto_aux : forall n s x, In x (upto_aux n s) <-> s <= x < s + N.of_nat n.
Proof.
  induction n as [|n IH]; intros s x; cbn [upto_aux In].
  - lia.
  - rewrite IH. lia.
Qed.
Lemma in_upto : forall n x, In x (upto n) <-> x < n.
Proof. intros n x. unfold upto. rewrite in_upto_aux. lia. Qed.

(** exhaustive check of a boolean predicate below a bound *)
Lemma sweep : forall n (P : N -> bool),
  forallb P (upto n) = true -> forall x, x < n -> P x = true.
Proof.
  intros n P H x Hx. rewrite forallb_forall in H. apply H. apply in_upto. exact Hx.
Qed.

Lemma len_app : forall A (a b : list A), len (a ++ b) = len a + len b.
Proof. intros A a b. unfold len. rewrite app_length. lia. Qed.
Lemma len_cons : forall A (x : A) l, len (x :: l) = 1 + len l.
Proof. intros A x l. unfold len. cbn [List.length]. lia. Qed.
Lemma len_nil : forall A, len (@nil A) = 0.
Proof. reflexivity. Qed.

Lemma bytes_ok_app : forall a b, bytes_ok (a ++ b) <-> bytes_ok a /\ bytes_ok b.
Proof. intros a b. unfold bytes_ok. apply Forall_app. Qed.
Lemma no_nul_app : forall a b, no_nul (a ++ b) <-> no_nul a /\ no_nul b.
Proof. intros a b. unfold no_nul. apply Forall_app. Qed.

Lemma nth_error_nil_none : forall A n, nth_error (@nil A) n = None.
Proof. intros A n. destruct n; reflexivity. Qed.

Lemma flat_map_app' : forall A B (f : A -> list B) l1 l2,
  flat_map f (l1 ++ l2) = flat_map f l1 ++ flat_map f l2.
Proof.
  intros A B f l1 l2. induction l1 as [|x l1 IH]; cbn [flat_map app].
  - reflexivity.
  - rewrite IH. apply app_assoc.
Qed.
