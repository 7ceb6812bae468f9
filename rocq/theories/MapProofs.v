(** Facts about the model of std::map. *)
From Verif Require Import BaseFacts.
From Verif Require Export MapModel.
From Coq Require Import Sorted.
Open Scope N_scope.

Lemma blt_irrefl : forall a, blt a a = false.
Proof. induction a as [|x a IH]; [reflexivity|]. cbn [blt]. rewrite IH, N.ltb_irrefl, andb_false_r. reflexivity. Qed.
Lemma blt_trans : forall a b c, blt a b = true -> blt b c = true -> blt a c = true.
Proof.
  induction a as [|x a IH]; intros b c H1 H2; destruct b as [|y b]; destruct c as [|z c]; try discriminate; try reflexivity.
  cbn [blt] in *. apply orb_true_iff in H1. apply orb_true_iff in H2. apply orb_true_iff.
  rewrite !andb_true_iff in *. rewrite !N.ltb_lt, !N.eqb_eq in *.
  destruct H1 as [H1|[H1 H1']]; destruct H2 as [H2|[H2 H2']]; try (left; lia).
  right. split; [lia|]. eapply IH; eassumption.
Qed.
Lemma blt_total : forall a b, blt a b = false -> a <> b -> blt b a = true.
Proof.
  induction a as [|x a IH]; intros [|y b] H Hne; try congruence; try discriminate; try reflexivity.
  cbn [blt] in *. apply orb_false_iff in H. destruct H as [H1 H2]. apply N.ltb_ge in H1.
  destruct (N.eq_dec x y) as [->|Hxy].
  - rewrite N.eqb_refl in *. cbn [andb] in *. rewrite N.ltb_irrefl. cbn [orb]. apply IH; congruence.
  - replace (y <? x) with true by lia. reflexivity.
Qed.
Lemma blt_asym : forall a b, blt a b = true -> blt b a = false.
Proof.
  intros a b H. destruct (blt b a) eqn:E; [|reflexivity].
  pose proof (blt_trans _ _ _ H E) as K. rewrite blt_irrefl in K. discriminate.
Qed.
Lemma blt_neq : forall a b, blt a b = true -> a <> b.
Proof. intros a b H ->. rewrite blt_irrefl in H. discriminate. Qed.

Section StdMap.
  Context {V : Type}.
  Implicit Types m : smap V.
  Definition keys m : list bytes := map fst m.
  (** the keys are in strictly increasing order *)
  Definition msorted m : Prop := StronglySorted (fun a b => blt a b = true) (keys m).

  Lemma msorted_nil : msorted [].
  Proof. constructor. Qed.
  Lemma msorted_nodup : forall m, msorted m -> NoDup (keys m).
  Proof.
    intros m H. unfold msorted in H. induction H as [|a l Hs IH Hf]; constructor; [|exact IH].
    intro Hin. rewrite Forall_forall in Hf. specialize (Hf a Hin). rewrite blt_irrefl in Hf. discriminate.
  Qed.
  Lemma mfind_absent : forall m k, ~ In k (keys m) -> mfind k m = None.
  Proof.
    induction m as [|[x v] m IH]; intros k H; [reflexivity|]. cbn [mfind].
    destruct (beq x k) eqn:E.
    - apply beq_eq in E. subst x. exfalso. apply H. left. reflexivity.
    - apply IH. intro Hin. apply H. right. exact Hin.
  Qed.
  Lemma mfind_in_keys : forall m k v, mfind k m = Some v -> In k (keys m).
  Proof.
    induction m as [|[x w] m IH]; intros k v H; [discriminate|]. cbn [mfind] in H.
    destruct (beq x k) eqn:E; [apply beq_eq in E; left; exact E|right; eapply IH; exact H].
  Qed.
  Lemma mfind_present : forall m k, In k (keys m) -> exists v, mfind k m = Some v.
  Proof.
    induction m as [|[x w] m IH]; intros k H; [destruct H|]. cbn [mfind].
    destruct (beq x k) eqn:E; [eexists; reflexivity|].
    destruct H as [H|H]; [cbn [fst] in H; subst; rewrite beq_refl in E; discriminate|]. apply IH. exact H.
  Qed.
  Lemma mfind_In : forall m k v, msorted m -> In (k, v) m -> mfind k m = Some v.
  Proof.
    induction m as [|[x w] m IH]; intros k v Hs H; [destruct H|]. cbn [mfind].
    unfold msorted in Hs. cbn [keys map fst] in Hs. inversion Hs as [|a l Hs' Hf]; subst.
    destruct H as [H|H].
    - inversion H; subst. rewrite beq_refl. reflexivity.
    - destruct (beq x k) eqn:E.
      + apply beq_eq in E. subst x. exfalso. rewrite Forall_forall in Hf.
        specialize (Hf k (in_map fst _ _ H)). rewrite blt_irrefl in Hf. discriminate.
      + apply IH; assumption.
  Qed.
  Lemma In_mfind : forall m k v, mfind k m = Some v -> In (k, v) m.
  Proof.
    induction m as [|[x w] m IH]; intros k v H; [discriminate|]. cbn [mfind] in H.
    destruct (beq x k) eqn:E; [apply beq_eq in E; inversion H; subst; left; reflexivity|right; apply IH; exact H].
  Qed.

  Lemma mupdate_keys : forall f m k x, In x (keys (mupdate f k m)) <-> x = k \/ In x (keys m).
  Proof.
    intros f. induction m as [|[y w] m IH]; intros k x; cbn [mupdate].
    - cbn. intuition.
    - destruct (beq y k) eqn:E.
      + apply beq_eq in E. subst y. cbn. intuition.
      + destruct (blt k y).
        * cbn. intuition.
        * unfold keys in *. cbn [map fst In]. rewrite IH. intuition.
  Qed.
  Lemma mupdate_sorted : forall f m k, msorted m -> msorted (mupdate f k m).
  Proof.
    intros f. induction m as [|[y w] m IH]; intros k Hs; cbn [mupdate].
    - constructor; constructor.
    - unfold msorted in *. cbn [keys map fst] in Hs. inversion Hs as [|a l Hs' Hf]; subst.
      destruct (beq y k) eqn:E; [exact Hs|]. apply beq_neq in E.
      destruct (blt k y) eqn:L.
      + cbn [keys map fst]. constructor; [exact Hs|]. constructor; [exact L|].
        rewrite Forall_forall in *. intros z Hz. eapply blt_trans; [exact L|]. apply Hf. exact Hz.
      + cbn [keys map fst]. constructor; [apply IH; exact Hs'|].
        rewrite Forall_forall in *. intros z Hz. apply (mupdate_keys f m k z) in Hz.
        destruct Hz as [->|Hz]; [|apply Hf; exact Hz]. apply blt_total; [exact L|congruence].
  Qed.
  Lemma mupdate_same : forall f m k, msorted m -> mfind k (mupdate f k m) = Some (f (mfind k m)).
  Proof.
    intros f. induction m as [|[y w] m IH]; intros k Hs; cbn [mupdate mfind].
    - rewrite beq_refl. reflexivity.
    - unfold msorted in *. cbn [keys map fst] in Hs. inversion Hs as [|a l Hs' Hf]; subst.
      destruct (beq y k) eqn:E.
      + cbn [mfind]. rewrite E. reflexivity.
      + destruct (blt k y) eqn:L.
        * cbn [mfind]. rewrite beq_refl, mfind_absent; [reflexivity|].
          intro Hin. rewrite Forall_forall in Hf. specialize (Hf k Hin).
          rewrite (blt_asym _ _ L) in Hf. discriminate.
        * cbn [mfind]. rewrite E. apply IH. exact Hs'.
  Qed.
  Lemma mupdate_other : forall f m k x, x <> k -> mfind x (mupdate f k m) = mfind x m.
  Proof.
    intros f. induction m as [|[y w] m IH]; intros k x Hne; cbn [mupdate mfind].
    - replace (beq k x) with false; [reflexivity|]. symmetry. apply beq_neq. congruence.
    - destruct (beq y k) eqn:E.
      + apply beq_eq in E. subst y. cbn [mfind].
        replace (beq k x) with false; [reflexivity|]. symmetry. apply beq_neq. congruence.
      + destruct (blt k y); cbn [mfind].
        * replace (beq k x) with false; [reflexivity|]. symmetry. apply beq_neq. congruence.
        * rewrite IH by exact Hne. reflexivity.
  Qed.
End StdMap.
