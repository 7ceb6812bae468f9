(** Lemmas about the links of a Unicode entry. *)
From Verif Require Import BaseFacts StringProofs ListProofs UcdLinkSpec UcdProofs.
Arguments N.mul : simpl never. Arguments N.add : simpl never. Arguments N.sub : simpl never.

Lemma getlines_from_some : forall d s cur, getlines_from d s cur true <> [].
Proof.
  intros d. induction s as [|b s IH]; intros cur; cbn [getlines_from]; [discriminate|].
  destruct (b =? d); [discriminate|apply IH].
Qed.
Lemma getlines_some : forall d s, s <> [] -> getlines d s <> [].
Proof.
  intros d [|b s] H; [congruence|]. unfold getlines. cbn [getlines_from].
  destruct (b =? d); [discriminate|apply getlines_from_some].
Qed.
Lemma has_links : forall r u, row_is r u -> (hasLinks u = true <-> rLinkNames r <> []).
Proof.
  intros r u [_ _ _ _ _ _ _ [[C _] _] _ _ _ _]. apply cut_getlines in C. unfold hasLinks. rewrite C.
  destruct (rLinkNames r) as [|b t]; [cbn; split; congruence|].
  pose proof (getlines_some 44 (b :: t) ltac:(discriminate)) as H.
  destruct (getlines 44 (b :: t)); [congruence|]. split; [discriminate|reflexivity].
Qed.
Definition ends_star (s : bytes) : bool := match rev s with c :: _ => c =? 42 | [] => false end.
Lemma types_checked : forallb (fun i => match nth_error LinkTypeNames i with
  | Some s => Bool.eqb (N.of_nat i <? Link_Compatibility) (ends_star s)
              && Bool.eqb ((N.of_nat i =? Link_Traditional) || (N.of_nat i =? Link_Traditional_R))
                   (beq s (b_ "Traditional") || beq s (b_ "Traditional*"))
  | None => false end) (seq 0 11) = true.
Proof. vm_compute. reflexivity. Qed.
Lemma link_types : forall r u, row_is r u ->
  (linkedReadings u = true <-> exists s, rLinkType r = s ++ b_ "*")
  /\ (hasTraditionalLinks u = true <-> rLinkType r = b_ "Traditional" \/ rLinkType r = b_ "Traditional*").
Proof.
  intros r u [_ _ _ _ _ _ _ _ T _ _ _]. unfold linkedReadings, hasTraditionalLinks.
  destruct T as [[E1 E2]|E].
  - rewrite E2, E1. split; split; try discriminate.
    + intros [s H]. destruct s; discriminate.
    + intros [H|H]; discriminate.
  - assert (L : (N.to_nat (ucdLinkType u) < 11)%nat).
    { apply (nth_error_Some LinkTypeNames). rewrite E. discriminate. }
    pose proof types_checked as C. rewrite forallb_forall in C.
    assert (L' : In (N.to_nat (ucdLinkType u)) (seq 0 11)) by (apply in_seq; lia).
    specialize (C _ L'). rewrite E in C.
    rewrite N2Nat.id in C. rewrite andb_true_iff in C. destruct C as [C1 C2].
    apply Bool.eqb_prop in C1. apply Bool.eqb_prop in C2. rewrite C1, C2. split.
    + unfold ends_star. split.
      * intro H. destruct (rev (rLinkType r)) as [|c t] eqn:Er; [discriminate|]. apply N.eqb_eq in H. subst c.
        exists (rev t). rewrite <- (rev_involutive (rLinkType r)), Er. reflexivity.
      * intros [t ->]. rewrite rev_app_distr. reflexivity.
    + rewrite orb_true_iff, !beq_eq. reflexivity.
Qed.
Lemma link_kind : forall r u, row_is r u ->
  (linkedReadings u = true <-> exists s, rLinkType r = s ++ b_ "*")
  /\ (hasLinks u = true <-> rLinkNames r <> [])
  /\ (hasTraditionalLinks u = true <-> rLinkType r = b_ "Traditional" \/ rLinkType r = b_ "Traditional*")
  /\ (hasNonTraditionalLinks u = true <-> rLinkNames r <> []
        /\ rLinkType r <> b_ "Traditional" /\ rLinkType r <> b_ "Traditional*").
Proof.
  intros r u H. destruct (link_types r u H) as [H1 H2]. pose proof (has_links r u H) as H3.
  split; [exact H1|]. split; [exact H3|]. split; [exact H2|].
  rewrite <- H3. change (hasNonTraditionalLinks u) with
    (hasLinks u && negb (ucdLinkType u =? Link_Traditional) && negb (ucdLinkType u =? Link_Traditional_R)).
  unfold hasTraditionalLinks in H2.
  destruct (hasLinks u), (ucdLinkType u =? Link_Traditional), (ucdLinkType u =? Link_Traditional_R);
    cbn [andb negb orb] in *; intuition congruence.
Qed.

Lemma code_of : forall n c, bytes_ok n -> kanji_name n c ->
  getCode n = Val c /\ exists h, toUnicode c Square = Val h /\ code_text c h.
Proof.
  intros n c Hok Hk. split.
  - pose proof (proj1 (newEntry_spec c n Hok) Hk) as E. unfold newEntry in E.
    destruct (isKanji n true) as [b| | |]; cbn [obind] in E; try discriminate.
    destruct b; cbn [negb] in E; [|discriminate].
    destruct (getCode n) as [x| | |]; cbn [obind] in E; try discriminate.
    destruct (c =? x) eqn:F; [|discriminate]. apply N.eqb_eq in F. congruence.
  - destruct (to_hex_spec 4 c Upper 4) as [s [H1 [H2 [H3 H4]]]]. exists (addBrackets s Square).
    unfold toUnicode. split; [apply H1|]. exists s. split; [reflexivity|]. auto.
Qed.
Lemma entry_text : forall n c, bytes_ok n -> kanji_name n c ->
  exists t, entryCodeAndName n = Val t /\ code_and_name n t.
Proof.
  intros n c Hok Hk. destruct (code_of n c Hok Hk) as [E1 [h [E2 H]]]. unfold entryCodeAndName.
  rewrite E1. cbn [obind]. rewrite E2. cbn [obind]. eexists. split; [reflexivity|].
  exists c, h. split; [exact Hk|]. split; [exact H|reflexivity].
Qed.
Lemma links_text : forall ns, Forall bytes_ok ns -> Forall (fun n => exists c, kanji_name n c) ns ->
  forall done, exists ts, Forall2 code_and_name ns ts
    /\ linkLoop ns (separated (b_ ", ") done) = Val (separated (b_ ", ") (done ++ ts))
    \/ exists x, In x done /\ x = [].
Proof.
  intros ns Hok Hk. induction ns as [|n ns IH]; intro done.
  - exists []. left. split; [constructor|]. rewrite app_nil_r. reflexivity.
  - inversion Hok as [|? ? O1 O2]; subst. inversion Hk as [|? ? K1 K2]; subst. destruct K1 as [c K1].
    destruct (code_of n c O1 K1) as [E1 [h [E2 H]]].
    assert (Hne : h ++ b_ " " ++ n <> []).
    { destruct H as [s [-> _]]. discriminate. }
    destruct (IH O2 K2 (done ++ [h ++ b_ " " ++ n])) as [ts [[F E]|[x [Hx Ex]]]].
    + exists ((h ++ b_ " " ++ n) :: ts). destruct (existsb (fun x => match x with [] => true | _ => false end) done) eqn:Ed.
      * right. apply existsb_exists in Ed. destruct Ed as [x [Hx Ex]]. exists x. split; [exact Hx|]. destruct x; [reflexivity|discriminate].
      * left. split; [constructor; [exists c, h; auto|exact F]|].
        cbn [linkLoop]. rewrite E1. cbn [obind]. rewrite E2. cbn [obind].
        replace (done ++ (h ++ b_ " " ++ n) :: ts) with ((done ++ [h ++ b_ " " ++ n]) ++ ts) by (rewrite <- app_assoc; reflexivity).
        rewrite <- E. f_equal. destruct done as [|d done]; [reflexivity|].
        rewrite (separated_snoc _ (d :: done)) by discriminate.
        assert (Hs : separated (b_ ", ") (d :: done) <> [])
          by (destruct d as [|b d]; [discriminate|]; destruct done; discriminate).
        destruct (separated (b_ ", ") (d :: done)) as [|x t]; [congruence|].
        rewrite <- !app_assoc. reflexivity.
    + exists []. right. exists x. split; [|exact Ex]. apply in_app_or in Hx. destruct Hx as [Hx|[Hx|[]]]; [exact Hx|]. subst. congruence.
Qed.
Lemma link_texts : forall r u, row_bytes r -> row_is r u ->
  exists ts, Forall2 code_and_name (ucdLinks u) ts /\ linkCodeAndNames u = Val (separated (b_ ", ") ts).
Proof.
  intros r u [_ Hb] [_ _ _ _ _ _ _ [[C [codes [extra [_ F]]]] _] _ _ _ _].
  assert (Hok : Forall bytes_ok (ucdLinks u)).
  { apply cut_getlines in C. rewrite C. apply getlines_generic_ok; [exact Hb|constructor]. }
  assert (Hk : Forall (fun n => exists c, kanji_name n c) (ucdLinks u)).
  { clear -F. induction F as [|n c ns cs [x [_ H]] F IH]; constructor; [exists x; exact H|exact IH]. }
  destruct (links_text _ Hok Hk []) as [ts [[H1 H2]|[x [[] _]]]]. exists ts. split; [exact H1|exact H2].
Qed.
Lemma ok_bytes : forall l, forallb (fun b => b <? 256) l = true -> bytes_ok l.
Proof. intros l H. apply Forall_forall. intros x Hx. rewrite forallb_forall in H. specialize (H x Hx). lia. Qed.
