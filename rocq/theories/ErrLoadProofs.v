(** Lemmas about the messages of loading. *)
From Coq Require Import Permutation Sorted.
From Verif Require Import BaseFacts ListProofs MapProofs DataProofs ReportProofs ErrTableProofs ErrListProofs ErrUcdProofs ErrOfficialProofs ErrOfficialTable ErrJukugoLoad ErrArgsProps.
From Verif Require Import ErrLoadSame DataSpec DetailsModel.
From Verif Require Export ErrLoadSpec.
From Verif Require Import ErrBase.
Open Scope N_scope.
Arguments N.mul : simpl never. Arguments N.add : simpl never. Arguments N.sub : simpl never.

(** ** one result *)
Definition shows {A B} (x : res A) (rel : Result B -> Prop) (R : A -> B -> Prop) : Prop :=
  exists r, rel r /\ (forall r', rel r' -> r' = r) /\ match r with inl b => exists a, x = Got a /\ R a b | inr (e, w) => x = Says e w end.
Lemma shows_bind : forall A B C D (x : res A) (f : A -> res C) (rel : Result B -> Prop) (g : B -> Result D -> Prop) R R2,
  shows x rel R -> (forall a b, R a b -> shows (f a) (g b) R2) -> shows (rbind x f) (andthen rel g) R2.
Proof.
  intros A B C D x f rel g R R2 (r & Hr & U & H) Hf. destruct r as [b|[e w]].
  - destruct H as (a & -> & Rab). destruct (Hf a b Rab) as (r2 & G2 & U2 & H2). exists r2. split; [left; eauto|]. split; [|exact H2].
    intros r' [(b' & M & G')|(y & M & _)]; [|apply U in M; discriminate M]. apply U in M. injection M as ->. auto.
  - rewrite H. exists (inr (e, w)). split; [right; eauto|]. split; [|reflexivity]. intros r' [(b' & M & _)|(y & M & ->)]; apply U in M; [discriminate M|]. injection M as ->. reflexivity.
Qed.
Lemma shows_got : forall A B (a : A) (b : B) (R : A -> B -> Prop) rel, R a b -> (forall r, rel r <-> r = inl b) -> shows (Got a) rel R.
Proof. intros A B a b R rel H E. exists (inl b). split; [apply E; reflexivity|]. split; [intros r'; apply E|]. eauto. Qed.
Lemma shows_says : forall A B e w (R : A -> B -> Prop) rel, (forall r, rel r <-> r = inr (e, w)) -> shows (Says e w) rel R.
Proof. intros A B e w R rel E. exists (inr (e, w)). split; [apply E; reflexivity|]. split; [intros r'; apply E|]. reflexivity. Qed.
Lemma shows_iff : forall A B (x : res A) (rel rel' : Result B -> Prop) R, (forall r, rel' r <-> rel r) -> shows x rel R -> shows x rel' R.
Proof. intros A B x rel rel' R E (r & Hr & U & H). exists r. split; [apply E; exact Hr|]. split; [|exact H]. intros r' X. apply U. apply E. exact X. Qed.
Lemma shows_ex : forall A B Y (P : Y -> Prop) y0 (x : res A) (g : Y -> Result B -> Prop) R, P y0 -> (forall y, P y -> y = y0) -> shows x (g y0) R ->
  shows x (fun r => exists y, P y /\ g y r) R.
Proof. intros A B Y P y0 x g R H U. apply shows_iff. intro r. split; [intros (y & Py & G); apply U in Py; subst y; exact G|eauto]. Qed.
Lemma shows_each : forall A A' S T (E : A -> A' -> Prop) (body : A -> S -> res S) (step : A' -> T -> Result T -> Prop) (R : S -> T -> Prop),
  (forall a a' s t, E a a' -> R s t -> shows (body a s) (step a' t) R) ->
  forall l l', Forall2 E l l' -> forall s t, R s t -> shows (forEachT body l s) (each step l' t) R.
Proof.
  intros A A' S T E body step R H l l' F. induction F as [|a a' l l' Ea F IH]; intros s t Rst; cbn [forEachT each].
  - apply (shows_got _ _ s t); [exact Rst|]. intro r. reflexivity.
  - apply (shows_bind _ _ _ _ _ _ _ _ R); [apply H; assumption|]. intros s' t'. apply IH.
Qed.
Lemma same_each : forall A S T (body : A -> S -> res S) (step : A -> T -> Result T -> Prop) (R : S -> T -> Prop),
  (forall a s t, R s t -> shows (body a s) (step a t) R) -> forall l s t, R s t -> shows (forEachT body l s) (each step l t) R.
Proof.
  intros A S T body step R H l. apply (shows_each _ _ _ _ eq); [intros a a' s t <-; apply H|]. induction l; constructor; auto.
Qed.

(** ** the stored Kanji *)
Definition Books (d : Data) (ks : Stored) : Prop := Rep ks d /\ NoDup (map kName ks).
Lemma accepted_all : forall ks seen, NoDup (map kName ks) -> (forall k, In k ks -> ~ In (kName k) seen) -> accepted_from seen ks = ks.
Proof.
  induction ks as [|k ks IH]; intros seen Hn Hs; cbn [accepted_from]; [reflexivity|]. cbn [map] in Hn. inversion Hn as [|x l H1 H2]; subst.
  destruct (existsb (beq (kName k)) seen) eqn:E; [apply existsb_In in E; destruct (Hs k (or_introl eq_refl) E)|]. f_equal. apply IH; [exact H2|].
  intros y Hy [X|X]; [|exact (Hs y (or_intror Hy) X)]. apply H1. rewrite X. apply in_map. exact Hy.
Qed.
Lemma find_named : forall ks k, NoDup (map kName ks) -> In k ks -> find (fun x => beq (kName x) (kName k)) ks = Some k.
Proof.
  induction ks as [|x ks IH]; intros k Hn Hi; [destruct Hi|]. cbn [map] in Hn. inversion Hn as [|y l H1 H2]; subst. cbn [find].
  destruct Hi as [->|Hi]; [rewrite beq_refl; reflexivity|]. destruct (beq (kName x) (kName k)) eqn:E; [|apply IH; assumption].
  apply beq_eq in E. destruct H1. rewrite E. apply in_map. exact Hi.
Qed.
Lemma stands_iff : forall n k, variant_of n k = true <-> stands_for n k.
Proof. intros n k. unfold variant_of, stands_for. rewrite andb_true_iff, beq_eq. reflexivity. Qed.
Lemma stands_not : forall n k, variant_of n k = false <-> ~ stands_for n k.
Proof. intros n k. rewrite <- stands_iff. destruct (variant_of n k); split; intros; try congruence; try discriminate; exfalso; auto. Qed.
Lemma find_split : forall A (p : A -> bool) l x, find p l = Some x <-> exists a b, l = a ++ x :: b /\ p x = true /\ Forall (fun y => p y = false) a.
Proof.
  intros A p. induction l as [|y l IH]; intro x; cbn [find].
  - split; [discriminate|]. intros (a & b & H & _). destruct a; discriminate H.
  - destruct (p y) eqn:E.
    + split; [intros [= ->]; exists [], l; auto|]. intros (a & b & H & Px & F). destruct a as [|z a]; cbn [app] in H; injection H as -> H; [reflexivity|]. inversion F; congruence.
    + rewrite IH. split.
      * intros (a & b & -> & Px & F). exists (y :: a), b. split; [reflexivity|]. auto.
      * intros (a & b & H & Px & F). destruct a as [|z a]; cbn [app] in H; injection H as -> H; [congruence|]. inversion F; subst. eauto.
Qed.
Lemma find_never : forall A (p : A -> bool) l, find p l = None <-> Forall (fun y => p y = false) l.
Proof.
  intros A p l. rewrite Forall_forall. split; [intros H x; apply (find_none p l H)|]. intro H. destruct (find p l) as [x|] eqn:E; [|reflexivity].
  apply find_some in E. destruct E as [I E]. rewrite (H x I) in E. discriminate E.
Qed.
Section Store.
Variables (d : Data) (ks : Stored).
Hypothesis HB : Books d ks.
Lemma found_is : forall s, findByName d s = match find (variant_of s) ks with Some v => Some v | None => find (fun k => beq (kName k) s) ks end.
Proof.
  intro s. destruct HB as [R Hn]. unfold findByName. rewrite (rep_compat _ _ R). unfold DataSpec.accepted. rewrite (accepted_all ks [] Hn (fun k _ H => H)).
  destruct (find (variant_of s) ks) as [v|] eqn:E; cbn [option_map]; rewrite (rep_names _ _ R); [|reflexivity]. apply find_some in E. apply find_named; [exact Hn|tauto].
Qed.
Lemma forall_stands : forall n l, Forall (fun y => variant_of n y = false) l <-> Forall (fun y => ~ stands_for n y) l.
Proof. intros n l. rewrite !Forall_forall. split; intros H x Hx; apply stands_not; auto. Qed.
Lemma reached_iff : forall n k, reached ks n k <-> findByName d n = Some k.
Proof.
  intros n k. rewrite found_is. unfold reached. destruct (find (variant_of n) ks) as [v|] eqn:E.
  - pose proof E as E'. apply find_split in E'. destruct E' as (a & b & Hk & Pv & Fa). split.
    + intros [(a' & b' & Hk' & Pk & Fa')|(F & _)].
      * rewrite <- E. apply find_split. exists a', b'. split; [exact Hk'|]. split; [apply stands_iff; exact Pk|apply forall_stands; exact Fa'].
      * apply forall_stands in F. apply find_never in F. congruence.
    + intros [= <-]. left. exists a, b. split; [exact Hk|]. split; [apply stands_iff; exact Pv|apply forall_stands; exact Fa].
  - apply find_never, forall_stands in E. split.
    + intros [(a & b & Hk & Pk & _)|(_ & I & <-)].
      * exfalso. rewrite Forall_forall in E. apply (E k); [rewrite Hk; apply in_or_app; right; left; reflexivity|exact Pk].
      * apply find_named; [apply HB|exact I].
    + intro H. apply find_some in H. destruct H as [I H]. apply beq_eq in H. right. auto.
Qed.
Lemma unreached_iff : forall n, unreached ks n <-> findByName d n = None.
Proof.
  intro n. rewrite found_is. unfold unreached. split.
  - intro H. replace (find (variant_of n) ks) with (@None Kanji).
    + apply find_never. rewrite Forall_forall in *. intros x Hx. apply beq_neq. apply (H x Hx).
    + symmetry. apply find_never, forall_stands. rewrite Forall_forall in *. intros x Hx. apply (H x Hx).
  - destruct (find (variant_of n) ks) as [v|] eqn:E; [discriminate|]. apply find_never, forall_stands in E. intro F. apply find_never in F. rewrite Forall_forall in *.
    intros x Hx. split; [auto|]. apply beq_neq. auto.
Qed.
Lemma named_iff : forall n k, mfind n (dNames d) = Some k <-> In k ks /\ kName k = n.
Proof.
  intros n k. destruct HB as [R Hn]. rewrite (rep_names _ _ R). split.
  - intro H. apply find_some in H. destruct H as [I H]. apply beq_eq in H. auto.
  - intros [I <-]. apply find_named; assumption.
Qed.
Lemma unnamed_iff : forall n, mfind n (dNames d) = None <-> ~ In n (map kName ks).
Proof. intro n. destruct HB as [R Hn]. rewrite (rep_names _ _ R). apply find_name_None. Qed.
End Store.
Lemma Books_same : forall d d' ks, Books d ks -> dNames d' = dNames d -> dCompat d' = dCompat d -> dMoro d' = dMoro d -> dNelson d' = dNelson d -> dGrades d' = dGrades d -> Books d' ks.
Proof. intros d d' ks [R Hn] H1 H2 H3 H4 H5. split; [|exact Hn]. exact (LoadLogTrace.Rep_same ks d d' R H1 H2 H3 H4 H5). Qed.
Lemma store_cases : forall d ks k, Books d ks ->
  (In (kName k) (map kName ks) /\ checkInsert d k = Val (d, false)) \/ (~ In (kName k) (map kName ks) /\ exists d', checkInsert d k = Val (d', true) /\ Books d' (ks ++ [k])).
Proof.
  intros d ks k HB. destruct (mfind (kName k) (dNames d)) as [x|] eqn:E.
  - left. pose proof E as E'. apply (named_iff d ks HB) in E'. destruct E' as [I Hx]. split; [rewrite <- Hx; apply in_map; exact I|]. unfold checkInsert. rewrite E. reflexivity.
  - apply (unnamed_iff d ks HB) in E. right. split; [exact E|]. destruct HB as [R Hn]. destruct (Rep_insert ks d k R) as (d' & b & C & R' & Hb).
    assert (b = true) by (apply Hb; exact E). subst b. exists d'. split; [exact C|]. split; [exact R'|]. rewrite map_app. apply NoDup_snoc; assumption.
Qed.
Lemma stores_shows : forall k d ks, Books d ks -> shows (insertT k d) (stores k ks) Books.
Proof.
  intros k d ks HB. unfold insertT. destruct (store_cases d ks k HB) as [[I ->]|[I (d' & -> & B')]]; cbn [quiet rbind].
  - apply (shows_got _ _ d ks); [exact HB|]. intro r. unfold stores. tauto.
  - apply (shows_got _ _ d' (ks ++ [k])); [exact B'|]. intro r. unfold stores. tauto.
Qed.
Lemma typed_shows : forall t k d ks, Books d ks -> shows (insertTypeT t k d) (stores k ks) Books.
Proof.
  intros t k d ks HB. unfold insertTypeT, checkInsertType. destruct (store_cases d ks k HB) as [[I ->]|[I (d' & -> & B')]]; cbn [obind quiet rbind].
  - apply (shows_got _ _ d ks); [exact HB|]. intro r. unfold stores. tauto.
  - eapply shows_got; [eapply Books_same; [exact B'|reflexivity..]|]. intro r. unfold stores. tauto.
Qed.
(** the names in order *)
Lemma order_unique : forall l l', StronglySorted (fun a b => MapModel.blt (kName a) (kName b) = true) l -> StronglySorted (fun a b => MapModel.blt (kName a) (kName b) = true) l' ->
  (forall k, In k l <-> In k l') -> l = l'.
Proof.
  intros l l' Sl. revert l'. induction Sl as [|a l Sl IH Fa]; intros l' Sl' H.
  - destruct l' as [|b l']; [reflexivity|]. destruct (proj2 (H b) (or_introl eq_refl)).
  - destruct Sl' as [|b l' Sl' Fb]; [destruct (proj1 (H a) (or_introl eq_refl))|]. rewrite Forall_forall in Fa, Fb.
    assert (Eq : a = b).
    { destruct (proj1 (H a) (or_introl eq_refl)) as [X|X]; [auto|]. destruct (proj2 (H b) (or_introl eq_refl)) as [Y|Y]; [auto|].
      specialize (Fb a X). specialize (Fa b Y). apply blt_asym in Fa. congruence. }
    subst b. f_equal. apply IH; [exact Sl'|]. intro k. split; intro I.
    + destruct (proj1 (H k) (or_intror I)) as [X|X]; [|exact X]. subst k. specialize (Fa a I). cbv beta in Fa. rewrite blt_irrefl in Fa. discriminate Fa.
    + destruct (proj2 (H k) (or_intror I)) as [X|X]; [|exact X]. subst k. specialize (Fb a I). cbv beta in Fb. rewrite blt_irrefl in Fb. discriminate Fb.
Qed.
Lemma order_is : forall d ks, Books d ks -> name_order ks (map snd (dNames d)) /\ forall l, name_order ks l -> l = map snd (dNames d).
Proof.
  intros d ks HB. pose proof HB as [R Hn]. pose proof (rep_sorted _ _ R) as Hs.
  assert (Own : forall s k, In (s, k) (dNames d) -> In k ks /\ kName k = s).
  { intros s k I. apply (mfind_In (dNames d) s k Hs) in I. apply (named_iff d ks HB). exact I. }
  assert (Sorted : StronglySorted (fun a b => MapModel.blt (kName a) (kName b) = true) (map snd (dNames d))).
  { clear - Hs Own. unfold msorted in Hs. induction (dNames d) as [|[s k] m IH]; [constructor|]. cbn [map snd fst MapProofs.keys] in *. inversion Hs as [|x l H1 H2]; subst. constructor.
    - apply IH; [exact H1|]. intros s' k' I. apply Own. right. exact I.
    - rewrite Forall_forall in *. intros y Hy. apply in_map_iff in Hy. destruct Hy as ([s' k'] & <- & I). cbn [snd]. destruct (Own s k (or_introl eq_refl)) as [_ ->].
      destruct (Own s' k' (or_intror I)) as [_ ->]. apply H2. apply in_map_iff. exists (s', k'). auto. }
  assert (Same : forall k, In k ks <-> In k (map snd (dNames d))).
  { intro k. rewrite in_map_iff. split.
    - intro I. assert (M : mfind (kName k) (dNames d) = Some k) by (apply (named_iff d ks HB); auto). apply In_mfind in M. exists (kName k, k). auto.
    - intros ([s k'] & <- & I). apply Own in I. tauto. }
  assert (Nd : NoDup ks) by (exact (NoDup_map_inv _ _ Hn)).
  assert (Nd' : NoDup (map snd (dNames d))).
  { clear - Sorted. induction Sorted as [|a l Sl IH Fa]; constructor; [|exact IH]. intro I. rewrite Forall_forall in Fa. specialize (Fa a I). cbv beta in Fa. rewrite blt_irrefl in Fa. discriminate Fa. }
  split; [split; [apply NoDup_Permutation; assumption|exact Sorted]|]. intros l [P Sl]. apply order_unique; [exact Sl|exact Sorted|]. intro k. rewrite <- Same. split; apply Permutation_in; [apply Permutation_sym; exact P|exact P].
Qed.
