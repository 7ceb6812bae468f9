(** Lemmas about the Kana tables. *)
From Verif Require Import BaseFacts KanaModel KanaSpec Utf8Proofs BlockProofs.

Arguments N.ltb : simpl never.
Arguments N.leb : simpl never.
Arguments N.eqb : simpl never.
Arguments N.add : simpl never.

(** ** The maps *)

Lemma map_entries : forall t,
  getMap t = flat_map (fun k => map (fun s => (s, k)) (kanaKeys t k)) allKana.
Proof. intros []; vm_compute; reflexivity. Qed.

Fixpoint nodupb (l : list bytes) : bool :=
  match l with [] => true | x :: r => negb (existsb (beq x) r) && nodupb r end.
Lemma nodupb_spec : forall l, nodupb l = true -> NoDup l.
Proof.
  induction l as [|x r IH]; [constructor|]. cbn [nodupb]. rewrite andb_true_iff, negb_true_iff.
  intros [H1 H2]. constructor; [|exact (IH H2)]. intro Hin.
  assert (existsb (beq x) r = true); [|congruence].
  apply existsb_exists. exists x. split; [exact Hin|apply beq_refl].
Qed.
Lemma keys_nodup : forall t, NoDup (map fst (getMap t)).
Proof. intros []; apply nodupb_spec; vm_compute; reflexivity. Qed.

Lemma mapFind_in : forall m s k, mapFind m s = Some k -> In (s, k) m.
Proof.
  induction m as [|[a v] m IH]; intros s k; cbn [mapFind]; [discriminate|].
  destruct (beq a s) eqn:E.
  - intro H. injection H as ->. apply beq_eq in E. subst. left. reflexivity.
  - intro H. right. exact (IH _ _ H).
Qed.
Lemma mapFind_of_in : forall m s k, NoDup (map fst m) -> In (s, k) m -> mapFind m s = Some k.
Proof.
  induction m as [|[a v] m IH]; intros s k Hnd Hin; [destruct Hin|].
  cbn [map fst] in Hnd. inversion Hnd as [|x l Hni Hnd']; subst. cbn [mapFind].
  destruct Hin as [E|Hin].
  - injection E as -> ->. rewrite beq_refl. reflexivity.
  - destruct (beq a s) eqn:E; [|exact (IH _ _ Hnd' Hin)].
    apply beq_eq in E. subst. exfalso. apply Hni. apply in_map_iff. exists (s, k). split; [reflexivity|exact Hin].
Qed.

Lemma lookup_exact : forall t s k,
  mapFind (getMap t) s = Some k <-> In k allKana /\ In s (kanaKeys t k).
Proof.
  intros t s k. transitivity (In (s, k) (getMap t)).
  - split; [apply mapFind_in|]. apply mapFind_of_in. apply keys_nodup.
  - rewrite map_entries, in_flat_map. split.
    + intros [k' [H1 H2]]. apply in_map_iff in H2. destruct H2 as [s' [E H2]].
      injection E as -> ->. split; assumption.
    + intros [H1 H2]. exists k. split; [exact H1|]. apply in_map_iff. exists s. split; [reflexivity|exact H2].
Qed.

Lemma no_shared : forall t s k1 k2, In k1 allKana -> In k2 allKana ->
  In s (kanaKeys t k1) -> In s (kanaKeys t k2) -> k1 = k2.
Proof.
  intros t s k1 k2 H1 H2 H3 H4.
  assert (A : mapFind (getMap t) s = Some k1) by (apply lookup_exact; split; assumption).
  assert (B : mapFind (getMap t) s = Some k2) by (apply lookup_exact; split; assumption).
  congruence.
Qed.

(** ** Sweeps over the table *)
Lemma table_sweep : forall P : Kana -> bool, forallb P allKana = true -> forall k, In k allKana -> P k = true.
Proof. intros P H. apply forallb_forall. exact H. Qed.

Definition scalarb' (c : N) : bool := (c <? 0xD800) && negb (c =? 0).
Definition hira_codes (k : KanaData) : list N := decode (hira k).
Definition kata_shift (cs : list N) : list N := map (fun c => c + 0x60) cs.
Definition aligned (k : KanaData) : bool :=
  let cs := hira_codes k in
  forallb (fun c => (0x3041 <=? c) && (c <=? 0x3096)) cs
  && ((len cs =? 1) || (len cs =? 2))
  && beq (hira k) (text cs) && beq (kata k) (text (kata_shift cs)).
Lemma aligned_all : forall k, In k allKana -> aligned (kd k) = true.
Proof. apply table_sweep. vm_compute. reflexivity. Qed.
Lemma aligned_spec : forall k, aligned k = true ->
  let cs := hira_codes k in
  Forall (within 0x3041 0x3096) cs /\ (len cs = 1 \/ len cs = 2)
  /\ hira k = text cs /\ kata k = text (map (fun c => c + 0x60) cs).
Proof.
  intros k H. unfold aligned in H. cbv zeta in *. rewrite !andb_true_iff in H.
  destruct H as [[[H1 H2] H3] H4]. apply beq_eq in H3. apply beq_eq in H4.
  split; [|split; [|split; [exact H3|exact H4]]].
  - apply Forall_forall. intros c Hc. rewrite forallb_forall in H1. specialize (H1 c Hc).
    unfold within. lia.
  - lia.
Qed.

(** links *)
Definition comp_codes (m : N) (cs : list N) : option (list N) :=
  match cs with c :: r => option_map (fun y => y :: r) (composition c m) | [] => None end.
Definition is_text (o : option (list N)) (s : bytes) : bool :=
  match o with Some ys => beq s (text ys) | None => false end.
Definition composes (m : N) (a b : KanaData) : bool := is_text (comp_codes m (hira_codes a)) (hira b).
Definition kanaDataEqb (a b : KanaData) : bool := beq (romaji a) (romaji b) && beq (hira a) (hira b).
Definition link_ok (k : Kana) : Kana -> bool :=
  let h1 := comp_codes 0x3099 (hira_codes (kd k)) in
  let h2 := comp_codes 0x309A (hira_codes (kd k)) in
  let k1 := comp_codes 0x3099 (decode (kata (kd k))) in
  let k2 := comp_codes 0x309A (decode (kata (kd k))) in
  fun e =>
  Bool.eqb (is_text h1 (hira (kd e))) (match kDakuten k with Some d => kanaDataEqb d (kd e) | None => false end)
  && Bool.eqb (is_text h2 (hira (kd e))) (match kHanDakuten k with Some d => kanaDataEqb d (kd e) | None => false end)
  && Bool.eqb (is_text h1 (hira (kd e))) (is_text k1 (kata (kd e)))
  && Bool.eqb (is_text h2 (hira (kd e))) (is_text k2 (kata (kd e)))
  && Bool.eqb (is_text h1 (hira (kd e)) || is_text h2 (hira (kd e)))
       (match kPlain e with Some p => kanaDataEqb p (kd k) | None => false end).
Lemma all_pairs : forall A (f : A -> A -> bool) l, forallb (fun k => forallb (f k) l) l = true ->
  forall k e, In k l -> In e l -> f k e = true.
Proof.
  intros A f l H k e Hk He. rewrite forallb_forall in H. specialize (H k Hk). cbv beta in H.
  rewrite forallb_forall in H. exact (H e He).
Qed.
Lemma links_checked : forall k e, In k allKana -> In e allKana -> link_ok k e = true.
Proof. apply all_pairs. vm_compute. reflexivity. Qed.

(** every link points to the data of an object of the table *)
Definition in_table (d : KanaData) : bool := existsb (fun e => kanaDataEqb d (kd e)) allKana.
Lemma kd_key : forall k e, In k allKana -> In e allKana -> hira (kd k) = hira (kd e) -> k = e.
Proof.
  intros k e Hk He E. apply (no_shared Hiragana (hira (kd k))); try assumption; cbn [kanaKeys].
  - left. reflexivity.
  - left. symmetry. exact E.
Qed.

(** the linked data are data of the table *)
Definition opt_list (o : option KanaData) : list KanaData := match o with Some d => [d] | None => [] end.
Definition linked : list KanaData :=
  flat_map (fun k => opt_list (kDakuten k) ++ opt_list (kHanDakuten k) ++ opt_list (kPlain k)) allKana.
Fixpoint member_of (ds : list KanaData) (l : list Kana) : Prop :=
  match ds with [] => True | d :: r => In d (map kd l) /\ member_of r l end.
Lemma linked_in_table : forall d, In d linked -> In d (map kd allKana).
Proof.
  intros d H. unfold linked in H. apply in_flat_map in H. destruct H as [k [Hk Hd]].
  unfold allKana in *. rewrite !map_app. rewrite !in_app_iff in Hk.
  destruct Hk as [Hk|[Hk|Hk]].
  - apply in_map_iff in Hk. destruct Hk as [x [<- _]]. cbn in Hd. destruct Hd.
  - apply in_or_app. right. apply in_or_app. left.
    apply in_flat_map in Hk. destruct Hk as [[a b] [Hab Hk]].
    apply in_map_iff.
    destruct Hk as [<-|[<-|[]]]; cbn in Hd; destruct Hd as [<-|[]].
    + exists (accentedKana a b). split; [reflexivity|]. apply in_flat_map. exists (a, b).
      split; [exact Hab|right; left; reflexivity].
    + eexists. split; [|apply in_flat_map; exists (a, b); split; [exact Hab|left; reflexivity]]. reflexivity.
  - apply in_or_app. right. apply in_or_app. right.
    apply in_flat_map in Hk. destruct Hk as [[[h a] b] [Hab Hk]].
    apply in_map_iff.
    destruct Hk as [<-|[<-|[<-|[]]]]; cbn in Hd.
    + destruct Hd as [<-|[<-|[]]].
      * exists (accentedKana a b). split; [reflexivity|]. apply in_flat_map. exists (h, a, b).
        split; [exact Hab|right; left; reflexivity].
      * exists (accentedKana h b). split; [reflexivity|]. apply in_flat_map. exists (h, a, b).
        split; [exact Hab|right; right; left; reflexivity].
    + destruct Hd as [<-|[]].
      eexists. split; [|apply in_flat_map; exists (h, a, b); split; [exact Hab|left; reflexivity]]. reflexivity.
    + destruct Hd as [<-|[]].
      eexists. split; [|apply in_flat_map; exists (h, a, b); split; [exact Hab|left; reflexivity]]. reflexivity.
Qed.
Lemma link_member : forall k d, In k allKana -> kDakuten k = Some d \/ kHanDakuten k = Some d \/ kPlain k = Some d ->
  exists e, In e allKana /\ kd e = d.
Proof.
  intros k d Hk H. assert (Hl : In d linked).
  { unfold linked. apply in_flat_map. exists k. split; [exact Hk|]. rewrite !in_app_iff.
    destruct H as [H|[H|H]]; rewrite H; [left|right; left|right; right]; left; reflexivity. }
  apply linked_in_table in Hl. apply in_map_iff in Hl. destruct Hl as [e [E He]]. exists e. split; assumption.
Qed.

(** the relation the links stand for *)
Lemma hira_text : forall k, In k allKana -> hira (kd k) = text (hira_codes (kd k)).
Proof. intros k H. exact (proj1 (proj2 (proj2 (aligned_spec _ (aligned_all k H))))). Qed.
Lemma hira_chars : forall k, In k allKana -> chars (hira_codes (kd k)).
Proof.
  intros k H. destruct (aligned_spec _ (aligned_all k H)) as [H1 _].
  unfold chars. apply Forall_forall. intros c Hc. rewrite Forall_forall in H1. specialize (H1 c Hc).
  unfold within in H1. unfold scalar. lia.
Qed.
Lemma decode_text : forall cs, chars cs -> decode (text cs) = cs.
Proof. intros cs H. apply decode_encs. apply chars_scalar. exact H. Qed.
Lemma decode_text_any : forall cs, Forall scalar cs -> decode (text cs) = cs.
Proof. exact decode_encs. Qed.

Lemma composition_scalar : forall c m x, composition c m = Some x -> scalar c /\ scalar x.
Proof.
  intros c m x H. unfold composition in H.
  assert (A : forall l y, mem c l = true -> (forallb (fun z => (z <? 0x3100)) l = true) -> y < 0x100 ->
    x = c + y -> scalar c /\ scalar x).
  { intros l y Hm Hl Hy ->. unfold mem in Hm. apply existsb_exists in Hm. destruct Hm as [z [Hz E]].
    apply N.eqb_eq in E. subst z. rewrite forallb_forall in Hl. specialize (Hl c Hz). unfold scalar. lia. }
  destruct (m =? 0x3099).
  - destruct (mem c (plain_voiced ++ shift plain_voiced)) eqn:E1.
    { injection H as <-. apply (A _ 1 E1); [vm_compute; reflexivity|lia|reflexivity]. }
    destruct (mem c [0x3046; 0x30A6]) eqn:E2.
    { injection H as <-. apply (A _ 0x4E E2); [vm_compute; reflexivity|lia|reflexivity]. }
    destruct (mem c [0x309D; 0x30FD]) eqn:E3.
    { injection H as <-. apply (A _ 1 E3); [vm_compute; reflexivity|lia|reflexivity]. }
    destruct (mem c [0x30EF; 0x30F0; 0x30F1; 0x30F2]) eqn:E4; [|discriminate].
    injection H as <-. apply (A _ 8 E4); [vm_compute; reflexivity|lia|reflexivity].
  - destruct (m =? 0x309A); [|discriminate].
    destruct (mem c (plain_semi_voiced ++ shift plain_semi_voiced)) eqn:E1; [|discriminate].
    injection H as <-. apply (A _ 2 E1); [vm_compute; reflexivity|lia|reflexivity].
Qed.

Lemma is_text_iff : forall m cs a b, a = text cs -> cs = decode a ->
  is_text (comp_codes m cs) b = true <-> accented m a b.
Proof.
  intros m cs a b Ta Da. unfold is_text, accented. split.
  - destruct cs as [|c r] eqn:Ek; [discriminate|]. cbn [comp_codes].
    destruct (composition c m) as [y|] eqn:E; [|discriminate]. cbn [option_map].
    intro H. apply beq_eq in H.
    exists c, y, r. split; [exact E|]. split; assumption.
  - intros [c [x [r [E [H1 H2]]]]].
    destruct (composition_scalar _ _ _ E) as [Sc Sx].
    assert (Hd : cs = c :: decode (text r)).
    { rewrite Da, H1, text_cons. apply decode_enc. exact Sc. }
    rewrite Hd. cbn [comp_codes]. rewrite E. cbn [option_map]. apply beq_eq. rewrite H2.
    rewrite Hd in Ta. rewrite H1 in Ta. rewrite !text_cons in *. apply app_inv_head in Ta.
    rewrite Ta at 1. reflexivity.
Qed.
Lemma composes_iff : forall m k e, In k allKana -> In e allKana ->
  composes m (kd k) (kd e) = true <-> accented m (hira (kd k)) (hira (kd e)).
Proof.
  intros m k e Hk He. apply is_text_iff; [exact (hira_text k Hk)|reflexivity].
Qed.
Lemma kata_text : forall k, In k allKana -> kata (kd k) = text (decode (kata (kd k))).
Proof.
  intros k H. destruct (aligned_spec _ (aligned_all k H)) as [H1 [_ [_ H2]]]. rewrite H2 at 2.
  rewrite decode_text_any; [exact H2|]. apply Forall_forall. intros x Hx. apply in_map_iff in Hx.
  destruct Hx as [c [<- Hc]]. rewrite Forall_forall in H1. specialize (H1 c Hc). unfold within in H1.
  unfold scalar. lia.
Qed.
Lemma composesK_iff : forall m k e, In k allKana -> In e allKana ->
  is_text (comp_codes m (decode (kata (kd k)))) (kata (kd e)) = true <-> accented m (kata (kd k)) (kata (kd e)).
Proof.
  intros m k e Hk He. apply is_text_iff; [exact (kata_text k Hk)|reflexivity].
Qed.
Lemma same_in_katakana : forall m k e, (m = 0x3099 \/ m = 0x309A) -> In k allKana -> In e allKana ->
  accented m (hira (kd k)) (hira (kd e)) <-> accented m (kata (kd k)) (kata (kd e)).
Proof.
  intros m k e Hm Hk He. rewrite <- composes_iff by assumption. rewrite <- composesK_iff by assumption.
  pose proof (links_checked k e Hk He) as H. unfold link_ok in H. cbv zeta in H.
  rewrite !andb_true_iff in H. destruct H as [[[[_ _] H1] H2] _].
  apply Bool.eqb_prop in H1. apply Bool.eqb_prop in H2. unfold composes.
  destruct Hm as [-> | ->]; [rewrite H1|rewrite H2]; reflexivity.
Qed.

Lemma links_at : forall k e, In k allKana -> In e allKana ->
  (composes 0x3099 (kd k) (kd e) = match kDakuten k with Some d => kanaDataEqb d (kd e) | None => false end)
  /\ (composes 0x309A (kd k) (kd e) = match kHanDakuten k with Some d => kanaDataEqb d (kd e) | None => false end)
  /\ (composes 0x3099 (kd k) (kd e) || composes 0x309A (kd k) (kd e)
      = match kPlain e with Some p => kanaDataEqb p (kd k) | None => false end).
Proof.
  intros k e Hk He. pose proof (links_checked k e Hk He) as H. unfold link_ok in H. cbv zeta in H.
  rewrite !andb_true_iff in H. destruct H as [[[[H1 H2] _] _] H5].
  apply Bool.eqb_prop in H1. apply Bool.eqb_prop in H2. apply Bool.eqb_prop in H5.
  split; [exact H1|split; [exact H2|exact H5]].
Qed.

Lemma opt_link : forall (sel : Kana -> option KanaData) k e, In k allKana -> In e allKana ->
  (forall d, sel k = Some d -> exists x, In x allKana /\ kd x = d) ->
  (match sel k with Some d => kanaDataEqb d (kd e) | None => false end) = true <-> sel k = Some (kd e).
Proof.
  intros sel k e Hk He Hm. destruct (sel k) as [d|]; [|split; discriminate].
  split.
  - intro H. unfold kanaDataEqb in H. rewrite andb_true_iff in H. destruct H as [_ H].
    apply beq_eq in H. destruct (Hm d eq_refl) as [x [Hx <-]].
    rewrite (kd_key x e Hx He H). reflexivity.
  - intro H. injection H as ->. unfold kanaDataEqb. rewrite !beq_refl. reflexivity.
Qed.

Lemma dakuten_link : forall k e, In k allKana -> In e allKana ->
  kDakuten k = Some (kd e) <-> accented 0x3099 (hira (kd k)) (hira (kd e)).
Proof.
  intros k e Hk He. rewrite <- (composes_iff _ k e Hk He).
  destruct (links_at k e Hk He) as [H _]. rewrite H. symmetry. apply opt_link; try assumption.
  intros d Hd. apply (link_member k); [exact Hk|left; exact Hd].
Qed.
Lemma hanDakuten_link : forall k e, In k allKana -> In e allKana ->
  kHanDakuten k = Some (kd e) <-> accented 0x309A (hira (kd k)) (hira (kd e)).
Proof.
  intros k e Hk He. rewrite <- (composes_iff _ k e Hk He).
  destruct (links_at k e Hk He) as [_ [H _]]. rewrite H. symmetry. apply opt_link; try assumption.
  intros d Hd. apply (link_member k); [exact Hk|right; left; exact Hd].
Qed.
Lemma plain_link : forall k e, In k allKana -> In e allKana ->
  kPlain e = Some (kd k) <-> accented 0x3099 (hira (kd k)) (hira (kd e)) \/ accented 0x309A (hira (kd k)) (hira (kd e)).
Proof.
  intros k e Hk He. rewrite <- !(composes_iff _ k e Hk He). rewrite <- orb_true_iff.
  destruct (links_at k e Hk He) as [_ [_ H]]. rewrite H. symmetry.
  apply (opt_link kPlain e k He Hk).
  intros d Hd. apply (link_member e); [exact He|right; right; exact Hd].
Qed.

(** ** Lookups of one character *)
Definition key_heads (t : CharType) : bool :=
  forallb (fun p => match decode (fst p) with c :: _ => (0x3041 <=? c) && (c <? 0x3100) | [] => false end) (getMap t).
Lemma heads_h : key_heads Hiragana = true. Proof. vm_compute. reflexivity. Qed.
Lemma heads_k : key_heads Katakana = true. Proof. vm_compute. reflexivity. Qed.
Lemma mapFind_outside : forall t c, t <> Romaji -> scalar c -> ~ (0x3041 <= c < 0x3100) ->
  mapFind (getMap t) (enc c) = None.
Proof.
  intros t c Ht Hs Hc. destruct (mapFind (getMap t) (enc c)) as [k|] eqn:E; [|reflexivity].
  apply mapFind_in in E. exfalso.
  assert (Hh : key_heads t = true) by (destruct t; [exact heads_h|exact heads_k|congruence]).
  unfold key_heads in Hh. rewrite forallb_forall in Hh. specialize (Hh _ E). cbn [fst] in Hh.
  rewrite <- (app_nil_r (enc c)) in Hh. rewrite decode_enc in Hh by exact Hs. lia.
Qed.

Definition oeqb (a b : option bytes) : bool :=
  match a, b with Some x, Some y => beq x y | None, None => true | _, _ => false end.
Lemma oeqb_eq : forall a b, oeqb a b = true -> a = b.
Proof.
  intros [x|] [y|]; cbn; try discriminate; [|reflexivity]. intro H. apply beq_eq in H. congruence.
Qed.
Lemma mem_outside : forall c l, (forallb (fun z => (0x3041 <=? z) && (z <? 0x3100)) l = true) ->
  ~ (0x3041 <= c < 0x3100) -> mem c l = false.
Proof.
  intros c l Hl Hc. unfold mem. destruct (existsb (N.eqb c) l) eqn:E; [|reflexivity].
  apply existsb_exists in E. destruct E as [z [Hz E]]. apply N.eqb_eq in E. subst z.
  rewrite forallb_forall in Hl. specialize (Hl c Hz). lia.
Qed.
Lemma composition_outside : forall c m, ~ (0x3041 <= c < 0x3100) -> composition c m = None.
Proof.
  intros c m H. unfold composition.
  rewrite !mem_outside; try exact H; try (vm_compute; reflexivity).
  destruct (m =? 0x3099), (m =? 0x309A); reflexivity.
Qed.
Lemma find_both : forall c, scalar c ->
  findDakuten (enc c) = option_map enc (folded c 0x3099)
  /\ findHanDakuten (enc c) = option_map enc (folded c 0x309A).
Proof.
  intros c Hs. destruct (N.lt_ge_cases c 0x3041) as [H|H].
  2: destruct (N.lt_ge_cases c 0x3100) as [H'|H'].
  2:{ pose proof (sweep 0xBF (fun i => let c := 0x3041 + i in
        oeqb (findDakuten (enc c)) (option_map enc (folded c 0x3099))
        && oeqb (findHanDakuten (enc c)) (option_map enc (folded c 0x309A))) ltac:(vm_compute; reflexivity) (c - 0x3041) ltac:(lia)) as S.
      cbv beta zeta in S. replace (0x3041 + (c - 0x3041)) with c in S by lia.
      rewrite andb_true_iff in S. destruct S as [S1 S2]. split; apply oeqb_eq; assumption. }
  all: assert (Ho : ~ (0x3041 <= c < 0x3100)) by lia;
    unfold findDakuten, findHanDakuten, folded; rewrite !composition_outside by exact Ho;
    change HiraganaMap with (getMap Hiragana); change KatakanaMap with (getMap Katakana);
    rewrite !mapFind_outside by (try discriminate; assumption);
    destruct (supported c); split; reflexivity.
Qed.
