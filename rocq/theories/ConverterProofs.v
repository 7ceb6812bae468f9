(** The converter's kana side: characters, lookups and groups. *)
From Verif Require Import BaseFacts ConverterModel ConverterSpec Utf8Proofs BlockProofs KanaProofs
  Utf8CharProofs Utf8CharLemmas.
Open Scope N_scope.
Arguments N.ltb : simpl never.
Arguments N.leb : simpl never.
Arguments N.eqb : simpl never.
Arguments N.add : simpl never.
Arguments N.sub : simpl never.

(** ** Characters *)
Lemma ok_codes : forall g, glyph_ok g -> chars (codes_of g).
Proof.
  intros [c|c v] H; cbn in *.
  - destruct H as [H1 [H2 _]]. apply Forall_cons; [split; assumption|constructor].
  - destruct H as [H1 [[H2 _] H3]]. unfold is_selector in H3.
    apply Forall_cons; [split; [assumption|lia]|]. apply Forall_cons; [split; [unfold scalar; lia|lia]|constructor].
Qed.
Lemma ok_chars : forall gs, Forall glyph_ok gs -> chars (flat_map codes_of gs).
Proof.
  intros gs H. induction H; cbn; [constructor|]. apply Forall_app. split; [apply ok_codes|]; assumption.
Qed.
Lemma gtext_text : forall gs, gtext gs = text (flat_map codes_of gs).
Proof.
  induction gs as [|g gs IH]; [reflexivity|]. unfold gtext in *. cbn [flat_map]. rewrite IH.
  unfold text. rewrite flat_map_app'. reflexivity.
Qed.
Lemma gtext_app : forall a b, gtext (a ++ b) = gtext a ++ gtext b.
Proof. intros. apply flat_map_app'. Qed.
Lemma gtext_cons : forall a b, gtext (a :: b) = gb a ++ gtext b. Proof. reflexivity. Qed.
Lemma gb_G : forall c, gb (G c) = enc c.
Proof. intro. unfold gb. cbn. apply app_nil_r. Qed.
Lemma gb_GV : forall c v, gb (GV c v) = enc c ++ enc v.
Proof. intros. unfold gb. cbn. rewrite app_nil_r. reflexivity. Qed.
Lemma gtext_G : forall cs, gtext (map G cs) = text cs.
Proof. induction cs as [|c cs IH]; [reflexivity|]. cbn [map]. rewrite gtext_cons, gb_G, IH. reflexivity. Qed.
Lemma text_app : forall a b, text (a ++ b) = text a ++ text b.
Proof. intros. apply flat_map_app'. Qed.

Lemma gb_inj : forall a b, glyph_ok a -> glyph_ok b -> gb a = gb b -> a = b.
Proof.
  intros a b Ha Hb E. apply ok_codes in Ha. apply ok_codes in Hb. unfold gb in E.
  assert (E' : codes_of a = codes_of b). { rewrite <- (decode_text _ Ha), <- (decode_text _ Hb), E. reflexivity. }
  destruct a, b; cbn in E'; congruence.
Qed.

Lemma glyph_items : forall gs, Forall glyph_ok gs ->
  yields false (items (map Good (flat_map codes_of gs))) = map gb gs.
Proof.
  intros gs H. induction H as [|g gs Hg H IH]; [reflexivity|].
  destruct g as [c|c v]; cbn [flat_map codes_of app map items].
  - destruct Hg as [Hs [H0 Hc]]. destruct Hc as [Hc|[Hc [Hv Hm]]].
    + replace (c <? 128) with true by lia. unfold yields in *. cbn [flat_map shown app]. rewrite IH.
      rewrite gb_G. unfold enc. replace (c <? 128) with true by lia. reflexivity.
    + replace (c <? 128) with false by lia. rewrite Hv, Hm. cbn [orb].
      assert (E : (match map Good (flat_map codes_of gs) with
        | Good d :: r' =>
            if is_selector d then WithSelector c d :: items r'
            else if is_mark d then match folded c d with Some x => Folded c d x | None => DroppedMark c d end :: items r'
            else Plain c :: items (map Good (flat_map codes_of gs))
        | _ => Plain c :: items (map Good (flat_map codes_of gs)) end) = Plain c :: items (map Good (flat_map codes_of gs))).
      { destruct H as [|h gs Hh H]; [reflexivity|].
        assert (Hd : exists d r, flat_map codes_of (h :: gs) = d :: r /\ is_selector d = false /\ is_mark d = false).
        { destruct h as [d|d w]; cbn in *.
          - exists d, (flat_map codes_of gs). destruct Hh as [_ [_ [Hd|[_ [A B]]]]]; auto.
            split; [reflexivity|]. unfold is_selector, is_mark. split; lia.
          - exists d, (w :: flat_map codes_of gs). destruct Hh as [_ [[_ [A B]] _]]. auto. }
        destruct Hd as [d [r [E [A B]]]]. rewrite E. cbn [map]. rewrite A, B. reflexivity. }
      rewrite E. unfold yields in *. cbn [flat_map shown app]. rewrite IH, gb_G. reflexivity.
  - destruct Hg as [Hs [[Hc [Hv Hm]] Hw]]. replace (c <? 128) with false by lia. rewrite Hv, Hm. cbn [orb].
    rewrite Hw. unfold yields in *. cbn [flat_map shown app]. rewrite IH, gb_GV. reflexivity.
Qed.
Lemma tokens_of : forall gs, Forall glyph_ok gs -> exists u, allChars (gtext gs) false = Val (map gb gs, u).
Proof.
  intros gs H. rewrite gtext_text.
  destruct (text_items (flat_map codes_of gs) false (ok_chars gs H)) as [u [E _]].
  exists u. rewrite E, glyph_items by exact H. reflexivity.
Qed.

(** every string is read as some list of such characters *)
Lemma composition_ordinary : forall c m x, composition c m = Some x -> scalar x /\ x <> 0 /\ ordinary x.
Proof.
  intros c m x H.
  destruct (N.lt_ge_cases c 0x3041) as [H1|H1]; [rewrite composition_outside in H by lia; discriminate|].
  destruct (N.lt_ge_cases c 0x3100) as [H2|H2]; [|rewrite composition_outside in H by lia; discriminate].
  unfold composition in H.
  destruct (m =? 0x3099).
  - destruct (mem c (plain_voiced ++ Utf8CharSpec.shift plain_voiced)) eqn:E.
    + injection H as <-. unfold scalar, ordinary, is_selector, is_mark.
      destruct (N.eq_dec c 0x3098) as [->|]; [vm_compute in E; discriminate|].
      destruct (N.eq_dec c 0x3099) as [->|]; [vm_compute in E; discriminate|]. lia.
    + destruct (mem c [0x3046; 0x30A6]) eqn:E2.
      { injection H as <-. cbn in E2. unfold scalar, ordinary, is_selector, is_mark. lia. }
      destruct (mem c [0x309D; 0x30FD]) eqn:E3.
      { injection H as <-. cbn in E3. unfold scalar, ordinary, is_selector, is_mark. lia. }
      destruct (mem c [0x30EF; 0x30F0; 0x30F1; 0x30F2]) eqn:E4; [|discriminate].
      injection H as <-. cbn in E4. unfold scalar, ordinary, is_selector, is_mark. lia.
  - destruct (m =? 0x309A); [|discriminate].
    destruct (mem c (plain_semi_voiced ++ Utf8CharSpec.shift plain_semi_voiced)) eqn:E; [|discriminate]. injection H as <-.
    unfold scalar, ordinary, is_selector, is_mark.
    destruct (N.eq_dec c 0x3097) as [->|]; [vm_compute in E; discriminate|].
    destruct (N.eq_dec c 0x3098) as [->|]; [vm_compute in E; discriminate|]. lia.
Qed.
Definition glyph_of (i : item) : list glyph :=
  match i with
  | Utf8CharSpec.Ascii c | Plain c | DroppedMark c _ => [G c]
  | WithSelector c v => [GV c v]
  | Folded _ _ d => [G d]
  | Stray _ | Malformed _ => []
  end.
Lemma F1 : forall g, glyph_ok g -> Forall glyph_ok [g].
Proof. intros. apply Forall_cons; [assumption|constructor]. Qed.
Lemma items_glyphs : forall n es, (List.length es <= n)%nat ->
  (forall c, In (Good c) es -> scalar c /\ c <> 0) ->
  Forall glyph_ok (flat_map glyph_of (items es)) /\ yields false (items es) = map gb (flat_map glyph_of (items es)).
Proof.
  assert (One : forall i r gs, glyph_of i = gs -> Forall glyph_ok gs ->
    (match shown false i with Some x => [x] | None => [] end) = map gb gs ->
    Forall glyph_ok (flat_map glyph_of (items r)) /\ yields false (items r) = map gb (flat_map glyph_of (items r)) ->
    Forall glyph_ok (flat_map glyph_of (i :: items r))
    /\ yields false (i :: items r) = map gb (flat_map glyph_of (i :: items r))).
  { intros i r gs E1 E2 E3 [A B]. cbn [flat_map]. rewrite E1. split; [apply Forall_app; auto|].
    unfold yields in *. cbn [flat_map]. rewrite E3, B, map_app. reflexivity. }
  induction n as [|n IH]; intros es Hl Hs.
  - destruct es; [split; [constructor|reflexivity]|cbn in Hl; lia].
  - destruct es as [|[c|b] r]; [split; [constructor|reflexivity]| |]; cbn [List.length] in Hl; cbn [items].
    2:{ apply (One _ r []); try reflexivity; [constructor|]. apply IH; [lia|]. intros d Hd. apply Hs. right. exact Hd. }
    assert (Hr : Forall glyph_ok (flat_map glyph_of (items r)) /\ yields false (items r) = map gb (flat_map glyph_of (items r))).
    { apply IH; [lia|]. intros d Hd. apply Hs. right. exact Hd. }
    destruct (Hs c (or_introl eq_refl)) as [Sc Zc].
    destruct (c <? 128) eqn:E1.
    { apply (One _ r [G c]); try reflexivity; [| |exact Hr].
      - apply F1. split; [assumption|]. split; [assumption|]. left. lia.
      - cbn [shown map]. rewrite gb_G. unfold enc. rewrite E1. reflexivity. }
    destruct (is_selector c || is_mark c) eqn:E2.
    { apply (One _ r []); try reflexivity; [constructor|exact Hr]. }
    apply orb_false_iff in E2. destruct E2 as [E2 E2'].
    assert (Oc : ordinary c) by (split; [lia|split; assumption]).
    assert (P : Forall glyph_ok (flat_map glyph_of (Plain c :: items r))
       /\ yields false (Plain c :: items r) = map gb (flat_map glyph_of (Plain c :: items r))).
    { apply (One _ r [G c]); try reflexivity; [| |exact Hr].
      - apply F1. split; [assumption|]. split; [assumption|]. right. assumption.
      - cbn [shown map]. rewrite gb_G. reflexivity. }
    destruct r as [|[d|b] r]; [exact P| |exact P].
    cbn [List.length] in Hl.
    assert (Hr2 : Forall glyph_ok (flat_map glyph_of (items r)) /\ yields false (items r) = map gb (flat_map glyph_of (items r))).
    { apply IH; [lia|]. intros e He. apply Hs. right. right. exact He. }
    destruct (is_selector d) eqn:E3.
    { apply (One _ r [GV c d]); try reflexivity; [| |exact Hr2].
      - apply F1. split; [assumption|]. split; assumption.
      - cbn [shown map]. rewrite gb_GV. reflexivity. }
    destruct (is_mark d); [|exact P].
    destruct (folded c d) as [x|] eqn:E4.
    + apply (One _ r [G x]); try reflexivity; [| |exact Hr2].
      * unfold folded in E4. destruct (supported c); [|discriminate].
        destruct (composition_ordinary _ _ _ E4) as [A [B C]]. apply F1. split; [assumption|]. split; [assumption|]. right. assumption.
      * cbn [shown map]. rewrite gb_G. reflexivity.
    + apply (One _ r [G c]); try reflexivity; [| |exact Hr2].
      * apply F1. split; [assumption|]. split; [assumption|]. right. assumption.
      * cbn [shown map]. rewrite gb_G. reflexivity.
Qed.
Lemma parse_nonzero : forall s es, parse s es -> no_nul s -> forall c, In (Good c) es -> c <> 0.
Proof.
  intros s es H. induction H as [|c s es Hc H IH|b s es Hn H IH]; intros Hz d Hd; [destruct Hd| |].
  - apply no_nul_app in Hz. destruct Hz as [Hz1 Hz2]. destruct Hd as [E|Hd]; [|exact (IH Hz2 d Hd)].
    injection E as <-. intro E0. subst c. cbn in Hz1. inversion Hz1. congruence.
  - inversion Hz; subst. destruct Hd as [E|Hd]; [discriminate|]. apply IH; assumption.
Qed.
Lemma some_tokens : forall s, bytes_ok s -> exists gs u,
  Forall glyph_ok gs /\ allChars s false = Val (map gb gs, u).
Proof.
  intros s Hs.
  destruct (parse_exists (upto_nul s)) as [es He]; [apply upto_nul_ok; exact Hs|apply upto_nul_no_nul|].
  destruct (all_chars s es false Hs He) as [u [E _]].
  destruct (items_glyphs (List.length es) es (le_n _)) as [A B].
  { intros c Hc. split; [exact (parse_scalars _ _ He c Hc)|].
    exact (parse_nonzero _ _ He (upto_nul_no_nul s) c Hc). }
  exists (flat_map glyph_of (items es)), u. split; [exact A|]. rewrite E, B. reflexivity.
Qed.

(** ** Lookups *)
Definition kana_type (t : CharType) : Prop := t <> Romaji.
Lemma is_kana_range : forall t c, is_kana t c = true -> 0x3041 <= c < 0x3100.
Proof. intros t c H. unfold is_kana, off in H. destruct t; lia. Qed.
Lemma lookup_code : forall t c, kana_type t -> scalar c ->
  (match mapFind (getMap t) (enc c) with Some _ => true | None => false end) = is_kana t c.
Proof.
  intros t c Ht Hs. destruct (N.lt_ge_cases c 0x3041) as [H|H].
  2: destruct (N.lt_ge_cases c 0x3100) as [H'|H'].
  2:{ pose proof (sweep 0xBF (fun i => let c := 0x3041 + i in
        Bool.eqb (match mapFind (getMap Hiragana) (enc c) with Some _ => true | None => false end) (is_kana Hiragana c)
        && Bool.eqb (match mapFind (getMap Katakana) (enc c) with Some _ => true | None => false end) (is_kana Katakana c))
        ltac:(vm_compute; reflexivity) (c - 0x3041) ltac:(lia)) as S.
      cbv beta zeta in S. replace (0x3041 + (c - 0x3041)) with c in S by lia.
      rewrite andb_true_iff in S. destruct S as [S1 S2]. apply Bool.eqb_prop in S1. apply Bool.eqb_prop in S2.
      destruct t; [exact S1|exact S2|exfalso; apply Ht; reflexivity]. }
  all: rewrite mapFind_outside by (try assumption; lia);
    destruct (is_kana t c) eqn:E; [apply is_kana_range in E; lia|reflexivity].
Qed.
Definition key_codes (t : CharType) : bool :=
  forallb (fun p => forallb (fun c => (0x3041 <=? c) && (c <? 0x3100)) (decode (fst p))) (getMap t).
Lemma codes_h : key_codes Hiragana = true. Proof. vm_compute. reflexivity. Qed.
Lemma codes_k : key_codes Katakana = true. Proof. vm_compute. reflexivity. Qed.
Lemma lookup_selected : forall t c v, kana_type t -> glyph_ok (GV c v) -> mapFind (getMap t) (gb (GV c v)) = None.
Proof.
  intros t c v Ht Hg. destruct (mapFind (getMap t) (gb (GV c v))) as [k|] eqn:E; [|reflexivity].
  apply mapFind_in in E. exfalso.
  assert (Hh : key_codes t = true) by (destruct t; [exact codes_h|exact codes_k|exfalso; apply Ht; reflexivity]).
  unfold key_codes in Hh. rewrite forallb_forall in Hh. specialize (Hh _ E). cbn [fst] in Hh.
  unfold gb in Hh. rewrite decode_text in Hh by (apply ok_codes; exact Hg).
  cbn [codes_of forallb] in Hh. destruct Hg as [_ [_ Hv]]. unfold is_selector in Hv. lia.
Qed.
Definition glyph_eqb (a b : glyph) : bool :=
  match a, b with G c, G d => c =? d | GV c v, GV d w => (c =? d) && (v =? w) | _, _ => false end.
Lemma beq_gb : forall a b, glyph_ok a -> glyph_ok b -> beq (gb a) (gb b) = glyph_eqb a b.
Proof.
  intros a b Ha Hb. destruct (glyph_eqb a b) eqn:E.
  - assert (a = b). { destruct a, b; cbn in E; try discriminate; [f_equal; lia|f_equal; lia]. } subst. apply beq_refl.
  - apply beq_neq. intro E'. apply gb_inj in E'; try assumption. subst b.
    destruct a; cbn in E; lia.
Qed.
Lemma ok_G : forall c, 0x80 <= c < 0xD800 -> is_mark c = false -> glyph_ok (G c).
Proof. intros c H Hm. cbn. split; [unfold scalar; lia|]. split; [lia|]. right. split; [lia|]. split; [unfold is_selector; lia|exact Hm]. Qed.
Lemma kana_ok : forall t c, is_kana t c = true -> glyph_ok (G c).
Proof.
  intros t c H. apply ok_G; unfold is_kana, off, is_mark in *; destruct t; lia.
Qed.
Lemma prolong_glyph : ProlongMark = gb (G 0x30FC). Proof. reflexivity. Qed.
Lemma is_prolong : forall g, glyph_ok g -> beq (gb g) ProlongMark = is_long g.
Proof. intros g H. rewrite prolong_glyph, beq_gb by (first [assumption | apply ok_G; [lia|reflexivity]]). destruct g; reflexivity. Qed.

Definition repeat_of (t : CharType) (g : glyph) : option IterationMark :=
  match g with
  | G c => if c =? 0x309D + off t then Some RepeatPlain else if c =? 0x309E + off t then Some RepeatAccented else None
  | _ => None
  end.
Lemma find_mark : forall t g, kana_type t -> glyph_ok g -> findIterationMark t (gb g) = repeat_of t g.
Proof.
  intros t g Ht Hg. unfold findIterationMark, markMatches.
  destruct t; [| |exfalso; apply Ht; reflexivity];
    cbn [imHira imKata RepeatPlain RepeatAccented].
  - change [227; 130; 157] with (gb (G 0x309D)). change [227; 130; 158] with (gb (G 0x309E)).
    rewrite !(beq_sym _ (gb g)), !beq_gb by (first [assumption | apply ok_G; [lia|reflexivity]]).
    destruct g; reflexivity.
  - change [227; 131; 189] with (gb (G 0x30FD)). change [227; 131; 190] with (gb (G 0x30FE)).
    rewrite !(beq_sym _ (gb g)), !beq_gb by (first [assumption | apply ok_G; [lia|reflexivity]]).
    destruct g; reflexivity.
Qed.
Lemma contains_of : forall l g, Forall (fun c => glyph_ok (G c)) l -> glyph_ok g ->
  containsS (map (fun c => gb (G c)) l) (gb g) = (match g with G c => mem c l | _ => false end).
Proof.
  intros l g Hl Hg. induction Hl as [|c l Hc Hl IH]; [destruct g; reflexivity|].
  unfold containsS in *. cbn [map existsb]. rewrite IH, beq_gb by assumption.
  destruct g; reflexivity.
Qed.
Lemma contains_kana : forall h k g a b, glyph_ok g -> glyph_ok (G a) -> glyph_ok (G b) ->
  h = gb (G a) -> k = gb (G b) -> (beq (gb g) h || beq (gb g) k) = match g with G c => (c =? a) || (c =? b) | _ => false end.
Proof. intros h k g a b Hg Ha Hb -> ->. rewrite !beq_gb by assumption. destruct g; reflexivity. Qed.
Lemma is_tsu_kana : forall t c, kana_type t -> is_kana t c = true -> containsKana SmallTsu (enc c) = is_tsu t c.
Proof.
  intros t c Ht Hc. unfold containsKana. rewrite <- gb_G.
  rewrite (contains_kana _ _ _ 0x3063 0x30C3); try reflexivity; try (apply ok_G; [lia|reflexivity]); [|exact (kana_ok _ _ Hc)].
  unfold is_kana, is_tsu, off in *. destruct t; [lia|lia|exfalso; apply Ht; reflexivity].
Qed.
Lemma is_n_kana : forall t c, kana_type t -> is_kana t c = true -> containsKana KanaN (enc c) = is_n t c.
Proof.
  intros t c Ht Hc. unfold containsKana. rewrite <- gb_G.
  rewrite (contains_kana _ _ _ 0x3093 0x30F3); try reflexivity; try (apply ok_G; [lia|reflexivity]); [|exact (kana_ok _ _ Hc)].
  unfold is_kana, is_n, off in *. destruct t; [lia|lia|exfalso; apply Ht; reflexivity].
Qed.
Lemma is_small_kana : forall t c, kana_type t -> is_kana t c = true -> containsS (smallKana t) (enc c) = is_small t c.
Proof.
  intros t c Ht Hc. rewrite <- gb_G.
  assert (E : smallKana t = map (fun c => gb (G c)) (map (fun x => x + off t) small_codes)) by (destruct t; [reflexivity|reflexivity|exfalso; apply Ht; reflexivity]).
  rewrite E, contains_of; [reflexivity| |exact (kana_ok _ _ Hc)].
  apply Forall_map. unfold small_codes, off. destruct t; repeat (apply Forall_cons; [apply ok_G; [lia|reflexivity]|]); constructor.
Qed.
(** あやいゆえおよう *)
Definition after_n_codes : list N := [0x3042; 0x3084; 0x3044; 0x3086; 0x3048; 0x304A; 0x3088; 0x3046].
Definition is_after_n (t : CharType) (g : glyph) : bool :=
  match g with G c => mem c (map (fun x => x + off t) after_n_codes) | _ => false end.
Lemma after_n_glyph : forall t g, kana_type t -> glyph_ok g -> containsS (afterN t) (gb g) = is_after_n t g.
Proof.
  intros t g Ht Hg.
  assert (E : afterN t = map (fun c => gb (G c)) (map (fun x => x + off t) after_n_codes)) by (destruct t; [reflexivity|reflexivity|exfalso; apply Ht; reflexivity]).
  rewrite E, contains_of; [reflexivity| |exact Hg].
  apply Forall_map. unfold after_n_codes, off. destruct t; repeat (apply Forall_cons; [apply ok_G; [lia|reflexivity]|]); constructor.
Qed.

(** the wide delimiters *)
Lemma delims_codes : Delims = map (fun p => (fst p, gb (G (snd p)))) wide_of.
Proof. reflexivity. Qed.
Fixpoint narrow_of (d : list (N * N)) (c : N) : option N :=
  match d with [] => None | (n, w) :: r => if w =? c then Some n else narrow_of r c end.
Lemma wide_codes_ok : Forall (fun p => glyph_ok (G (snd p))) wide_of.
Proof.
  unfold wide_of. repeat (apply Forall_cons; [cbn; unfold scalar, ordinary, is_selector, is_mark; lia|]). constructor.
Qed.
Lemma wide_find : forall d g, Forall (fun p => glyph_ok (G (snd p))) d -> glyph_ok g ->
  wideFind (map (fun p => (fst p, gb (G (snd p)))) d) (gb g) =
  match g with G c => narrow_of d c | _ => None end.
Proof.
  intros d g Hd Hg. induction Hd as [|[n w] d Hw Hd IH]; [destruct g; reflexivity|].
  cbn [map wideFind fst snd narrow_of] in *. rewrite beq_gb by assumption. rewrite IH. destruct g; reflexivity.
Qed.
Lemma find_wide : forall g, glyph_ok g -> wideFind Delims (gb g) = match g with G c => narrow_of wide_of c | _ => None end.
Proof. intros g Hg. rewrite delims_codes. apply wide_find; [exact wide_codes_ok|exact Hg]. Qed.

(** ** Groups: which characters are converted together *)
Inductive glyph_class := CLong | CRepeat (m : IterationMark) | CKana (c : N) | COther.
Definition class_of (t : CharType) (g : glyph) : glyph_class :=
  if is_long g then CLong
  else match repeat_of t g with
       | Some m => CRepeat m
       | None => match g with G c => if is_kana t c then CKana c else COther | _ => COther end
       end.
Inductive ender := EKana (c : N) | ELong | ERepeat (m : IterationMark) | EOther (g : glyph) | EEnd.
(** does the pending group go on with [c]? *)
Definition extends (t : CharType) (g : list N) (s : FState) (c : N) : option FState :=
  if is_tsu t c || is_n t c then None
  else match s with
       | SDone => None
       | _ => if is_small t c then Some SDone
              else if (match g, s with [], _ => true | [_], SSmallTsu => true | _, _ => false end) then Some s else None
       end.
Definition fresh (t : CharType) (c : N) : FState :=
  if is_tsu t c then SSmallTsu else if is_n t c then SDone else SNew.
Fixpoint groups (t : CharType) (g : list N) (s : FState) (us : list glyph) : list (list N * ender) :=
  match us with
  | [] => [(g, EEnd)]
  | u :: r =>
      match class_of t u with
      | CLong => (g, ELong) :: groups t [] SNew r
      | CRepeat m => (g, ERepeat m) :: groups t [] SNew r
      | COther => (g, EOther u) :: groups t [] SNew r
      | CKana c => match extends t g s c with
                   | Some s' => groups t (g ++ [c]) s' r
                   | None => (g, EKana c) :: groups t [c] (fresh t c) r
                   end
      end
  end.
(** the pending groups that occur *)
Definition gstate (t : CharType) (g : list N) (s : FState) : Prop :=
  (g = [] /\ s = SNew)
  \/ (exists x, g = [x] /\ s = SNew /\ (is_plain t x = true \/ is_small t x = true))
  \/ (exists x, g = [x] /\ s = SDone /\ is_small t x = true)
  \/ (exists x, g = [x] /\ s = SDone /\ is_n t x = true)
  \/ (exists x, g = [x] /\ s = SSmallTsu /\ is_tsu t x = true)
  \/ (exists x y, g = [x; y] /\ s = SDone /\ (is_plain t x = true \/ is_small t x = true) /\ is_small t y = true)
  \/ (exists x y, g = [x; y] /\ s = SDone /\ is_tsu t x = true /\ is_small t y = true)
  \/ (exists x y, g = [x; y] /\ s = SSmallTsu /\ is_tsu t x = true /\ is_plain t y = true)
  \/ (exists x y z, g = [x; y; z] /\ s = SDone /\ is_tsu t x = true /\ is_plain t y = true /\ is_small t z = true).

Ltac gd H :=
  first [ destruct H as (? & -> & -> & H) | destruct H as (? & ? & -> & -> & H) | destruct H as (? & ? & ? & -> & -> & H) ].
Ltac gc H :=
  first [ destruct H as [[-> ->]|H]; [|gc H] | destruct H as [H|H]; [gd H|gc H] | gd H ].
Lemma kind_split : forall t c, is_kana t c = true -> is_tsu t c = false -> is_n t c = false -> is_small t c = false ->
  is_plain t c = true.
Proof. intros t c H1 H2 H3 H4. unfold is_plain. rewrite H1, H2, H3, H4. reflexivity. Qed.
Lemma fresh_state : forall t c, is_kana t c = true -> gstate t [c] (fresh t c).
Proof.
  intros t c H. unfold gstate, fresh. destruct (is_tsu t c) eqn:E1; [do 4 right; left; eauto|].
  destruct (is_n t c) eqn:E2; [do 3 right; left; eauto|].
  right. left. exists c. split; [reflexivity|]. split; [reflexivity|].
  destruct (is_small t c) eqn:E3; [right; reflexivity|left; apply kind_split; assumption].
Qed.
Lemma extend_state : forall t g s c s', gstate t g s -> is_kana t c = true -> extends t g s c = Some s' ->
  gstate t (g ++ [c]) s'.
Proof.
  intros t g s c s' Hg Hc E. unfold extends in E.
  destruct (is_tsu t c) eqn:E1; [discriminate|]. destruct (is_n t c) eqn:E2; [discriminate|]. cbn [orb] in E.
  destruct (is_small t c) eqn:E3.
  - gc Hg; try discriminate;
      injection E as <-; unfold gstate; cbn [app].
    + do 2 right. left. eauto.
    + do 5 right. left. eauto 6.
    + do 6 right. left. eauto 6.
    + destruct Hg. do 8 right. do 3 eexists. eauto 8.
  - pose proof (kind_split t c Hc E1 E2 E3) as P.
    gc Hg; try discriminate;
      injection E as <-; unfold gstate; cbn [app].
    + right. left. eauto 6.
    + do 7 right. left. eauto 6.
Qed.

Section Emit.
Variables (target : CharType) (flags : ConvertFlags) (ltr : bool) (t : CharType).
Definition is_long_end (e : ender) : bool := match e with ELong => true | _ => false end.
Definition apostrophe (g : list N) (e : ender) : bytes :=
  if ctEqb target Romaji && containsKana KanaN (text g)
     && (match e with EKana c => is_after_n t (G c) | _ => false end) then [39] else [].
Definition end_bytes (e : ender) (p : option Kana) : bytes :=
  match e with
  | ERepeat m => markGet m target flags p
  | EOther u => match (if ctEqb target Romaji then (match u with G c => narrow_of wide_of c | _ => None end) else None) with
                | Some d => [d] | None => gb u end
  | _ => []
  end.
(** what the groups are turned into *)
Fixpoint emit (prev : option Kana) (l : list (list N * ender)) : bytes :=
  match l with
  | [] => []
  | (g, e) :: r =>
      let '(o, p) := processKana target flags ltr t (text g) prev (is_long_end e) in
      o ++ apostrophe g e ++ end_bytes e p ++ emit p r
  end.

Lemma after_n_is_kana : forall g, is_after_n t g = true -> class_of t g = match g with G c => CKana c | _ => COther end.
Proof.
  intros [c|c v] H; [|discriminate]. cbn in H. unfold class_of, is_long, repeat_of, is_kana.
  destruct t; cbn [off] in *.
  - replace (c =? 0x30FC) with false by lia. replace (c =? 0x309D + 0) with false by lia.
    replace (c =? 0x309E + 0) with false by lia. replace (0x3041 + 0 <=? c) with true by lia.
    replace (c <=? 0x3096 + 0) with true by lia. reflexivity.
  - replace (c =? 0x30FC) with false by lia. replace (c =? 0x309D + 0x60) with false by lia.
    replace (c =? 0x309E + 0x60) with false by lia. replace (0x3041 + 0x60 <=? c) with true by lia.
    replace (c <=? 0x3096 + 0x60) with true by lia. reflexivity.
  - replace (c =? 0x30FC) with false by lia. replace (c =? 0x309D + 0) with false by lia.
    replace (c =? 0x309E + 0) with false by lia. replace (0x3041 + 0 <=? c) with true by lia.
    replace (c <=? 0x3096 + 0) with true by lia. reflexivity.
Qed.

Lemma len_enc_kana : forall c, is_kana t c = true -> len (enc c) = 3.
Proof.
  intros c H. apply is_kana_range in H. unfold enc.
  replace (c <? 128) with false by lia. replace (c <? 2048) with false by lia. replace (c <? 65536) with true by lia. reflexivity.
Qed.
Definition kana_list (g : list N) : Prop := Forall (fun c => is_kana t c = true) g.
Lemma len_group : forall g, kana_list g -> len (text g) = 3 * len g.
Proof.
  intros g H. induction H as [|c g Hc H IH]; [reflexivity|].
  rewrite text_cons, len_app, len_cons, IH, len_enc_kana by exact Hc. lia.
Qed.
Lemma small_is_kana : forall c, is_small t c = true -> is_kana t c = true.
Proof. intros c H. unfold is_small, is_kana, mem, small_codes, existsb in *. cbn [map existsb] in H. destruct t; cbn [off] in *; lia. Qed.
Lemma tsu_is_kana : forall c, is_tsu t c = true -> is_kana t c = true.
Proof. intros c H. unfold is_tsu, is_kana in *. lia. Qed.
Lemma n_is_kana : forall c, is_n t c = true -> is_kana t c = true.
Proof. intros c H. unfold is_n, is_kana in *. lia. Qed.
Lemma plain_is_kana : forall c, is_plain t c = true -> is_kana t c = true.
Proof. intros c H. unfold is_plain in H. rewrite !andb_true_iff in H. tauto. Qed.
Lemma gstate_kana : forall g s, gstate t g s -> kana_list g.
Proof.
  pose proof small_is_kana. pose proof tsu_is_kana. pose proof n_is_kana. pose proof plain_is_kana.
  intros g s Hg.
  gc Hg;
    repeat (apply Forall_cons; [intuition auto|]); constructor.
Qed.

Lemma step_groups : forall u st g, kana_type t -> glyph_ok u -> gstate t g (fkState st) -> fkGroup st = text g ->
  let st' := fromKanaStep target flags ltr t st (gb u) in
  match class_of t u with
  | CKana c =>
      match extends t g (fkState st) c with
      | Some s' => st' = addGroup st (enc c) s' 
      | None => st' = doneKana target flags ltr t st (enc c) NewGroup (fresh t c)
      end
  | CLong => st' = doneKana target flags ltr t st (gb u) DProlong SNew
  | CRepeat m => let st1 := doneKana target flags ltr t st (gb u) NewEmptyGroup SNew in
                 st' = addResult st1 (markGet m target flags (fkPrev st1))
  | COther => let st1 := doneKana target flags ltr t st (gb u) NewEmptyGroup SNew in
              st' = addResult st1 (end_bytes (EOther u) None)
  end.
Proof.
  intros u st g Ht Hu Hg Eg st'. subst st'. unfold fromKanaStep, class_of.
  rewrite is_prolong by exact Hu. destruct (is_long u); [reflexivity|].
  rewrite find_mark by assumption. destruct (repeat_of t u) as [m|]; [reflexivity|].
  destruct u as [c|c v].
  2:{ rewrite lookup_selected by assumption. rewrite find_wide by exact Hu. cbn [end_bytes].
      unfold romajiTarget. destruct (ctEqb target Romaji); reflexivity. }
  rewrite gb_G. assert (Hs : scalar c) by apply Hu.
  pose proof (lookup_code t c Ht Hs) as L.
  destruct (mapFind (getMap t) (enc c)) as [k|]; rewrite <- L.
  2:{ rewrite <- gb_G, find_wide by exact Hu. cbn [end_bytes]. unfold romajiTarget.
      destruct (ctEqb target Romaji); [|reflexivity]. destruct (narrow_of wide_of c); reflexivity. }
  symmetry in L. unfold processOneKana, extends, fresh.
  rewrite (is_tsu_kana t), (is_n_kana t), (is_small_kana t) by assumption.
  destruct (is_tsu t c) eqn:E1; [reflexivity|]. destruct (is_n t c) eqn:E2; [reflexivity|]. cbn [orb].
  pose proof (len_group g (gstate_kana g _ Hg)) as Hl.
  assert (Len : forall k, (len (fkGroup st) <=? 3 * k) = (len g <=? k)) by (intro; rewrite Eg, Hl; lia).
  destruct (fkState st) eqn:Es.
  - destruct (is_small t c); [reflexivity|]. pose proof (Len 0) as L0. change (3 * 0) with 0 in L0. rewrite L0.
    destruct g; [reflexivity|]. rewrite len_cons. replace (1 + len g <=? 0) with false by lia.
    destruct g; reflexivity.
  - destruct (is_small t c); [reflexivity|]. pose proof (Len 1) as L0. change (3 * 1) with 3 in L0. rewrite L0.
    destruct g as [|x [|y g]]; [reflexivity|reflexivity|]. rewrite !len_cons. replace (1 + (1 + len g) <=? 1) with false by lia. reflexivity.
  - reflexivity.
Qed.

Lemma done_emit : forall st g u dt ns, glyph_ok u -> kana_type t -> fkGroup st = text g ->
  let st' := doneKana target flags ltr t st (gb u) dt ns in
  let '(o, p) := processKana target flags ltr t (text g) (fkPrev st) (match dt with DProlong => true | _ => false end) in
  fkResult st' = fkResult st ++ o ++ (if ctEqb target Romaji && containsKana KanaN (text g) && is_after_n t u then [39] else [])
  /\ fkGroup st' = (match dt with NewGroup => gb u | _ => [] end) /\ fkState st' = ns /\ fkPrev st' = p.
Proof.
  intros st g u dt ns Hu Ht Eg st'. subst st'. unfold doneKana. rewrite Eg.
  destruct (processKana target flags ltr t (text g) (fkPrev st) _) as [o p].
  rewrite after_n_glyph by assumption. cbn. auto.
Qed.

Lemma apos_none : forall g u e, (match class_of t u with CKana _ => False | _ => True end) ->
  (match e with EKana _ => False | _ => True end) ->
  (if ctEqb target Romaji && containsKana KanaN (text g) && is_after_n t u then [39] else []) = apostrophe g e.
Proof.
  intros g u e Hu He. unfold apostrophe. destruct e; try contradiction;
  (destruct (is_after_n t u) eqn:E; [destruct u; [|discriminate]; apply after_n_is_kana in E; rewrite E in Hu; contradiction|reflexivity]).
Qed.

Lemma fold_groups : kana_type t -> forall us st g, Forall glyph_ok us -> gstate t g (fkState st) -> fkGroup st = text g ->
  fkEnd target flags ltr t (fold_left (fromKanaStep target flags ltr t) (map gb us) st)
  = fkResult st ++ emit (fkPrev st) (groups t g (fkState st) us).
Proof.
  intro Ht. induction us as [|u us IH]; intros st g Hok Hg Eg.
  - cbn [map fold_left groups emit is_long_end apostrophe end_bytes]. unfold fkEnd. rewrite Eg.
    destruct (processKana target flags ltr t (text g) (fkPrev st) false) as [o p].
    unfold apostrophe. rewrite andb_false_r. cbn [fst]. rewrite !app_nil_r. reflexivity.
  - inversion Hok as [|? ? Hu Hus]; subst. cbn [map fold_left groups].
    pose proof (step_groups u st g Ht Hu Hg Eg) as S. cbv zeta in S.
    destruct (class_of t u) as [|m|c|] eqn:C.
    + rewrite S. pose proof (done_emit st g u DProlong SNew Hu Ht Eg) as D. cbv zeta in D.
      cbn [emit is_long_end].
      destruct (processKana target flags ltr t (text g) (fkPrev st) true) as [o p]. destruct D as [D1 [D2 [D3 D4]]].
      rewrite (IH _ []); [|exact Hus|rewrite D3; left; auto|rewrite D2; reflexivity].
      rewrite D1, D3, D4. rewrite (apos_none g u ELong) by (try rewrite C; exact I). rewrite <- !app_assoc. reflexivity.
    + rewrite S. pose proof (done_emit st g u NewEmptyGroup SNew Hu Ht Eg) as D. cbv zeta in D.
      cbn [emit is_long_end].
      destruct (processKana target flags ltr t (text g) (fkPrev st) false) as [o p]. destruct D as [D1 [D2 [D3 D4]]].
      rewrite (IH _ []); cbn [addResult fkResult fkGroup fkState fkPrev];
        [|exact Hus|rewrite D3; left; auto|rewrite D2; reflexivity].
      rewrite D1, D3, D4. rewrite (apos_none g u (ERepeat m)) by (try rewrite C; exact I).
      cbn [end_bytes]. rewrite <- !app_assoc. reflexivity.
    + assert (Eu : u = G c /\ is_kana t c = true).
      { unfold class_of in C. destruct (is_long u); [discriminate|]. destruct (repeat_of t u); [discriminate|].
        destruct u as [d|]; [|discriminate]. destruct (is_kana t d) eqn:K; [|discriminate]. injection C as <-. auto. }
      destruct Eu as [-> K].
      destruct (extends t g (fkState st) c) as [s'|] eqn:X.
      * rewrite S. rewrite (IH _ (g ++ [c])); cbn [addGroup fkResult fkGroup fkState fkPrev]; [reflexivity|exact Hus| |].
        -- eapply extend_state; eassumption.
        -- rewrite Eg, text_app, text_cons, text_nil, app_nil_r. reflexivity.
      * rewrite S. pose proof (done_emit st g (G c) NewGroup (fresh t c) Hu Ht Eg) as D. cbv zeta in D. rewrite gb_G in D.
        cbn [emit is_long_end].
        destruct (processKana target flags ltr t (text g) (fkPrev st) false) as [o p]. destruct D as [D1 [D2 [D3 D4]]].
        rewrite (IH _ [c]); [|exact Hus|rewrite D3; apply fresh_state; exact K|].
        2:{ rewrite D2, text_cons, text_nil, app_nil_r. reflexivity. }
        rewrite D1, D3, D4. unfold apostrophe. cbn [end_bytes]. rewrite <- !app_assoc. reflexivity.
    + rewrite S. pose proof (done_emit st g u NewEmptyGroup SNew Hu Ht Eg) as D. cbv zeta in D.
      cbn [emit is_long_end].
      destruct (processKana target flags ltr t (text g) (fkPrev st) false) as [o p]. destruct D as [D1 [D2 [D3 D4]]].
      rewrite (IH _ []); cbn [addResult fkResult fkGroup fkState fkPrev];
        [|exact Hus|rewrite D3; left; auto|rewrite D2; reflexivity].
      rewrite D1, D3, D4. rewrite (apos_none g u (EOther u)) by (try rewrite C; exact I).
      rewrite <- !app_assoc. reflexivity.
Qed.

Lemma fromKana_emit : kana_type t -> forall us, Forall glyph_ok us ->
  fromKana target flags ltr (gtext us) t = Val (emit None (groups t [] SNew us)).
Proof.
  intros Ht us Hok. unfold fromKana. destruct (tokens_of us Hok) as [u E]. rewrite E. cbn.
  f_equal. apply (fold_groups Ht us fkInit [] Hok); [left; auto|reflexivity].
Qed.
End Emit.
