(** Conversion between the two kana types, and the order of evaluation. *)
From Verif Require Import BaseFacts ConverterModel ConverterSpec Utf8Proofs BlockProofs KanaProofs
  Utf8CharProofs Utf8CharLemmas ConverterProofs.
Open Scope N_scope.
Arguments N.ltb : simpl never.
Arguments N.leb : simpl never.
Arguments N.eqb : simpl never.
Arguments N.add : simpl never.
Arguments N.sub : simpl never.

(** ** The possible groups *)
Definition kana_codes (t : CharType) : list N := map (fun i => 0x3041 + off t + i) (upto 86).
Definition smalls (t : CharType) : list N := map (fun x => x + off t) small_codes.
Definition all_groups (t : CharType) : list (list N) :=
  map (fun x => [x]) (kana_codes t)
  ++ flat_map (fun x => map (fun y => [x; y]) (smalls t)) (kana_codes t)
  ++ map (fun y => [0x3063 + off t; y]) (filter (is_plain t) (kana_codes t))
  ++ flat_map (fun y => map (fun z => [0x3063 + off t; y; z]) (smalls t)) (filter (is_plain t) (kana_codes t)).
Lemma kana_in : forall t c, is_kana t c = true -> In c (kana_codes t).
Proof.
  intros t c H. unfold kana_codes. apply in_map_iff. exists (c - (0x3041 + off t)). unfold is_kana in H.
  split; [lia|]. apply in_upto. lia.
Qed.
Lemma small_in : forall t c, is_small t c = true -> In c (smalls t).
Proof.
  intros t c H. unfold is_small, mem in H. apply existsb_exists in H. destruct H as [x [Hx E]].
  apply N.eqb_eq in E. subst. exact Hx.
Qed.
Lemma tsu_eq : forall t c, is_tsu t c = true -> c = 0x3063 + off t.
Proof. intros t c H. unfold is_tsu in H. lia. Qed.
Lemma groups_in : forall t g s, gstate t g s -> g <> [] -> In g (all_groups t).
Proof.
  intros t g s Hg Hn. pose proof (gstate_kana t g s Hg) as K. unfold all_groups. rewrite !in_app_iff.
  unfold kana_list in K.
  gc Hg; try congruence; repeat match goal with H : Forall _ (_ :: _) |- _ => inversion H; clear H; subst end.
  1,2,3,4: left; apply in_map_iff; eexists; split; [reflexivity|apply kana_in; assumption].
  - right. left. apply in_flat_map. exists x. split; [apply kana_in; assumption|].
    apply in_map_iff. exists x0. split; [reflexivity|apply small_in; tauto].
  - right. left. apply in_flat_map. exists x. split; [apply kana_in; assumption|].
    apply in_map_iff. exists x0. split; [reflexivity|apply small_in; tauto].
  - right. right. left. destruct Hg as [Hg Hp]. apply tsu_eq in Hg. subst x. apply in_map_iff. exists x0.
    split; [reflexivity|]. apply filter_In. split; [apply kana_in; assumption|exact Hp].
  - right. right. right. destruct Hg as [Hg [Hp Hz]]. apply tsu_eq in Hg. subst x. apply in_flat_map. exists x0. split.
    + apply filter_In. split; [apply kana_in; assumption|exact Hp].
    + apply in_map_iff. exists x1. split; [reflexivity|apply small_in; exact Hz].
Qed.

(** ** [walk] and groups *)
Section Walk.
Variables (t : CharType) (f : glyph -> glyph).
Lemma not_broken : forall a x s, (match a with G c => is_tsu t c = false | _ => True end) -> broken t a x s = false.
Proof. intros [a|a v] [x|] [s|] H; cbn [broken]; try reflexivity. rewrite H. reflexivity. Qed.
Lemma walk_skip : forall a r, (match a with G c => is_tsu t c = false | _ => True end) -> walk t f (a :: r) = f a :: walk t f r.
Proof.
  intros a r H. destruct r as [|x [|s r]]; [reflexivity|reflexivity|].
  change (walk t f (a :: x :: s :: r)) with
    (if broken t a x s then f a :: x :: s ::
       match r with l :: r' => if is_long l then walk t f r' else walk t f r | [] => [] end
     else f a :: walk t f (x :: s :: r)).
  rewrite not_broken by exact H. reflexivity.
Qed.
Lemma walk_three : forall a x s r, walk t f (a :: x :: s :: r) =
  if broken t a x s then f a :: x :: s ::
       match r with l :: r' => if is_long l then walk t f r' else walk t f r | [] => [] end
  else f a :: walk t f (x :: s :: r).
Proof. reflexivity. Qed.
Lemma walk_tsu1 : forall a x r, (match x with G c => is_plain t c = false | _ => True end) ->
  walk t f (a :: x :: r) = f a :: walk t f (x :: r).
Proof.
  intros a x r H. destruct r as [|s r]; [reflexivity|]. rewrite walk_three.
  replace (broken t a x s) with false; [reflexivity|].
  destruct a, x, s; cbn [broken]; try reflexivity. rewrite H, andb_false_r. reflexivity.
Qed.
Lemma walk_tsu2 : forall a x u r, (match u with G c => is_small t c = false | _ => True end) ->
  walk t f (a :: x :: u :: r) = f a :: walk t f (x :: u :: r).
Proof.
  intros a x u r H. rewrite walk_three. replace (broken t a x u) with false; [reflexivity|].
  destruct a, x, u; cbn [broken]; try reflexivity. rewrite H, andb_false_r. reflexivity.
Qed.
Definition boundary (g : list N) (s : FState) (u : glyph) : Prop :=
  match class_of t u with CKana c => extends t g s c = None | _ => True end.
Lemma small_not_tsu : forall c, is_small t c = true -> is_tsu t c = false.
Proof. intros c H. unfold is_small, is_tsu, mem, small_codes in *. cbn [map existsb] in H. lia. Qed.
Lemma small_not_n : forall c, is_small t c = true -> is_n t c = false.
Proof. intros c H. unfold is_small, is_n, mem, small_codes in *. cbn [map existsb] in H. lia. Qed.
Lemma small_not_plain : forall c, is_small t c = true -> is_plain t c = false.
Proof. intros c H. unfold is_plain. rewrite H, andb_false_r. reflexivity. Qed.
Lemma plain_not_tsu : forall c, is_plain t c = true -> is_tsu t c = false.
Proof. intros c H. unfold is_plain in H. rewrite !andb_true_iff, !negb_true_iff in H. tauto. Qed.
Lemma n_not_tsu : forall c, is_n t c = true -> is_tsu t c = false.
Proof. intros c H. unfold is_n, is_tsu in *. lia. Qed.
Lemma class_kana : forall c, is_kana t c = true -> class_of t (G c) = CKana c.
Proof.
  intros c H. unfold class_of, is_long, repeat_of. rewrite H. unfold is_kana, off in H.
  destruct t; cbn [off];
  replace (c =? 0x30FC) with false by lia; replace (c =? _) with false by lia; replace (c =? _) with false by lia; reflexivity.
Qed.
Lemma long_not_kana : forall c, is_long (G c) = true -> is_kana t c = false.
Proof. intros c H. unfold is_long, is_kana, off in *. destruct t; lia. Qed.

Lemma walk_split : forall g s u us, gstate t g s -> boundary g s u ->
  walk t f (map G g ++ u :: us) =
  if is_long u then walk t f (map G g ++ [u]) ++ walk t f us else walk t f (map G g) ++ walk t f (u :: us).
Proof.
  intros g s u us Hg Hb.
  assert (U : is_long u = true -> walk t f (u :: us) = [f u] ++ walk t f us).
  { intro H. rewrite walk_skip; [reflexivity|]. destruct u as [c|]; [|exact I].
    apply long_not_kana in H. destruct (is_tsu t c) eqn:E; [|reflexivity]. apply tsu_is_kana in E. congruence. }
  assert (U1 : is_long u = true -> walk t f [u] = [f u]) by reflexivity.
  assert (Tail : forall p, (if is_long u then (p ++ walk t f [u]) ++ walk t f us else p ++ walk t f (u :: us)) = p ++ walk t f (u :: us)) .
  { intros p. destruct (is_long u) eqn:E; [|reflexivity]. rewrite U, U1, <- app_assoc by reflexivity. reflexivity. }
  assert (UL : is_long u = true -> match u with G c => is_kana t c = false | _ => True end).
  { intro H. destruct u; [apply long_not_kana; exact H|exact I]. }
  gc Hg; cbn [map app].
  - symmetry. apply (Tail []).
  - assert (T : is_tsu t x = false) by (destruct Hg as [H|H]; [apply plain_not_tsu|apply small_not_tsu]; exact H).
    rewrite !walk_skip by exact T. symmetry. apply (Tail [f (G x)]).
  - rewrite !walk_skip by (apply small_not_tsu; exact Hg). symmetry. apply (Tail [f (G x)]).
  - rewrite !walk_skip by (apply n_not_tsu; exact Hg). symmetry. apply (Tail [f (G x)]).
  - assert (P : match u with G c => is_plain t c = false | _ => True end).
    { destruct u as [c|]; [|exact I]. destruct (is_plain t c) eqn:P; [|reflexivity]. exfalso.
      unfold boundary in Hb. rewrite class_kana in Hb by (apply plain_is_kana; exact P).
      unfold extends, is_plain in *. rewrite !andb_true_iff, !negb_true_iff in P. destruct P as [[[P1 P2] P3] P4].
      rewrite P3, P4, P2 in Hb. discriminate. }
    rewrite !walk_tsu1 by exact P. symmetry. apply (Tail [f (G x)]).
  - destruct Hg as [Hx Hy].
    assert (T : is_tsu t x = false) by (destruct Hx as [H|H]; [apply plain_not_tsu|apply small_not_tsu]; exact H).
    rewrite !(walk_skip (G x)) by exact T. rewrite !walk_skip by (apply small_not_tsu; exact Hy). symmetry. apply (Tail [f (G x); f (G x0)]).
  - destruct Hg as [Hx Hy]. rewrite !(walk_tsu1 (G x)) by (apply small_not_plain; exact Hy).
    rewrite !walk_skip by (apply small_not_tsu; exact Hy). symmetry. apply (Tail [f (G x); f (G x0)]).
  - destruct Hg as [Hx Hy].
    assert (P : match u with G c => is_small t c = false | _ => True end).
    { destruct u as [c|]; [|exact I]. destruct (is_small t c) eqn:P; [|reflexivity]. exfalso.
      unfold boundary in Hb. rewrite class_kana in Hb by (apply small_is_kana; exact P).
      unfold extends in Hb. rewrite (small_not_tsu c P), P in Hb.
      rewrite (small_not_n c P) in Hb. discriminate. }
    rewrite !(walk_tsu2 (G x)) by exact P.
    change (walk t f [G x; G x0]) with (f (G x) :: walk t f [G x0]).
    rewrite !walk_skip by (apply plain_not_tsu; exact Hy). symmetry. apply (Tail [f (G x); f (G x0)]).
  - destruct Hg as [Hx [Hy Hz]]. rewrite !(walk_three (G x)).
    destruct (broken t (G x) (G x0) (G x1)).
    + destruct (is_long u); reflexivity.
    + rewrite !(walk_skip (G x0)) by (apply plain_not_tsu; exact Hy).
      rewrite !walk_skip by (apply small_not_tsu; exact Hz). symmetry. apply (Tail [f (G x); f (G x0); f (G x1)]).
Qed.

Lemma walk_map : forall gs, ~ has_broken t gs -> walk t f gs = map f gs.
Proof.
  induction gs as [|a gs IH]; intro H; [reflexivity|].
  assert (H' : ~ has_broken t gs).
  { intros [p [b [x [s [q [E B]]]]]]. apply H. exists (a :: p), b, x, s, q. split; [rewrite E; reflexivity|exact B]. }
  destruct gs as [|x [|s r]]; [reflexivity|cbn; reflexivity|].
  rewrite walk_three. destruct (broken t a x s) eqn:E.
  - exfalso. apply H. exists [], a, x, s, r. auto.
  - rewrite IH by exact H'. reflexivity.
Qed.
End Walk.
Lemma drop_nothing : forall t gs, ~ has_broken_long t gs -> drop_long t gs = gs.
Proof.
  intros t gs. unfold drop_long. remember (List.length gs) as n eqn:En. assert (Hn : (List.length gs <= n)%nat) by lia. clear En.
  revert gs Hn. induction n as [|n IH]; intros gs Hn H; [destruct gs; [reflexivity|cbn in Hn; lia]|].
  assert (Sub : forall p q, gs = p ++ q -> ~ has_broken_long t q).
  { intros p q E [p' [a [x [s [l [q' [E' B]]]]]]]. apply H. exists (p ++ p'), a, x, s, l, q'.
    split; [rewrite E, E', app_assoc; reflexivity|exact B]. }
  destruct gs as [|a gs]; [reflexivity|]. cbn [List.length] in Hn.
  destruct gs as [|x [|s r]]; [reflexivity|reflexivity|].
  rewrite walk_three. destruct (broken t a x s) eqn:E.
  - destruct r as [|l r']; [reflexivity|]. destruct (is_long l) eqn:L.
    + exfalso. apply H. exists [], a, x, s, l, r'. auto.
    + rewrite IH; [reflexivity|cbn [List.length] in *; lia|]. apply (Sub [a; x; s]). reflexivity.
  - rewrite IH; [reflexivity|cbn [List.length] in *; lia|]. apply (Sub [a]). reflexivity.
Qed.

(** ** The result of one group *)
Lemma process_prev : forall tg fl ltr t g p1 p2 b,
  fst (processKana tg fl ltr t g p1 b) = fst (processKana tg fl ltr t g p2 b).
Proof. intros. unfold processKana. destruct g; reflexivity. Qed.
Lemma process_order : forall tg fl t g p b,
  fst (processKana tg fl true t g p b) = fst (processKana tg fl false t g p b).
Proof.
  intros. unfold processKana. destruct g; [reflexivity|]. set (g' := n :: g) in *. clearbody g'.
  destruct (mapFind (getMap t) g'); [reflexivity|]. destruct (3 <? len g'); [|reflexivity].
  destruct (mapFind (getMap t) (skipn 3 g')) as [k|]; [|reflexivity].
  destruct (romajiTarget tg && containsKana SmallTsu (firstn 3 g') && containsN repeatingConsonants (nth 0 (romaji (kd k)) 0));
    [reflexivity|].
  destruct (processKana1 tg fl t (firstn 3 g')) as [a p1].
  unfold processKanaMacron. destruct b; [|reflexivity].
  destruct (negb (romajiTarget tg)); [reflexivity|].
  destruct (macronOf (List.last _ 0)); reflexivity.
Qed.
Definition long_if (p : bool) : list glyph := if p then [G 0x30FC] else [].
Definition kana_check (fl : ConvertFlags) (ltr : bool) (t : CharType) (g : list N) : bool :=
  forallb (fun p => beq (fst (processKana (other_kana t) fl ltr t (text g) None p))
                        (gtext (shift_text t (map G g ++ long_if p)))) [true; false].
Lemma kana_groups : forall fl t, kana_type t -> forallb (kana_check fl true t) (all_groups t) = true.
Proof. intros fl [| |] H; try (vm_compute; reflexivity); exfalso; apply H; reflexivity. Qed.
Lemma group_kana : forall fl ltr t g s prev p, kana_type t -> gstate t g s ->
  fst (processKana (other_kana t) fl ltr t (text g) prev p) = gtext (shift_text t (map G g ++ long_if p)).
Proof.
  intros fl ltr t g s prev p Ht Hg. destruct g as [|c g'].
  - cbn. destruct p; [|reflexivity]. destruct t; try reflexivity. 
  - rewrite (process_prev _ _ _ _ _ prev None).
    pose proof (groups_in t _ s Hg ltac:(discriminate)) as Hin.
    replace (fst (processKana (other_kana t) fl ltr t (text (c :: g')) None p))
      with (fst (processKana (other_kana t) fl true t (text (c :: g')) None p))
      by (destruct ltr; [reflexivity|apply process_order]).
    pose proof (kana_groups fl t Ht) as K. rewrite forallb_forall in K. specialize (K _ Hin).
    unfold kana_check in K. cbn [forallb] in K. rewrite !andb_true_iff in K. destruct K as [K1 [K2 _]].
    destruct p; apply beq_eq; assumption.
Qed.

Lemma class_cases : forall t u, glyph_ok u ->
  match class_of t u with
  | CLong => u = G 0x30FC
  | CRepeat m => u = G (match imDakuten m with false => 0x309D | true => 0x309E end + off t) /\ (m = RepeatPlain \/ m = RepeatAccented)
  | CKana c => u = G c /\ is_kana t c = true
  | COther => is_long u = false /\ repeat_of t u = None /\ match u with G c => is_kana t c = false | _ => True end
  end.
Proof.
  intros t u Hu. unfold class_of. destruct (is_long u) eqn:E1.
  - destruct u as [c|]; [|discriminate]. cbn in E1. f_equal. lia.
  - destruct (repeat_of t u) as [m|] eqn:E2.
    + destruct u as [c|]; [|discriminate]. cbn [repeat_of] in E2.
      destruct (c =? 0x309D + off t) eqn:A; [injection E2 as <-; cbn; split; [f_equal; lia|auto]|].
      destruct (c =? 0x309E + off t) eqn:B; [injection E2 as <-; cbn; split; [f_equal; lia|auto]|discriminate].
    + destruct u as [c|]; [|auto]. destruct (is_kana t c) eqn:E3; auto.
Qed.
Lemma emit_kana : forall fl ltr t, kana_type t -> forall us g s prev, Forall glyph_ok us -> gstate t g s ->
  emit (other_kana t) fl ltr t prev (groups t g s us) = gtext (shift_text t (map G g ++ us)).
Proof.
  intros fl ltr t Ht. assert (NR : ctEqb (other_kana t) Romaji = false) by (destruct t; reflexivity).
  induction us as [|u us IH]; intros g s prev Hok Hg.
  - cbn [groups emit is_long_end]. pose proof (group_kana fl ltr t g s prev false Ht Hg) as K.
    destruct (processKana (other_kana t) fl ltr t (text g) prev false) as [o p]. cbn [fst long_if] in K.
    unfold apostrophe. rewrite NR. cbn [andb end_bytes app]. rewrite app_nil_r. exact K.
  - inversion Hok as [|? ? Hu Hus]; subst. cbn [groups]. pose proof (class_cases t u Hu) as CC.
    assert (Bd : boundary t g s u -> is_long u = false -> forall o, o = gtext (shift_text t (map G g)) ->
      forall w, w = gtext (shift_text t (u :: us)) -> o ++ w = gtext (shift_text t (map G g ++ u :: us))).
    { intros B L o -> w ->. unfold shift_text. rewrite (walk_split t (shift_kana t) g s u us Hg B), L, gtext_app. reflexivity. }
    destruct (class_of t u) as [|m|c|] eqn:C.
    + cbn [emit is_long_end end_bytes]. pose proof (group_kana fl ltr t g s prev true Ht Hg) as K.
      destruct (processKana (other_kana t) fl ltr t (text g) prev true) as [o p]. cbn [fst long_if] in K.
      unfold apostrophe. rewrite NR. cbn [andb app]. rewrite (IH [] SNew p Hus) by (left; auto). cbn [map app].
      unfold shift_text in *. rewrite (walk_split t (shift_kana t) g s u us Hg) by (unfold boundary; rewrite C; exact I).
      subst u. change (is_long (G 0x30FC)) with true. cbv iota. rewrite gtext_app, <- K. reflexivity.
    + cbn [emit is_long_end end_bytes]. pose proof (group_kana fl ltr t g s prev false Ht Hg) as K.
      destruct (processKana (other_kana t) fl ltr t (text g) prev false) as [o p]. cbn [fst long_if] in K. rewrite app_nil_r in K.
      unfold apostrophe. rewrite NR. cbn [andb app]. rewrite (IH [] SNew p Hus) by (left; auto). cbn [map app].
      destruct CC as [-> CC].
      apply Bd; [unfold boundary; rewrite C; exact I| |exact K|].
      * destruct CC as [-> | ->]; destruct t; reflexivity.
      * unfold shift_text. rewrite walk_skip, gtext_cons by (destruct CC as [-> | ->]; destruct t; reflexivity).
        f_equal. destruct CC as [-> | ->]; destruct t; try reflexivity; exfalso; apply Ht; reflexivity.
    + destruct CC as [-> Kc]. destruct (extends t g s c) as [s'|] eqn:X.
      * rewrite (IH (g ++ [c]) s' prev Hus) by (eapply extend_state; eassumption).
        rewrite map_app, <- app_assoc. reflexivity.
      * cbn [emit is_long_end end_bytes]. pose proof (group_kana fl ltr t g s prev false Ht Hg) as K.
        destruct (processKana (other_kana t) fl ltr t (text g) prev false) as [o p]. cbn [fst long_if] in K. rewrite app_nil_r in K.
        unfold apostrophe. rewrite NR. cbn [andb app]. rewrite (IH [c] (fresh t c) p Hus) by (apply fresh_state; exact Kc).
        apply Bd; [unfold boundary; rewrite C; exact X| |exact K|reflexivity].
        unfold class_of in C. destruct (is_long (G c)); [discriminate|reflexivity].
    + destruct CC as [L [R Kc]].
      cbn [emit is_long_end]. pose proof (group_kana fl ltr t g s prev false Ht Hg) as K.
      destruct (processKana (other_kana t) fl ltr t (text g) prev false) as [o p]. cbn [fst long_if] in K. rewrite app_nil_r in K.
      unfold apostrophe. rewrite NR. cbn [andb app]. rewrite (IH [] SNew p Hus) by (left; auto). cbn [map app].
      apply Bd; [unfold boundary; rewrite C; exact I|exact L|exact K|].
      unfold shift_text. rewrite walk_skip, gtext_cons.
      * f_equal. unfold end_bytes. rewrite NR. unfold shift_kana. destruct u as [c|]; [|reflexivity].
        rewrite Kc. unfold is_repeat. cbn [repeat_of] in R.
        destruct (c =? 0x309D + off t); [discriminate|]. destruct (c =? 0x309E + off t); [discriminate|]. reflexivity.
      * destruct u as [c|]; [|exact I]. destruct (is_tsu t c) eqn:E; [|reflexivity]. apply tsu_is_kana in E. congruence.
Qed.
Lemma kana_to_kana : forall fl ltr t us, kana_type t -> Forall glyph_ok us ->
  convertFrom (other_kana t) fl ltr t (gtext us) = Val (gtext (shift_text t us)).
Proof.
  intros fl ltr t us Ht Hok. unfold convertFrom.
  replace (ctEqb t (other_kana t)) with false by (destruct t; try reflexivity; exfalso; apply Ht; reflexivity).
  replace (match t with Romaji => fromRomaji (other_kana t) fl (gtext us) [] | _ => fromKana (other_kana t) fl ltr (gtext us) t end)
    with (fromKana (other_kana t) fl ltr (gtext us) t) by (destruct t; try reflexivity; exfalso; apply Ht; reflexivity).
  rewrite fromKana_emit by assumption. f_equal. apply (emit_kana fl ltr t Ht us [] SNew None Hok). left. auto.
Qed.
