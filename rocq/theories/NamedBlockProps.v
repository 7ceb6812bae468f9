(** Properties of named blocks: which ones can be made, how they are written and what the text tells. *)
From Verif Require Import BaseFacts StringProofs StringProps MapProofs ErrArgsProps LoadLogErrors NamedBlockModel NamedBlockSpec.
Open Scope N_scope.
Arguments N.mul : simpl never. Arguments N.add : simpl never. Arguments N.sub : simpl never.

Lemma rows : forall s e, (s mod 16 =? 0) && (e mod 16 =? 15) = true <-> whole_rows s e.
Proof.
  intros s e. rewrite andb_true_iff, !N.eqb_eq. unfold whole_rows. rewrite <- !N.mod_divide by lia.
  pose proof (N.div_mod e 16 ltac:(lia)) as D. pose proof (N.mod_lt e 16 ltac:(lia)) as M. split; intros [H1 H2]; (split; [exact H1|]).
  - replace (e + 1) with ((e / 16 + 1) * 16) by lia. apply N.mod_mul. lia.
  - pose proof (N.div_mod (e + 1) 16 ltac:(lia)) as D'. rewrite H2 in D'. nia.
Qed.

Lemma when : forall (A : Type) (c : bool) (x y : A), (if c then Some x else None) = Some y <-> c = true /\ x = y.
Proof. intros A [|] x y; split; [intro H; split; [reflexivity|congruence]|intros [_ ->]; reflexivity|discriminate|intros [H _]; discriminate H]. Qed.
(** C139: a block of one code, a range and an official block compile just if the codes are not ASCII, not beyond Unicode, in order
    and in whole rows for official blocks; a block then has what it was made of *)
Theorem C139_made : forall s e v n b,
  (makeOne s = Some b <-> codes_from_to s s /\ b = MkNBlock (s, s) None [])
  /\ (makeUnofficial s e = Some b <-> codes_from_to s e /\ s <> e /\ b = MkNBlock (s, e) None [])
  /\ (makeOfficial s e v n = Some b <-> codes_from_to s e /\ whole_rows s e /\ b = MkNBlock (s, e) (Some v) n).
Proof.
  intros s e v n b. unfold makeOne, makeUnofficial, makeOfficial, checkLess, checkRange, codes_from_to, MaxAscii, MaxUnicode. rewrite <- rows.
  split; [|split]; rewrite when; split; intros H.
  - destruct H as [H E]. split; [lia|]. symmetry. exact E.
  - destruct H as [H E]. split; [lia|]. symmetry. exact E.
  - destruct H as [H E]. split; [lia|]. split; [lia|]. symmetry. exact E.
  - destruct H as [H [R E]]. split; [lia|]. symmetry. exact E.
  - destruct H as [H E]. split; [lia|]. split; [lia|]. symmetry. exact E.
  - destruct H as [H [R E]]. split; [lia|]. symmetry. exact E.
Qed.
Print Assumptions C139_made.

(** all blocks that can be made *)
Definition any_block (b : NBlock) : Prop :=
  (exists s, makeOne s = Some b) \/ (exists s e, makeUnofficial s e = Some b) \/ (exists s e v n, makeOfficial s e v n = Some b).
Lemma any_codes : forall b, any_block b -> codes_from_to (fst (nRange b)) (snd (nRange b)) /\ (nVersion b = None -> nName b = []).
Proof.
  intros b [(s & H)|[(s & e & H)|(s & e & v & n & H)]].
  - apply (proj1 (C139_made s s (MkVersion [] 0 0) [] b)) in H. destruct H as [H ->]. split; [exact H|reflexivity].
  - apply (proj1 (proj2 (C139_made s e (MkVersion [] 0 0) [] b))) in H. destruct H as [H [_ ->]]. split; [exact H|reflexivity].
  - apply (proj2 (proj2 (C139_made s e v n b))) in H. destruct H as [H [_ ->]]. split; [exact H|discriminate].
Qed.
(** C139: range is the number of codes for which the block holds *)
Theorem C139_range : forall b, any_block b -> exists cs, NoDup cs /\ (forall c, In c cs <-> inBlock (nRange b) c = true) /\ len cs = blockRange (nRange b).
Proof.
  intros b H. destruct (any_codes b H) as [(H1 & H2 & H3) _]. destruct b as [[s e] v n]. cbn [nRange fst snd] in *. unfold blockRange, inBlock. cbn [fst snd].
  exists (map N.of_nat (seq (N.to_nat s) (N.to_nat (e - s + 1)))). split; [|split].
  - apply FinFun.Injective_map_NoDup; [intros x y E; lia|apply seq_NoDup].
  - intros c. rewrite in_map_iff. split.
    + intros (x & <- & I). apply in_seq in I. lia.
    + intros I. exists (N.to_nat c). split; [lia|]. apply in_seq. lia.
  - unfold len. rewrite map_length, seq_length. lia.
Qed.
Print Assumptions C139_range.

Lemma hex_shown : forall c, exists t, toUnicode c NoBrackets = Val t /\ hex_code t c.
Proof. intros c. destruct (C08_to_hex 4 c Upper 4) as (s & E & D & M & F). exists s. split; [apply (E NoBrackets)|]. split; [exact D|]. split; [exact M|exact F]. Qed.
(** C139: a block is written as its name, or else its first and last code, and its version *)
Theorem C139_written : forall b, any_block b -> exists t, writeBlock b = Val t /\ block_text b t /\ forall u, block_text b u -> u = t.
Proof.
  intros b H. destruct (any_codes b H) as [_ Hn]. destruct b as [[s e] v n]. cbn [nRange nVersion nName fst snd] in *.
  assert (X : exists t, writeBlock (MkNBlock (s, e) v n) = Val t /\ block_text (MkNBlock (s, e) v n) t).
  { unfold writeBlock. cbn [nName nRange nVersion fst snd]. destruct n as [|c n].
    - destruct (hex_shown s) as (hs & Es & Hs). destruct (hex_shown e) as (he & Ee & He). rewrite Es, Ee. cbn [obind]. eexists. split; [reflexivity|]. destruct v as [v|].
      + unfold writeVersion. rewrite <- !app_assoc.
        exact (bt_range_version (MkNBlock (s, e) (Some v) []) hs he v _ _ eq_refl eq_refl Hs He (to_string_written _) (to_string_written _)).
      + rewrite app_nil_r. exact (bt_range (MkNBlock (s, e) None []) hs he eq_refl eq_refl Hs He).
    - cbn [obind]. eexists. split; [reflexivity|]. destruct v as [v|]; [|specialize (Hn eq_refl); discriminate Hn].
      unfold writeVersion. rewrite <- (app_assoc (b_ "v")), <- !app_assoc. refine (bt_name (MkNBlock (s, e) (Some v) (c :: n)) v _ _ _ eq_refl (to_string_written _) (to_string_written _)). discriminate. }
  destruct X as (t & E & T). exists t. split; [exact E|]. split; [exact T|]. intros u U.
  assert (One : forall a b c, hex_code a c -> hex_code b c -> a = b).
  { clear. intros a b c [A1 [A2 A3]] [B1 [B2 B3]]. exact (shown_unique a b c (conj A1 (conj A3 A2)) (conj B1 (conj B3 B2))). }
  destruct T, U; try congruence; repeat match goal with H : nVersion _ = Some _ |- _ => cbn [nVersion] in H end;
    try match goal with H1 : ?v = Some ?a, H2 : ?v = Some ?b |- _ => assert (a = b) by congruence; subst b end;
    repeat match goal with H1 : hex_code ?a ?c, H2 : hex_code ?b ?c |- _ => first [constr_eq a b; fail 1|pose proof (One _ _ _ H1 H2); subst b] end;
    repeat match goal with H1 : written ?a ?c, H2 : written ?b ?c |- _ => first [constr_eq a b; fail 1|pose proof (written_one _ _ _ H1 H2); subst b] end; reflexivity.
Qed.
Print Assumptions C139_written.

Lemma hex_end : forall t c, hex_code t c -> exists r x, t = r ++ [x] /\ is_upper_hex x.
Proof.
  intros t c [(ds & _ & _ & Ne & _) [_ F]]. destruct (exists_last Ne) as (r & x & ->). exists r, x. split; [reflexivity|]. apply Forall_app in F. destruct F as [_ F].
  apply Forall_cons_iff in F. exact (proj1 F).
Qed.
Lemma split_comma : forall a b x y, Forall is_upper_hex a -> Forall is_upper_hex b -> a ++ 44 :: x = b ++ 44 :: y -> a = b /\ x = y.
Proof.
  intros a. induction a as [|c a IH]; intros [|d b] x y Ha Hb E; cbn [app] in E.
  - split; congruence.
  - exfalso. assert (d = 44) by congruence. subst d. apply Forall_cons_iff in Hb. destruct Hb as [[[? ?]|[? ?]] _]; lia.
  - exfalso. assert (c = 44) by congruence. subst c. apply Forall_cons_iff in Ha. destruct Ha as [[[? ?]|[? ?]] _]; lia.
  - apply Forall_cons_iff in Ha, Hb. destruct (IH b x y (proj2 Ha) (proj2 Hb)) as [-> ->]; [congruence|]. split; [congruence|reflexivity].
Qed.
Lemma comma : forall h e : bytes, h ++ b_ ", end=" ++ e = h ++ 44 :: (b_ " end=" ++ e).
Proof. reflexivity. Qed.
(** C139: blocks that are not official are written alike just if they have the same codes, and never like an official one *)
Theorem C139_tells : forall a b t, any_block a -> any_block b -> nVersion a = None -> writeBlock a = Val t -> writeBlock b = Val t -> a = b.
Proof.
  intros a b t Ha Hb Va Ea Eb. destruct (C139_written a Ha) as (t1 & E1 & T1 & _). destruct (C139_written b Hb) as (t2 & E2 & T2 & _).
  assert (X1 : t1 = t) by congruence. assert (X2 : t2 = t) by congruence. subst t1 t2. destruct (any_codes a Ha) as [_ Na]. specialize (Na Va).
  inversion T1 as [s e N1 V1 Hs He E|? ? ? ? ? ? V1|? ? ? ? V1]; [|congruence..].
  assert (Last : forall (p q : bytes) u, b_ "start=" ++ s ++ b_ ", end=" ++ e = u -> u = p ++ b_ ")" -> False).
  { intros p _ u Q1 Q2. destruct (hex_end _ _ He) as (r & x & -> & Hx). rewrite Q2 in Q1. change (b_ ")") with [41] in Q1. rewrite !app_assoc in Q1. apply app_inj_tail in Q1. destruct Q1 as [_ Q1]. unfold is_upper_hex, is_digit in Hx.
    destruct Hx as [[? ?]|[? ?]]; lia. }
  inversion T2 as [s' e' N2 V2 Hs' He' E'|? ? v m y N2 V2 ? ? ? ? E'|v m y N2 V2 ? ? E'].
  - rewrite <- E in E'. apply app_inv_head in E'. rewrite !comma in E'. apply split_comma in E'; [|exact (proj2 (proj2 Hs'))|exact (proj2 (proj2 Hs))].
    destruct E' as [-> E']. apply app_inv_head in E'. subst e'.
    destruct a as [[a1 a2] va na], b as [[b1 b2] vb nb]. cbn [nRange nVersion nName fst snd] in *. subst.
    rewrite (denotes_fun 16 s b1 a1 (proj1 Hs') (proj1 Hs)), (denotes_fun 16 e b2 a2 (proj1 He') (proj1 He)). reflexivity.
  - exfalso. refine (Last _ [] t E _). symmetry. rewrite <- E'. rewrite !app_assoc. reflexivity.
  - exfalso. refine (Last _ [] t E _). symmetry. rewrite <- E'. rewrite !app_assoc. reflexivity.
Qed.
Print Assumptions C139_tells.

(** the tables *)
Definition name_of (a : args) : bytes := snd a.
Definition range_of (a : args) : block := fst (fst a).
Fixpoint all_differ (l : list bytes) : bool := match l with [] => true | x :: r => negb (existsb (beq x) r) && all_differ r end.
Lemma all_differ_ok : forall l, all_differ l = true -> NoDup l.
Proof.
  induction l as [|x l IH]; intro H; [constructor|]. cbn [all_differ] in H. apply andb_true_iff in H. destruct H as [H1 H2]. constructor; [|exact (IH H2)].
  intro I. assert (E : existsb (beq x) l = true); [|rewrite E in H1; discriminate H1]. apply existsb_exists. exists x. split; [exact I|]. apply beq_eq. reflexivity.
Qed.
Lemma nodup_map : forall (A B : Type) (f : A -> B) l a b, NoDup (map f l) -> In a l -> In b l -> f a = f b -> a = b.
Proof.
  intros A B f l a b. induction l as [|x l IH]; intros D Ia Ib E; [destruct Ia|]. cbn [map] in D. inversion D as [|? ? D1 D2]; subst.
  destruct Ia as [->|Ia], Ib as [->|Ib]; [reflexivity| | |exact (IH D2 Ia Ib E)]; exfalso; apply D1; [rewrite E|rewrite <- E]; apply in_map; assumption.
Qed.
Fixpoint apart (l : list args) : bool :=
  match l with
  | [] => true
  | a :: r => forallb (fun b => (snd (range_of a) <? fst (range_of b)) || (snd (range_of b) <? fst (range_of a))) r && apart r
  end.
Lemma apart_ok : forall l c, apart l = true -> forall a b, In a l -> In b l -> inBlock (range_of a) c = true -> inBlock (range_of b) c = true -> a = b.
Proof.
  intros l c. induction l as [|x l IH]; intros D a b Ia Ib Ha Hb; [destruct Ia|]. cbn [apart] in D. apply andb_true_iff in D. destruct D as [D1 D2].
  rewrite forallb_forall in D1. unfold inBlock in *.
  destruct Ia as [->|Ia], Ib as [->|Ib]; [reflexivity|specialize (D1 b Ib); lia|specialize (D1 a Ia); lia|exact (IH D2 a b Ia Ib Ha Hb)].
Qed.
Lemma tables_apart : apart official = true. Proof. vm_compute. reflexivity. Qed.
Definition shown_as (a : args) : bytes := match made a with Some x => match writeBlock x with Val t => t | _ => [] end | None => [] end.
(** C139: every block of the tables compiles, has the codes that the tests of C14 use and is not empty; different blocks have
    different texts and no code in common, so that a code and a text have at most one block *)
Theorem C139_tables :
  map range_of HiraganaArgs = HiraganaBlocks /\ map range_of KatakanaArgs = KatakanaBlocks /\ map range_of CommonKanjiArgs = CommonKanjiBlocks
  /\ map range_of RareKanjiArgs = RareKanjiBlocks /\ map range_of PunctuationArgs = PunctuationBlocks /\ map range_of SymbolArgs = SymbolBlocks
  /\ map range_of LetterArgs = LetterBlocks /\ map range_of NonSpacingArgs = NonSpacingBlocks /\ range_of CommonKanaArgs = CommonKanaBlock
  /\ (forall a, In a (CommonKanaArgs :: official) -> exists b v, made a = Some b /\ nRange b = range_of a /\ nName b = name_of a /\ nVersion b = Some v)
  /\ (forall a b c, In a official -> In b official -> inBlock (range_of a) c = true -> inBlock (range_of b) c = true -> a = b).
Proof.
  repeat (split; [reflexivity|]). split.
  - intros a I. assert (A : forallb (fun a => match made a with Some b => true | None => false end) (CommonKanaArgs :: official) = true) by (vm_compute; reflexivity).
    rewrite forallb_forall in A. specialize (A a I). destruct (made a) as [b|] eqn:E; [|discriminate A]. destruct a as [[[s e] v] n]. cbn [made] in E.
    apply (proj2 (proj2 (C139_made s e v n b))) in E. destruct E as (_ & _ & ->). exists (MkNBlock (s, e) (Some v) n), v. repeat split.
  - intros a b c Ia Ib Ha Hb. exact (apart_ok official c tables_apart a b Ia Ib Ha Hb).
Qed.
Print Assumptions C139_tables.
(** C139: different blocks of the tables are written differently *)
Theorem C139_names : forall a b x y t, In a (CommonKanaArgs :: official) -> In b (CommonKanaArgs :: official) -> made a = Some x -> made b = Some y ->
  writeBlock x = Val t -> writeBlock y = Val t -> a = b.
Proof.
  intros a b x y t Ia Ib Ea Eb Ta Tb. apply (nodup_map _ _ shown_as (CommonKanaArgs :: official)); [apply all_differ_ok; vm_compute; reflexivity|exact Ia|exact Ib|].
  unfold shown_as. rewrite Ea, Eb, Ta, Tb. reflexivity.
Qed.
Print Assumptions C139_names.
(** blocks of the tests of the code, an official block, one code and what does not compile *)
Example C139_case : map (fun a => match made a with Some b => writeBlock b | None => Ub end) [hd CommonKanaArgs CommonKanjiArgs; CommonKanaArgs]
    = [Val (b_ "CJK Extension A (v3.0: 9, 1999)"); Val (b_ "Kana (v1.1: 6, 1993)")]
  /\ match makeOne 0x26a1 with Some b => writeBlock b | None => Ub end = Val (b_ "start=26A1, end=26A1")
  /\ match makeUnofficial 0x1f300 0x1f64f with Some b => writeBlock b | None => Ub end = Val (b_ "start=1F300, end=1F64F")
  /\ match makeOfficial 0x80 0x8f UVer1_0 [] with Some b => writeBlock b | None => Ub end = Val (b_ "start=0080, end=008F (v1.0: 10, 1991)")
  /\ makeOne 0x41 = None /\ makeUnofficial 0x3000 0x3000 = None /\ makeOfficial 0x3001 0x300f UVer1_1 (b_ "x") = None /\ makeUnofficial 0x10fffe 0x110000 = None.
Proof. vm_compute. repeat split. Qed.
