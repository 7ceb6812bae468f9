(** Lemmas about Romaji spellings and the kinds of Kana. *)
From Verif Require Import BaseFacts KanaModel ConverterModel JoinSpec KanaRomajiSpec KanaProofs Utf8Proofs BlockProofs.

Arguments N.ltb : simpl never.
Arguments N.leb : simpl never.
Arguments N.eqb : simpl never.
Arguments N.add : simpl never.

Definition expected (k : KanaData) (h u : bool) : bytes :=
  match spellings (hira k) with
  | None => romaji k
  | Some (d, x, y) =>
      if h then (if u then (if beq d x then y else x) else x) else if u then y else d
  end.
Definition flags_of (h u : bool) : ConvertFlags := (if h then 1 else 0) + (if u then 2 else 0).
Lemma romaji_flags : forall k flags,
  getRomaji k flags = getRomaji k (flags_of (hasFlag flags FlagHepburn) (hasFlag flags FlagKunrei)).
Proof.
  intros k flags. unfold getRomaji.
  assert (H : forall h u, hasFlag (flags_of h u) FlagHepburn = h /\ hasFlag (flags_of h u) FlagKunrei = u)
    by (intros [] []; vm_compute; split; reflexivity).
  destruct (H (hasFlag flags FlagHepburn) (hasFlag flags FlagKunrei)) as [-> ->]. reflexivity.
Qed.
Definition spelled (k : Kana) : bool :=
  forallb (fun h => forallb (fun u => beq (getRomaji (kd k) (flags_of h u)) (expected (kd k) h u)) [true; false]) [true; false].
Lemma spelled_all : forallb spelled allKana = true.
Proof. vm_compute. reflexivity. Qed.
Lemma romaji_expected : forall k flags, In k allKana ->
  getRomaji (kd k) flags = expected (kd k) (hasFlag flags FlagHepburn) (hasFlag flags FlagKunrei).
Proof.
  intros k flags Hk. rewrite romaji_flags. pose proof spelled_all as H. rewrite forallb_forall in H.
  specialize (H k Hk). unfold spelled in H. rewrite forallb_forall in H.
  set (h := hasFlag flags FlagHepburn). set (u := hasFlag flags FlagKunrei).
  specialize (H h). rewrite forallb_forall in H.
  apply beq_eq. apply H; [destruct h|destruct u]; cbn [In]; auto.
Qed.

Lemma expected_letter : forall k h u, In k allKana -> exists c r, expected (kd k) h u = c :: r /\ 0x61 <= c <= 0x7A.
Proof.
  intros k h u Hk.
  assert (A : forallb (fun k => forallb (fun h => forallb (fun u =>
            match expected (kd k) h u with c :: _ => (0x61 <=? c) && (c <=? 0x7A) | [] => false end)
            [true; false]) [true; false]) allKana = true) by (vm_compute; reflexivity).
  rewrite forallb_forall in A. specialize (A k Hk). rewrite forallb_forall in A. specialize (A h).
  rewrite forallb_forall in A. specialize (A ltac:(destruct h; cbn [In]; auto) u ltac:(destruct u; cbn [In]; auto)).
  destruct (expected (kd k) h u) as [|c r]; [discriminate|]. exists c, r. split; [reflexivity|lia].
Qed.
Lemma sokuon_doubled : forall k flags, In k allKana ->
  getSokuonRomaji (kd k) flags = doubled (getRomaji (kd k) flags).
Proof.
  intros k flags Hk. unfold getSokuonRomaji, doubled. rewrite romaji_expected by exact Hk.
  destruct (expected_letter k (hasFlag flags FlagHepburn) (hasFlag flags FlagKunrei) Hk) as [c [r [-> _]]].
  cbn [nth]. reflexivity.
Qed.
Lemma romaji_letter : forall k flags, In k allKana -> exists c r, getRomaji (kd k) flags = c :: r /\ 0x61 <= c <= 0x7A.
Proof. intros k flags Hk. rewrite romaji_expected by exact Hk. apply expected_letter. exact Hk. Qed.

(** ** Accented Kana *)
Definition range : list N := map (fun i => 0x3041 + N.of_nat i) (seq 0 0xBF).
Lemma in_range : forall c, 0x3041 <= c < 0x3100 -> In c range.
Proof.
  intros c H. unfold range. apply in_map_iff. exists (N.to_nat (c - 0x3041)). split; [lia|].
  apply in_seq. lia.
Qed.
Definition has_plain (m : N) (b : bytes) : bool :=
  match decode b with
  | x :: _ => existsb (fun c => match composition c m with Some y => y =? x | None => false end) range
  | [] => false
  end.
Lemma has_plain_iff : forall m k, In k allKana ->
  has_plain m (hira (kd k)) = true <-> exists a, accented m a (hira (kd k)).
Proof.
  intros m k Hk. unfold has_plain. split.
  - intro H. pose proof (hira_text k Hk) as T. unfold hira_codes in T.
    destruct (decode (hira (kd k))) as [|x r]; [discriminate|].
    apply existsb_exists in H. destruct H as [c [_ H]].
    destruct (composition c m) as [y|] eqn:E; [|discriminate]. apply N.eqb_eq in H. subst y.
    exists (text (c :: r)). exists c, x, r. split; [exact E|]. split; [reflexivity|exact T].
  - intros [a [c [x [r [E [_ H]]]]]]. destruct (composition_scalar _ _ _ E) as [_ Sx].
    rewrite H, text_cons. rewrite decode_enc by exact Sx. apply existsb_exists. exists c. split.
    + apply in_range. destruct (N.lt_ge_cases c 0x3041) as [L|L].
      * rewrite composition_outside in E by lia. discriminate.
      * destruct (N.lt_ge_cases c 0x3100) as [L'|L']; [lia|].
        rewrite composition_outside in E by lia. discriminate.
    + rewrite E. apply N.eqb_refl.
Qed.
Lemma kinds_checked : forallb (fun k => Bool.eqb (isDakuten k) (has_plain 0x3099 (hira (kd k)))
  && Bool.eqb (isHanDakuten k) (has_plain 0x309A (hira (kd k)))) allKana = true.
Proof. vm_compute. reflexivity. Qed.
Lemma kinds : forall k, In k allKana ->
  (isDakuten k = true <-> exists a, accented 0x3099 a (hira (kd k)))
  /\ (isHanDakuten k = true <-> exists a, accented 0x309A a (hira (kd k))).
Proof.
  intros k Hk. rewrite <- !has_plain_iff by exact Hk. pose proof kinds_checked as H.
  rewrite forallb_forall in H. specialize (H k Hk). rewrite andb_true_iff in H. destruct H as [H1 H2].
  apply Bool.eqb_prop in H1. apply Bool.eqb_prop in H2. rewrite H1, H2. split; reflexivity.
Qed.

(** ** Size *)
Lemma sizes_checked : forallb (fun k => let cs := decode (hira (kd k)) in
  Bool.eqb (isMonograph (kd k)) (len cs =? 1) && Bool.eqb (isDigraph (kd k)) (len cs =? 2)
  && Bool.eqb (isSmall (kd k)) (match cs with [c] => mem c small_letters | _ => false end)) allKana = true.
Proof. vm_compute. reflexivity. Qed.
Lemma sizes : forall k cs, In k allKana -> chars cs -> hira (kd k) = text cs ->
  (isMonograph (kd k) = true <-> len cs = 1) /\ (isDigraph (kd k) = true <-> len cs = 2)
  /\ (isSmall (kd k) = true <-> exists c, cs = [c] /\ In c small_letters).
Proof.
  intros k cs Hk Hc Ht. pose proof sizes_checked as H. rewrite forallb_forall in H. specialize (H k Hk).
  cbv zeta in H. rewrite Ht, decode_text in H by exact Hc. rewrite !andb_true_iff in H. destruct H as [[H1 H2] H3].
  apply Bool.eqb_prop in H1. apply Bool.eqb_prop in H2. apply Bool.eqb_prop in H3. rewrite H1, H2, H3.
  split; [apply N.eqb_eq|]. split; [apply N.eqb_eq|]. split.
  - destruct cs as [|c [|x r]]; try discriminate. intro M. exists c. split; [reflexivity|].
    unfold mem in M. apply existsb_exists in M. destruct M as [z [Hz E]]. apply N.eqb_eq in E. subst z. exact Hz.
  - intros [c [-> Hin]]. unfold mem. apply existsb_exists. exists c. split; [exact Hin|apply N.eqb_refl].
Qed.

(** ** Iteration marks *)
Lemma mark_accented : forall p e flags, In p allKana -> In e allKana ->
  accented 0x3099 (hira (kd p)) (hira (kd e)) ->
  markGet RepeatAccented Romaji flags (Some p) = getRomaji (kd e) flags
  /\ markGet RepeatPlain Romaji flags (Some e) = getRomaji (kd p) flags.
Proof.
  intros p e flags Hp He H. unfold markGet, RepeatAccented, RepeatPlain. cbn [imDakuten]. cbv zeta.
  rewrite (proj2 (dakuten_link p e Hp He) H). rewrite (proj2 (plain_link p e Hp He) (or_introl H)).
  split; reflexivity.
Qed.
Lemma mark_semi : forall p e flags, In p allKana -> In e allKana ->
  accented 0x309A (hira (kd p)) (hira (kd e)) ->
  markGet RepeatPlain Romaji flags (Some e) = getRomaji (kd p) flags.
Proof.
  intros p e flags Hp He H. unfold markGet, RepeatPlain. cbn [imDakuten]. cbv zeta.
  rewrite (proj2 (plain_link p e Hp He) (or_intror H)). reflexivity.
Qed.
Lemma mark_none : forall p flags, In p allKana ->
  ((forall e, In e allKana -> ~ accented 0x3099 (hira (kd p)) (hira (kd e))) ->
   markGet RepeatAccented Romaji flags (Some p) = getRomaji (kd p) flags)
  /\ ((forall e, In e allKana -> ~ accented 0x3099 (hira (kd e)) (hira (kd p))
                              /\ ~ accented 0x309A (hira (kd e)) (hira (kd p))) ->
   markGet RepeatPlain Romaji flags (Some p) = getRomaji (kd p) flags).
Proof.
  intros p flags Hp. unfold markGet, RepeatAccented, RepeatPlain. cbn [imDakuten]. cbv zeta. split; intro H.
  - destruct (kDakuten p) as [d|] eqn:E; [|reflexivity]. exfalso.
    destruct (link_member p d Hp (or_introl E)) as [e [He Ee]]. subst d.
    exact (H e He (proj1 (dakuten_link p e Hp He) E)).
  - destruct (kPlain p) as [d|] eqn:E; [|reflexivity]. exfalso.
    destruct (link_member p d Hp (or_intror (or_intror E))) as [e [He Ee]]. subst d.
    destruct (H e He) as [N1 N2]. destruct (proj1 (plain_link e p He Hp) E) as [A|A]; auto.
Qed.

(** ** Flags *)
Lemma has_bit : forall flags i, hasFlag flags (2 ^ i) = N.testbit flags i.
Proof.
  intros flags i. unfold hasFlag. destruct (N.testbit flags i) eqn:E.
  - destruct (N.eqb_spec (N.land flags (2 ^ i)) 0) as [H|H]; [|reflexivity]. exfalso.
    apply (f_equal (fun x => N.testbit x i)) in H. rewrite N.land_spec, E, N.pow2_bits_true, N.bits_0 in H. discriminate.
  - destruct (N.eqb_spec (N.land flags (2 ^ i)) 0) as [H|H]; [reflexivity|]. exfalso. apply H.
    apply N.bits_inj. intro j. rewrite N.land_spec, N.bits_0. destruct (N.eq_dec i j) as [->|Hn].
    + rewrite E. reflexivity.
    + rewrite N.pow2_bits_false by exact Hn. apply andb_false_r.
Qed.
Lemma flag_text : forall flags,
  flagString flags = if flags =? 0 then b_ "None"
    else separated (b_ "|") (map snd (filter (fun p => N.testbit flags (fst p))
           [(0, b_ "Hepburn"); (1, b_ "Kunrei"); (2, b_ "NoProlongMark"); (3, b_ "RemoveSpaces")])).
Proof.
  intro flags. unfold flagString. change FlagNone with 0. destruct (flags =? 0); [reflexivity|].
  change FlagHepburn with (2 ^ 0). change FlagKunrei with (2 ^ 1).
  change FlagNoProlongMark with (2 ^ 2). change FlagRemoveSpaces with (2 ^ 3). rewrite !has_bit.
  cbn [filter fst].
  destruct (N.testbit flags 0), (N.testbit flags 1), (N.testbit flags 2), (N.testbit flags 3); reflexivity.
Qed.
