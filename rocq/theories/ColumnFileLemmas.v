(** Lemmas behind the properties of column files. *)
From Verif Require Import BaseFacts ColumnFileModel ColumnFileSpec StringModel StringProofs ColumnFileProofs.
From Coq Require Import Permutation.

Arguments N.mul : simpl never.
Arguments N.add : simpl never.
Arguments N.sub : simpl never.
Arguments N.pow : simpl never.
Arguments N.ltb : simpl never.
Arguments N.leb : simpl never.
Arguments N.eqb : simpl never.

(** ** Columns ever created *)

Lemma newColumns_spec : forall names reg cs reg', newColumns reg names = (cs, reg') ->
  map cname cs = names
  /\ Forall (registered reg') cs
  /\ (exists ext, reg' = reg ++ ext)
  /\ (NoDup reg -> NoDup reg').
Proof.
  induction names as [|n names IH]; intros reg cs reg' H; cbn [newColumns] in H.
  - inversion H; subst. repeat split; [constructor|exists []; rewrite app_nil_r; reflexivity|auto].
  - pose proof (newColumn_registered reg n) as Hn.
    destruct (newColumn reg n) as [c reg1]. cbn [fst snd] in Hn.
    destruct (newColumns reg1 names) as [cs2 reg2] eqn:E2. inversion H; subst.
    destruct Hn as [H1 [H2 [[e1 H3] H4]]].
    destruct (IH _ _ _ E2) as [I1 [I2 [[e2 I3] I4]]].
    repeat split.
    + cbn [map]. rewrite H2, I1. reflexivity.
    + constructor; [|exact I2]. unfold registered in *. rewrite I3.
      rewrite nth_error_app1; [exact H1|]. apply nth_error_Some. congruence.
    + exists (e1 ++ e2). rewrite I3, H3, app_assoc. reflexivity.
    + auto.
Qed.

Lemma columns_bijective : forall names cs reg a b,
  newColumns [] names = (cs, reg) -> In a cs -> In b cs ->
  (cnumber a = cnumber b <-> cname a = cname b).
Proof.
  intros names cs reg a b H Ha Hb. destruct (newColumns_spec _ _ _ _ H) as [_ [H2 [_ H4]]].
  rewrite Forall_forall in H2. apply (registered_inj reg); auto. apply H4. constructor.
Qed.

Lemma created_ok : forall history created reg cols,
  newColumns [] history = (created, reg) -> incl cols created -> NoDup (map cname cols) ->
  numbers_ok cols (repeat (@None nat) (List.length reg)).
Proof.
  intros history created reg cols H Hi Hnd.
  destruct (newColumns_spec _ _ _ _ H) as [_ [H2 [_ H4]]]. specialize (H4 (NoDup_nil _)).
  rewrite Forall_forall in H2. split.
  - apply Forall_forall. intros c Hc. rewrite repeat_length.
    apply nth_error_Some. specialize (H2 c (Hi c Hc)). unfold registered in H2. congruence.
  - clear H. induction cols as [|c cols IH]; [constructor|]. cbn [map] in *.
    apply NoDup_cons_iff in Hnd. destruct Hnd as [N1 N2]. constructor.
    + intro Hin. apply in_map_iff in Hin. destruct Hin as [d [Hd Hin]]. apply N1.
      assert (cname d = cname c) as <-; [|apply in_map; exact Hin].
      apply (registered_inj reg d c H4 (H2 d (Hi d (or_intror Hin))) (H2 c (Hi c (or_introl eq_refl)))).
      exact Hd.
    + apply IH; [|exact N2]. intros x Hx. apply Hi. right. exact Hx.
Qed.

(** ** Opening *)

Lemma nodup_names_dec : forall l : list bytes, {NoDup l} + {~ NoDup l}.
Proof.
  induction l as [|x l [IH|IH]].
  - left. constructor.
  - destruct (in_dec bytes_eq_dec x l) as [H|H].
    + right. intro Hn. apply NoDup_cons_iff in Hn. tauto.
    + left. constructor; assumption.
  - right. intro Hn. apply NoDup_cons_iff in Hn. tauto.
Qed.

Definition opened (hdrs : list bytes) (cols : list Column) (delim : N) (rows : list bytes)
  (reg : registry) (f : ColumnFile) : Prop :=
  file f = rows /\ delimiter f = delim /\ currentRow f = 0
  /\ rowValues f = repeat [] (List.length cols)
  /\ List.length (columnToPosition f) = List.length reg
  /\ (forall c k, In c cols -> nth_error hdrs k = Some (cname c) ->
        nth_error (columnToPosition f) (cnumber c) = Some (Some k))
  /\ (forall j, (forall c, In c cols -> cnumber c <> j) ->
        nth_error (columnToPosition f) j = nth_error (repeat None (List.length reg)) j).

Lemma open_iff : forall history created reg cols delim hl rows headers,
  newColumns [] history = (created, reg) -> incl cols created ->
  free_of 10 (hl :: rows) -> has_fields delim hl headers ->
  let accepted := cols <> [] /\ NoDup (map cname cols)
                  /\ Permutation (strip_trailing_empty headers) (map cname cols) in
  (accepted -> exists f, openFile reg (unlines (hl :: rows)) cols delim = Val f
                 /\ opened (strip_trailing_empty headers) cols delim rows reg f)
  /\ (~ accepted -> openFile reg (unlines (hl :: rows)) cols delim = Throw DomainError).
Proof.
  intros history created reg cols delim hl rows headers Hreg Hincl Hfree [Hne [Hff ->]] accepted.
  assert (Hget : getlines delim (join delim headers) = strip_trailing_empty headers)
    by (apply getlines_join; assumption).
  set (hs := strip_trailing_empty headers) in *.
  unfold openFile. rewrite getlines_unlines by exact Hfree. split.
  - intros [Hc [Hnd Hp]].
    destruct cols as [|c0 cols0] eqn:Ecols; [congruence|]. rewrite <- Ecols in *.
    rewrite emplaceColumns_some by exact Hnd. cbn [app]. rewrite Hget.
    pose proof (created_ok _ _ _ _ Hreg Hincl Hnd) as Hnum.
    destruct (processHeader_complete hs 0 [] cols (repeat None (List.length reg)) [])
      as [m [ctp [E Hm]]]; auto.
    { rewrite app_nil_r. apply Permutation_sym. exact Hp. }
    rewrite E. cbn [obind]. destruct m; [|discriminate].
    eexists. split; [reflexivity|]. unfold opened. cbn [file delimiter currentRow rowValues columnToPosition].
    destruct (processHeader_sound _ _ _ _ _ _ _ Hnd Hnum E) as [P1 [P2 [P3 P4]]].
    do 4 (split; [reflexivity|]).
    split; [rewrite P2, repeat_length; reflexivity|].
    split; [intros c k Hin Hk; apply (P3 c k Hin Hk)|].
    intros j Hj. apply P4. intros c Hin _. apply Hj. exact Hin.
  - intro Hno. destruct cols as [|c0 cols0] eqn:Ecols; [reflexivity|]. rewrite <- Ecols in *.
    destruct (nodup_names_dec (map cname cols)) as [Hnd|Hnd].
    + rewrite emplaceColumns_some by exact Hnd. cbn [app]. rewrite Hget.
      pose proof (created_ok _ _ _ _ Hreg Hincl Hnd) as Hnum.
      destruct (processHeader_no_ub hs 0 [] cols (repeat None (List.length reg)) Hnum) as [[[m ctp] E]|E];
        rewrite E; cbn [obind]; [|reflexivity].
      destruct m as [|c1 m]; [|reflexivity]. exfalso. apply Hno.
      destruct (processHeader_sound _ _ _ _ _ _ _ Hnd Hnum E) as [P1 _].
      cbn [map] in P1. rewrite app_nil_r in P1.
      unfold accepted. split; [discriminate|]. rewrite <- Ecols. split; [exact Hnd|]. apply Permutation_sym. exact P1.
    + rewrite emplaceColumns_none; [reflexivity|constructor|]. exact Hnd.
Qed.

Lemma header_accepted_iff : forall history created reg cols delim hl rows headers,
  newColumns [] history = (created, reg) -> incl cols created ->
  free_of 10 (hl :: rows) -> has_fields delim hl headers ->
  let accepted := cols <> [] /\ NoDup (map cname cols)
                  /\ Permutation (strip_trailing_empty headers) (map cname cols) in
  (accepted -> exists f, openFile reg (unlines (hl :: rows)) cols delim = Val f)
  /\ (~ accepted -> openFile reg (unlines (hl :: rows)) cols delim = Throw DomainError).
Proof.
  intros history created reg cols delim hl rows headers H1 H2 H3 H4.
  destruct (open_iff history created reg cols delim hl rows headers H1 H2 H3 H4) as [A B].
  cbv zeta. split; [|exact B]. intro H. destruct (A H) as [f [Hf _]]. exists f. exact Hf.
Qed.

Lemma strip_id : forall fs, ~ In [] fs -> strip_trailing_empty fs = fs.
Proof.
  induction fs as [|f fs IH]; intro H; [reflexivity|].
  cbn [strip_trailing_empty]. destruct fs as [|g fs].
  - destruct f; [|reflexivity]. exfalso. apply H. left. reflexivity.
  - f_equal. apply IH. intro Hi. apply H. right. exact Hi.
Qed.

(** ** Reading rows *)

Lemma readRows_snoc : forall n f f', readRows n f = Val f' ->
  readRows (S n) f = '(_, g) <- nextRow f' ;; Val g.
Proof.
  induction n as [|n IH]; intros f f' H.
  - cbn [readRows] in *. inversion H; subst. destruct (nextRow f') as [[b g]| | |]; reflexivity.
  - change (readRows (S (S n)) f) with ('(_, g) <- nextRow f ;; readRows (S n) g).
    change (readRows (S n) f) with ('(_, g) <- nextRow f ;; readRows n g) in H.
    destruct (nextRow f) as [[b g]| | |]; cbn [obind] in *; try discriminate.
    apply IH. exact H.
Qed.

Lemma read_rows : forall lines table f, file f = lines ->
  (1 <= List.length (rowValues f))%nat ->
  Forall2 (has_fields (delimiter f)) lines table ->
  Forall (fun r => List.length r = List.length (rowValues f)) table ->
  (forall k row, nth_error table k = Some row ->
     exists g, readRows (S k) f = Val g /\ rowValues g = row
       /\ currentRow g = currentRow f + N.of_nat (S k)
       /\ columnToPosition g = columnToPosition f)
  /\ exists g, readRows (List.length table) f = Val g /\ nextRow g = Val (false, g).
Proof.
  induction lines as [|line lines IH]; intros table f Hfile Hn Hl Ht.
  - inversion Hl; subst table. split.
    + intros k row Hk. rewrite nth_error_nil_none in Hk. discriminate.
    + exists f. split; [reflexivity|]. unfold nextRow. rewrite Hfile. reflexivity.
  - inversion Hl as [|? fs ? table' Hfs Hl' E1 E2]; subst.
    apply Forall_cons_iff in Ht. destruct Ht as [Ht1 Ht2].
    pose proof (nextRow_fields f line lines fs Hfile Hn Hfs) as Hnext.
    rewrite Ht1, Nat.eqb_refl in Hnext.
    set (f1 := with_row f lines fs) in *.
    destruct (IH table' f1) as [I1 [g [I2 I3]]].
    { reflexivity. }
    { cbn [f1 with_row rowValues]. rewrite Ht1. exact Hn. }
    { exact Hl'. }
    { cbn [f1 with_row rowValues]. rewrite Ht1. exact Ht2. }
    split.
    + intros k row Hk. destruct k as [|k].
      * cbn [nth_error] in Hk. inversion Hk; subst row.
        exists f1. cbn [readRows]. rewrite Hnext. cbn [obind]. repeat split; reflexivity.
      * cbn [nth_error] in Hk. destruct (I1 k row Hk) as [h [J1 [J2 [J3 J4]]]].
        exists h. change (readRows (S (S k)) f) with ('(_, g) <- nextRow f ;; readRows (S k) g).
        rewrite Hnext. cbn [obind]. split; [exact J1|]. split; [exact J2|]. split.
        -- rewrite J3. cbn [f1 with_row currentRow]. lia.
        -- rewrite J4. reflexivity.
    + exists g. split; [|exact I3]. cbn [List.length readRows]. rewrite Hnext. exact I2.
Qed.

Lemma get_fields : forall history created reg cols delim headers hl lines table,
  newColumns [] history = (created, reg) -> incl cols created -> cols <> [] ->
  NoDup (map cname cols) -> Permutation headers (map cname cols) -> ~ In [] headers ->
  free_of 10 (hl :: lines) -> has_fields delim hl headers ->
  Forall2 (has_fields delim) lines table ->
  Forall (fun r => List.length r = List.length headers) table ->
  exists f0, openFile reg (unlines (hl :: lines)) cols delim = Val f0
    /\ (forall c, getField f0 c = Throw DomainError)
    /\ (forall k row, nth_error table k = Some row ->
          exists f, readRows (S k) f0 = Val f
            /\ currentRow f = N.of_nat (S k)
            /\ (forall c p, In c cols -> nth_error headers p = Some (cname c) ->
                  exists v, nth_error row p = Some v /\ getField f c = Val v)
            /\ (forall later name, ~ In name headers ->
                  getField f (column (snd (newColumns reg later)) name) = Throw DomainError))
    /\ (exists f, readRows (List.length table) f0 = Val f /\ nextRow f = Val (false, f)).
Proof.
  intros history created reg cols delim headers hl lines table
    Hreg Hincl Hne Hnd Hp Hemp Hfree Hhl Hlines Htable.
  destruct (open_iff _ _ _ _ _ _ _ _ Hreg Hincl Hfree Hhl) as [Hopen _].
  rewrite (strip_id headers Hemp) in Hopen.
  destruct (Hopen (conj Hne (conj Hnd Hp))) as [f0 [E [O1 [O2 [O3 [O4 [O5 [O6 O7]]]]]]]].
  exists f0. split; [exact E|].
  assert (Hlen : List.length headers = List.length cols)
    by (rewrite (Permutation_length Hp), map_length; reflexivity).
  assert (Hrv : List.length (rowValues f0) = List.length headers)
    by (rewrite O4, repeat_length; congruence).
  split; [intro c; unfold getField; rewrite O3; reflexivity|].
  destruct (read_rows lines table f0 O1) as [R1 R2].
  { rewrite Hrv, Hlen. destruct cols; [congruence|cbn; lia]. }
  { rewrite O2. exact Hlines. }
  { rewrite Hrv. exact Htable. }
  split; [|exact R2].
  intros k row Hk. destruct (R1 k row Hk) as [f [F1 [F2 [F3 F4]]]].
  exists f. split; [exact F1|]. split; [rewrite F3, O3; lia|].
  assert (Hrow : List.length row = List.length headers).
  { rewrite Forall_forall in Htable. apply Htable. eapply nth_error_In. exact Hk. }
  assert (Hcr : (currentRow f =? 0) = false) by (rewrite F3, O3; apply N.eqb_neq; lia).
  split.
  - intros c p Hc Hpos. unfold getField. rewrite Hcr, F4, (O6 c p Hc Hpos), F2.
    assert ((p < List.length row)%nat) as Hlt.
    { rewrite Hrow. apply nth_error_Some. congruence. }
    destruct (nth_error row p) as [v|] eqn:Ev; [exists v; split; reflexivity|].
    apply nth_error_None in Ev. lia.
  - intros later name Hname. unfold getField. rewrite Hcr, F4.
    destruct (newColumns reg later) as [cs2 reg2] eqn:E2. cbn [snd].
    destruct (newColumns_spec _ _ _ _ E2) as [_ [_ [[ext Hext] Hnd2]]].
    destruct (newColumns_spec _ _ _ _ Hreg) as [_ [Hr [_ Hnd1]]].
    specialize (Hnd1 (NoDup_nil _)). specialize (Hnd2 Hnd1).
    destruct (newColumn_registered reg2 name) as [G1 [G2 [[ext3 G3] G4]]].
    specialize (G4 Hnd2). fold (column reg2 name) in *.
    set (c := column reg2 name) in *. set (reg3 := snd (newColumn reg2 name)) in *.
    assert (Hno : forall d, In d cols -> cnumber d <> cnumber c).
    { intros d Hd Ec. apply Hname. rewrite <- G2.
      rewrite Forall_forall in Hr. pose proof (Hr d (Hincl d Hd)) as Hdr.
      assert (Hdr3 : registered reg3 d).
      { unfold registered in *. rewrite G3, Hext. rewrite <- app_assoc.
        rewrite nth_error_app1; [exact Hdr|]. apply nth_error_Some. congruence. }
      apply (registered_inj reg3 d c G4 Hdr3 G1) in Ec. rewrite <- Ec.
      eapply Permutation_in; [apply Permutation_sym; exact Hp|]. apply in_map. exact Hd. }
    rewrite (O7 (cnumber c) Hno).
    destruct (nth_error (repeat (@None nat) (List.length reg)) (cnumber c)) as [o|] eqn:Eo; [|reflexivity].
    apply nth_error_In in Eo. apply repeat_spec in Eo. subst o. reflexivity.
Qed.

(** a row is accepted exactly when it has the right number of fields, or one
    more that is empty *)
Lemma row_accepted_iff : forall f line rest fs,
  file f = line :: rest -> (1 <= List.length (rowValues f))%nat ->
  has_fields (delimiter f) line fs ->
  let n := List.length (rowValues f) in
  (List.length fs = n -> exists g, nextRow f = Val (true, g) /\ rowValues g = fs)
  /\ (forall init, fs = init ++ [[]] -> List.length init = n ->
        exists g, nextRow f = Val (true, g) /\ rowValues g = init)
  /\ (List.length fs <> n -> (forall init, fs = init ++ [[]] -> List.length init <> n) ->
        nextRow f = Throw DomainError).
Proof.
  intros f line rest fs Hfile Hn Hfs n.
  pose proof (nextRow_fields f line rest fs Hfile Hn Hfs) as H. fold n in H.
  split; [|split].
  - intro E. rewrite E, Nat.eqb_refl in H. eexists. split; [exact H|reflexivity].
  - intros init E Hi. rewrite E, app_length, Hi in H. cbn [List.length] in H.
    rewrite removelast_last, last_last in H.
    replace (n + 1 =? n)%nat with false in H by (symmetry; apply Nat.eqb_neq; lia).
    replace (n + 1 =? S n)%nat with true in H by (symmetry; apply Nat.eqb_eq; lia).
    eexists. split; [exact H|reflexivity].
  - intros H1 H2. rewrite H. apply Nat.eqb_neq in H1. rewrite H1.
    destruct Hfs as [Hne _]. destruct (exists_last Hne) as [init [x Ex]].
    rewrite Ex, last_last. destruct x; [|rewrite andb_false_r; reflexivity].
    specialize (H2 init Ex). rewrite app_length. cbn [List.length].
    rewrite Nat.add_1_r. change (S (List.length init) =? S n)%nat with (List.length init =? n)%nat.
    destruct (Nat.eqb_spec (List.length init) n) as [Hi|Hi]; [exfalso; exact (H2 Hi)|reflexivity].
Qed.

(** ** Numbers *)

Lemma takeDigits_app : forall ds r, Forall is_digit ds ->
  (match r with [] => True | c :: _ => ~ is_digit c end) -> takeDigits (ds ++ r) = ds.
Proof.
  intros ds r H Hr. induction H as [|d ds Hd H IH]; cbn [app].
  - destruct r as [|c r]; [reflexivity|]. cbn [takeDigits]. unfold isdigit, is_digit in *.
    replace ((48 <=? c) && (c <=? 57)) with false by lia. reflexivity.
  - cbn [takeDigits]. unfold isdigit, is_digit in *.
    replace ((48 <=? d) && (d <=? 57)) with true by lia. rewrite IH. reflexivity.
Qed.
Lemma takeDigits_split : forall s, exists r, s = takeDigits s ++ r /\ Forall is_digit (takeDigits s)
  /\ (match r with [] => True | c :: _ => ~ is_digit c end).
Proof.
  induction s as [|b s IH]; cbn [takeDigits].
  - exists []. repeat split; constructor.
  - destruct (isdigit b) eqn:E.
    + destruct IH as [r [H1 [H2 H3]]]. exists r. split; [cbn [app]; rewrite <- H1; reflexivity|].
      split; [constructor; [unfold isdigit, is_digit in *; lia|exact H2]|exact H3].
    + exists (b :: s). split; [reflexivity|]. split; [constructor|].
      unfold isdigit, is_digit in *. lia.
Qed.

Lemma isspace_white : forall b, isspace b = true <-> white b.
Proof. intro b. unfold isspace, white. lia. Qed.
Lemma skipSpace_app : forall ws s, Forall white ws ->
  (match s with [] => True | c :: _ => ~ white c end) -> skipSpace (ws ++ s) = s.
Proof.
  intros ws s H Hs. induction H as [|w ws Hw H IH]; cbn [app].
  - destruct s as [|c s]; [reflexivity|]. cbn [skipSpace].
    destruct (isspace c) eqn:E; [apply isspace_white in E; contradiction|reflexivity].
  - cbn [skipSpace]. apply isspace_white in Hw. rewrite Hw. exact IH.
Qed.
Lemma skipSpace_split : forall s, exists ws, s = ws ++ skipSpace s /\ Forall white ws
  /\ (match skipSpace s with [] => True | c :: _ => ~ white c end).
Proof.
  induction s as [|b s IH]; cbn [skipSpace].
  - exists []. repeat split; constructor.
  - destruct (isspace b) eqn:E.
    + destruct IH as [ws [H1 [H2 H3]]]. exists (b :: ws). split; [cbn [app]; rewrite <- H1; reflexivity|].
      split; [constructor; [apply isspace_white; exact E|exact H2]|exact H3].
    + exists []. split; [reflexivity|]. split; [constructor|].
      intro Hw. apply isspace_white in Hw. congruence.
Qed.

(** numerals: digits only *)
Lemma digit_not_white : forall c, is_digit c -> ~ white c.
Proof. unfold is_digit, white. lia. Qed.

Definition sign_split (s1 : bytes) : bool * bytes :=
  match s1 with 43 :: r => (false, r) | 45 :: r => (true, r) | _ => (false, s1) end.
Lemma sign_split_cases : forall s1,
  (exists r, s1 = 43 :: r /\ sign_split s1 = (false, r))
  \/ (exists r, s1 = 45 :: r /\ sign_split s1 = (true, r))
  \/ (sign_split s1 = (false, s1) /\ match s1 with [] => True | c :: _ => c <> 43 /\ c <> 45 end).
Proof.
  intros [|c r]; [right; right; split; [reflexivity|exact I]|].
  destruct (N.eq_dec c 43) as [->|H1]; [left; exists r; split; reflexivity|].
  destruct (N.eq_dec c 45) as [->|H2]; [right; left; exists r; split; reflexivity|].
  right; right. split; [|split; assumption]. unfold sign_split.
  destruct c as [|p]; [reflexivity|].
  repeat (destruct p as [p|p|]; try reflexivity; try congruence).
Qed.

Lemma stoul_unfold : forall s, stoul s =
  let '(neg, s2) := sign_split (skipSpace s) in
  match takeDigits s2 with
  | [] => Throw StdInvalidArgument
  | ds => let v := decimal ds in
          if 2^64 - 1 <? v then Throw StdOutOfRange
          else Val (if neg then (2^64 - v) mod 2^64 else v)
  end.
Proof.
  intro s. unfold stoul. cbv beta iota zeta. fold (sign_split (skipSpace s)).
  destruct (sign_split (skipSpace s)) as [neg s2].
  destruct (takeDigits s2) as [|d ds]; reflexivity.
Qed.

Lemma stoul_numeral : forall s, numeral s ->
  stoul s = if 2^64 - 1 <? decimal s then Throw StdOutOfRange else Val (decimal s).
Proof.
  intros s [Hne Hd]. destruct s as [|c s]; [congruence|].
  pose proof Hd as Hd'. apply Forall_cons_iff in Hd'. destruct Hd' as [Hc _].
  rewrite stoul_unfold.
  replace (skipSpace (c :: s)) with (c :: s).
  2:{ symmetry. change (c :: s) with ([] ++ c :: s) at 1. apply skipSpace_app; [constructor|].
      apply digit_not_white. exact Hc. }
  destruct (sign_split_cases (c :: s)) as [[r [E1 E2]]|[[r [E1 E2]]|[E2 E1]]].
  { inversion E1; subst. unfold is_digit in Hc. lia. }
  { inversion E1; subst. unfold is_digit in Hc. lia. }
  rewrite E2. cbv beta iota zeta.
  assert (Ht : takeDigits (c :: s) = c :: s).
  { rewrite <- (app_nil_r (c :: s)) at 1. apply takeDigits_app; [exact Hd|exact I]. }
  rewrite Ht. reflexivity.
Qed.

Lemma number_ok : forall s max, numeral s -> decimal s < 2^64 -> max < 2^64 ->
  (max = 0 \/ decimal s <= max -> processU64 s max = Val (decimal s))
  /\ (max <> 0 -> max < decimal s -> processU64 s max = Throw DomainError).
Proof.
  intros s max Hn Hlt Hm. unfold processU64. rewrite stoul_numeral by exact Hn.
  replace (2^64 - 1 <? decimal s) with false by lia. split.
  - intros H. replace (negb (max =? 0) && (max <? decimal s)) with false by lia. reflexivity.
  - intros H1 H2. replace (negb (max =? 0) && (max <? decimal s)) with true by lia. reflexivity.
Qed.
Lemma number_too_big : forall s max, numeral s -> 2^64 <= decimal s -> processU64 s max = Throw DomainError.
Proof.
  intros s max Hn H. unfold processU64. rewrite stoul_numeral by exact Hn.
  replace (2^64 - 1 <? decimal s) with true by lia. reflexivity.
Qed.

Lemma stoul_iff : forall s v, stoul s = Val v <-> loose_number s v.
Proof.
  intros s v. rewrite stoul_unfold. split.
  - intro H. destruct (skipSpace_split s) as [ws [Hs [Hws Hns]]].
    destruct (sign_split_cases (skipSpace s)) as [[r [E1 E2]]|[[r [E1 E2]]|[E2 E1]]]; rewrite E2 in H; cbv beta iota zeta in H.
    + destruct (takeDigits_split r) as [rest [T1 [T2 T3]]].
      destruct (takeDigits r) as [|d ds] eqn:Et; [discriminate|]. rewrite <- Et in *.
      destruct (2^64 - 1 <? decimal (takeDigits r)) eqn:El; [discriminate|]. inversion H; subst v.
      rewrite Hs, E1, T1 at 1.
      apply loose_plus; auto; [|lia]. split; [rewrite Et; discriminate|exact T2].
    + destruct (takeDigits_split r) as [rest [T1 [T2 T3]]].
      destruct (takeDigits r) as [|d ds] eqn:Et; [discriminate|]. rewrite <- Et in *.
      destruct (2^64 - 1 <? decimal (takeDigits r)) eqn:El; [discriminate|]. inversion H; subst v.
      rewrite Hs, E1, T1 at 1.
      apply loose_minus; auto; [|lia]. split; [rewrite Et; discriminate|exact T2].
    + set (r := skipSpace s) in *.
      destruct (takeDigits_split r) as [rest [T1 [T2 T3]]].
      destruct (takeDigits r) as [|d ds] eqn:Et; [discriminate|]. rewrite <- Et in *.
      destruct (2^64 - 1 <? decimal (takeDigits r)) eqn:El; [discriminate|]. inversion H; subst v.
      rewrite Hs, T1 at 1.
      apply loose_plain; auto; [|lia]. split; [rewrite Et; discriminate|exact T2].
  - intro H. inversion H as [ws ds rest Hws [Hn Hd] Hr Hlt|ws ds rest Hws [Hn Hd] Hr Hlt|ws ds rest Hws [Hn Hd] Hr Hlt];
      subst s; subst v.
    + destruct ds as [|d ds]; [congruence|].
      pose proof Hd as Hd'. apply Forall_cons_iff in Hd'. destruct Hd' as [Hd1 _].
      rewrite skipSpace_app; [|exact Hws|cbn [app]; apply digit_not_white; exact Hd1].
      destruct (sign_split_cases ((d :: ds) ++ rest)) as [[r [E1 E2]]|[[r [E1 E2]]|[E2 E1]]].
      * cbn [app] in E1. inversion E1; subst. unfold is_digit in Hd1. lia.
      * cbn [app] in E1. inversion E1; subst. unfold is_digit in Hd1. lia.
      * rewrite E2. cbv beta iota zeta. rewrite takeDigits_app by assumption.
        replace (2^64 - 1 <? decimal (d :: ds)) with false by lia. reflexivity.
    + rewrite skipSpace_app; [|exact Hws|unfold white; lia].
      change (sign_split (43 :: ds ++ rest)) with (false, ds ++ rest). cbv beta iota zeta.
      rewrite takeDigits_app by assumption. destruct ds as [|d ds]; [congruence|].
      replace (2^64 - 1 <? decimal (d :: ds)) with false by lia. reflexivity.
    + rewrite skipSpace_app; [|exact Hws|unfold white; lia].
      change (sign_split (45 :: ds ++ rest)) with (true, ds ++ rest). cbv beta iota zeta.
      rewrite takeDigits_app by assumption. destruct ds as [|d ds]; [congruence|].
      replace (2^64 - 1 <? decimal (d :: ds)) with false by lia. reflexivity.
Qed.

Lemma stoul_cases : forall s, (exists v, stoul s = Val v) \/ (exists e, stoul s = Throw e).
Proof.
  intro s. rewrite stoul_unfold. destruct (sign_split (skipSpace s)) as [neg s2].
  destruct (takeDigits s2); [right; eauto|]. cbv beta iota zeta.
  destruct (2^64 - 1 <? decimal (n :: b)); eauto.
Qed.

Lemma processU64_iff : forall s max,
  (forall v, processU64 s max = Val v <-> (loose_number s v /\ (max = 0 \/ v <= max)))
  /\ ((forall v, processU64 s max <> Val v) -> processU64 s max = Throw DomainError).
Proof.
  intros s max. unfold processU64. split.
  - intro v. rewrite <- stoul_iff.
    destruct (stoul_cases s) as [[w E]|[e E]]; rewrite E; [|split; [discriminate|intros [H _]; discriminate]].
    destruct (negb (max =? 0) && (max <? w)) eqn:Em; split.
    + discriminate.
    + intros [H Hv]. inversion H; subst. lia.
    + intro H. inversion H; subst. split; [reflexivity|lia].
    + intros [H _]. exact H.
  - destruct (stoul_cases s) as [[w E]|[e E]]; rewrite E; [|reflexivity].
    destruct (negb (max =? 0) && (max <? w)); [reflexivity|]. intro H. exfalso. exact (H w eq_refl).
Qed.

(** ** Code points *)

Lemma hexVal_value : forall c, is_upper_hex c -> digit_value c = Some (hexVal c) /\ hexVal c < 16.
Proof.
  intros c H. unfold is_upper_hex, is_digit in H. unfold digit_value, hexVal.
  destruct ((48 <=? c) && (c <=? 57)) eqn:E1.
  - replace (c <=? 57) with true by lia. split; [reflexivity|lia].
  - replace ((65 <=? c) && (c <=? 70)) with true by lia.
    replace (c <=? 57) with false by lia. split; [reflexivity|lia].
Qed.

Lemma hex_denotes : forall s, s <> [] -> Forall is_upper_hex s ->
  denotes 16 s (fold_left (fun a b => a * 16 + hexVal b) s 0).
Proof.
  intros s Hne H. exists (map hexVal s). split; [|split; [|split]].
  - rewrite map_map. apply map_ext_in. intros c Hc. rewrite Forall_forall in H.
    apply hexVal_value. apply H. exact Hc.
  - apply Forall_forall. intros d Hd. apply in_map_iff in Hd. destruct Hd as [c [<- Hc]].
    rewrite Forall_forall in H. apply hexVal_value. apply H. exact Hc.
  - exact Hne.
  - unfold positional. generalize 0. clear. induction s as [|c s IH]; intro a; cbn [map fold_left]; [reflexivity|].
    apply IH.
Qed.

Lemma char32_iff : forall s,
  (forall x, convChar32 s = Val x <->
     ((len s = 4 \/ len s = 5) /\ Forall is_upper_hex s /\ denotes 16 s x))
  /\ ((forall x, convChar32 s <> Val x) -> convChar32 s = Throw DomainError).
Proof.
  intro s. unfold convChar32.
  destruct ((len s <? 4) || (5 <? len s)) eqn:El.
  { split; [|reflexivity]. intro x. split; [discriminate|]. intros [H _]. lia. }
  assert (Hex : existsb (fun i => (i <? 48) || (70 <? i) || ((i <? 65) && (57 <? i))) s = false
                <-> Forall is_upper_hex s).
  { clear El. induction s as [|c s IH]; cbn [existsb].
    - split; [constructor|reflexivity].
    - rewrite orb_false_iff, IH, Forall_cons_iff. unfold is_upper_hex, is_digit.
      assert (((c <? 48) || (70 <? c) || ((c <? 65) && (57 <? c)) = false)
              <-> (48 <= c /\ c <= 57 \/ 65 <= c /\ c <= 70)) by lia. tauto. }
  assert (Hne : s <> []) by (intros ->; cbn in El; discriminate).
  destruct (existsb _ s) eqn:E.
  - split; [|reflexivity]. intro x. split; [discriminate|]. intros [_ [H _]]. apply Hex in H. discriminate.
  - destruct Hex as [Hex _]. specialize (Hex eq_refl).
    pose proof (hex_denotes s Hne Hex) as Hd. split.
    + intro x. split.
      * intro H. inversion H; subst. split; [lia|]. split; assumption.
      * intros [_ [_ H]]. f_equal. eapply denotes_fun; eassumption.
    + intro H. exfalso. eapply H. reflexivity.
Qed.


Lemma positional_lower : forall b d r, d <> 0 -> b ^ len r <= positional b (d :: r).
Proof.
  intros b d r Hd. unfold positional. cbn [fold_left].
  rewrite N.mul_0_l, N.add_0_l.
  assert (H : forall r a, a * b ^ len r <= fold_left (fun a d => a * b + d) r a).
  { clear. induction r as [|e r IH]; intros a; cbn [fold_left].
    - rewrite len_nil, N.pow_0_r. lia.
    - rewrite len_cons, N.pow_add_r, N.pow_1_r.
      eapply N.le_trans; [|apply IH]. nia. }
  eapply N.le_trans; [|apply H]. nia.
Qed.

Lemma unicode_char32 : forall c, c < 0x100000 ->
  exists s, toUnicode c NoBrackets = Val s /\ convChar32 s = Val c.
Proof.
  intros c Hc. destruct (to_hex_spec 4 c Upper 4) as [s [H1 [H2 [H3 H4]]]].
  exists s. split; [exact (H1 NoBrackets)|].
  apply char32_iff. split; [|split; assumption].
  change (if 4 =? 0 then 4 * 2 else 4) with 4 in H3.
  destruct H3 as [L1 [L2|L2]]; [left; lia|].
  destruct s as [|x s]; [contradiction|].
  destruct H2 as [ds [D1 [D2 [_ D4]]]].
  destruct ds as [|d ds]; [discriminate|]. cbn [map] in D1. inversion D1 as [[E1 E2]].
  assert (Hd : d <> 0).
  { intros ->. apply L2. unfold digit_value in E1.
    destruct ((48 <=? x) && (x <=? 57)) eqn:G1; [inversion E1; lia|].
    destruct ((65 <=? x) && (x <=? 70)) eqn:G2; [inversion E1; lia|].
    destruct ((97 <=? x) && (x <=? 102)) eqn:G3; [inversion E1; lia|discriminate]. }
  pose proof (positional_lower 16 d ds Hd) as Hp. rewrite D4 in Hp.
  assert (Hl : len s = len ds).
  { unfold len. apply f_equal. apply (f_equal (@List.length _)) in E2. rewrite !map_length in E2. exact E2. }
  rewrite len_cons in *. rewrite Hl in *.
  assert (len ds < 5); [|lia].
  destruct (N.lt_ge_cases (len ds) 5) as [H|H]; [exact H|].
  assert (16 ^ 5 <= 16 ^ len ds) by (apply N.pow_le_mono_r; lia).
  change (16 ^ 5) with 0x100000 in *. lia.
Qed.

Lemma unicode_char32_above : forall c, 0x100000 <= c ->
  exists s, toUnicode c NoBrackets = Val s /\ convChar32 s = Throw DomainError.
Proof.
  intros c Hc. destruct (to_hex_spec 4 c Upper 4) as [s [H1 [H2 [H3 H4]]]].
  exists s. split; [exact (H1 NoBrackets)|].
  apply char32_iff. intros x Hx. apply char32_iff in Hx. destruct Hx as [Hl [_ Hx]].
  pose proof (denotes_fun _ _ _ _ H2 Hx). subst x.
  destruct H2 as [ds [D1 [D2 [_ D4]]]].
  assert (Hup : forall ds, Forall (fun d => d < 16) ds -> positional 16 ds < 16 ^ len ds).
  { clear. intros ds H. induction ds as [|d ds IH] using rev_ind.
    - rewrite len_nil. unfold positional. cbn. lia.
    - apply Forall_app in H. destruct H as [Ha Hb]. apply Forall_cons_iff in Hb. destruct Hb as [Hb _].
      specialize (IH Ha). rewrite positional_app, len_app.
      change (len [d]) with 1. rewrite N.pow_add_r, N.pow_1_r. nia. }
  specialize (Hup ds D2). rewrite D4 in Hup.
  assert (Hl2 : len s = len ds).
  { unfold len. apply f_equal. apply (f_equal (@List.length _)) in D1. rewrite !map_length in D1. exact D1. }
  rewrite <- Hl2 in Hup. destruct Hl as [Hl|Hl]; rewrite Hl in Hup.
  - change (16^4) with 65536 in Hup. lia.
  - change (16^5) with 0x100000 in Hup. lia.
Qed.

Lemma bool_spec : forall s,
  convBool s =
    if in_dec bytes_eq_dec s [b_ "Y"; b_ "T"] then Val true
    else if in_dec bytes_eq_dec s [[]; b_ "N"; b_ "F"] then Val false
    else Throw DomainError.
Proof.
  intro s. destruct (in_dec bytes_eq_dec s [b_ "Y"; b_ "T"]) as [H|H].
  - cbn in H. destruct H as [<-|[<-|[]]]; reflexivity.
  - destruct (in_dec bytes_eq_dec s [[]; b_ "N"; b_ "F"]) as [H2|H2].
    + cbn in H2. destruct H2 as [<-|[<-|[<-|[]]]]; reflexivity.
    + destruct s as [|b [|c s]].
      * exfalso. apply H2. left. reflexivity.
      * cbn in H, H2. cbn [convBool].
        destruct ((b =? 89) || (b =? 84)) eqn:E1.
        { exfalso. apply orb_true_iff in E1. destruct E1 as [E|E]; apply N.eqb_eq in E; subst; tauto. }
        destruct ((b =? 78) || (b =? 70)) eqn:E2; [|reflexivity].
        exfalso. apply orb_true_iff in E2. destruct E2 as [E|E]; apply N.eqb_eq in E; subst; tauto.
      * reflexivity.
Qed.
