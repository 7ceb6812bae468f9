(** Proofs about loading groups. *)
From Verif Require Import BaseFacts MapProofs ColumnFileLemmas ListProofs CountProofs Utf8CharLemmas TextProofs GroupFacts GroupLoadModel GroupLoadSpec.
Open Scope N_scope.
Arguments N.mul : simpl never. Arguments N.add : simpl never. Arguments N.sub : simpl never.

(** ** texts inside texts *)
Lemma startsWith_iff : forall sub s, GroupModel.startsWith sub s = true <-> has_front sub s.
Proof.
  induction sub as [|a sub IH]; intros [|b s]; cbn [GroupModel.startsWith].
  - split; [exists []; reflexivity|reflexivity].
  - split; [exists (b :: s); reflexivity|reflexivity].
  - split; [discriminate|intros [t H]; discriminate].
  - rewrite andb_true_iff, N.eqb_eq, IH. split.
    + intros [-> [t ->]]. exists t. reflexivity.
    + intros [t H]. inversion H; subst. split; [reflexivity|exists t; reflexivity].
Qed.
Lemma contains_iff : forall sub s, contains sub s = true <-> has_inside sub s.
Proof.
  intros sub s. induction s as [|c s IH]; cbn [contains]; rewrite orb_true_iff, startsWith_iff.
  - split.
    + intros [[b E]|H]; [exists [], b; exact E|discriminate].
    + intros (a & b & E). left. destruct a; [exists b; exact E|discriminate].
  - rewrite IH. split.
    + intros [[b E]|(a & b & ->)]; [exists [], b; exact E|exists (c :: a), b; reflexivity].
    + intros (a & b & E). destruct a as [|x a]; [left; exists b; exact E|]. inversion E; subst. right. exists a, b. reflexivity.
Qed.
Lemma ends_comma : forall s, endsWithComma s = false <-> forall t, s <> t ++ [44].
Proof.
  intro s. unfold endsWithComma. split.
  - intros H t E. subst s. rewrite rev_app_distr in H. discriminate.
  - intro H. destruct (rev s) as [|c r] eqn:E; [reflexivity|]. apply N.eqb_neq. intros ->.
    apply (H (rev r)). rewrite <- (rev_involutive s), E. reflexivity.
Qed.
Lemma any_single_false : forall s, isAnySingleByte s = false <-> Forall (fun b => 128 <= b) s.
Proof.
  intro s. rewrite Forall_forall. split.
  - intros H b I. destruct (N.ltb_spec b 128); [|assumption]. exfalso.
    assert (X : isAnySingleByte s = true) by (apply single_any; exists b; auto). congruence.
  - intro H. destruct (isAnySingleByte s) eqn:E; [|reflexivity]. apply single_any in E. destruct E as (b & I & L). specialize (H b I). lia.
Qed.

(** ** names and members *)
Lemma first_char_exists : forall name, bytes_ok name -> exists c, first_char name c /\ getFirst name = Val c.
Proof.
  intros name H. eexists. split.
  - exists (parseN (length (upto_nul name)) (upto_nul name)). split; [apply parseN_parse; apply le_n|reflexivity].
  - apply get_first; [exact H|]. apply parseN_parse. apply le_n.
Qed.
Lemma first_char_fun : forall name c, bytes_ok name -> first_char name c -> getFirst name = Val c.
Proof. intros name c H (es & P & ->). apply get_first; assumption. Qed.

Lemma names_cases : forall t name members, bytes_ok name ->
  exists p names, getKanjiNames t name members = Val (p, names) /\ pattern_of t name p /\ member_names p name members names.
Proof.
  intros t name members H. assert (C : cut 44 members (getlines 44 members)) by (apply cut_getlines; reflexivity).
  destruct t; cbn [getKanjiNames].
  - exists NoPattern, (getlines 44 members). split; [reflexivity|]. split; [constructor|]. exists (getlines 44 members). auto.
  - destruct (GroupModel.startsWith Colon name) eqn:E1.
    + exists Peer, (getlines 44 members). split; [reflexivity|]. split; [constructor; apply startsWith_iff; exact E1|]. exists (getlines 44 members). auto.
    + assert (N : ~ has_front (b_ "：") name) by (intro X; apply startsWith_iff in X; fold Colon in X; congruence).
      destruct (contains Colon name) eqn:E2.
      * destruct (first_char_exists name H) as (c & F & ->). cbn [obind]. exists Family, (c :: getlines 44 members). split; [reflexivity|].
        split; [constructor; [exact N|apply contains_iff; exact E2]|]. exists (getlines 44 members). split; [exact C|]. exists c. auto.
      * exists Reading, (getlines 44 members). split; [reflexivity|]. split; [constructor; intro X; apply contains_iff in X; fold Colon in X; congruence|].
        exists (getlines 44 members). auto.
Qed.
Lemma pattern_fun : forall t n p q, pattern_of t n p -> pattern_of t n q -> p = q.
Proof.
  assert (X : forall n, has_front (b_ "：") n -> has_inside (b_ "：") n) by (intros n [b ->]; exists [], b; reflexivity).
  intros t n p q H1 H2. destruct H1 as [n|n A|n A B|n A]; inversion H2; subst; try reflexivity; exfalso; auto.
Qed.
Lemma names_fun : forall p name members a b, bytes_ok name -> member_names p name members a -> member_names p name members b -> a = b.
Proof.
  intros p name members a b H (l1 & C1 & M1) (l2 & C2 & M2). apply cut_getlines in C1, C2. subst l1 l2.
  destruct p; try congruence. destruct M1 as (h1 & F1 & ->), M2 as (h2 & F2 & ->).
  apply (first_char_fun _ _ H) in F1, F2. congruence.
Qed.

Lemma number_u16 : forall s, (exists n, processU64 s 65535 = Val n /\ loose_number s n /\ n <= 65535)
  \/ (processU64 s 65535 = Throw DomainError /\ forall n, ~ (loose_number s n /\ n <= 65535)).
Proof.
  intro s. destruct (processU64_iff s 65535) as [I1 I2]. destruct (processU64 s 65535) as [n|e| |] eqn:U.
  - left. exists n. destruct (proj1 (I1 n) eq_refl) as [A [B|B]]; [discriminate|auto].
  - right. split; [apply I2; discriminate|]. intros n [A B]. assert (X : @Throw N e = Val n) by (apply I1; auto). discriminate.
  - right. split; [apply I2; discriminate|]. intros n [A B]. assert (X : @Ub N = Val n) by (apply I1; auto). discriminate.
  - right. split; [apply I2; discriminate|]. intros n [A B]. assert (X : @Fuel N = Val n) by (apply I1; auto). discriminate.
Qed.

Section Groups.
Variable findMember : bytes -> option QKanji.
Notation findMembers := (findMembers findMember).
Notation rowGroup := (rowGroup findMember).
Notation group_of := (group_of findMember).

Lemma find_members_iff : forall names ks, findMembers names = Some ks <-> Forall2 (fun n k => findMember n = Some k) names ks.
Proof.
  induction names as [|n names IH]; intros ks; cbn [GroupLoadModel.findMembers].
  - split; [intro H; inversion H; constructor|intro H; inversion H; reflexivity].
  - split.
    + destruct (findMember n) eqn:E; [|discriminate]. destruct (GroupLoadModel.findMembers findMember names) as [l|] eqn:E2; [|discriminate].
      intro H. inversion H; subst. constructor; [exact E|apply IH; reflexivity].
    + intro H. inversion H as [|x k xs l A B]; subst. rewrite A. apply IH in B. rewrite B. reflexivity.
Qed.
Lemma create_cases : forall t n name ms p, pattern_of t name p ->
  (proper_members ms /\ createGroup n name ms p = Val (MkGroup t n name ms p))
  \/ (~ proper_members ms /\ createGroup n name ms p = Throw DomainError).
Proof.
  intros t n name ms p P. unfold createGroup, meaningGroup, patternGroup.
  destruct (check_iff ms) as [[A ->]|[A ->]]; [left|right]; split; try exact A; inversion P; subst; reflexivity.
Qed.

Lemma row_cases : forall t r, bytes_ok (grName r) ->
  (exists g, rowGroup t r = Val g /\ group_of t r g) \/ (rowGroup t r = Throw DomainError /\ forall g, ~ group_of t r g).
Proof.
  intros t r H. unfold GroupLoadModel.rowGroup.
  destruct (beq (grName r) []) eqn:E1.
  { right. split; [reflexivity|]. intros g (_ & _ & _ & _ & (X & _) & _). apply beq_eq in E1. congruence. }
  assert (N1 : grName r <> []) by (intro X; rewrite X in E1; discriminate).
  destruct (isAnySingleByte (grName r)) eqn:E2.
  { right. split; [reflexivity|]. intros g (_ & _ & _ & _ & (_ & X) & _). apply any_single_false in X. congruence. }
  destruct (endsWithComma (grMembers r)) eqn:E3.
  { right. split; [reflexivity|]. intros g (_ & _ & _ & _ & _ & X & _). apply ends_comma in X. congruence. }
  destruct (names_cases t (grName r) (grMembers r) H) as (p & names & -> & P & M). cbn [obind].
  destruct (findMembers names) as [ms|] eqn:F.
  2:{ right. split; [reflexivity|]. intros g (_ & _ & _ & P' & _ & _ & (names' & M' & F') & _).
      rewrite (pattern_fun _ _ _ _ P' P) in M'. rewrite (names_fun _ _ _ _ _ H M' M) in F'. apply find_members_iff in F'. congruence. }
  destruct (number_u16 (grNumber r)) as [(n & -> & L1 & L2)|[-> L]]; cbn [obind].
  2:{ right. split; [reflexivity|]. intros g (_ & _ & (L1 & L2) & _). exact (L _ (conj L1 L2)). }
  destruct (create_cases t n (grName r) ms p P) as [[A ->]|[A ->]].
  - left. eexists. split; [reflexivity|]. repeat split; cbn; try assumption.
    + apply any_single_false. exact E2.
    + apply ends_comma. exact E3.
    + exists names. split; [exact M|]. apply find_members_iff. exact F.
    + destruct A as [A _]. lia.
    + destruct A as [A _]. lia.
    + apply A.
  - right. split; [reflexivity|]. intros g (_ & _ & _ & P' & _ & _ & (names' & M' & F') & Q).
    rewrite (pattern_fun _ _ _ _ P' P) in M'. rewrite (names_fun _ _ _ _ _ H M' M) in F'. apply find_members_iff in F'.
    rewrite F in F'. inversion F'; subst. contradiction.
Qed.
Lemma group_fun : forall t r g h, bytes_ok (grName r) -> group_of t r g -> group_of t r h -> g = h.
Proof.
  intros t r [t1 n1 a1 m1 p1] [t2 n2 a2 m2 p2] H G1 G2.
  destruct G1 as (T1 & A1 & (L1 & B1) & P1 & _ & _ & (k1 & M1 & F1) & _), G2 as (T2 & A2 & (L2 & B2) & P2 & _ & _ & (k2 & M2 & F2) & _).
  cbn [gType gNumber gName gMembers gPattern] in *. subst t1 t2 a1 a2.
  pose proof (pattern_fun _ _ _ _ P1 P2). subst p2. rewrite (names_fun _ _ _ _ _ H M1 M2) in F1.
  apply find_members_iff in F1, F2. apply stoul_iff in L1, L2. congruence.
Qed.

(** ** the maps *)
Lemma has_member_iff : forall n g, has_member n g = true <-> exists k, In k (gMembers g) /\ qName k = n.
Proof.
  intros n g. unfold has_member. rewrite existsb_exists. split; intros (k & I & E); exists k; (split; [exact I|]).
  - apply beq_eq. exact E.
  - subst n. apply beq_refl.
Qed.
Lemma add_meaning : forall g m n, msorted m -> NoDup (map qName (gMembers g)) ->
  msorted (addMeaning g m) /\
  mfind n (addMeaning g m) = if has_member n g then Some (match mfind n m with Some l => l ++ [g] | None => [g] end) else mfind n m.
Proof.
  intros g m n. unfold addMeaning, has_member. revert m. induction (gMembers g) as [|k ks IH]; intros m S D; cbn [fold_left existsb map] in *.
  - auto.
  - inversion D as [|x l A B]; subst. destruct (IH (mupdate (fun o => match o with Some l => l ++ [g] | None => [g] end) (qName k) m) (mupdate_sorted _ _ _ S) B) as [S' E].
    split; [exact S'|]. rewrite E. destruct (beq (qName k) n) eqn:X; cbn [orb].
    + apply beq_eq in X. subst n. replace (existsb (fun k0 => beq (qName k0) (qName k)) ks) with false.
      * rewrite mupdate_same by exact S. reflexivity.
      * symmetry. destruct (existsb _ ks) eqn:Y; [|reflexivity]. exfalso. apply existsb_exists in Y. destruct Y as (j & I & J).
        apply beq_eq in J. apply A. rewrite <- J. apply in_map. exact I.
    + rewrite mupdate_other; [reflexivity|]. intros ->. rewrite beq_refl in X. discriminate.
Qed.
Lemma add_pattern : forall g m n, msorted m ->
  msorted (addPattern g m) /\
  mfind n (addPattern g m) = match mfind n m with Some h => Some h | None => if has_member n g then Some g else None end.
Proof.
  intros g m n. unfold addPattern, has_member. revert m. induction (gMembers g) as [|k ks IH]; intros m S; cbn [fold_left existsb].
  - split; [exact S|destruct (mfind n m); reflexivity].
  - destruct (IH (mupdate (fun o => match o with Some h => h | None => g end) (qName k) m) (mupdate_sorted _ _ _ S)) as [S' E].
    split; [exact S'|]. rewrite E. destruct (beq (qName k) n) eqn:X; cbn [orb].
    + apply beq_eq in X. subst n. rewrite mupdate_same by exact S. destruct (mfind (qName k) m); reflexivity.
    + rewrite mupdate_other; [reflexivity|]. intros ->. rewrite beq_refl in X. discriminate.
Qed.

Definition rows_ok (rows : list GroupRow) : Prop := Forall (fun r => bytes_ok (grName r)) rows.
Lemma load_meaning_cases : forall rows m l, rows_ok rows -> msorted m ->
  (exists gs m', loadMeaning findMember rows m l = Val (m', l ++ gs) /\ Forall2 (group_of MeaningType) rows gs /\ msorted m'
    /\ forall n, match mfind n m' with Some x => x | None => [] end = (match mfind n m with Some x => x | None => [] end) ++ filter (has_member n) gs)
  \/ (loadMeaning findMember rows m l = Throw DomainError /\ forall gs, ~ Forall2 (group_of MeaningType) rows gs).
Proof.
  induction rows as [|r rows IH]; intros m l H S; cbn [loadMeaning].
  - left. exists [], m. rewrite app_nil_r. split; [reflexivity|]. split; [constructor|]. split; [exact S|]. intro n. cbn [filter]. rewrite app_nil_r. reflexivity.
  - inversion H as [|x y A B]; subst. destruct (row_cases MeaningType r A) as [(g & -> & G)|[-> N]]; cbn [obind].
    + assert (D : NoDup (map qName (gMembers g))) by (apply G).
      destruct (IH (addMeaning g m) (l ++ [g]) B (proj1 (add_meaning g m [] S D))) as [(gs & m' & E & F & S' & Q)|[E N]].
      * left. exists (g :: gs), m'. rewrite E, <- app_assoc. split; [reflexivity|]. split; [constructor; assumption|]. split; [exact S'|].
        intro n. rewrite Q. rewrite (proj2 (add_meaning g m n S D)). cbn [filter].
        destruct (has_member n g); [|reflexivity]. destruct (mfind n m); [rewrite <- app_assoc; reflexivity|reflexivity].
      * right. split; [exact E|]. intros gs F. inversion F; subst. eapply N. eassumption.
    + right. split; [reflexivity|]. intros gs F. inversion F; subst. eapply N. eassumption.
Qed.
Lemma load_pattern_cases : forall rows m l, rows_ok rows -> msorted m ->
  (exists gs m', loadPattern findMember rows m l = Val (m', l ++ gs) /\ Forall2 (group_of PatternGroupType) rows gs /\ msorted m'
    /\ forall n, mfind n m' = match mfind n m with Some x => Some x | None => find (has_member n) gs end)
  \/ (loadPattern findMember rows m l = Throw DomainError /\ forall gs, ~ Forall2 (group_of PatternGroupType) rows gs).
Proof.
  induction rows as [|r rows IH]; intros m l H S; cbn [loadPattern].
  - left. exists [], m. rewrite app_nil_r. split; [reflexivity|]. split; [constructor|]. split; [exact S|]. intro n. destruct (mfind n m); reflexivity.
  - inversion H as [|x y A B]; subst. destruct (row_cases PatternGroupType r A) as [(g & -> & G)|[-> N]]; cbn [obind].
    + destruct (IH (addPattern g m) (l ++ [g]) B (proj1 (add_pattern g m [] S))) as [(gs & m' & E & F & S' & Q)|[E N]].
      * left. exists (g :: gs), m'. rewrite E, <- app_assoc. split; [reflexivity|]. split; [constructor; assumption|]. split; [exact S'|].
        intro n. rewrite Q. rewrite (proj2 (add_pattern g m n S)). cbn [find].
        destruct (mfind n m); [reflexivity|]. destruct (has_member n g); reflexivity.
      * right. split; [exact E|]. intros gs F. inversion F; subst. eapply N. eassumption.
    + right. split; [reflexivity|]. intros gs F. inversion F; subst. eapply N. eassumption.
Qed.

Lemma load_groups_cases : forall mr pr, rows_ok mr -> rows_ok pr ->
  (exists d, loadGroups findMember mr pr = Val d
    /\ Forall2 (group_of MeaningType) mr (meaningGroups d) /\ Forall2 (group_of PatternGroupType) pr (patternGroups d)
    /\ (forall n, categories d n = filter (has_member n) (meaningGroups d))
    /\ (forall n, mfind n (patternMap d) = find (has_member n) (patternGroups d)))
  \/ (loadGroups findMember mr pr = Throw DomainError
    /\ forall a b, ~ (Forall2 (group_of MeaningType) mr a /\ Forall2 (group_of PatternGroupType) pr b)).
Proof.
  intros mr pr H1 H2. unfold loadGroups.
  destruct (load_meaning_cases mr [] [] H1 msorted_nil) as [(gs & m & -> & F & S & Q)|[-> N]]; cbn [obind app].
  2:{ right. split; [reflexivity|]. intros a b [A _]. exact (N a A). }
  destruct (load_pattern_cases pr [] [] H2 msorted_nil) as [(ps & pm & -> & F' & S' & Q')|[-> N]]; cbn [obind app].
  2:{ right. split; [reflexivity|]. intros a b [_ A]. exact (N b A). }
  left. eexists. split; [reflexivity|]. cbn [meaningGroups patternGroups patternMap]. split; [exact F|]. split; [exact F'|].
  split; [intro n; unfold categories; cbn [meaningMap]; rewrite Q; reflexivity|]. intro n. rewrite Q'. reflexivity.
Qed.
Lemma groups_fun : forall t rows a b, rows_ok rows -> Forall2 (group_of t) rows a -> Forall2 (group_of t) rows b -> a = b.
Proof.
  intros t rows a b H F. revert b. induction F as [|r g rows gs G F IH]; intros b F2; inversion F2; subst; [reflexivity|].
  inversion H; subst. f_equal; [eapply group_fun; eassumption|apply IH; assumption].
Qed.
End Groups.
