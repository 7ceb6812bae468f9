(** Lemmas about the reports about groups. *)
From Verif Require Import BaseFacts BlockProofs MapProofs KanjiProofs DisplayProofs Utf8CharLemmas GroupLoadProofs ReportProofs GroupReportModel GroupReportSpec.
Open Scope N_scope.
Arguments N.mul : simpl never. Arguments N.add : simpl never. Arguments N.sub : simpl never.
Arguments N.pow : simpl never. Arguments N.eqb : simpl never. Arguments N.ltb : simpl never. Arguments N.leb : simpl never.

(** * Names by type *)

Definition of_type (t : N) (ks : list QKanji) : list QKanji := filter (fun k => typeOf k =? t) ks.
Definition holds_types (types : TypeMap) (ks : list QKanji) : Prop :=
  forall t, findType t types = match of_type t ks with [] => None | l => Some (map qName l) end.
Lemma holds_nil : holds_types [] [].
Proof. intro t. reflexivity. Qed.
Lemma find_add : forall t s x m, findType x (addType t s m) = if t =? x then Some (match findType x m with Some l => l ++ [s] | None => [s] end) else findType x m.
Proof.
  intros t s x m. induction m as [|[y l] m IH]; cbn [addType findType].
  - reflexivity.
  - destruct (y =? t) eqn:E; cbn [findType].
    + apply N.eqb_eq in E. subst y. destruct (t =? x); reflexivity.
    + rewrite IH. destruct (t =? x) eqn:F; [|reflexivity]. apply N.eqb_eq in F. subst x. rewrite E. reflexivity.
Qed.
Lemma of_type_app : forall t a b, of_type t (a ++ b) = of_type t a ++ of_type t b.
Proof. intros. unfold of_type. apply filter_app. Qed.
Lemma holds_add : forall types ks k, holds_types types ks -> holds_types (addType (typeOf k) (qName k) types) (ks ++ [k]).
Proof.
  intros types ks k H t. rewrite find_add, (H t), of_type_app. change (of_type t [k]) with (if typeOf k =? t then [k] else []).
  destruct (typeOf k =? t); [|rewrite app_nil_r; reflexivity]. destruct (of_type t ks) as [|x l]; cbn [app map]; [reflexivity|].
  rewrite map_app. reflexivity.
Qed.

(** the members that are seen for the first time *)
Fixpoint firsts (seen : list bytes) (ks : list QKanji) : list QKanji :=
  match ks with
  | [] => []
  | k :: r => if existsb (beq (qName k)) seen then firsts seen r else k :: firsts (seen ++ [qName k]) r
  end.
Lemma seen_iff : forall n l, existsb (beq n) l = true <-> In n l.
Proof.
  intros n l. rewrite existsb_exists. split; [intros (x & I & E); apply beq_eq in E; subst x; exact I|].
  intro I. exists n. split; [exact I|apply beq_refl].
Qed.
Lemma seen_not : forall n l, existsb (beq n) l = false <-> ~ In n l.
Proof. intros n l. rewrite <- seen_iff. destruct (existsb (beq n) l); split; congruence. Qed.
Lemma firsts_in : forall ks seen n, In n (map qName (firsts seen ks)) <-> In n (map qName ks) /\ ~ In n seen.
Proof.
  induction ks as [|k r IH]; intros seen n; cbn [firsts map]; [intuition|].
  destruct (existsb (beq (qName k)) seen) eqn:E.
  - rewrite IH. apply seen_iff in E. cbn [In]. split; [intros [A B]; auto|]. intros [[<-|A] B]; [contradiction|auto].
  - apply seen_not in E. cbn [map In]. rewrite IH, in_app_iff. cbn [In]. split.
    + intros [<-|[A B]]; [auto|]. split; [auto|]. intro; apply B; auto.
    + intros [[<-|A] B]; [auto|]. destruct (list_eq_dec N.eq_dec (qName k) n) as [->|D]; [auto|]. right. split; [exact A|]. intros [X|[X|[]]]; contradiction.
Qed.
Lemma firsts_nodup : forall ks seen, NoDup (map qName (firsts seen ks)).
Proof.
  induction ks as [|k r IH]; intro seen; cbn [firsts]; [constructor|]. destruct (existsb (beq (qName k)) seen); [apply IH|]. cbn [map]. constructor; [|apply IH].
  rewrite firsts_in, in_app_iff. cbn [In]. tauto.
Qed.
Lemma firsts_sub : forall ks seen k, In k (firsts seen ks) -> In k ks.
Proof.
  induction ks as [|k r IH]; intros seen x H; cbn [firsts] in H; [exact H|]. destruct (existsb (beq (qName k)) seen); [right; eapply IH; exact H|].
  destruct H as [H|H]; [left; exact H|right; eapply IH; exact H].
Qed.
Lemma firsts_app : forall a b seen, firsts seen (a ++ b) = firsts seen a ++ firsts (seen ++ map qName (firsts seen a)) b.
Proof.
  induction a as [|k a IH]; intros b seen; cbn [app firsts map]; [rewrite app_nil_r; reflexivity|].
  destruct (existsb (beq (qName k)) seen); [apply IH|]. rewrite IH. cbn [app map]. rewrite <- app_assoc. reflexivity.
Qed.

(** * Lines *)

Lemma qualified : forall k, qualifiedName k = Val (with_suffix k).
Proof. intro k. destruct (qualifiedName_spec k) as (c & G & Q). rewrite Q. unfold with_suffix. rewrite G. reflexivity. Qed.
Definition spaced (k : QKanji) : bytes := b_ " " ++ with_suffix (qKanji k).
Lemma meaning_members : forall full l types seen ks, holds_types types ks ->
  exists types', meaningMembers full l types seen
    = Val (if full : bool then flat_map spaced l else [], types', seen ++ map qName (firsts seen l)) /\ holds_types types' (ks ++ firsts seen l).
Proof.
  intros full. induction l as [|k r IH]; intros types seen ks H; cbn [meaningMembers firsts flat_map].
  - exists types. cbn [map]. rewrite !app_nil_r. split; [destruct full; reflexivity|exact H].
  - rewrite qualified. cbn [obind].
    assert (Q : (if full then Val (b_ " " ++ with_suffix (qKanji k)) else Val []) = Val (if full then spaced k else [])) by (destruct full; reflexivity).
    rewrite Q. cbn [obind]. destruct (existsb (beq (qName k)) seen).
    + destruct (IH types seen ks H) as (t' & -> & H'). cbn [obind]. exists t'. split; [destruct full; reflexivity|exact H'].
    + destruct (IH (addType (typeOf k) (qName k) types) (seen ++ [qName k]) (ks ++ [k]) (holds_add _ _ _ H)) as (t' & -> & H'). cbn [obind]. exists t'.
      split; [|rewrite <- app_assoc in H'; exact H']. cbn [map]. rewrite <- app_assoc. destruct full; reflexivity.
Qed.
Definition pattern_tail (p : PatternType) (first : bool) (l : list QKanji) : bytes :=
  match l with
  | [] => []
  | k :: r => (if first then match p with Peer => b_ "　 : " ++ with_suffix (qKanji k) | Reading => with_suffix (qKanji k) | _ => with_suffix (qKanji k) ++ b_ ":" end
               else spaced k) ++ flat_map spaced r
  end.
Lemma pattern_members : forall full p l first types ks, holds_types types ks ->
  exists types', patternMembers full p first l types = Val (if full : bool then pattern_tail p first l else [], types') /\ holds_types types' (ks ++ l).
Proof.
  intros full p. induction l as [|k r IH]; intros first types ks H; cbn [patternMembers pattern_tail].
  - exists types. rewrite app_nil_r. split; [destruct full; reflexivity|exact H].
  - rewrite qualified. cbn [obind]. destruct (IH false (addType (typeOf k) (qName k) types) (ks ++ [k]) (holds_add _ _ _ H)) as (t' & E & H').
    rewrite <- app_assoc in H'. exists t'. split; [|exact H']. destruct full; cbn [obind]; rewrite E; cbn [obind]; [|reflexivity].
    destruct r; destruct first; try destruct p; reflexivity.
Qed.
Lemma put_padded : forall f w s, put f (Z.of_nat w) s = padded (sLeft f) (sFill f) w s.
Proof. intros f w s. unfold put, putSetw, padded. rewrite Nat2Z.id. reflexivity. Qed.

(** what is printed for groups of which nothing is left to see *)
Lemma meaning_plain : forall w gs f types seen ks, holds_types types ks -> Forall (fun g => gType g = MeaningType) gs ->
  exists types', groupLines false w f gs types seen
    = Val ([], types', seen ++ map qName (firsts seen (flat_map gMembers gs)), f) /\ holds_types types' (ks ++ firsts seen (flat_map gMembers gs)).
Proof.
  intros w. induction gs as [|g gs IH]; intros f types seen ks H T; cbn [groupLines flat_map].
  - exists types. cbn [firsts map]. rewrite !app_nil_r. auto.
  - inversion T as [|x y T1 T2]; subst. rewrite T1. unfold printMeaningGroup. cbn [obind].
    destruct (meaning_members false (gMembers g) types seen ks H) as (t1 & -> & H1). cbn [obind].
    destruct (IH f t1 (seen ++ map qName (firsts seen (gMembers g))) _ H1 T2) as (t2 & -> & H2). cbn [obind]. exists t2.
    rewrite firsts_app, map_app, !app_assoc in *. split; [reflexivity|exact H2].
Qed.
Lemma pattern_plain : forall w gs f types seen ks, holds_types types ks -> Forall (fun g => gType g = PatternGroupType) gs ->
  exists types', groupLines false w f gs types seen = Val ([], types', seen, f) /\ holds_types types' (ks ++ flat_map gMembers gs).
Proof.
  intros w. induction gs as [|g gs IH]; intros f types seen ks H T; cbn [groupLines flat_map].
  - exists types. rewrite app_nil_r. auto.
  - inversion T as [|x y T1 T2]; subst. rewrite T1. unfold printPatternGroup. cbn [obind].
    destruct (pattern_members false (gPattern g) (gMembers g) true types ks H) as (t1 & -> & H1). cbn [obind].
    destruct (IH f t1 seen _ H1 T2) as (t2 & -> & H2). cbn [obind]. exists t2. rewrite <- app_assoc in H2. split; [reflexivity|exact H2].
Qed.
Lemma meaning_full : forall w gs f types seen ks, holds_types types ks -> Forall (fun g => gType g = MeaningType) gs -> names_are_text gs ->
  exists types' t, groupLines true (Z.of_nat w) f gs types seen
      = Val (t, types', seen ++ map qName (firsts seen (flat_map gMembers gs)), MkStream (sLeft f) (match gs with [] => sFill f | _ => 32 end))
    /\ holds_types types' (ks ++ firsts seen (flat_map gMembers gs)) /\ meaning_lines (sLeft f) w (sFill f) gs t.
Proof.
  intros w. induction gs as [|g gs IH]; intros f types seen ks H T N; cbn [groupLines flat_map].
  - exists types, []. cbn [firsts map]. rewrite !app_nil_r. destruct f as [le fi]. split; [reflexivity|]. split; [exact H|constructor].
  - inversion T as [|x y T1 T2]; subst. inversion N as [|x y (cs & C & E) N2]; subst. rewrite T1. unfold printMeaningGroup.
    assert (S : u8size (gName g) false = Val (len (Utf8CharSpec.yields false (Utf8CharSpec.items (map Utf8CharSpec.Good cs))))) by (rewrite E; apply size_counts; exact C).
    rewrite S. cbn [obind].
    destruct (meaning_members true (gMembers g) types seen ks H) as (t1 & -> & H1). cbn [obind].
    destruct (IH (MkStream (sLeft f) 32) t1 (seen ++ map qName (firsts seen (gMembers g))) _ H1 T2 N2) as (t2 & t & -> & H2 & L). cbn [obind sLeft sFill] in *.
    exists t2. eexists. rewrite firsts_app, map_app, !app_assoc in *.
    split; [f_equal; f_equal; f_equal; destruct gs; reflexivity|]. split; [exact H2|].
    change 2%Z with (Z.of_nat 2). rewrite !put_padded. cbn [sLeft sFill].
    match goal with |- meaning_lines _ _ _ _ ?X => replace X with (numbered (sLeft f) (sFill f) w g (gName g ++ namePad (len (Utf8CharSpec.yields false (Utf8CharSpec.items (map Utf8CharSpec.Good cs)))) ++ b_ " (" ++ padded (sLeft f) 32 2 (to_string (len (gMembers g))) ++ b_ ")   :" ++ flat_map spaced (gMembers g)) ++ t) by (unfold numbered; rewrite <- !app_assoc; reflexivity) end.
    constructor; [|exact L]. eexists. split; [exists cs; split; [exact C|split; [exact E|reflexivity]]|reflexivity].
Qed.
Lemma pattern_full : forall w gs f types seen ks, holds_types types ks -> Forall (fun g => gType g = PatternGroupType) gs -> names_are_text gs ->
  Forall (fun g => len (gName g) < 2^30) gs ->
  exists types' t, groupLines true (Z.of_nat w) f gs types seen = Val (t, types', seen, f)
    /\ holds_types types' (ks ++ flat_map gMembers gs) /\ pattern_lines (sLeft f) (sFill f) w gs t.
Proof.
  intros w. induction gs as [|g gs IH]; intros f types seen ks H T N L; cbn [groupLines flat_map].
  - exists types, []. rewrite app_nil_r. split; [reflexivity|]. split; [exact H|]. exists []. split; [constructor|reflexivity].
  - inversion T as [|x y T1 T2]; subst. inversion N as [|x y (cs & C & E) N2]; subst. inversion L as [|x y L1 L2]; subst. rewrite T1. unfold printPatternGroup.
    assert (B : bytes_ok (text cs)) by (apply text_ok; exact C).
    destruct (size_total (text cs) B) as (n & S & LE & _).
    assert (W : wideSetw (gName g) PatternGroupSetW = Val (Z.of_N (25 + len (gName g) - n))).
    { apply wideSetw_val; [rewrite E; exact B|rewrite E; exact S|lia]. }
    rewrite W. cbn [obind].
    destruct (pattern_members true (gPattern g) (gMembers g) true types ks H) as (t1 & -> & H1). cbn [obind].
    destruct (IH f t1 seen _ H1 T2 N2 L2) as (t2 & t & -> & H2 & (ts & F & ->)). cbn [obind].
    exists t2. eexists. rewrite <- app_assoc in H2. split; [reflexivity|]. split; [exact H2|].
    exists ((put f (Z.of_N (25 + len (gName g) - n)) (gName g) ++ b_ "(" ++ put f 2 (to_string (len (gMembers g))) ++ b_ ")   " ++ pattern_tail (gPattern g) true (gMembers g)) :: ts). split; [|cbn [combine map concat]; unfold numbered; rewrite put_padded, <- !app_assoc; reflexivity].
    constructor; [|exact F]. exists cs, n. split; [exact C|]. split; [exact E|]. split; [apply size_text; assumption|].
    change 2%Z with (Z.of_nat 2). rewrite put_padded. f_equal.
    + unfold put, putSetw. replace (Z.to_nat (Z.of_N (25 + len (gName g) - n)) - List.length (gName g))%nat with (N.to_nat (25 - n)); [reflexivity|].
      rewrite E in *. unfold len in *. lia.
    + f_equal. f_equal. f_equal. destruct (gMembers g) as [|k r]; [reflexivity|]. cbn [pattern_tail map]. f_equal. clear.
      induction r as [|x r IH]; [reflexivity|]. cbn [flat_map map]. rewrite IH. reflexivity.
Qed.
