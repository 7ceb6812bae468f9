(** Lemmas about the messages of loading groups. *)
From Verif Require Import BaseFacts MapProofs GroupLoadProofs LoadLogTrace LoadLogLists QuizDataModel QuizDataSpec.
Open Scope N_scope.
Arguments N.mul : simpl never. Arguments N.add : simpl never. Arguments N.sub : simpl never.

Lemma group_title : forall g, groupString g = in_message g.
Proof. intros g. unfold groupString, in_message. rewrite <- !app_assoc. reflexivity. Qed.
Lemma errors_map : forall l, errors (map ToErr l) = l.
Proof. induction l as [|x l IH]; [reflexivity|]. cbn [map errors]. rewrite IH. reflexivity. Qed.
Lemma lbind_lift : forall A B (x : A) (f : A -> L B), lbind (llift (Val x)) f = f x.
Proof. intros A B x f. cbn [llift lbind]. destruct (f x). reflexivity. Qed.
Lemma lbind_say : forall B ms (f : unit -> L B), lbind (lsay ms) f = (ms ++ fst (f tt), snd (f tt)).
Proof. intros B ms f. cbn [lsay lbind]. destruct (f tt). reflexivity. Qed.
Lemma lbind_pair : forall A B (m : L A) (f : A -> L B) x, snd m = Val x -> lbind m f = (fst m ++ fst (f x), snd (f x)).
Proof. intros A B [w o] f x H. cbn [snd] in H. subst o. cbn [lbind fst]. destruct (f x). reflexivity. Qed.
Lemma lbind_throw : forall A B (m : L A) (f : A -> L B) e, snd m = Throw e -> lbind m f = (fst m, Throw e).
Proof. intros A B [w o] f x H. cbn [snd] in H. subst o. reflexivity. Qed.

Section Find.
Variable find : bytes -> option QKanji.

Lemma missing_spec : forall r names, missingMembers find r names = map ToErr (not_found find r names).
Proof.
  intros r names. unfold not_found. induction names as [|n names IH]; [reflexivity|]. cbn [missingMembers filter].
  destruct (find n); [exact IH|]. cbn [map]. rewrite IH. reflexivity.
Qed.
Lemma all_found : forall r names ks, findMembers find names = Some ks -> not_found find r names = [].
Proof.
  intros r names ks H. apply find_members_iff in H. unfold not_found. induction H as [|n k names ks E H IH]; [reflexivity|].
  cbn [filter]. rewrite E. exact IH.
Qed.
Lemma readable_iff : forall r, readable_row r <-> beq (grName r) [] = false /\ isAnySingleByte (grName r) = false /\ endsWithComma (grMembers r) = false.
Proof.
  intros r. unfold readable_row. rewrite any_single_false, ends_comma. split; intros (A & B & C); (split; [|auto]).
  - destruct (beq (grName r) []) eqn:E; [apply beq_eq in E; contradiction|reflexivity].
  - intros X. rewrite X in A. discriminate.
Qed.
Lemma row_erase : forall t r, snd (rowGroupL find t r) = rowGroup find t r.
Proof.
  intros t r. unfold rowGroupL, rowGroup. destruct (beq (grName r) []); [reflexivity|]. destruct (isAnySingleByte (grName r)); [reflexivity|].
  destruct (endsWithComma (grMembers r)); [reflexivity|]. destruct (getKanjiNames t (grName r) (grMembers r)) as [[p names]| | |]; [|reflexivity..].
  rewrite lbind_lift, lbind_say. cbn [obind snd]. destruct (findMembers find names); reflexivity.
Qed.
(** the messages of a row *)
Lemma row_said : forall t r, bytes_ok (grName r) ->
  (exists g, rowGroupL find t r = ([], Val g) /\ group_of find t r g)
  \/ (exists es, rowGroupL find t r = (map ToErr es, Throw DomainError) /\ row_errors find t r es /\ forall g, ~ group_of find t r g).
Proof.
  intros t r H. pose proof (row_erase t r) as E. destruct (row_cases find t r H) as [(g & R & G)|[R G]]; rewrite R in E.
  - left. exists g. split; [|exact G]. destruct (rowGroupL find t r) as [w o] eqn:Q. cbn [snd] in E. subst o. f_equal.
    unfold rowGroupL in Q. destruct (beq (grName r) []); [inversion Q; reflexivity|]. destruct (isAnySingleByte (grName r)); [inversion Q; reflexivity|].
    destruct (endsWithComma (grMembers r)); [inversion Q; reflexivity|]. destruct (getKanjiNames t (grName r) (grMembers r)) as [[p names]| | |]; [|inversion Q; reflexivity..].
    rewrite lbind_lift, lbind_say in Q. destruct (findMembers find names) as [ks|] eqn:F; [|inversion Q].
    cbn [llift fst snd] in Q. inversion Q. rewrite missing_spec, (all_found r names ks F). reflexivity.
  - right. unfold rowGroupL in *. unfold row_errors.
    destruct (beq (grName r) []) eqn:E1.
    { exists []. split; [reflexivity|]. split; [|exact G]. right. rewrite readable_iff. split; [intros (X & _); congruence|reflexivity]. }
    destruct (isAnySingleByte (grName r)) eqn:E2.
    { exists []. split; [reflexivity|]. split; [|exact G]. right. rewrite readable_iff. split; [intros (_ & X & _); congruence|reflexivity]. }
    destruct (endsWithComma (grMembers r)) eqn:E3.
    { exists []. split; [reflexivity|]. split; [|exact G]. right. rewrite readable_iff. split; [intros (_ & _ & X); congruence|reflexivity]. }
    destruct (names_cases t (grName r) (grMembers r) H) as (p & names & K & P & M). rewrite K in *.
    rewrite lbind_lift, lbind_say in *. cbn [snd] in E. rewrite E. exists (not_found find r names).
    split; [|split; [left; split; [apply readable_iff; auto|eauto]|exact G]]. rewrite missing_spec.
    destruct (findMembers find names); cbn [llift fst]; rewrite app_nil_r; reflexivity.
Qed.

(** ** Adding to the map *)

Lemma add_said : forall g ks m m0, NoDup (map qName ks) -> (forall k, In k ks -> mfind (qName k) m = mfind (qName k) m0) ->
  addPatternL g ks m
  = (map ToErr (flat_map (fun k => match mfind (qName k) m0 with
                                   | Some h => [qName k ++ b_ " from " ++ in_message g ++ b_ " already in " ++ in_message h]
                                   | None => []
                                   end) ks),
     Val (fold_left (fun m k => mupdate (fun o => match o with Some h => h | None => g end) (qName k) m) ks m)).
Proof.
  intros g. induction ks as [|k ks IH]; intros m m0 D H; [reflexivity|]. cbn [addPatternL]. inversion D as [|x y D1 D2]; subst.
  rewrite lbind_say. rewrite (IH _ m0 D2).
  - cbn [fst snd flat_map fold_left]. rewrite (H k (or_introl eq_refl)), map_app. f_equal. f_equal.
    destruct (mfind (qName k) m0); [rewrite !group_title|]; reflexivity.
  - intros x X. rewrite mupdate_other; [apply H; right; exact X|]. intros Q. apply D1. rewrite <- Q. apply in_map. exact X.
Qed.

(** ** The loops *)

Lemma meaning_erase : forall rows m l, snd (loadMeaningL find rows m l) = loadMeaning find rows m l.
Proof.
  induction rows as [|r rows IH]; intros m l; [reflexivity|]. cbn [loadMeaningL loadMeaning]. rewrite lbind_snd, row_erase.
  apply obind_ext. intros g. apply IH.
Qed.
Lemma meaning_said : forall rows m l, rows_ok rows ->
  (exists x, loadMeaningL find rows m l = ([], Val x))
  \/ (exists gs r es, loadMeaningL find rows m l = (map ToErr es, Throw DomainError) /\ stops_at find MeaningType rows gs r /\ row_errors find MeaningType r es).
Proof.
  induction rows as [|r rows IH]; intros m l H; [left; eexists; reflexivity|]. inversion H as [|x y A B]; subst. cbn [loadMeaningL].
  destruct (row_said MeaningType r A) as [(g & E & G)|(es & E & R & G)]; rewrite E.
  - change ([], Val g) with (llift (Val g)). rewrite lbind_lift. destruct (IH (addMeaning g m) (l ++ [g]) B) as [(x & Q)|(gs & r' & es & Q & (a & b & Ea & F & N) & R)].
    + left. eauto.
    + right. exists (g :: gs), r', es. split; [exact Q|]. split; [|exact R]. exists (r :: a), b. subst rows. split; [reflexivity|]. split; [constructor; assumption|exact N].
  - right. exists [], r, es. split; [reflexivity|]. split; [|exact R]. exists [], rows. split; [reflexivity|]. split; [constructor|exact G].
Qed.
Lemma pattern_erase : forall rows m l, rows_ok rows -> snd (loadPatternL find rows m l) = loadPattern find rows m l.
Proof.
  induction rows as [|r rows IH]; intros m l H; [reflexivity|]. inversion H as [|x y A B]; subst. cbn [loadPatternL loadPattern].
  rewrite lbind_snd, row_erase. destruct (row_cases find PatternGroupType r A) as [(g & -> & G)|[-> _]]; [|reflexivity]. cbn [obind].
  rewrite lbind_snd, (add_said g (gMembers g) m m) by (auto; apply G). cbn [snd obind]. apply IH. exact B.
Qed.
Lemma find_snoc : forall A (p : A -> bool) a x, List.find p (a ++ [x]) = match List.find p a with Some y => Some y | None => if p x then Some x else None end.
Proof. intros A p a x. induction a as [|y a IH]; cbn [app List.find]; [reflexivity|]. destruct (p y); [reflexivity|exact IH]. Qed.
Lemma pattern_said : forall rows m l before, rows_ok rows -> msorted m -> (forall n, mfind n m = List.find (has_member n) before) ->
  (exists m' gs, loadPatternL find rows m l = (map ToErr (repeats before gs), Val (m', l ++ gs)) /\ Forall2 (group_of find PatternGroupType) rows gs)
  \/ (exists gs r es, loadPatternL find rows m l = (map ToErr (repeats before gs ++ es), Throw DomainError)
      /\ stops_at find PatternGroupType rows gs r /\ row_errors find PatternGroupType r es).
Proof.
  induction rows as [|r rows IH]; intros m l before H Hs K.
  - left. exists m, []. rewrite app_nil_r. split; [reflexivity|constructor].
  - inversion H as [|x y A B]; subst. cbn [loadPatternL]. destruct (row_said PatternGroupType r A) as [(g & E & G)|(es & E & R & G)]; rewrite E.
    + change ([], Val g) with (llift (Val g)). rewrite lbind_lift.
      assert (D : NoDup (map qName (gMembers g))) by (apply G).
      rewrite (add_said g (gMembers g) m m D (fun _ _ => eq_refl)). fold (addPattern g m).
      erewrite lbind_pair by reflexivity. cbn [fst].
      assert (Q : flat_map (fun k => match mfind (qName k) m with
                     | Some h => [qName k ++ b_ " from " ++ in_message g ++ b_ " already in " ++ in_message h] | None => [] end) (gMembers g) = repeated_in before g).
      { unfold repeated_in. apply flat_map_ext. intros k. rewrite K. reflexivity. }
      rewrite Q. destruct (IH (addPattern g m) (l ++ [g]) (before ++ [g]) B) as [(m' & gs & X & F)|(gs & r' & es & X & (a & b & Ea & F & N) & R)].
      * apply (add_pattern g m [] Hs).
      * intros n. rewrite (proj2 (add_pattern g m n Hs)), K, find_snoc. reflexivity.
      * left. exists m', (g :: gs). rewrite X. cbn [fst snd repeats]. rewrite map_app, <- app_assoc. split; [reflexivity|constructor; assumption].
      * right. exists (g :: gs), r', es. rewrite X. cbn [fst snd repeats]. rewrite <- app_assoc, !map_app. split; [reflexivity|]. split; [|exact R].
        exists (r :: a), b. subst rows. split; [reflexivity|]. split; [constructor; assumption|exact N].
    + right. exists [], r, es. split; [reflexivity|]. split; [|exact R]. exists [], rows. split; [reflexivity|]. split; [constructor|exact G].
Qed.
End Find.
