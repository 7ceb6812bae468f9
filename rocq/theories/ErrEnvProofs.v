(** Lemmas about loading a whole data directory. *)
From Coq Require Import Permutation Sorted.
From Verif Require Import BaseFacts ListProofs MapProofs DataProofs DirProofs ReportProofs ErrTableProofs ErrListProofs ErrListRun ErrUcdProofs ErrUcdTable ErrOfficialProofs ErrOfficialTable ErrJukugoLoad ErrArgsProps ErrListProps ErrUcdProps ErrOfficialProps.
From Verif Require Import ReportRadicals ReportUcd LoadLogProps MainNames MainProofs DirProps ErrLoadProofs.
From Verif Require Import ErrLoadSame DataSpec DetailsModel DetailsSpec ListProps.
From Verif Require Export ErrEnvSpec ErrLoadProps.
From Verif Require Import ErrListSpec ErrBase.
Open Scope N_scope.
Arguments N.mul : simpl never. Arguments N.add : simpl never. Arguments N.sub : simpl never.

(** ** results up to a relation *)
Definition views {A B} (x : res A) (rel : Result B -> Prop) (R : A -> B -> Prop) : Prop :=
  (forall a, x = Got a -> exists b, rel (inl b) /\ R a b) /\ (forall b, rel (inl b) -> exists a, x = Got a /\ R a b)
  /\ (forall e w, x = Says e w <-> rel (inr (e, w))) /\ ((exists a, x = Got a) \/ exists e w, x = Says e w).
Lemma shows_views : forall A B (x : res A) (rel : Result B -> Prop) R, shows x rel R -> views x rel R.
Proof.
  intros A B x rel R (r & Hr & U & H). destruct r as [b|[e w]].
  - destruct H as (a & -> & Rab). split; [intros a' E; injection E as <-; eauto|]. split; [intros b' H'; apply U in H'; injection H' as ->; eauto|].
    split; [|eauto]. intros e w. split; [discriminate|]. intro H'. apply U in H'. discriminate H'.
  - rewrite H. split; [discriminate|]. split; [intros b' H'; apply U in H'; discriminate H'|]. split; [|eauto]. intros e' w'. split; intro X.
    + assert (e' = e /\ w' = w) as [-> ->] by (split; congruence). exact Hr.
    + apply U in X. assert (e' = e /\ w' = w) as [-> ->] by (split; congruence). reflexivity.
Qed.
Lemma views_bind : forall A B C D (x : res A) (f : A -> res C) (rel : Result B -> Prop) (g : B -> Result D -> Prop) (R : A -> B -> Prop) R2,
  views x rel R -> (forall a b, R a b -> views (f a) (g b) R2) -> views (rbind x f) (andthen rel g) R2.
Proof.
  intros A B C D x f rel g R R2 (V1 & V2 & V3 & V4) Hf. split; [|split; [|split]].
  - intros c E. destruct x as [a|e w| |]; cbn [rbind] in E; try discriminate E. destruct (V1 a eq_refl) as (b & Hb & Rab). destruct (Hf a b Rab) as (W1 & _).
    destruct (W1 c E) as (d & Hd & Rd). exists d. split; [left; eauto|exact Rd].
  - intros d [(b & Hb & G)|(y & _ & E)]; [|discriminate E]. destruct (V2 b Hb) as (a & -> & Rab). cbn [rbind]. destruct (Hf a b Rab) as (_ & W2 & _). exact (W2 d G).
  - intros e w. split; intro H.
    + destruct x as [a|e' w'| |]; cbn [rbind] in H; try discriminate H.
      * destruct (V1 a eq_refl) as (b & Hb & Rab). destruct (Hf a b Rab) as (_ & _ & W3 & _). left. exists b. split; [exact Hb|apply W3; exact H].
      * right. exists (e', w'). split; [apply V3; reflexivity|]. assert (e' = e /\ w' = w) as [-> ->] by (split; congruence). reflexivity.
    + destruct H as [(b & Hb & G)|(y & Hy & E)].
      * destruct (V2 b Hb) as (a & -> & Rab). destruct (Hf a b Rab) as (_ & _ & W3 & _). cbn [rbind]. apply W3. exact G.
      * injection E as <-. apply V3 in Hy. rewrite Hy. reflexivity.
  - destruct V4 as [[a E]|(e & w & E)]; rewrite E; cbn [rbind]; [|eauto]. destruct (V1 a E) as (b & _ & Rab). destruct (Hf a b Rab) as (_ & _ & _ & W4). exact W4.
Qed.
Lemma views_got : forall A B (a : A) (R : A -> B -> Prop) (rel : Result B -> Prop), (forall r, rel r -> exists b, r = inl b /\ R a b) -> (exists b, rel (inl b)) -> views (Got a) rel R.
Proof.
  intros A B a R rel H [b Hb]. split; [|split; [|split; [|eauto]]].
  - intros a' E. injection E as <-. destruct (H _ Hb) as (b' & E & Rb). injection E as <-. eauto.
  - intros b' Hb'. destruct (H _ Hb') as (b2 & E & Rb). injection E as <-. eauto.
  - intros e w. split; [discriminate|]. intro X. destruct (H _ X) as (b' & E & _). discriminate E.
Qed.
Lemma views_iff : forall A B (x : res A) (rel rel' : Result B -> Prop) R, (forall r, rel' r <-> rel r) -> views x rel R -> views x rel' R.
Proof.
  intros A B x rel rel' R E (V1 & V2 & V3 & V4). split; [|split; [|split; [|exact V4]]].
  - intros a H. destruct (V1 a H) as (b & Hb & Rb). exists b. split; [apply E; exact Hb|exact Rb].
  - intros b H. apply V2. apply E. exact H.
  - intros e w. rewrite V3. symmetry. apply E.
Qed.
Lemma views_ex : forall A B Y (P : Y -> Prop) y0 (x : res A) (g : Y -> Result B -> Prop) R, P y0 -> (forall y, P y -> y = y0) -> views x (g y0) R ->
  views x (fun r => exists y, P y /\ g y r) R.
Proof. intros A B Y P y0 x g R H U. apply views_iff. intro r. split; [intros (y & Py & G); apply U in Py; subst y; exact G|eauto]. Qed.

(** ** lists *)
Definition same_words (a b : list bytes) : Prop := forall w, In w a <-> In w b.
Lemma same_has : forall a b, same_words a b -> forall w, existsb (beq w) a = existsb (beq w) b.
Proof.
  intros a b H w. apply eq_true_iff_eq. rewrite !existsb_In. apply H.
Qed.
Lemma same_new : forall a b, same_words a b -> forall l, new_words a l = new_words b l.
Proof. intros a b H l. unfold new_words. apply filter_ext. intro w. rewrite (same_has a b H). reflexivity. Qed.
Lemma same_accepted : forall ft typed a b, same_words a b -> forall l, ErrListSpec.accepted ft typed a l -> ErrListSpec.accepted ft typed b l.
Proof.
  intros ft typed a b H l (A1 & A2 & A3 & A4). unfold ErrListSpec.accepted. rewrite <- (same_new a b H). split; [exact A1|]. split; [exact A2|]. split; [|exact A4].
  intros T w I X. apply (A3 T w I). apply H. exact X.
Qed.
Lemma same_fault : forall ft typed a b, same_words a b -> forall l x w, fault ft typed a l x w -> fault ft typed b l x w.
Proof.
  intros ft typed a b H l x w F. destruct F as [num line t n H1 H2 H3|num line t n H1 H2 H3|num line t n H1 H2 H3 H4|num line t n H1 H2 H3 H4|num line t H1 H2 H3 H4].
  - apply ft_several; assumption.
  - apply ft_invalid; assumption.
  - apply ft_again; try assumption. intro X. apply H3. apply H. exact X.
  - apply ft_taken; try assumption. apply H. exact H2.
  - apply ft_full; try assumption; [intro X; apply H2; apply H; exact X|]. rewrite <- (same_new a b H). exact H4.
Qed.
Lemma same_says : forall fs ft typed a b p given, same_words a b -> forall w, list_says fs ft typed a p given w -> list_says fs ft typed b p given w.
Proof.
  intros fs ft typed a b p given H w F. destruct F as [F X|F X F2|q c ls bf x r w F Hw E A Fl|q c ls n d F Hw Ty A ds Dn Ln W].
  - apply ls_missing; assumption.
  - apply ls_missing_both; assumption.
  - exact (ls_word fs ft typed b p given q c ls bf x r w F Hw E (same_accepted _ _ _ _ H _ A) (same_fault _ _ _ _ H _ _ _ Fl)).
  - assert (E : ds = filter (fun w => existsb (beq w) b) (flat_map snd ls)) by (apply filter_ext; intro y; apply same_has; exact H).
    clearbody ds. subst ds. exact (ls_duplicates fs ft typed b p given q c ls n d F Hw Ty (same_accepted _ _ _ _ H _ A) Dn Ln W).
Qed.
Section Lists.
Variable fs : bytes -> option CountModel.node.
Hypothesis Hfs : forall p c, is_file fs p c -> bytes_ok c.
Lemma list_views : forall k ft p given st taken, same_words (uniqueOf st k) taken ->
  views (listT fs k ft p given st) (reads_list fs (kind_type k ft) (negb (kind_eqb k PlainList)) p given taken)
    (fun x ws => indexed_list (snd x) ws /\ Forall bytes_ok ws /\ same_words (uniqueOf (fst x) k) (ws ++ taken) /\ forall k', k' <> k -> uniqueOf (fst x) k' = uniqueOf st k').
Proof.
  intros k ft p given st taken Ht. unfold listT. destruct (newList_cases fs Hfs k ft p given st) as [(st' & l & E)|[w W]].
  - rewrite E. cbn [quiet rbind].
    assert (F : exists q c, found fs p q c).
    { destruct (isRegular fs (ErrListRun.opened fs p)) eqn:Rg; [exists (ErrListRun.opened fs p), (contentsOf fs (ErrListRun.opened fs p)); apply found_iff; auto|].
      exfalso. unfold newListT in E. cbv zeta in E. match type of E with (if negb ?b then _ else _) = _ => change b with (isRegular fs (ErrListRun.opened fs p)) in E end. rewrite Rg in E. discriminate E. }
    destruct F as (q & c & F). pose proof (found_ok fs Hfs _ _ _ F) as Hc. pose proof (proj1 (found_iff fs _ _ _) F) as (-> & _). rewrite (newList_load fs k ft p given st c F) in E.
    destruct (C31_words_exist c) as (ls & Hw & Uw). destruct (C31_positions (kind_type k ft) (negb (kind_eqb k PlainList)) c (uniqueOf st k) ls Hc Hw) as [(G & s & l' & Ld & L1 & L2 & L3 & L4 & _ & L5)|(G & s & e & Ld)];
      [|exfalso; rewrite Ld in E; cbn [obind] in E; discriminate E].
    rewrite Ld in E. cbn [obind] in E. injection E as <- <-. set (ws := flat_map snd ls) in *.
    assert (Rw : indexed_list l' ws /\ Forall bytes_ok ws /\ same_words (uniqueOf (setUnique st k s) k) (ws ++ taken) /\ forall k', k' <> k -> uniqueOf (setUnique st k s) k' = uniqueOf st k').
    { split; [split; [exact L1|]; auto|]. split; [|split].
      - apply Forall_forall. intros w I. apply file_words_fun in Hw. unfold ws in I. apply in_flat_map in I. destruct I as (lw & I1 & I2). rewrite Hw in I1. apply in_map_iff in I1. destruct I1 as (x & <- & I1). cbn [snd] in I2.
        assert (X : Forall bytes_ok (getlines 10 c)) by (apply getlines_generic_ok; [exact Hc|constructor]). rewrite Forall_forall in X. apply X in I1.
        assert (Y : Forall bytes_ok (getlines 32 x)) by (apply getlines_generic_ok; [exact I1|constructor]). rewrite Forall_forall in Y. exact (Y w I2).
      - intro w. cbn [setUnique uniqueOf]. assert (Kk : kind_eqb k k = true) by (destruct k; reflexivity). rewrite Kk, L5, in_app_iff, <- (Ht w). tauto.
      - intros k' N0. cbn [setUnique uniqueOf]. assert (Kk : kind_eqb k' k = false) by (destruct k, k'; try reflexivity; congruence). rewrite Kk. reflexivity. }
    assert (Gt : good_file (oneb (kind_type k ft)) taken ls).
    { destruct G as (G1 & G2 & G3 & G4 & G5). split; [exact G1|]. split; [exact G2|]. split; [exact G3|]. split; [|exact G5]. intros w I X. apply (G4 w I). apply Ht. exact X. }
    apply views_got; cbn [reads_list].
    + intros [ws'|[x w]] H; cbn [reads_list] in H.
      * destruct H as (q' & c' & ls' & F' & Hw' & _ & ->). apply (found_iff fs) in F'. pose proof (proj1 (found_iff fs _ _ _) F) as (_ & _ & C1). destruct F' as (_ & _ & C2). subst c'. rewrite C1 in Hw'. apply Uw in Hw'. subst ls'. exists ws. auto.
      * exfalso. destruct H as [_ H]. apply (same_says _ _ _ _ (uniqueOf st k)) in H; [|intro y; symmetry; apply Ht]. apply (newList_says fs Hfs k ft p given st) in H. destruct H as [st2 H].
        rewrite (newList_load fs k ft p given st c F), Ld in H. cbn [obind] in H. discriminate H.
    + exists ws, (ErrListRun.opened fs p), c, ls. auto.
  - pose proof W as W0. apply (newList_says fs Hfs k ft p given st) in W. destruct W as [st' E]. rewrite E. cbn [quiet rbind]. apply (same_says _ _ _ _ taken) in W0; [|exact Ht].
    split; [discriminate|]. split; [|split; [|eauto]].
    + intros ws (q & c & ls & F & Hw & G & _). exfalso. pose proof (found_ok fs Hfs _ _ _ F) as Hc. pose proof (proj1 (found_iff fs _ _ _) F) as (-> & _). rewrite (newList_load fs k ft p given st c F) in E.
      destruct (C31_positions (kind_type k ft) (negb (kind_eqb k PlainList)) c (uniqueOf st k) ls Hc Hw) as [(_ & s & l' & Ld & _)|(N0 & _)]; [rewrite Ld in E; cbn [obind] in E; discriminate E|].
      apply N0. change (good_file (oneb (kind_type k ft)) taken ls) in G. destruct G as (G1 & G2 & G3 & G4 & G5). split; [exact G1|]. split; [exact G2|]. split; [exact G3|]. split; [|exact G5]. intros y I X. apply (G4 y I). apply Ht. exact X.
    + intros e v. split; intro H.
      * assert (e = DomainError /\ v = w) as [-> ->] by (split; congruence). split; [reflexivity|exact W0].
      * destruct H as [-> H]. apply (same_says _ _ _ _ (uniqueOf st k)) in H; [|intro y; symmetry; apply Ht]. apply (newList_says fs Hfs k ft p given st) in H. destruct H as [st2 H]. rewrite E in H. injection H as _ <-. reflexivity.
Qed.
End Lists.
Section Env.
Variable fs : bytes -> option CountModel.node.
Variable writable : bytes -> bool.
Variable reg : bytes -> registry.
Hypothesis Hfs : forall p c, is_file fs p c -> bytes_ok c.
Hypothesis Hreg : forall file, known (reg file).
Lemma child_one : forall dir n, plain_name n -> child dir n (joinPath dir n) /\ forall p, child dir n p -> p = joinPath dir n.
Proof. intros dir n P. split; [apply child_join; auto|]. intros p C. apply child_join in C; auto. Qed.
Lemma lists_views : forall k (A : Type) (path name file : A -> bytes) d, k <> PlainList ->
  forall l, Forall (fun a => path a = joinPath d (file a) /\ plain_name (file a)) l -> forall st taken, same_words (uniqueOf st k) taken ->
  views (readListsT fs k path name l st) (reads_lists fs d (map (fun a => (file a, name a)) l) taken)
    (fun x wss => map fst (snd x) = l /\ Forall2 indexed_list (map snd (snd x)) wss /\ Forall (Forall bytes_ok) wss /\ forall k', k' <> k -> uniqueOf (fst x) k' = uniqueOf st k').
Proof.
  intros k A path name file d Hk l. induction l as [|a l IH]; intros HF st taken Ht; cbn [readListsT map reads_lists].
  - apply views_got; [|eauto]. intros r ->. exists []. split; [reflexivity|]. cbn. split; [reflexivity|]. split; [constructor|]. split; [constructor|reflexivity].
  - destruct (Forall_inv HF) as [Hp Hn]. destruct (child_one d (file a) Hn) as [C1 C2]. apply (views_ex _ _ _ _ (path a)); [rewrite Hp; exact C1|intros y C; rewrite Hp; apply C2; exact C|].
    assert (T : negb (kind_eqb k PlainList) = true /\ kind_type k MultiplePerLine = MultiplePerLine) by (destruct k; [congruence|split; reflexivity..]). destruct T as [T1 T2].
    pose proof (list_views fs Hfs k MultiplePerLine (path a) (name a) st taken Ht) as V. rewrite T1, T2 in V. apply (views_bind _ _ _ _ _ _ _ _ _ _ V). clear V.
    intros [st1 f] ws (I1 & I2 & I3 & I4). cbn [fst snd] in I1, I2, I3, I4. apply (views_bind _ _ _ _ _ _ _ _ _ _ (IH (Forall_inv_tail HF) st1 (ws ++ taken) I3)).
    intros [st2 fs2] wss (J1 & J2 & J3 & J4). cbn [fst snd] in J1, J2, J3, J4. apply views_got; [|eauto]. intros r ->. exists (ws :: wss). split; [reflexivity|]. cbn [fst snd map].
    split; [congruence|]. split; [constructor; assumption|]. split; [constructor; assumption|]. intros k' N0. rewrite J4, I4 by exact N0. reflexivity.
Qed.

(** ** what is also known about what was read *)
Definition entry_bytes (u : Ucd) : Prop := exists row, Forall bytes_ok row /\ row_is (ucdRow row) u.
Lemma ucd_rows : forall dir us, ucd_table fs writable dir us -> Forall entry_bytes us.
Proof.
  intros dir us H. apply (loads_known _ (fun _ _ _ _ _ _ => True) _ _ _ Hfs) in H.
  destruct (loads_view (step_known ucd_step ucd_names) (fun _ _ _ (_ _ : list Ucd) => True) ucd_names (fun a b => a = b /\ Forall entry_bytes a)) with (2 := H) (b := @nil Ucd) as (b' & _ & _ & X); [|split; [reflexivity|constructor]|exact X].
  intros headers line name k row a a' b _ [(K & B & _) (r & u & F & Hu & -> & _)] [<- X]. apply fields_ucdRow in F. subst r. exists (a ++ [u]). split; [exact I|]. split; [reflexivity|].
  apply Forall_app. split; [exact X|]. constructor; [exists row; auto|constructor].
Qed.
Lemma entry_texts_ok : forall u, entry_bytes u -> bytes_ok (ucdOn u) /\ bytes_ok (ucdKun u).
Proof.
  intros u (row & B & H). destruct (is_text _ _ H) as (_ & _ & _ & _ & _ & _ & E2 & E3). rewrite E2, E3. split; apply field_ok; exact B.
Qed.
Definition env_known (e : Env) : Prop :=
  (forall n u, In (n, u) (ucdMap (envUcd e)) -> bytes_ok (ucdOn u) /\ bytes_ok (ucdKun u)) /\ exists rows, loadRadicals rows emptyRadicals = Val (envRadicals e).
Lemma table_views : forall A B (x : res A) (rows : B -> Prop) (says : exn -> bytes -> Prop) (R : A -> B -> Prop),
  (forall a, x = Got a -> exists b, rows b /\ R a b) /\ (forall b, rows b -> exists a, x = Got a /\ R a b) /\ (forall e w, x = Says e w <-> says e w)
  /\ ((exists a, x = Got a) \/ exists e w, x = Says e w) -> views x (reads_table rows says) R.
Proof. intros A B x rows says R H. exact H. Qed.
Lemma views_more : forall A B (x : res A) rel (R R' : A -> B -> Prop), views x rel R -> (forall a b, x = Got a -> rel (inl b) -> R a b -> R' a b) -> views x rel R'.
Proof.
  intros A B x rel R R' (V1 & V2 & V3 & V4) H. split; [|split; [|split; [exact V3|exact V4]]].
  - intros a E. destruct (V1 a E) as (b & Hb & Rb). exists b. split; [exact Hb|auto].
  - intros b Hb. destruct (V2 b Hb) as (a & E & Rb). exists a. split; [exact E|auto].
Qed.
Lemma radical_rows : forall dir d, radicalTableT fs writable reg dir = Got d -> exists rows, loadRadicals rows emptyRadicals = Val d.
Proof.
  intros dir d E. pose proof (proj1 (proj2 (proj2 C130_same)) fs writable reg dir (Hreg _)) as X. rewrite E in X. cbn [plain] in X. unfold loadFrom in X.
  destruct (fileRows fs writable reg dir (b_ "radicals") RadicalColumns) as [[rows ended]| | |]; cbn [obind] in X; try discriminate X. exists (map radicalRow rows).
  destruct (loadRadicals (map radicalRow rows) emptyRadicals) as [x| | |]; cbn [obind] in X; try discriminate X. destruct ended; [|discriminate X]. symmetry. exact X.
Qed.
Lemma level_paths : forall dir, Forall (fun a => levelPath dir a = joinPath (joinPath dir (b_ "jlpt")) (firstLower (levelToString a)) /\ plain_name (firstLower (levelToString a))) AllLevels.
Proof. intro dir. apply Forall_forall. intros a _. split; [reflexivity|]. apply plain_check. destruct a; reflexivity. Qed.
Lemma kyu_paths : forall dir, Forall (fun a => kyuPath dir a = joinPath (joinPath dir (b_ "kentei")) (firstLower (kyuToString a)) /\ plain_name (firstLower (kyuToString a))) AllKyus.
Proof. intro dir. apply Forall_forall. intros a _. split; [reflexivity|]. apply plain_check. destruct a; reflexivity. Qed.
Lemma env_views : forall ltr dir st, views (readEnvT fs writable reg ltr dir st)
  (ErrEnvSpec.reads fs writable ltr (uniqueOf st ListModel.LevelList) (uniqueOf st ListModel.KyuList) (uniqueOf st PlainList) dir) (fun e p => env_is ltr e p /\ env_known e).
Proof.
  intros ltr dir st. unfold ErrEnvSpec.reads.
  assert (N1 : plain_name (b_ "jlpt") /\ plain_name (b_ "kentei") /\ plain_name (b_ "frequency")) by (split; [|split]; apply plain_check; reflexivity). destruct N1 as (P1 & P2 & P3).
  destruct (child_one dir _ P1) as [A1 U1], (child_one dir _ P2) as [A2 U2], (child_one dir _ P3) as [A3 U3].
  match goal with |- views _ (fun r => exists j k f, _ /\ _ /\ _ /\ @?body j k f r) _ =>
    apply (views_iff _ _ _ (fun r => exists j, child dir (b_ "jlpt") j /\ exists k, child dir (b_ "kentei") k /\ exists f, child dir (b_ "frequency") f /\ body j k f r)) end.
  { intro r. split; [intros (j & k & f & C1 & C2 & C3 & H); exists j; split; [exact C1|]; exists k; split; [exact C2|]; exists f; split; [exact C3|exact H]|].
    intros (j & C1 & k & C2 & f & C3 & H). exists j, k, f. auto. }
  apply (views_ex _ _ _ _ (joinPath dir (b_ "jlpt"))); [exact A1|exact U1|]. apply (views_ex _ _ _ _ (joinPath dir (b_ "kentei"))); [exact A2|exact U2|].
  apply (views_ex _ _ _ _ (joinPath dir (b_ "frequency"))); [exact A3|exact U3|]. unfold readEnvT.
  assert (Nl : ListModel.LevelList <> PlainList) by discriminate. assert (Nk : ListModel.KyuList <> PlainList) by discriminate.
  apply (views_bind _ _ _ _ _ _ _ _ _ _ (lists_views _ _ (levelPath dir) levelToString (fun a => firstLower (levelToString a)) _ Nl AllLevels (level_paths dir) st _ (fun w => iff_refl _))).
  intros [st1 levels] lss (L1 & L2 & L3 & L4). cbn [fst snd] in L1, L2, L3, L4. assert (T1 : same_words (uniqueOf st1 ListModel.KyuList) (uniqueOf st ListModel.KyuList)) by (rewrite L4 by discriminate; intro; reflexivity).
  apply (views_bind _ _ _ _ _ _ _ _ _ _ (lists_views _ _ (kyuPath dir) kyuToString (fun a => firstLower (kyuToString a)) _ Nk AllKyus (kyu_paths dir) st1 _ T1)).
  intros [st2 kyus] kss (K1 & K2 & K3 & K4). cbn [fst snd] in K1, K2, K3, K4. assert (T2 : same_words (uniqueOf st2 PlainList) (uniqueOf st PlainList)) by (rewrite K4, L4 by discriminate; intro; reflexivity).
  apply (views_bind _ _ _ _ _ _ _ _ _ _ (list_views fs Hfs PlainList OnePerLine (joinPath dir (b_ "frequency")) [] st2 _ T2)).
  intros [st3 freq] ws (F1 & F2 & _). cbn [fst snd] in F1, F2.
  apply (views_bind _ _ _ _ _ _ _ _ _ _ (views_more _ _ _ _ _ (fun d us => ErrUcdRow.loaded d us /\ Forall entry_bytes us)
    (table_views _ _ _ _ _ _ (ucd_table_view ltr fs writable reg Hfs (Hreg _) dir)) (fun d us _ T R => conj R (ucd_rows dir us T)))). intros ucd us [(Hs & Hh & _) Hu].
  apply (views_bind _ _ _ _ _ _ _ _ _ _ (views_more _ _ _ _ _ (fun d rs => radList d = rs /\ exists rows, loadRadicals rows emptyRadicals = Val d)
    (table_views _ _ _ _ _ _ (radical_table_view fs writable reg Hfs dir (Hreg _))) (fun d rs E _ R => conj R (radical_rows dir d E)))).
  intros rad rs (R1 & R2). apply (views_bind _ _ _ _ _ _ _ _ _ _ (table_views _ _ _ _ _ _ (reading_table_view fs writable reg Hfs dir (Hreg _)))). intros rd ps (S1 & S2 & S3).
  apply views_got; [|eauto]. intros r ->. eexists. split; [reflexivity|]. split.
  - unfold env_is. cbn [envLevels envKyus envFrequency envUcd envRadicals envReadings envLtr partLevels partKyus partFrequency partUcd partRadicals partReadings].
    split; [exact L1|]. split; [exact L2|]. split; [exact K1|]. split; [exact K2|]. split; [exact F1|]. split; [exact Hh|]. split; [exact R1|]. auto.
  - split; cbn [envUcd envRadicals]; [|exact R2]. intros n u I. apply entry_texts_ok. rewrite Forall_forall in Hu. apply Hu. destruct Hs as [Hs _]. apply mfind_In in I; [|exact Hs]. 
    destruct Hh as (Hh & _). apply Hh in I. tauto.
Qed.

(** ** the reports at the end *)
Lemma selectors_view : forall ucd es i, ReportUcd.entries ucd -> Forall (fun x => bytes_ok (kName (snd x))) es ->
  let l := filter selected_name (map snd es) in
  (Forall (fun k => exists u, ucdFind ucd (kName k) = Val (Some u)) l /\ exists t, selectorLinesT ucd es i = Got t)
  \/ exists before k after, l = before ++ k :: after /\ Forall (fun k => exists u, ucdFind ucd (kName k) = Val (Some u)) before
       /\ ~ (exists u, ucdFind ucd (kName k) = Val (Some u)) /\ selectorLinesT ucd es i = Says DomainError (b_ "UCD not found for " ++ quoted (kName k)).
Proof.
  intros ucd es i He. revert i. induction es as [|[n k] es IH]; intros i Hb; cbn [map filter snd selectorLinesT].
  { left. split; [constructor|eauto]. }
  pose proof (Forall_inv Hb) as B1. pose proof (Forall_inv_tail Hb) as B2. cbn [snd] in B1. rewrite variant_total. cbn [quiet rbind].
  destruct (selected_name k) eqn:V; [|apply IH; exact B2]. destruct (unicode_any (kName k) B1) as [cs [us [U1 [U2 U3]]]]. rewrite U3. cbn [quiet rbind].
  assert (Nv : nonVariantName k = Val (firstn (List.length (kName k) - 3) (kName k))).
  { unfold nonVariantName, noVariationSelector. pose proof (variant_total k) as W. unfold variant in W. rewrite W, V. reflexivity. }
  rewrite Nv. cbn [quiet rbind]. destruct (ucdFind_total ucd (kName k)) as [o Fo]. rewrite Fo. cbn [quiet rbind]. destruct o as [u|].
  - destruct (entry_texts u (find_entry _ _ _ He Fo)) as [[a [E1 C1]] [bs [C2 E2]]]. rewrite E1. cbn [quiet rbind].
    assert (X : exists t, (if hasLinks u then x <- linkCodeAndNames u ;; Val (b_ " variant of " ++ x) else Val []) = Val t).
    { destruct (hasLinks u); [|eauto]. rewrite E2. cbn [obind]. eauto. }
    destruct X as [t X]. rewrite X. cbn [quiet rbind]. destruct (IH (i + 1) B2) as [(F & t' & E)|(bf & k' & af & Ef & F & Nk & E)].
    + left. split; [constructor; [eauto|exact F]|]. rewrite E. cbn [rbind]. eauto.
    + right. exists (k :: bf), k', af. split; [cbn [map] in Ef; rewrite Ef; reflexivity|]. split; [constructor; [eauto|exact F]|]. split; [exact Nk|]. rewrite E. reflexivity.
  - right. exists [], k, (filter selected_name (map snd es)). split; [reflexivity|]. split; [constructor|]. split; [intros [u Hu]; congruence|]. reflexivity.
Qed.
Lemma first_missing : forall (P : Kanji -> Prop) l b k a b' k' a', l = b ++ k :: a -> l = b' ++ k' :: a' -> Forall P b -> Forall P b' -> ~ P k -> ~ P k' -> k = k'.
Proof.
  intros P l b. revert l. induction b as [|x b IH]; intros l k a b' k' a' -> E F F' Nk Nk'; destruct b' as [|x' b']; cbn [app] in E.
  - congruence.
  - injection E as <- _. destruct Nk. exact (Forall_inv F').
  - injection E as <- _. destruct Nk'. exact (Forall_inv F).
  - injection E as _ E. exact (IH _ _ _ _ _ _ eq_refl E (Forall_inv_tail F) (Forall_inv_tail F') Nk Nk').
Qed.
Lemma finished_views : forall sort mode ltr dir st max e d ks, sorts orderByStrokes sort -> readEnvT fs writable reg ltr dir st = Got e ->
  readKanjiT fs writable reg e dir (newData max) = Got d -> Books d ks -> views (finishedT sort mode e d) (reports mode e ks) (fun _ _ => True).
Proof.
  intros sort mode ltr dir st max e d ks Hs He Hd HB.
  assert (L : snd (loadDir fs writable reg sort DebugNone ltr dir st max) = Val (e, d)).
  { rewrite <- (loadDir_plain fs writable reg Hreg Hfs). unfold loadDirT. rewrite He. cbn [rbind]. rewrite Hd. reflexivity. }
  pose proof (loaded_dir fs writable reg Hreg _ _ _ _ _ _ _ L) as (f & D). rewrite (load_dir fs writable reg Hreg _ _ _ _ _ _ _ D) in L. apply C110_same_data in L.
  destruct (dir_ok fs writable Hfs dir f D) as [O B]. destruct (dir_names fs writable Hfs dir f ltr st max e d D L) as [Gd _].
  assert (Hb : forall k, loaded_kanji d k -> bytes_ok (kName k) /\ kanji_ok k) by (intros k I; destruct (Gd k I) as (X & Y & _); auto).
  destruct mode.
  2,3: unfold finishedT; rewrite ?info_spec; cbn [finishedLoadingData quiet rbind]; apply views_got; [intros [[]|[x w]] H; [exists tt; auto|destruct H as [H _]; discriminate H]|exists tt; intro H; discriminate H].
  unfold finishedT. rewrite strokes_spec. cbn [quiet rbind]. rewrite counts_spec. cbn [quiet rbind].
  destruct (radicals_loaded ltr f st max e d sort O L Hb Hs) as [r [Er _]]. rewrite Er. cbn [quiet rbind].
  pose proof (loaded_entries ltr f st max e d O B L) as En.
  destruct (printLinks_spec (envUcd e) (b_ "Frequency") (typeList d FrequencyType) En) as [a [Ea _]]. destruct (printLinks_spec (envUcd e) (b_ "Extra") (typeList d Extra) En) as [b [Eb _]].
  rewrite Ea. cbn [quiet rbind]. rewrite Eb. cbn [quiet rbind]. destruct (order_is d ks HB) as [Or U].
  assert (Sel : forall k, In k ks /\ selected_name k = true <-> In k (filter selected_name (map snd (dNames d)))).
  { intro k. rewrite filter_In. destruct Or as [P _]. split; intros [I E]; split; try exact E; [exact (Permutation_in k P I)|exact (Permutation_in k (Permutation_sym P) I)]. }
  destruct (selectors_view (envUcd e) (dNames d) 0 En (names_bytes ltr f st max e d O L Hb)) as [(F & t & E)|(bf & k & af & Ef & F & Nk & E)]; rewrite E; cbn [rbind].
  - rewrite Forall_forall in F. apply views_got; [|exists tt; intros _ k I E'; apply F; apply Sel; auto]. intros [[]|[x w]] H; [exists tt; auto|]. exfalso.
    destruct H as (_ & _ & l & bf & k & af & Ol & Ef & _ & Nk & _). apply Nk. apply F. rewrite <- (U l Ol), Ef. apply in_or_app. right. left. reflexivity.
  - split; [discriminate|]. split; [|split; [|eauto]].
    + intros [] H. exfalso. apply Nk. assert (I : In k ks /\ selected_name k = true) by (apply Sel; rewrite Ef; apply in_or_app; right; left; reflexivity). exact (H eq_refl k (proj1 I) (proj2 I)).
    + intros x w. split; intro H.
      * assert (x = DomainError /\ w = b_ "UCD not found for " ++ quoted (kName k)) as [-> ->] by (split; congruence). split; [reflexivity|]. split; [reflexivity|].
        exists (map snd (dNames d)), bf, k, af. auto 10.
      * destruct H as (_ & -> & l & bf' & k' & af' & Ol & Ef' & F' & Nk' & ->). rewrite (U l Ol) in Ef'. rewrite (first_missing _ _ _ _ _ _ _ _ Ef Ef' F F' Nk Nk'). reflexivity.
Qed.
End Env.
