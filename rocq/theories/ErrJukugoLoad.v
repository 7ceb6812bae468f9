(** Lemmas about the first fault in the Jukugo files. *)
From Verif Require Import BaseFacts StringModel StringSpec StringProofs ColumnFileProofs ListProofs DirPaths JukugoProofs JukugoLines JukugoLoad
  ErrArgsProofs ErrArgsProps ErrListProofs ErrJukugoProofs.
From Verif Require Import ErrJukugoSpec.
Open Scope N_scope.
Arguments N.mul : simpl never.
Arguments N.add : simpl never.
Arguments N.sub : simpl never.

Lemma number_of : forall n x, written n x -> to_string x = n.
Proof. intros n x W. exact (written_one _ _ _ (to_string_written x) W). Qed.
Lemma next_number : forall num (A : Type) (ls : list A) x, num + 1 + len ls = num + len (x :: ls).
Proof. intros. rewrite len_cons. lia. Qed.

(** ** words of lines *)
Lemma entries_app : forall whole g a b ws, entries whole g (a ++ b) ws <-> exists u v, ws = u ++ v /\ entries whole g a u /\ entries whole g b v.
Proof.
  intros whole g a b ws. unfold entries. split.
  - intro H. apply Forall2_app_inv_l in H. destruct H as (u & v & U & V & ->). eauto.
  - intros (u & v & -> & U & V). apply Forall2_app; assumption.
Qed.
Lemma lines_nil : forall g, lines_words g [] [].
Proof. intro g. unfold lines_words, entries. destruct (g =? GradeS); [exists []; split|]; constructor. Qed.
Lemma lines_nil_inv : forall g ws, lines_words g [] ws -> ws = [].
Proof.
  intros g ws. unfold lines_words, entries. destruct (g =? GradeS); [intros (ess & A & B); inversion A; subst; inversion B|intro B; inversion B]; reflexivity.
Qed.
Lemma lines_cons : forall g l ls ws, lines_words g (l :: ls) ws <-> exists u v, ws = u ++ v /\ lines_words g [l] u /\ lines_words g ls v.
Proof.
  intros g l ls ws. unfold lines_words. destruct (g =? GradeS).
  - split.
    + intros (ess & A & B). inversion A as [|? es ? ess' A1 A2]; subst. cbn [concat] in B. apply entries_app in B. destruct B as (u & v & -> & U & V).
      exists u, v. split; [reflexivity|]. split; [exists [es]; split; [constructor; [exact A1|constructor]|cbn [concat]; rewrite app_nil_r; exact U]|]. exists ess'. auto.
    + intros (u & v & -> & (eu & A & B) & (ev & C & D)). inversion A as [|? es ? r A1 A2]; subst. inversion A2; subst. cbn [concat] in B. rewrite app_nil_r in B.
      exists (es :: ev). split; [constructor; assumption|]. cbn [concat]. apply entries_app. eauto.
  - change (l :: ls) with ([l] ++ ls). apply entries_app.
Qed.
Lemma lines_app : forall g a b u v, lines_words g a u -> lines_words g b v -> lines_words g (a ++ b) (u ++ v).
Proof.
  intros g a. induction a as [|l a IH]; intros b u v U V.
  - apply lines_nil_inv in U. subst u. exact V.
  - apply lines_cons in U. destruct U as (x & y & -> & X & Y). cbn [app]. apply lines_cons. exists x, (y ++ v). rewrite app_assoc. auto.
Qed.
Lemma file_lines : forall g c ws, file_words_of g c ws <-> lines_words g (getlines 10 c) ws.
Proof.
  intros g c ws. unfold file_words_of, lines_words, entries. split.
  - intros (ls & C & H). apply cut_getlines in C. subst ls. exact H.
  - intro H. exists (getlines 10 c). split; [apply cut_getlines; reflexivity|exact H].
Qed.
Lemma loadable_left : forall a b c, loadable (a ++ b ++ c) -> loadable (a ++ b).
Proof. intros a b c H. rewrite app_assoc in H. exact (loadable_prefix _ _ H). Qed.

Section Std.
Variable std : exn -> bytes.

(** ** entries *)
Lemma createAll_app : forall a b g d, createAllT std (a ++ b) g d = (d' <~ createAllT std a g d ;; createAllT std b g d').
Proof. intros a b g. induction a as [|e a IH]; intro d; [reflexivity|]. cbn [app createAllT]. destruct (createJukugoT std e g false d); cbn [rbind]; auto. Qed.
Lemma entries_run : forall g es js d ws, Holds js d -> Forall fits es -> Forall bytes_ok es -> entries false g es ws -> loadable (js ++ ws) ->
  exists d', createAllT std es g d = Got d' /\ Holds (js ++ ws) d'.
Proof.
  intros g es. induction es as [|e es IH]; intros js d ws H F B E Lo; inversion E as [|? j ? ws' [E1 E2] E3]; subst.
  - exists d. rewrite app_nil_r. split; [reflexivity|exact H].
  - inversion F as [|? ? F1 F2]; inversion B as [|? ? B1 B2]; subst. cbn [createAllT].
    assert (Lj : loadable (js ++ [j])) by (apply (loadable_left js [j] ws'); exact Lo).
    destruct (entry_step std false js d (jGrade j) e j H F1 B1 E1 eq_refl Lj) as (d1 & -> & H1). cbn [rbind].
    change (j :: ws') with ([j] ++ ws') in *. rewrite app_assoc in *. exact (IH _ d1 ws' H1 F2 B2 E3 Lo).
Qed.
Lemma entries_total : forall g es js d, Holds js d -> Forall fits es -> Forall bytes_ok es ->
  (exists ws, entries false g es ws /\ loadable (js ++ ws))
  \/ exists a e b ws w, es = a ++ e :: b /\ entries false g a ws /\ loadable (js ++ ws) /\ entry_says false (js ++ ws) g e w.
Proof.
  intros g es. induction es as [|e es IH]; intros js d H F B.
  - left. exists []. split; [constructor|]. rewrite app_nil_r. exact (h_loadable _ _ H).
  - inversion F as [|? ? F1 F2]; inversion B as [|? ? B1 B2]; subst.
    destruct (entry_total false js d g e H B1) as [(j & E1 & E2 & Lj)|[w W]].
    + destruct (entry_step std false js d g e j H F1 B1 E1 E2 Lj) as (d1 & _ & H1).
      destruct (IH _ d1 H1 F2 B2) as [(ws & E & Lo)|(a & x & b & ws & w & -> & E & Lo & W)].
      * left. exists (j :: ws). split; [constructor; [auto|exact E]|]. rewrite <- app_assoc in Lo. exact Lo.
      * right. exists (e :: a), x, b, (j :: ws), w. rewrite <- app_assoc in Lo, W. split; [reflexivity|]. split; [constructor; [auto|exact E]|]. auto.
    + right. exists [], e, es, [], w. rewrite app_nil_r. split; [reflexivity|]. split; [constructor|]. split; [exact (h_loadable _ _ H)|exact W].
Qed.

(** ** lines *)
Lemma other_rest : forall l es, other_line l es -> exists a x rest, l = a ++ b_ "..." ++ x :: rest /\ findText (b_ "...") l = Some (len a) /\ es = getlines 32 rest
  /\ substrFrom l (len a + 3 + 1) = Val rest.
Proof.
  intros l es (a & x & rest & E & M & C). apply cut_getlines in C. exists a, x, rest. split; [exact E|].
  destruct (findText_cases (b_ "...") l) as [[_ Nn]|(a' & r' & E' & Ft & M')]; [exfalso; exact (Nn _ _ E)|].
  destruct (first_unique _ _ _ _ _ _ E E' M M') as [<- _]. split; [exact Ft|]. split; [exact C|]. unfold substrFrom.
  assert (X : l = (a ++ b_ "..." ++ [x]) ++ rest) by (rewrite E, <- !app_assoc; reflexivity).
  replace (len a + 3 + 1) with (len (a ++ b_ "..." ++ [x])) by (rewrite !len_app; change (len (b_ "...")) with 3; change (len [x]) with 1; lia).
  rewrite X at 1. apply substr_end. rewrite X at 1. rewrite (len_app _ (a ++ _)). lia.
Qed.
Lemma rest_fine : forall l a x rest, fits l -> bytes_ok l -> l = a ++ b_ "..." ++ x :: rest -> Forall fits (getlines 32 rest) /\ Forall bytes_ok (getlines 32 rest).
Proof.
  intros l a x rest F B E. split.
  - apply getlines_fit. unfold fits in *. rewrite E, !len_app, len_cons in F. lia.
  - apply getlines_ok. rewrite E in B. apply bytes_ok_mid in B. destruct B as (_ & _ & B). inversion B. assumption.
Qed.
Lemma line_run : forall g l js d ws, Holds js d -> fits l -> bytes_ok l -> lines_words g [l] ws -> loadable (js ++ ws) ->
  exists d', createLineT std l g d = Got d' /\ Holds (js ++ ws) d'.
Proof.
  intros g l js d ws H F B W Lo. unfold createLineT, lines_words in *. destruct (g =? GradeS); cbn [negb].
  - destruct W as (ess & A & E). inversion A as [|? es ? r A1 A2]; subst. inversion A2; subst. cbn [concat] in E. rewrite app_nil_r in E.
    destruct (other_rest l es A1) as (a & x & rest & El & -> & -> & S). rewrite S. cbn [withText rbind].
    destruct (rest_fine l a x rest F B El) as [F' B']. exact (entries_run g _ js d ws H F' B' E Lo).
  - inversion W as [|? j ? ws' [E1 E2] E3]; subst. inversion E3; subst. exact (entry_step std true js d (jGrade j) l j H F B E1 eq_refl Lo).
Qed.
Lemma line_fault : forall g l js d w, Holds js d -> fits l -> bytes_ok l -> line_says std js g l w -> exists e, createLineT std l g d = Says e w.
Proof.
  intros g l js d w H F B W. unfold createLineT. destruct W as [w G W| -> W|a -> E M|es e rest ws w -> O E Lo W].
  - replace (g =? GradeS) with false by lia. cbn [negb]. rewrite (entry_fault std true js d g l w H F B W). eauto.
  - rewrite N.eqb_refl. cbn [negb]. destruct (findText_cases (b_ "...") l) as [[-> _]|(a & r & E & _)]; [eauto|]. exfalso. exact (W _ _ E).
  - rewrite N.eqb_refl. cbn [negb]. destruct (findText_cases (b_ "...") l) as [[_ Nn]|(a' & r' & E' & -> & M')].
    { exfalso. apply (Nn a []). rewrite app_nil_r. exact E. }
    assert (E2 : l = a ++ b_ "..." ++ []) by (rewrite app_nil_r; exact E). destruct (first_unique _ _ _ _ _ _ E2 E' M M') as [<- _].
    unfold substrFrom, substr. replace (len l <? len a + 3 + 1) with true; [cbn [withText rbind]; eauto|].
    symmetry. rewrite E, len_app. change (len (b_ "...")) with 3. lia.
  - rewrite N.eqb_refl. cbn [negb]. destruct (other_rest l _ O) as (a & x & t & El & -> & Eg & S). rewrite S. cbn [withText rbind].
    destruct (rest_fine l a x t F B El) as [F' B']. rewrite <- Eg in *. apply Forall_app in F', B'. destruct F' as [F1 F2], B' as [B1 B2].
    inversion F2; inversion B2; subst. rewrite createAll_app. destruct (entries_run GradeS es js d ws H F1 B1 E Lo) as (d' & -> & H'). cbn [rbind createAllT].
    rewrite (entry_fault std false _ d' GradeS e w H'); try assumption. cbn [rbind]. eauto.
Qed.
Lemma line_total : forall g l js d, Holds js d -> fits l -> bytes_ok l -> (exists ws, lines_words g [l] ws /\ loadable (js ++ ws)) \/ exists w, line_says std js g l w.
Proof.
  intros g l js d H F B. unfold lines_words. destruct (N.eqb_spec g GradeS) as [->|G].
  - destruct (findText_cases (b_ "...") l) as [[_ Nn]|(a & r & E & _ & M)]; [right; eexists; exact (ls_dots std js GradeS l eq_refl Nn)|].
    destruct r as [|x rest]; [right; eexists; apply (ls_end std js GradeS l a eq_refl); [rewrite app_nil_r in E; exact E|exact M]|].
    assert (O : other_line l (getlines 32 rest)). { exists a, x, rest. split; [exact E|]. split; [exact M|]. apply cut_getlines. reflexivity. }
    destruct (rest_fine l a x rest F B E) as [F' B'].
    destruct (entries_total GradeS _ js d H F' B') as [(ws & W & Lo)|(a' & e & b & ws & w & Es & W & Lo & X)].
    + left. exists ws. split; [|exact Lo]. exists [getlines 32 rest]. split; [constructor; [exact O|constructor]|]. cbn [concat]. rewrite app_nil_r. exact W.
    + right. exists w. rewrite Es in O. exact (ls_other std js GradeS l a' e b ws w eq_refl O W Lo X).
  - destruct (entry_total true js d g l H B) as [(j & E1 & E2 & Lj)|[w W]].
    + left. exists [j]. split; [constructor; [auto|constructor]|exact Lj].
    + right. exists w. exact (ls_grade std js g l w G W).
Qed.

(** ** files *)
Lemma lines_run : forall file g ls num rest js d ws, Holds js d -> Forall fits ls -> Forall bytes_ok ls -> lines_words g ls ws -> loadable (js ++ ws) ->
  exists d', createLinesT std file num (ls ++ rest) g d = createLinesT std file (num + len ls) rest g d' /\ Holds (js ++ ws) d'.
Proof.
  intros file g ls. induction ls as [|l ls IH]; intros num rest js d ws H F B W Lo.
  - apply lines_nil_inv in W. subst ws. exists d. rewrite app_nil_r, len_nil, N.add_0_r. auto.
  - apply lines_cons in W. destruct W as (u & v & -> & U & V). inversion F as [|? ? F1 F2]; inversion B as [|? ? B1 B2]; subst.
    destruct (line_run g l js d u H F1 B1 U (loadable_left _ _ _ Lo)) as (d1 & E & H1). cbn [app createLinesT]. rewrite E. cbn [inLine rbind].
    rewrite app_assoc in *. destruct (IH (num + 1) rest _ d1 v H1 F2 B2 V Lo) as (d2 & -> & H2). exists d2. rewrite next_number with (x := l). auto.
Qed.
Lemma lines_total : forall g ls js d, Holds js d -> Forall fits ls -> Forall bytes_ok ls ->
  (exists ws, lines_words g ls ws /\ loadable (js ++ ws))
  \/ exists a l b ws w, ls = a ++ l :: b /\ lines_words g a ws /\ loadable (js ++ ws) /\ line_says std (js ++ ws) g l w.
Proof.
  intros g ls. induction ls as [|l ls IH]; intros js d H F B.
  - left. exists []. split; [apply lines_nil|]. rewrite app_nil_r. exact (h_loadable _ _ H).
  - inversion F as [|? ? F1 F2]; inversion B as [|? ? B1 B2]; subst. destruct (line_total g l js d H F1 B1) as [(u & U & Lo)|[w W]].
    + destruct (line_run g l js d u H F1 B1 U Lo) as (d1 & _ & H1). destruct (IH _ d1 H1 F2 B2) as [(v & V & L2)|(a & x & b & v & w & -> & V & L2 & W)]; rewrite <- app_assoc in L2.
      * left. exists (u ++ v). split; [apply lines_cons; eauto|exact L2].
      * right. rewrite <- app_assoc in W. exists (l :: a), x, b, (u ++ v), w. split; [reflexivity|]. split; [apply lines_cons; eauto|]. auto.
    + right. exists [], l, ls, [], w. rewrite app_nil_r. split; [reflexivity|]. split; [apply lines_nil|]. split; [exact (h_loadable _ _ H)|exact W].
Qed.
Lemma file_run : forall name g c js d ws, Holds js d -> fits c -> bytes_ok c -> file_words_of g c ws -> loadable (js ++ ws) ->
  exists d', loadJukugoFileT std name c g d = Got d' /\ Holds (js ++ ws) d'.
Proof.
  intros name g c js d ws H F B W Lo. apply file_lines in W. unfold loadJukugoFileT.
  destruct (lines_run name g _ 1 [] js d ws H (getlines_fit 10 c F) (getlines_ok 10 c B) W Lo) as (d' & E & H'). rewrite app_nil_r in E. exists d'. auto.
Qed.
Lemma file_fault : forall name g c js d w, Holds js d -> fits c -> bytes_ok c -> jukugo_says std js g name c w -> loadJukugoFileT std name c g d = Says DomainError w.
Proof.
  intros name g c js d w H F B (ls & l & rest & ws & why & n & C & W & Lo & X & Wn & ->). apply cut_getlines in C. unfold loadJukugoFileT.
  pose proof (getlines_fit 10 c F) as F'. pose proof (getlines_ok 10 c B) as B'. rewrite <- C in *. apply Forall_app in F', B'. destruct F' as [F1 F2], B' as [B1 B2].
  inversion F2; inversion B2; subst. destruct (lines_run name g ls 1 (l :: rest) js d ws H F1 B1 W Lo) as (d' & -> & H'). cbn [createLinesT].
  destruct (line_fault g l _ d' why H') as [e ->]; try assumption. cbn [inLine rbind]. rewrite (number_of _ _ Wn). reflexivity.
Qed.
Lemma file_total : forall name g c js d, Holds js d -> fits c -> bytes_ok c ->
  (exists ws, file_words_of g c ws /\ loadable (js ++ ws)) \/ exists w, jukugo_says std js g name c w.
Proof.
  intros name g c js d H F B. destruct (lines_total g (getlines 10 c) js d H (getlines_fit 10 c F) (getlines_ok 10 c B)) as [(ws & W & Lo)|(a & l & b & ws & w & E & W & Lo & X)].
  - left. exists ws. split; [apply file_lines; exact W|exact Lo].
  - right. eexists. exists a, l, b, ws, w, (to_string (1 + len a)). split; [apply cut_getlines; symmetry; exact E|].
    split; [exact W|]. split; [exact Lo|]. split; [exact X|]. split; [apply to_string_written|reflexivity].
Qed.

(** ** the directory *)
Section Fs.
Variable fs : bytes -> option CountModel.node.
Hypothesis Hfs : forall p c, is_file fs p c -> bytes_ok c /\ fits c.
Definition plain_names (files : list (bytes * N)) : Prop := Forall (fun f => fst f <> [] /\ no_slash (fst f)) files.
Lemma child_name : forall dir file p x, no_slash file -> no_slash x -> child dir file p -> fileName (p ++ x) = file ++ x.
Proof.
  intros dir file p x Ns Nx C. assert (S : no_slash (file ++ x)) by (intro I; apply in_app_or in I; destruct I as [I|I]; [exact (Ns I)|exact (Nx I)]).
  destruct C as [[_ ->]|[(d & -> & ->)|(_ & _ & ->)]].
  - apply (fileName_of [] (file ++ x)); [left; reflexivity|exact S].
  - rewrite <- app_assoc. apply fileName_of; [right; exists d; reflexivity|exact S].
  - rewrite <- !app_assoc. rewrite (app_assoc dir). apply fileName_of; [right; exists dir; reflexivity|exact S].
Qed.
Lemma no_slash_txt : no_slash (b_ ".txt").
Proof. unfold no_slash. intro I. cbn in I. repeat (destruct I as [I|I]; [discriminate I|]). exact I. Qed.
Lemma found_got : forall dir file name c, file <> [] -> no_slash file ->
  (found_as fs dir file name c <-> exists q, getFileT fs dir file = Got q /\ name = fileName q /\ c = contentsOf fs q).
Proof.
  intros dir file name c Nf Ns. unfold found_as. split.
  - intros (D & p & C & X). destruct X as [[-> F]|(NF & NE & -> & F)].
    + exists p. split; [apply getFile_got; try assumption; exists p, c; split; [exact D|]; split; [exact C|left; auto]|].
      split; [|apply file_contents in F; symmetry; tauto]. rewrite <- (app_nil_r p), (child_name dir file p [] Ns (fun H => H) C), app_nil_r. reflexivity.
    + exists (p ++ b_ ".txt"). split; [apply getFile_got; try assumption; exists p, c; split; [exact D|]; split; [exact C|right; auto]|].
      split; [|apply file_contents in F; symmetry; tauto]. rewrite (child_name dir file p _ Ns no_slash_txt C). reflexivity.
  - intros (q & G & -> & ->). apply getFile_got in G; try assumption. destruct G as (p & c & D & C & X). split; [exact D|]. exists p. split; [exact C|].
    destruct X as [[-> F]|(NF & NE & -> & F)].
    + left. split; [rewrite <- (app_nil_r p), (child_name dir file p [] Ns (fun H => H) C), app_nil_r; reflexivity|].
      pose proof (file_contents _ _ _ F) as [_ E]. rewrite E. exact F.
    + right. split; [exact NF|]. split; [exact NE|]. split; [exact (child_name dir file p _ Ns no_slash_txt C)|].
      pose proof (file_contents _ _ _ F) as [_ E]. rewrite E. exact F.
Qed.
Lemma found_fine : forall dir file name c, found_as fs dir file name c -> bytes_ok c /\ fits c.
Proof. intros dir file name c (_ & p & _ & [[_ F]|(_ & _ & _ & F)]); exact (Hfs _ _ F). Qed.
Lemma files_app : forall dir a b d, jukugoFilesT std fs dir (a ++ b) d = (d' <~ jukugoFilesT std fs dir a d ;; jukugoFilesT std fs dir b d').
Proof.
  intros dir a b. induction a as [|[file g] a IH]; intro d; [reflexivity|]. cbn [app jukugoFilesT]. destruct (getFileT fs dir file); cbn [rbind]; try reflexivity.
  destruct (loadJukugoFileT std _ _ g d); cbn [rbind]; auto.
Qed.
Lemma files_run : forall dir files js d ws, plain_names files -> Holds js d -> files_words fs dir files ws -> loadable (js ++ ws) ->
  exists d', jukugoFilesT std fs dir files d = Got d' /\ Holds (js ++ ws) d'.
Proof.
  intros dir files. induction files as [|[file g] files IH]; intros js d ws P H W Lo; inversion W as [|? ? name c ? u v Fd Fw W2]; subst.
  - exists d. rewrite app_nil_r. auto.
  - inversion P as [|? ? [P1 P2] P3]; subst. cbn [fst] in P1, P2. destruct (found_fine _ _ _ _ Fd) as [Bc Fc]. apply found_got in Fd; try assumption.
    destruct Fd as (q & G & -> & ->). cbn [jukugoFilesT]. rewrite G. cbn [rbind].
    destruct (file_run (fileName q) g _ js d u H Fc Bc Fw (loadable_left _ _ _ Lo)) as (d1 & -> & H1). cbn [rbind]. rewrite app_assoc in *. exact (IH _ d1 v P3 H1 W2 Lo).
Qed.
Lemma files_fault : forall dir files w, plain_names files -> files_say std fs dir files w -> jukugoFilesT std fs dir files emptyJukugo = Says DomainError w.
Proof.
  intros dir files w P W. destruct W as [a file g b ws w -> W Lo F|a file g b ws name c w -> W Lo Fd X]; apply Forall_app in P; destruct P as [P1 P2];
    inversion P2 as [|? ? [P3 P4] P5]; subst; cbn [fst] in P3, P4; rewrite files_app;
    destruct (files_run dir a [] emptyJukugo ws P1 holds_start W Lo) as (d & -> & H); cbn [rbind jukugoFilesT].
  - apply getFile_says in F; try assumption. rewrite F. reflexivity.
  - destruct (found_fine _ _ _ _ Fd) as [Bc Fc]. apply found_got in Fd; try assumption. destruct Fd as (q & -> & -> & ->). cbn [rbind].
    rewrite (file_fault _ g _ _ d w H Fc Bc X). reflexivity.
Qed.
Lemma files_total : forall dir files, plain_names files -> (exists ws, files_words fs dir files ws /\ loadable ws) \/ exists w, files_say std fs dir files w.
Proof.
  intros dir files P.
  assert (K : forall files before ws d, plain_names files -> files_words fs dir before ws -> Holds ws d ->
    (exists ws', files_words fs dir files ws' /\ loadable (ws ++ ws')) \/ exists w, files_say std fs dir (before ++ files) w).
  { clear files P. induction files as [|[file g] files IH]; intros before ws d P W H.
    - left. exists []. split; [constructor|]. rewrite app_nil_r. exact (h_loadable _ _ H).
    - inversion P as [|? ? [P1 P2] P3]; subst. cbn [fst] in P1, P2. destruct (getFileT fs dir file) as [q|e w| |] eqn:G.
      + assert (Fd : found_as fs dir file (fileName q) (contentsOf fs q)) by (apply found_got; eauto). destruct (found_fine _ _ _ _ Fd) as [Bc Fc].
        destruct (file_total (fileName q) g _ ws d H Fc Bc) as [(u & U & Lo)|[w X]].
        * destruct (file_run (fileName q) g _ ws d u H Fc Bc U Lo) as (d1 & _ & H1).
          assert (W1 : files_words fs dir (before ++ [(file, g)]) (ws ++ u)).
          { clear - W Fd U. induction W as [|f g0 n c r a b F0 Fw W IH]; cbn [app].
            - rewrite <- (app_nil_r u). econstructor; [exact Fd|exact U|constructor].
            - rewrite <- app_assoc. econstructor; eassumption. }
          destruct (IH _ _ d1 P3 W1 H1) as [(v & V & L2)|[w X]].
          -- left. exists (u ++ v). split; [econstructor; eassumption|]. rewrite app_assoc. exact L2.
          -- right. exists w. rewrite <- app_assoc in X. exact X.
        * right. exists w. exact (fs_line std fs dir _ before file g files ws _ _ w eq_refl W (h_loadable _ _ H) Fd X).
      + right. exists w. apply (fs_file std fs dir _ before file g files ws w eq_refl W (h_loadable _ _ H)). apply getFile_says; try assumption.
        rewrite G. f_equal. unfold getFileT in G. cbv zeta in G. destruct (negb (isDirectory fs dir)); [injection G as <- _; reflexivity|].
        revert G. set (f := if negb (isRegular fs (joinPath dir file)) && negb (hasExtension file) then _ else _). intro G.
        destruct (negb (isThere fs f)); [destruct (hasExtension file); injection G as <- _; reflexivity|].
        destruct (negb (isRegular fs f)); [injection G as <- _; reflexivity|discriminate G].
      + exfalso. unfold getFileT in G. cbv zeta in G. destruct (negb (isDirectory fs dir)); [discriminate G|]. 
        revert G. set (f := if negb (isRegular fs (joinPath dir file)) && negb (hasExtension file) then _ else _). intro G.
        destruct (negb (isThere fs f)); [destruct (hasExtension file); discriminate G|]. destruct (negb (isRegular fs f)); discriminate G.
      + exfalso. unfold getFileT in G. cbv zeta in G. destruct (negb (isDirectory fs dir)); [discriminate G|]. 
        revert G. set (f := if negb (isRegular fs (joinPath dir file)) && negb (hasExtension file) then _ else _). intro G.
        destruct (negb (isThere fs f)); [destruct (hasExtension file); discriminate G|]. destruct (negb (isRegular fs f)); discriminate G. }
  exact (K files [] [] emptyJukugo P (fw_nil fs dir) holds_start).
Qed.
Lemma files_says : forall dir files w, plain_names files -> (jukugoFilesT std fs dir files emptyJukugo = Says DomainError w <-> files_say std fs dir files w).
Proof.
  intros dir files w P. split; [|apply files_fault; exact P]. intro H. destruct (files_total dir files P) as [(ws & W & Lo)|[w' X]].
  - destruct (files_run dir files [] emptyJukugo ws P holds_start W Lo) as (d & E & _). rewrite E in H. discriminate H.
  - pose proof (files_fault dir files w' P X) as E. rewrite E in H. assert (w' = w); [|subst; exact X]. clear - H. injection H as H. exact H.
Qed.
End Fs.
End Std.
