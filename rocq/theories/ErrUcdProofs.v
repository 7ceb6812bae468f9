(** Lemmas about the messages about the Unicode data: the parts of a row. *)
From Verif Require Import BaseFacts Utf8Proofs Utf8Lemmas BlockProofs Utf8CharSpec Utf8CharLemmas StringProofs EnumProofs ListProofs.
From Verif Require Import ColumnFileProofs ColumnFileLemmas IdsProofs LoadLogErrors ErrTableProofs ErrDetailsProofs ErrArgsProps ErrJukugoLoad.
From Verif Require Export UcdProofs ErrUcdSpec.
From Verif Require Import ErrBase.
Open Scope N_scope.
Arguments N.mul : simpl never.
Arguments N.add : simpl never.
Arguments N.sub : simpl never.
Arguments N.div : simpl never.
Arguments N.modulo : simpl never.
Arguments N.land : simpl never.
Arguments N.lor : simpl never.
Arguments N.pow : simpl never.

(** ** Checks one after the other *)
(** [x] gives a value with [P], or it throws with the only text of [W] *)
Definition stage {A} (x : res A) (P : A -> Prop) (W : bytes -> Prop) : Prop :=
  (exists v, x = Got v /\ P v /\ forall w, ~ W w) \/ (exists e w, x = Says e w /\ W w /\ (forall w', W w' -> w' = w) /\ forall v, ~ P v).
(** [x] passes all checks, or it throws with the text of the first that fails *)
Definition tells {A} (x : res A) (cs : list check) : Prop :=
  (exists v, x = Got v /\ all_pass cs) \/ (exists e w, x = Says e w /\ first_fault cs w /\ (forall w', first_fault cs w' -> w' = w) /\ ~ all_pass cs).
Lemma tells_got : forall A (v : A), tells (Got v) [].
Proof. intros A v. left. exists v. split; [reflexivity|constructor]. Qed.
Lemma tells_pass : forall A (x : res A) (c : check) cs, fst c -> tells x cs -> tells x (c :: cs).
Proof.
  intros A x c cs H [(v & E & Al)|(e & w & E & F & U & N0)].
  - left. exists v. split; [exact E|constructor; assumption].
  - right. exists e, w. split; [exact E|]. split; [right; auto|]. split; [|intro X; inversion X; auto]. intros w' [[X _]|[_ X]]; [contradiction|auto].
Qed.
Lemma tells_stop : forall A e w (c : check) cs, ~ fst c -> snd c w -> (forall w', snd c w' -> w' = w) -> tells (@Says A e w) (c :: cs).
Proof.
  intros A e w c cs N0 H U. right. exists e, w. split; [reflexivity|]. split; [left; auto|]. split; [|intro X; inversion X; auto].
  intros w' [[_ X]|[X _]]; [auto|contradiction].
Qed.
Lemma tells_bind : forall A B (x : res A) (f : A -> res B) P W (c : check) cs, stage x P W -> (fst c <-> exists v, P v) -> (forall w, ~ fst c -> (snd c w <-> W w)) ->
  (forall v, x = Got v -> P v -> tells (f v) cs) -> tells (rbind x f) (c :: cs).
Proof.
  intros A B x f P W c cs [(v & -> & Pv & Nw)|(e & w & -> & Ww & U & Np)] Hc Hw Hf; cbn [rbind].
  - apply tells_pass; [apply Hc; eauto|auto].
  - assert (X : ~ fst c) by (rewrite Hc; intros [v Pv]; exact (Np v Pv)). apply tells_stop; [exact X|apply Hw; auto|]. intros w' H. apply U. apply Hw; auto.
Qed.
Lemma tells_if : forall A (b : bool) e w (x : res A) (c : check) cs, (fst c <-> b = false) -> (~ fst c -> snd c w) -> (forall w', ~ fst c -> snd c w' -> w' = w) ->
  (b = false -> tells x cs) -> tells (if b then Says e w else x) (c :: cs).
Proof.
  intros A b e w x c cs Hc Hw Hu Hx. destruct b.
  - assert (X : ~ fst c) by (rewrite Hc; discriminate). apply tells_stop; auto.
  - apply tells_pass; [apply Hc; reflexivity|auto].
Qed.
Lemma stage_bind_got : forall A B (x : res A) (f : A -> res B) P W Q, stage x P W -> (forall v, x = Got v -> P v -> stage (f v) (Q v) (fun _ => False)) ->
  stage (rbind x f) (fun b => exists v, P v /\ Q v b) W.
Proof.
  intros A B x f P W Q [(v & -> & Pv & Nw)|(e & w & -> & Ww & U & Np)] Hf; cbn [rbind].
  - destruct (Hf v eq_refl Pv) as [(b & E & Qb & _)|(e & w & _ & [] & _)]. left. exists b. split; [exact E|]. split; [eauto|exact Nw].
  - right. exists e, w. split; [reflexivity|]. split; [exact Ww|]. split; [exact U|]. intros b (v & Pv & _). exact (Np v Pv).
Qed.
Lemma stage_one : forall A (x : res A) P W v w, stage x P W -> P v -> W w -> False.
Proof. intros A x P W v w [(u & _ & _ & N0)|(e & u & _ & _ & _ & N0)] Hv Hw; [exact (N0 w Hw)|exact (N0 v Hv)]. Qed.

(** ** Fields *)
Section Row.
Variables (file : bytes) (k : N).
Hypothesis K : k <> 0.
Lemma table_msg : forall A m, @tableError A file k m = Says DomainError (m ++ in_row file k).
Proof. intros A m. unfold tableError, errorMsg, in_row, in_file. replace (k =? 0) with false by lia. rewrite <- !app_assoc. reflexivity. Qed.
Lemma value_msg : forall A m c s, @valueError A file k m (ucdCol c) s = Says DomainError (m ++ in_row file k ++ in_column c s).
Proof. intros A m c s. unfold valueError, errorMsg, in_row, in_file, in_column, quoted. replace (k =? 0) with false by lia. cbn [cname ucdCol]. rewrite <- !app_assoc. reflexivity. Qed.
Lemma number_fun : forall s v v', loose_number s v -> loose_number s v' -> v = v'.
Proof. intros s v v' H H'. apply stoul_iff in H, H'. congruence. Qed.
Lemma u64_stage : forall s c max, stage (processU64E file k s (ucdCol c) max) (fun v => loose_number s v /\ (max = 0 \/ v <= max))
  (fun w => exists why, number_wrong max s why /\ w = why ++ in_row file k ++ in_column c s).
Proof.
  intros s c max. unfold processU64E.
  assert (Bad : (forall v, ~ loose_number s v) -> stage (@valueError N file k (b_ "failed to convert to unsigned number") (ucdCol c) s)
    (fun v => loose_number s v /\ (max = 0 \/ v <= max)) (fun w => exists why, number_wrong max s why /\ w = why ++ in_row file k ++ in_column c s)).
  { intro H. right. eexists. eexists. split; [apply value_msg|]. split; [eexists; split; [apply nw_not; exact H|reflexivity]|].
    split; [|intros v [Hv _]; exact (H v Hv)]. intros w' (why & X & ->). destruct X as [X|v X _ _]; [reflexivity|destruct (H v X)]. }
  destruct (stoul s) as [v|e| |] eqn:S1; [| |destruct (stoul_cases s) as [[v X]|[e1 X]]; congruence..].
  - apply stoul_iff in S1. destruct (negb (max =? 0) && (max <? v)) eqn:L.
    + apply andb_true_iff in L. destruct L as [L1 L2]. apply negb_true_iff in L1. right. eexists. eexists. split; [apply value_msg|].
      split; [eexists; split; [apply (nw_large max s v S1); lia|reflexivity]|]. split; [|intros v' [Hv X]; rewrite (number_fun _ _ _ Hv S1) in X; lia].
      intros w' (why & X & ->). destruct X as [X|v' X _ _]; [destruct (X v S1)|reflexivity].
    + left. exists v. split; [reflexivity|]. apply andb_false_iff in L. assert (X : max = 0 \/ v <= max) by (destruct L as [L|L]; [apply negb_false_iff in L|]; lia).
      split; [split; [exact S1|exact X]|]. intros w (why & Y & _). destruct Y as [Y|v' Y Nz G]; [exact (Y v S1)|]. rewrite (number_fun _ _ _ Y S1) in G. lia.
  - apply Bad. intros v X. apply stoul_iff in X. congruence.
Qed.
Lemma bool_stage : forall s c, stage (fieldBoolT file k c s) (flag s) (fun w => exists why, bool_wrong s why /\ w = why ++ in_row file k ++ in_column c s).
Proof.
  intros s c. destruct (exact_bool s) as [X1 X2]. unfold fieldBoolT. destruct X2 as [[b E]|[e E]]; rewrite E.
  - left. exists b. split; [reflexivity|]. apply X1 in E. split; [exact E|]. intros w (why & [Ne No] & _). destruct b; cbn in E; [apply No; cbn; tauto|].
    destruct E as [E|E]; [congruence|]. apply No. cbn. tauto.
  - right. eexists. eexists. split; [apply value_msg|]. assert (N0 : forall b, ~ flag s b) by (intros b F; apply X1 in F; congruence). split.
    + eexists. split; [|reflexivity]. apply bw_not; [intros ->; apply (N0 false); left; reflexivity|]. intro F. cbn in F.
      destruct F as [F|[F|[F|[F|[]]]]]; [apply (N0 true)|apply (N0 true)|apply (N0 false)|apply (N0 false)]; cbn; tauto.
    + split; [|exact N0]. intros w' (why & X & ->). destruct X. reflexivity.
Qed.
Lemma char_stage : forall s c, stage (fieldChar32T file k c s) (hex_code s) (fun w => exists why, code_wrong s why /\ w = why ++ in_row file k ++ in_column c s).
Proof.
  intros s c. destruct (exact_char32 s) as [X1 X2]. unfold fieldChar32T, convChar32 in *.
  assert (Hex : existsb (fun i => (i <? 48) || (70 <? i) || ((i <? 65) && (57 <? i))) s = true <-> ~ Forall is_upper_hex s).
  { rewrite existsb_exists. split.
    - intros (x & I & H) F. rewrite Forall_forall in F. specialize (F x I). unfold is_upper_hex, is_digit in F.
      rewrite !orb_true_iff, andb_true_iff, !N.ltb_lt in H. lia.
    - intro H. clear - H. induction s as [|x s IH]; [destruct H; constructor|]. destruct ((x <? 48) || (70 <? x) || ((x <? 65) && (57 <? x))) eqn:E.
      + exists x. split; [left; reflexivity|exact E].
      + destruct IH as (y & I & Y); [|exists y; split; [right; exact I|exact Y]]. intro F. apply H. constructor; [|exact F].
        rewrite !orb_false_iff, andb_false_iff, !N.ltb_ge in E. unfold is_upper_hex, is_digit. lia. }
  destruct ((len s <? 4) || (5 <? len s)) eqn:L.
  - right. eexists. eexists. split; [apply value_msg|]. rewrite orb_true_iff, !N.ltb_lt in L. split; [eexists; split; [apply cw_size; lia|reflexivity]|].
    split; [|intros v (X & _); lia]. intros w' (why & X & ->). destruct X; [reflexivity|lia].
  - rewrite orb_false_iff, !N.ltb_ge in L. destruct (existsb _ s) eqn:E.
    + right. eexists. eexists. split; [apply value_msg|]. pose proof (proj1 Hex eq_refl) as Nf. split; [eexists; split; [apply cw_hex; [lia|exact Nf]|reflexivity]|].
      split; [|intros v (_ & X & _); contradiction]. intros w' (why & X & ->). destruct X; [lia|reflexivity].
    + left. eexists. split; [reflexivity|]. split; [apply X1; reflexivity|]. intros w (why & X & _). destruct X as [A1 A2|_ Nf]; [lia|]. apply Hex in Nf. congruence.
Qed.
End Row.

(** ** Entries *)
Lemma is_kanji : forall s, bytes_ok s -> exists b, isKanji s true = Val b /\ (b = true <-> exists c, kanji_name s c).
Proof.
  intros s Hok. destruct (newEntry_spec 0 s Hok) as [H1 H2]. pose proof (upto_nul_ok s Hok) as Hu.
  assert (Hb : exists b, isKanji s true = Val b /\ (b = true -> exists c, kanji_name s c)).
  { unfold isKanji, inWCharRange. destruct (1 <? len s) eqn:L1; [|exists false; split; [reflexivity|discriminate]].
    cbn [negb]. unfold MaxMBSize. destruct (len s <=? 4 * 2) eqn:L2; [|exists false; split; [reflexivity|discriminate]].
    rewrite fromUtf8_decode by exact Hok. cbn [obind]. replace (3 =? 0) with false by reflexivity.
    change (N.to_nat 3) with 3%nat. eexists. split; [reflexivity|].
    destruct (decode (upto_nul s)) as [|c [|d [|e r]]] eqn:D; cbn [firstn]; try discriminate.
    - intro X. apply (proj1 t_kanji) in X. exists c. split; [exact X|]. split; [lia|]. left.
      destruct (kanji_scalar c X) as [_ [_ Kf]]. apply decode_one; assumption.
    - intro X. apply andb_true_iff in X. destruct X as [K1 X]. apply (proj1 t_kanji) in X. apply r_ns in K1.
      exists c. split; [exact X|]. split; [lia|]. right. exists d. split; [exact K1|].
      destruct (kanji_scalar c X) as [_ [_ Kf]]. destruct (ns_scalar d K1). apply decode_two; assumption. }
  destruct Hb as (b & E & B). exists b. split; [exact E|]. split; [exact B|]. intros [c Kc]. destruct b; [reflexivity|].
  destruct (newEntry_spec c s Hok) as [X _]. specialize (X Kc). unfold newEntry in X. rewrite E in X. discriminate X.
Qed.
Lemma kanji_code : forall s c, bytes_ok s -> kanji_name s c -> getCode s = Val c.
Proof.
  intros s c Hok Kc. destruct (newEntry_spec c s Hok) as [X _]. specialize (X Kc). unfold newEntry in X. destruct (isKanji s true) as [b|e| |]; try discriminate X. cbn [obind] in X.
  destruct (negb b); [discriminate X|]. destruct (getCode s) as [x|e| |]; try discriminate X. cbn [obind] in X. destruct (N.eqb_spec c x) as [->|]; [reflexivity|discriminate X].
Qed.
Lemma kanji_name_fun : forall s c c', bytes_ok s -> kanji_name s c -> kanji_name s c' -> c = c'.
Proof. intros s c c' Hok A B. pose proof (kanji_code s c Hok A). pose proof (kanji_code s c' Hok B). congruence. Qed.
Lemma unicode_shown : forall c, exists u, toUnicode c NoBrackets = Val u /\ shown_code u c.
Proof.
  intro c. unfold toUnicode. destruct (to_hex_spec 4 c Upper 4) as (s & E & D & M & F). exists s. split; [rewrite E; reflexivity|]. split; [exact D|]. split; [exact F|exact M].
Qed.
Lemma entry_stage : forall c n, bytes_ok n -> stage (newEntryT c n) (fun v => v = n /\ kanji_name n c) (entry_wrong c n).
Proof.
  intros c n Hok. unfold newEntryT. destruct (is_kanji n Hok) as (b & -> & B). cbn [quiet rbind]. destruct b; cbn [negb].
  - destruct (proj1 B eq_refl) as [x Kx]. rewrite (kanji_code n x Hok Kx). cbn [quiet rbind]. destruct (N.eqb_spec c x) as [->|Ne].
    + left. exists n. split; [reflexivity|]. split; [split; [reflexivity|exact Kx]|]. intros w X. destruct X as [X|y u v Ky Ny _ _]; [exact (X x Kx)|]. apply Ny. exact (kanji_name_fun n _ _ Hok Ky Kx).
    + destruct (unicode_shown c) as (u & -> & Su). destruct (unicode_shown x) as (v & -> & Sv). cbn [quiet rbind]. right. eexists. eexists. split; [reflexivity|].
      assert (E : b_ "code '" ++ u ++ b_ "' doesn't match '" ++ v ++ b_ "'" = b_ "code " ++ quoted u ++ b_ " doesn't match " ++ quoted v) by (unfold quoted; rewrite <- !app_assoc; reflexivity).
      rewrite E. split; [exact (ew_code c n x u v Kx (not_eq_sym Ne) Su Sv)|]. split.
      * intros w' X. destruct X as [X|y u' v' Ky Ny Su' Sv']; [destruct (X x Kx)|]. pose proof (kanji_name_fun n _ _ Hok Ky Kx) as ->.
        rewrite (shown_unique _ _ _ Su' Su), (shown_unique _ _ _ Sv' Sv). reflexivity.
      * intros w' [_ Kc]. apply Ne. exact (kanji_name_fun n _ _ Hok Kc Kx).
  - right. eexists. eexists. split; [reflexivity|].
    assert (E : b_ "name '" ++ n ++ b_ "' isn't a recognized Kanji" = b_ "name " ++ quoted n ++ b_ " isn't a recognized Kanji") by (unfold quoted; rewrite <- !app_assoc; reflexivity).
    assert (No : forall x, ~ kanji_name n x) by (intros x Kx; assert (X : false = true) by (apply B; eauto); discriminate X).
    rewrite E. split; [exact (ew_name c n No)|]. split; [|intros v [_ X]; exact (No c X)]. intros w' X. destruct X as [X|y u' v' Ky Ny Su' Sv']; [reflexivity|destruct (No y Ky)].
Qed.

(** ** Links *)
Definition link_ok (n c : bytes) : Prop := exists x, hex_code c x /\ kanji_name n x.
Lemma hex_fun : forall s c c', hex_code s c -> hex_code s c' -> c = c'.
Proof. intros s c c' A B. destruct (exact_char32 s) as [X _]. apply X in A, B. congruence. Qed.
Section Links.
Variables (file : bytes) (k : N).
Hypothesis K : k <> 0.
Lemma links_wrong_cons : forall n ns c cs w, link_ok n c -> links_wrong (in_row file k) ns cs w -> links_wrong (in_row file k) (n :: ns) (c :: cs) w.
Proof.
  intros n ns c cs w Ok [m rest E Ne F|ns1 m ns2 cs1 d cs2 why E1 E2 F Cw|ns1 m ns2 cs1 d cs2 x why E1 E2 F Hx Ew].
  - subst ns. apply (lw_more _ _ _ (n :: m) rest); [reflexivity|exact Ne|constructor; assumption].
  - subst ns cs. apply (lw_code _ _ _ (n :: ns1) m ns2 (c :: cs1) d cs2); [reflexivity|reflexivity|constructor; assumption|exact Cw].
  - subst ns cs. apply (lw_entry _ _ _ (n :: ns1) m ns2 (c :: cs1) d cs2 x); [reflexivity|reflexivity|constructor; assumption|exact Hx|exact Ew].
Qed.
Lemma links_wrong_inv : forall n ns c cs w, links_wrong (in_row file k) (n :: ns) (c :: cs) w ->
  (exists why, code_wrong c why /\ w = why ++ in_row file k ++ in_column (b_ "LinkCodes") c) \/ (exists x, hex_code c x /\ entry_wrong x n w) \/ (link_ok n c /\ links_wrong (in_row file k) ns cs w).
Proof.
  intros n ns c cs w X. inversion X as [m rest E Ne F|ns1 m ns2 cs1 d cs2 why E1 E2 F Cw|ns1 m ns2 cs1 d cs2 x why E1 E2 F Hx Ew]; clear X; subst.
  - right. right. inversion F as [|m0 c0 ms cs0 H0 F0]; subst. cbn [app] in E. injection E as -> ->. split; [exact H0|]. exact (lw_more _ _ _ ms rest eq_refl Ne F0).
  - destruct ns1 as [|n1 ns1]; inversion F as [|m0 c0 ms cs0 H0 F0]; subst; cbn [app] in E1, E2.
    + injection E1 as -> ->. injection E2 as -> ->. left. eauto.
    + injection E1 as -> ->. injection E2 as -> ->. right. right. split; [exact H0|]. exact (lw_code _ _ _ ns1 m ns2 cs0 d cs2 why eq_refl eq_refl F0 Cw).
  - destruct ns1 as [|n1 ns1]; inversion F as [|m0 c0 ms cs0 H0 F0]; subst; cbn [app] in E1, E2.
    + injection E1 as -> ->. injection E2 as -> ->. right. left. eauto.
    + injection E1 as -> ->. injection E2 as -> ->. right. right. split; [exact H0|]. exact (lw_entry _ _ _ ns1 m ns2 cs0 d cs2 x w eq_refl eq_refl F0 Hx Ew).
Qed.
Lemma zip_stage : forall names codes, Forall bytes_ok names -> stage (zipLinksT file k names codes)
  (fun v => v = names /\ exists cs ex, codes = cs ++ ex /\ Forall2 link_ok names cs) (links_wrong (in_row file k) names codes).
Proof.
  induction names as [|n ns IH]; intros codes Hok; cbn [zipLinksT].
  - left. exists []. split; [reflexivity|]. split; [split; [reflexivity|exists [], codes; split; [reflexivity|constructor]]|].
    intros w X. inversion X as [m rest E Ne F|ns1 m ns2 cs1 d cs2 why E1 E2 F Cw|ns1 m ns2 cs1 d cs2 x why E1 E2 F Hx Ew]; subst.
    + symmetry in E. apply app_eq_nil in E. destruct E. contradiction.
    + destruct ns1; discriminate E1.
    + destruct ns1; discriminate E1.
  - apply Forall_cons_iff in Hok. destruct Hok as [Hn Hns]. destruct codes as [|c codes].
    + right. eexists. eexists. split; [apply table_msg; exact K|]. split; [exact (lw_more _ (n :: ns) [] [] (n :: ns) eq_refl ltac:(discriminate) (Forall2_nil _))|]. split.
      * intros w' X. inversion X as [m rest E Ne F|ns1 m ns2 cs1 d cs2 why E1 E2 F Cw|ns1 m ns2 cs1 d cs2 x why E1 E2 F Hx Ew]; subst; [reflexivity|destruct cs1; discriminate E2..].
      * intros v (_ & cs & ex & E & F). inversion F; subst. discriminate E.
    + destruct (char_stage file k K c (b_ "LinkCodes")) as [(x & -> & Hx & Nw)|(e & w & -> & Ww & U & Np)]; cbn [rbind].
      2:{ right. exists e, w. split; [reflexivity|]. split; [destruct Ww as (why & Cw & ->); exact (lw_code _ (n :: ns) (c :: codes) [] n ns [] c codes why eq_refl eq_refl (Forall2_nil _) Cw)|]. split.
          - intros w' X. apply links_wrong_inv in X. destruct X as [X|[(x & Hx & _)|((x & Hx & _) & _)]]; [apply U; exact X|destruct (Np x Hx)|destruct (Np x Hx)].
          - intros v (_ & cs & ex & E & F). inversion F as [|m0 c0 ms cs0 (x & Hx & _) F0]; subst. injection E as -> _. exact (Np x Hx). }
      destruct (entry_stage x n Hn) as [(y & -> & [-> Kn] & Ne)|(e & w & -> & Ww & U & Np)]; cbn [rbind].
      2:{ right. exists e, w. split; [reflexivity|]. split; [exact (lw_entry _ (n :: ns) (c :: codes) [] n ns [] c codes x w eq_refl eq_refl (Forall2_nil _) Hx Ww)|]. split.
          - intros w' X. apply links_wrong_inv in X. destruct X as [X|[(x' & Hx' & X)|((x' & Hx' & X) & _)]]; [destruct (Nw w' X)| |]; rewrite (hex_fun _ _ _ Hx' Hx) in X; [apply U; exact X|].
            destruct (Np n (conj eq_refl X)).
          - intros v (_ & cs & ex & E & F). inversion F as [|m0 c0 ms cs0 (x' & Hx' & X) F0]; subst. injection E as -> _. rewrite (hex_fun _ _ _ Hx' Hx) in X. exact (Np n (conj eq_refl X)). }
      assert (Ok : link_ok n c) by (exists x; auto).
      destruct (IH codes Hns) as [(v & -> & [-> (cs & ex & -> & F)] & N0)|(e & w & -> & Ww & U & Np)]; cbn [rbind].
      * left. exists (n :: ns). split; [reflexivity|]. split; [split; [reflexivity|]; exists (c :: cs), ex; split; [reflexivity|constructor; assumption]|].
        intros w X. apply links_wrong_inv in X. destruct X as [X|[(x' & Hx' & X)|(_ & X)]]; [destruct (Nw w X)| |exact (N0 w X)]. rewrite (hex_fun _ _ _ Hx' Hx) in X. exact (Ne w X).
      * right. exists e, w. split; [reflexivity|]. split; [apply links_wrong_cons; assumption|]. split.
        -- intros w' X. apply links_wrong_inv in X. destruct X as [X|[(x' & Hx' & X)|(_ & X)]]; [destruct (Nw w' X)| |exact (U w' X)]. rewrite (hex_fun _ _ _ Hx' Hx) in X. destruct (Ne w' X).
        -- intros v (_ & cs & ex & E & F). inversion F as [|m0 c0 ms cs0 H0 F0]; subst. injection E as -> ->. apply (Np ns). split; [reflexivity|]. exists cs0, ex. auto.
Qed.
End Links.
