(** Properties of choices (C27, C28, C67). *)
From Verif Require Import ChoiceSpec ChoiceProofs.
Open Scope N_scope.

(** * C27: answers *)

(** whatever is read, only an offered choice (which is printable) is ever returned *)
Theorem C27_only_allowed : forall f q msg u m def i c i' w,
  is_map m -> get f q msg u m def i = Val (c, i', w) -> allowed q u m c /\ printable c.
Proof. exact get_allowed. Qed.
Print Assumptions C27_only_allowed.
(** the first line that is an answer is the answer, and the lines after it are still to be read *)
Theorem C27_first_answer_returned : forall q msg u m def i ls k c,
  is_map m -> lines_left i ls -> valid_request q u m def -> first_answer (allowed q u m) def ls k c ->
  exists i' w, lines_left i' (skipn (S k) ls) /\ forall f, (k < f)%nat -> get f q msg u m def i = Val (c, i', w).
Proof.
  intros q msg u m def i ls k c Hm Hi V H. destruct (get_spec q msg u m def i ls Hm Hi V) as [gs [_ [_ [_ [F _]]]]].
  destruct (F k c H) as [i' [Hi' E]]. exists i', (concat (repeat (prompt_text msg gs def) (S k))). split; assumption.
Qed.
Print Assumptions C27_first_answer_returned.
(** requests that make no sense are refused before anything is read, all others never are *)
Theorem C27_refused_iff : forall f q msg u m def i, is_map m ->
  (~ valid_request q u m def -> get f q msg u m def i = Throw DomainError)
  /\ (valid_request q u m def -> forall ls e, lines_left i ls -> get f q msg u m def i <> Throw e).
Proof.
  intros f q msg u m def i Hm. split; [apply get_refused; exact Hm|].
  intros V ls e Hi K. destruct (get_spec q msg u m def i ls Hm Hi V) as [gs [_ [_ [_ [F1 [F2 F3]]]]]].
  destruct f as [|f].
  { destruct (prepare_ok q msg u m def Hm V) as [g [_ [_ G]]]. unfold get in K. rewrite G in K. discriminate. }
  destruct (answer_or_none (allowed q u m) def ls (allowed_dec q u m)) as [[k [c H]]|H].
  - unfold get in K. destruct (prepare_ok q msg u m def Hm V) as [g [_ [_ G]]]. rewrite G in K. cbn [obind] in K.
    revert K. generalize (@nil N) at 1 as line. generalize (@nil N) as w0. clear -f. revert i. generalize (S f) as n. intro n.
    induction n as [|n IH]; intros i w0 line K; [discriminate|]. cbn [askLoop] in K. destruct (getline i line) as [l i1].
    destruct l as [|x [|y r]]; destruct def as [d|]; try discriminate; try (apply IH in K; exact K);
      destruct (hasKey x (all_choices q u m)); try discriminate; apply IH in K; exact K.
  - destruct ls as [|l ls].
    + destruct def as [d|]; [rewrite (F3 eq_refl d eq_refl) in K by lia; discriminate|]. rewrite (F2 H) in K by (right; reflexivity). discriminate.
    + rewrite (F2 H) in K by (left; discriminate). discriminate.
Qed.
Print Assumptions C27_refused_iff.
(** a range adds its characters to the choices; it is refused when it makes no sense or when one of
    its characters is already a choice *)
Theorem C27_range : forall f q a b msg u m def i, is_map m ->
  (printable a /\ printable b /\ a <= b /\ (forall c, a <= c <= b -> ~ In c (map fst m)) ->
     exists m', is_map m' /\ (forall e, In e m' <-> In e m \/ (snd e = [] /\ a <= fst e <= b))
       /\ getRange f q a b msg u m def i = get f q msg u m' def i)
  /\ (~ (printable a /\ printable b /\ a <= b /\ (forall c, a <= c <= b -> ~ In c (map fst m))) ->
     getRange f q a b msg u m def i = Throw DomainError).
Proof. exact range_spec. Qed.
Print Assumptions C27_range.
(** the quit option must be printable *)
Theorem C27_set_quit : forall c d,
  (printable c -> exists q, setQuit c d = Val q /\ forall x, isQuit q x = true <-> x = c)
  /\ (~ printable c -> setQuit c d = Throw DomainError) /\ (forall x, isQuit clearQuit x = false).
Proof.
  intros c d. unfold setQuit. split; [|split].
  - intro H. rewrite check_ok by exact H. eexists. split; [reflexivity|]. intro x. cbn [isQuit]. rewrite N.eqb_eq. split; congruence.
  - intro H. rewrite check_bad by exact H. reflexivity.
  - reflexivity.
Qed.
Print Assumptions C27_set_quit.
Example C27_example : let m := [(97, b_ "yes"); (98, [])] in let q := Some (47, b_ "quit") in
  is_map m /\ valid_request q true m (Some 98)
  /\ lines_left (MkIn (b_ "zz
a
b") false) [b_ "zz"; b_ "a"; b_ "b"]
  /\ first_answer (allowed q true m) (Some 98) [b_ "zz"; b_ "a"; b_ "b"] 1 97
  /\ get 2 q (b_ "ok?") true m (Some 98) (MkIn (b_ "zz
a
b") false) = Val (97, MkIn (b_ "b") false, b_ "ok? (/=quit, a=yes, b) def 'b': ok? (/=quit, a=yes, b) def 'b': ").
Proof.
  cbv zeta. split; [|split; [|split; [|split]]].
  - unfold is_map. cbn [map fst]. repeat constructor.
  - assert (A : forall c, allowed (Some (47, b_ "quit")) true [(97, b_ "yes"); (98, [])] c -> c = 47 \/ c = 97 \/ c = 98).
    { intros c [d [[K|[K|[]]]|[_ K]]]; inversion K; lia. }
    split; [|split; [|split]].
    + intros c d [= <- <-]. cbn. lia.
    + exists 47, (b_ "quit"). right. split; reflexivity.
    + intros c H. apply A in H. unfold printable. lia.
    + intros c [= <-]. exists []. left. right. left. reflexivity.
  - unfold lines_left. cbn [inEof inRest]. split; [discriminate|]. split; [|reflexivity].
    repeat (apply Forall_cons || apply Forall_nil); vm_compute; intuition discriminate.
  - split.
    + exists (b_ "a"). split; [reflexivity|]. left. split; [reflexivity|]. exists (b_ "yes"). left. left. reflexivity.
    + intros j l x Hj Hl [[H _]|[H _]]; destruct j; try lia; injection Hl as <-; discriminate.
  - vm_compute. reflexivity.
Qed.

(** * C28: the end of the input *)

(** a call returns exactly when a line still to be read is an answer, or when the end of the input
    was already seen and there is a default; otherwise it asks for ever *)
Theorem C28_returns_iff_partial : forall q msg u m def i ls,
  is_map m -> lines_left i ls -> valid_request q u m def ->
  ((exists f r, get f q msg u m def i = Val r)
     <-> (exists k c, first_answer (allowed q u m) def ls k c) \/ (ls = [] /\ def <> None))
  /\ (~ (exists f r, get f q msg u m def i = Val r) -> forall f, get f q msg u m def i = Fuel).
Proof.
  intros q msg u m def i ls Hm Hi V. destruct (get_spec q msg u m def i ls Hm Hi V) as [gs [_ [_ [_ [F1 [F2 F3]]]]]].
  assert (T : (exists f r, get f q msg u m def i = Val r) <-> (exists k c, first_answer (allowed q u m) def ls k c) \/ (ls = [] /\ def <> None)).
  { split.
    - intros [f [r E]]. destruct (answer_or_none (allowed q u m) def ls (allowed_dec q u m)) as [H|H]; [left; exact H|right].
      destruct ls as [|l ls]; [|rewrite (F2 H) in E by (left; discriminate); discriminate].
      split; [reflexivity|]. intros ->. rewrite (F2 H) in E by (right; reflexivity). discriminate.
    - intros [[k [c H]]|[-> H]].
      + destruct (F1 k c H) as [i' [_ E]]. exists (S k). eexists. apply E. lia.
      + destruct def as [d|]; [|congruence]. exists 1%nat. eexists. apply (F3 eq_refl d eq_refl). lia. }
  split; [exact T|]. intros N f.
  destruct (answer_or_none (allowed q u m) def ls (allowed_dec q u m)) as [H|H]; [exfalso; apply N; apply T; left; exact H|].
  apply F2; [exact H|]. destruct ls as [|l ls]; [|left; discriminate]. right. destruct def as [d|]; [|reflexivity].
  exfalso. apply N. apply T. right. split; [reflexivity|discriminate].
Qed.
Print Assumptions C28_returns_iff_partial.
(** so the call need not return when the input ends: with no default, and even with one *)
Theorem C28_end_of_input_refuted :
  (forall f, get f None [] true [(97, [])] None (MkIn [] false) = Fuel)
  /\ (forall f, get f None [] true [(97, [])] (Some 97) (MkIn (b_ "no") false) = Fuel).
Proof.
  assert (V : forall def, def = None \/ def = Some 97 -> valid_request None true [(97, [])] def).
  { intros def Hd. split; [discriminate|]. split; [exists 97, []; left; left; reflexivity|]. split.
    - intros c [d [[K|[]]|[_ K]]]; inversion K. subst. unfold printable. lia.
    - intros c ->. destruct Hd as [Hd|[= ->]]; [discriminate|]. exists []. left. left. reflexivity. }
  assert (Hm : is_map [(97, [])]) by (unfold is_map; cbn [map fst]; repeat constructor).
  split.
  - assert (Hl : lines_left (MkIn [] false) [[]]).
    { split; [discriminate|]. split; [|reflexivity]. repeat constructor. intros []. }
    apply (proj2 (C28_returns_iff_partial None [] true [(97, [])] None (MkIn [] false) [[]] Hm Hl (V None (or_introl eq_refl)))).
    intro H. apply (C28_returns_iff_partial None [] true [(97, [])] None (MkIn [] false) [[]] Hm Hl (V None (or_introl eq_refl))) in H.
    destruct H as [[k [c [[l [Hk [[-> _]|[_ K]]]] _]]]|[K _]]; try discriminate. destruct k as [|[|k]]; discriminate.
  - assert (Hl : lines_left (MkIn (b_ "no") false) [b_ "no"]).
    { split; [discriminate|]. split; [|reflexivity]. repeat constructor. vm_compute. intuition discriminate. }
    apply (proj2 (C28_returns_iff_partial None [] true [(97, [])] (Some 97) _ [b_ "no"] Hm Hl (V _ (or_intror eq_refl)))).
    intro H. apply (C28_returns_iff_partial None [] true [(97, [])] (Some 97) _ [b_ "no"] Hm Hl (V _ (or_intror eq_refl))) in H.
    destruct H as [[k [c [[l [Hk [[-> _]|[-> K]]]] _]]]|[K _]]; try discriminate; destruct k as [|[|k]]; discriminate.
Qed.
Print Assumptions C28_end_of_input_refuted.

(** * C67: the prompt *)

(** the prompt is written once for every line read; it lists exactly the choices, in order, those
    with a description as "c=description" and the others in ranges as large as possible *)
Theorem C67_prompt_lists_choices : forall q msg u m def i ls,
  is_map m -> lines_left i ls -> valid_request q u m def ->
  exists gs, all_apart gs /\ is_map (flat_map group_choices gs)
    /\ (forall e, In e (flat_map group_choices gs) <-> offered q u m e)
    /\ (forall k c, first_answer (allowed q u m) def ls k c ->
          exists i', forall f, (k < f)%nat -> get f q msg u m def i = Val (c, i', concat (repeat (prompt_text msg gs def) (S k)))).
Proof.
  intros q msg u m def i ls Hm Hi V. destruct (get_spec q msg u m def i ls Hm Hi V) as [gs [A1 [A2 [A3 [A4 _]]]]].
  exists gs. split; [exact A1|]. split; [exact A2|]. split; [exact A3|]. intros k c H. destruct (A4 k c H) as [i' [_ E]]. exists i'. exact E.
Qed.
Print Assumptions C67_prompt_lists_choices.
Example C67_example :
  getRange 1 (Some (113, b_ "quit")) 49 52 (b_ "Pick") true [(97, []); (98, []); (102, [])] None (MkIn (b_ "3") false)
  = Val (51, MkIn [] true, b_ "Pick (1-4, a-b, f, q=quit): ").
Proof. vm_compute. reflexivity. Qed.
