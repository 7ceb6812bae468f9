(** C134: the messages of Choice. *)
From Verif Require Import BaseFacts ChoiceProofs ErrChoiceSpec ErrChoiceProofs.
From Verif Require Import ErrBase.
Open Scope N_scope.

(** what is asked and answered is as in C27; only messages are added *)
Theorem C134_same : forall signed f q msg u m def i, is_map m -> Forall (fun e => fst e < 256) m -> (forall c d, q = Some (c, d) -> c < 256) ->
  plain (getT signed f q msg u m def i) = ChoiceModel.get f q msg u m def i
  /\ forall a b, a < 256 -> b < 256 -> plain (getRangeT signed f q a b msg u m def i) = getRange f q a b msg u m def i.
Proof. intros. split; [apply get_same; assumption|]. intros. apply rangeget_same; assumption. Qed.
Print Assumptions C134_same.
(** an option to quit that cannot be printed is told as two digits *)
Theorem C134_quit : forall c d, c < 256 ->
  (forall e w, setQuitT c d = Says e w <-> e = DomainError /\ not_printable (b_ "quit option") c w) /\ plain (setQuitT c d) = setQuit c d.
Proof.
  intros c d H. unfold setQuitT, setQuit. split.
  - intros e w. rewrite <- (check_iff c (b_ "quit option") e w H). destruct (checkPrintableT c (b_ "quit option")) as [x|e' w'| |]; cbn [rbind]; split; intro X; try discriminate X; assert (e' = e /\ w' = w) as [-> ->] by (split; congruence); reflexivity.
  - rewrite plain_bind, (check_same c _ H). destruct (checkPrintableAscii c); reflexivity.
Qed.
Print Assumptions C134_quit.
(** a question that cannot be asked: the quit option is taken, there is no choice, one cannot be printed, or the default is none of them, in this order *)
Theorem C134_get : forall signed f q msg u m def i e w, is_map m -> Forall (fun e => fst e < 256) m -> (forall c d, q = Some (c, d) -> c < 256) ->
  getT signed f q msg u m def i = Says e w <-> e = DomainError /\ choice_says signed q u m def w.
Proof. intros. apply get_says; assumption. Qed.
Print Assumptions C134_get.
(** the same for a range of choices *)
Theorem C134_range : forall signed f q a b msg u m def i e w, is_map m -> Forall (fun e => fst e < 256) m -> (forall c d, q = Some (c, d) -> c < 256) -> a < 256 -> b < 256 ->
  getRangeT signed f q a b msg u m def i = Says e w <-> e = DomainError /\ range_says signed q a b u m def w.
Proof. intros. apply range_iff; assumption. Qed.
Print Assumptions C134_range.
(** there is one message, and there is none just if the question makes sense *)
Theorem C134_one_message : forall signed q u m def, is_map m -> Forall (fun e => fst e < 256) m -> (forall c d, q = Some (c, d) -> c < 256) ->
  (forall w w', choice_says signed q u m def w -> choice_says signed q u m def w' -> w = w')
  /\ (valid_request q u m def <-> forall w, ~ choice_says signed q u m def w)
  /\ forall a b, a < 256 -> b < 256 -> forall w w', range_says signed q a b u m def w -> range_says signed q a b u m def w' -> w = w'.
Proof.
  intros signed q u m def Hm Bo Hq. split; [intros w w'; apply says_fun; assumption|]. split.
  - split; [intros V w W; exact (says_invalid _ _ _ _ _ _ W V)|]. intro H. destruct (prepare_cases signed q [] u m def Hm Bo Hq) as [(w & _ & W)|(x & _ & _ & V)]; [destruct (H w W)|exact V].
  - intros a b Ha Hb w w'. apply range_fun; assumption.
Qed.
Print Assumptions C134_one_message.
(** the sign of char only matters for which of several choices that cannot be printed is told *)
Theorem C134_sign : forall f q msg u m def i, is_map m -> Forall (fun e => fst e < 256) m -> (forall c d, q = Some (c, d) -> c < 256) ->
  (forall c c', allowed q u m c -> allowed q u m c' -> ~ printable c -> ~ printable c' -> c = c') ->
  getT true f q msg u m def i = getT false f q msg u m def i.
Proof.
  intros f q msg u m def i Hm Bo Hq One.
  assert (T : forall s s' w, choice_says s q u m def w -> choice_says s' q u m def w).
  { intros s s' w [c d E I|E A|c w' E A F N0|c E A P D C]; [exact (cs_quit _ _ _ _ _ c d E I)|exact (cs_none _ _ _ _ _ E A)| |exact (cs_default _ _ _ _ _ c E A P D C)].
    apply (cs_option _ _ _ _ _ c w' E A); [|exact N0]. intros c' A' P'. rewrite (One c c' A A' (proj1 N0) P'). apply Z.le_refl. }
  pose proof (get_same true f q msg u m def i Hm Bo Hq) as S1. pose proof (get_same false f q msg u m def i Hm Bo Hq) as S2.
  pose proof (fun e w => get_says true f q msg u m def i e w Hm Bo Hq) as G1. pose proof (fun e w => get_says false f q msg u m def i e w Hm Bo Hq) as G2.
  destruct (getT true f q msg u m def i) as [x|e w| |] eqn:E1.
  2:{ symmetry. apply G2. destruct (proj1 (G1 e w) eq_refl) as [-> C]. split; [reflexivity|]. exact (T true false w C). }
  all: destruct (getT false f q msg u m def i) as [y|e w| |] eqn:E2; cbn [plain] in *; try congruence.
Qed.
Print Assumptions C134_sign.

(** with a signed char 0x80 comes before 0x07 *)
Example C134_case :
  is_map [(7, []); (97, b_ "yes"); (128, [])] /\ Forall (fun e => fst e < 256) [(7, []); (97, b_ "yes"); (128, [])]
  /\ getT true 9 None (b_ "Go") true [(7, []); (97, b_ "yes"); (128, [])] None (MkIn [] false) = Says DomainError (b_ "option is non-printable: 0x80")
  /\ getT false 9 None (b_ "Go") true [(7, []); (97, b_ "yes"); (128, [])] None (MkIn [] false) = Says DomainError (b_ "option is non-printable: 0x07")
  /\ getT true 9 (Some (113, b_ "quit")) (b_ "Go") false [(97, []); (113, [])] None (MkIn [] false) = Says DomainError (b_ "quit option 'q' already in choices")
  /\ getT true 9 None (b_ "Go") true [] None (MkIn [] false) = Says DomainError (b_ "must specify at least one choice")
  /\ getT true 9 (Some (113, b_ "quit")) (b_ "Go") false [(97, [])] (Some 113) (MkIn [] false) = Says DomainError (b_ "default option 'q' not in choices")
  /\ getRangeT true 9 None 50 49 [] true [] None (MkIn [] false) = Says DomainError (b_ "first range option '2' is greater than last '1'")
  /\ getRangeT true 9 None 49 52 [] true [(51, b_ "x")] None (MkIn [] false) = Says DomainError (b_ "range option '3' already in choices")
  /\ getRangeT true 9 None 49 10 [] true [] None (MkIn [] false) = Says DomainError (b_ "last range option is non-printable: 0x0a")
  /\ setQuitT 22 [] = Says DomainError (b_ "quit option is non-printable: 0x16").
Proof.
  split. { unfold is_map. cbn [map fst]. repeat constructor. }
  split. { repeat constructor. }
  repeat (split; [vm_compute; reflexivity|]). vm_compute. reflexivity.
Qed.
