(** C122: what the quiz program says about a wrong command line. *)
From Verif Require Import BaseFacts StringProofs ArgsSpec ArgsProofs ArgsProps LaunchSpec LaunchProofs LaunchLoop LaunchProps ErrArgsModel ErrArgsSpec ErrArgsProofs.
Open Scope N_scope.

(** the functions with texts are those of C46, C56, C57, C58 and C85 *)
Theorem C122_same : forall std fuel a i n v,
  ErrBase.plain (readArgsT std fuel a) = readArgs fuel a /\ ErrBase.plain (nextArgT fuel a i) = nextArg fuel a i
  /\ ErrBase.plain (getDebugModeT a) = getDebugMode a /\ ErrBase.plain (newArgsIntT n v) = newArgsInt n v /\ ErrBase.plain (argAtT a i) = argAt a i.
Proof.
  intros. split; [apply readArgs_plain|]. split; [apply nextArg_plain|]. split; [apply debugMode_plain|]. split; [apply newArgsInt_plain|apply argAt_plain].
Qed.
Print Assumptions C122_same.
(** the message is the one about the first argument that is wrong after what stands before it, and nothing else is said *)
Theorem C122_says : forall std fuel prog l e w, len (prog :: l) < 65535 -> (S (length (prog :: l)) < fuel)%nat ->
  (readArgsT std fuel (argsOf (prog :: l)) = Says e w <-> first_complaint std (kept l) e w).
Proof. exact quiz_says. Qed.
Print Assumptions C122_says.
(** a command line that means something is read without a message *)
Theorem C122_read : forall std fuel prog l c, len (prog :: l) < 65535 -> (S (length (prog :: l)) < fuel)%nat ->
  (readArgsT std fuel (argsOf (prog :: l)) = Got c <-> command (kept l) c).
Proof. exact quiz_got. Qed.
Print Assumptions C122_read.
(** every command line either means something or has one message *)
Theorem C122_one : forall std l, len l < 65534 ->
  ((exists c, command (kept l) c) /\ forall e w, ~ first_complaint std (kept l) e w)
  \/ ((forall c, ~ command (kept l) c) /\ exists e w, first_complaint std (kept l) e w /\ forall e' w', first_complaint std (kept l) e' w' -> e' = e /\ w' = w).
Proof.
  intros std l H. set (f := S (S (length (([] : bytes) :: l)))). assert (H1 : len (([] : bytes) :: l) < 65535) by (rewrite len_cons; lia).
  assert (H2 : (S (length (([] : bytes) :: l)) < f)%nat) by (unfold f; apply PeanoNat.Nat.lt_succ_diag_r).
  pose proof (quiz_says std f [] l) as Q. pose proof (quiz_got std f [] l) as G.
  destruct (quiz_total std f [] l H1 H2) as [(c & C)|(e & w & C)]; [left|right].
  - split; [exists c; exact C|]. intros e w F. apply (Q e w H1 H2) in F. apply (G c H1 H2) in C. congruence.
  - split.
    + intros c C'. apply (Q e w H1 H2) in C. apply (G c H1 H2) in C'. congruence.
    + exists e, w. split; [exact C|]. intros e' w' C'. apply (Q e w H1 H2) in C. apply (Q e' w' H1 H2) in C'. rewrite C in C'. split; congruence.
Qed.
Print Assumptions C122_one.

(** more than one -debug or -info is answered with one text *)
Lemma debug_text : forall n a i m w, debugLoopT n a i m = Says DomainError w -> w = b_ "can only specify one '-debug' or '-info' option".
Proof.
  induction n as [|n IH]; intros a i m w H; [discriminate H|]. cbn [debugLoopT] in H. destruct (argAtT a i) as [s|e' w'| |] eqn:E; try discriminate H.
  - cbn [rbind] in H. cbv zeta in H.
    assert (T : forall x, match m with NoDebug => debugLoopT n a (i + 1) x | _ => Says DomainError (b_ "can only specify one '" ++ DebugArg ++ b_ "' or '" ++ InfoArg ++ b_ "' option") end
      = Says DomainError w -> w = b_ "can only specify one '-debug' or '-info' option").
    { intros x K. assert (R : b_ "can only specify one '" ++ DebugArg ++ b_ "' or '" ++ InfoArg ++ b_ "' option" = b_ "can only specify one '-debug' or '-info' option") by reflexivity.
      rewrite R in K. destruct m; [congruence|congruence|exact (IH _ _ _ _ K)]. }
    destruct (beq s DebugArg); [exact (T _ H)|]. destruct (beq s InfoArg); [exact (T _ H)|exact (IH _ _ _ _ H)].
  - cbn [rbind] in H. unfold argAtT in E. destruct (argc a <=? i); [|destruct (argv a) as [v|]; [destruct (nth_error v _)|]; discriminate E].
    assert (e' = RangeError) by congruence. congruence.
Qed.
Theorem C122_debug : forall prog l,
  match filter is_mode l with
  | [] => getDebugModeT (argsOf (prog :: l)) = Got NoDebug
  | [m] => getDebugModeT (argsOf (prog :: l)) = Got (if beq m (b_ "-debug") then Full else Info)
  | _ => getDebugModeT (argsOf (prog :: l)) = Says DomainError (b_ "can only specify one '-debug' or '-info' option")
  end.
Proof.
  intros prog l. pose proof (C57_debug_mode prog l) as H. change (MkArgs (len (prog :: l)) (Some (prog :: l))) with (argsOf (prog :: l)) in H.
  rewrite <- debugMode_plain in H. destruct (filter is_mode l) as [|m [|m' r]].
  - apply plain_val. exact H.
  - apply plain_val. exact H.
  - destruct (plain_throw _ _ _ H) as (w & E). rewrite E. f_equal. exact (debug_text _ _ _ _ _ E).
Qed.
Print Assumptions C122_debug.

(** a number is written in decimal *)
Lemma to_string_written : forall x, written (to_string x) x.
Proof.
  intro x. split; [apply to_string_digits|]. split; [apply to_string_nonempty|]. split; [apply to_string_decimal|].
  intro H. destruct (N.eq_dec x 0) as [E|E]; [subst x; reflexivity|]. destruct (to_string_head x E) as (c & r & K & N). rewrite K in H. cbn in H. congruence.
Qed.
Lemma decimal_pos : forall d, Forall is_digit d -> d <> [] -> hd_error d <> Some 48 -> 0 < decimal d.
Proof.
  intro d. induction d as [|c s IH] using rev_ind; intros D Hne Hz; [congruence|]. apply Forall_app in D. destruct D as [D1 D2]. inversion D2; subst.
  rewrite decimal_app. destruct s as [|x s].
  - cbn [app hd_error] in Hz. assert (c <> 48) by congruence. unfold is_digit in *. lia.
  - assert (0 < decimal (x :: s)) by (apply IH; [exact D1|discriminate|exact Hz]). lia.
Qed.
Lemma decimal_unique : forall a b, Forall is_digit a -> Forall is_digit b -> hd_error a <> Some 48 -> hd_error b <> Some 48 -> decimal a = decimal b -> a = b.
Proof.
  intro a. induction a as [|c s IH] using rev_ind; intros b A B Ha Hb E.
  - destruct b as [|x b]; [reflexivity|]. pose proof (decimal_pos (x :: b) B ltac:(discriminate) Hb) as P. change (decimal []) with 0 in E. lia.
  - destruct (rev b) as [|y t] eqn:R.
    + apply (f_equal (@rev N)) in R. rewrite rev_involutive in R. subst b.
      assert (P : 0 < decimal (s ++ [c])) by (apply decimal_pos; [exact A|destruct s; discriminate|exact Ha]). change (decimal (rev [])) with 0 in E. lia.
    + apply (f_equal (@rev N)) in R. rewrite rev_involutive in R. cbn [rev] in R. subst b. rewrite !decimal_app in E.
      apply Forall_app in A. destruct A as [A1 A2]. inversion A2; subst. apply Forall_app in B. destruct B as [B1 B2]. inversion B2; subst. unfold is_digit in *.
      assert (decimal s = decimal (rev t) /\ c = y) as [E1 ->] by lia. f_equal. apply IH; try assumption.
      * destruct s; [discriminate|exact Ha].
      * destruct (rev t); [discriminate|exact Hb].
Qed.
(** a number is written in one way *)
Lemma written_one : forall a b x, written a x -> written b x -> a = b.
Proof.
  intros a b x [A1 [A2 [A3 A4]]] [B1 [B2 [B3 B4]]].
  assert (Z : forall d, Forall is_digit d -> d <> [] -> decimal d = x -> (hd_error d = Some 48 -> d = [48]) -> (x = 0 /\ d = [48]) \/ (0 < x /\ hd_error d <> Some 48)).
  { intros d H1 H2 H3 H4. assert (D : hd_error d = Some 48 \/ hd_error d <> Some 48).
    { destruct d as [|y d]; [right; discriminate|]. cbn [hd_error]. destruct (N.eq_dec y 48) as [->|Y]; [left; reflexivity|right; congruence]. }
    destruct D as [D|D]; [left; rewrite (H4 D) in *; split; [rewrite <- H3; reflexivity|reflexivity]|right]. pose proof (decimal_pos d H1 H2 D). split; [lia|exact D]. }
  destruct (Z a A1 A2 A3 A4) as [[X ->]|[X A]]; destruct (Z b B1 B2 B3 B4) as [[Y ->]|[Y B]]; try lia; [reflexivity|].
  apply decimal_unique; try assumption. congruence.
Qed.
(** the count of arguments *)
Theorem C122_count : forall n v e w, newArgsIntT n v = Says e w ->
  (exists d, (n < 0)%Z /\ written d (Z.to_N (- n)) /\ e = RangeError /\ w = b_ "argc -" ++ d ++ b_ " is less than 0")
  \/ (exists d, (65535 < n)%Z /\ written d (Z.to_N n) /\ e = RangeError /\ w = b_ "argc " ++ d ++ b_ " is greater than 65535")
  \/ (n = 0%Z /\ v <> None /\ e = DomainError /\ w = b_ "argc is 0, but argv is not null")
  \/ (exists d, (0 < n <= 65535)%Z /\ v = None /\ written d (Z.to_N n) /\ e = DomainError /\ w = b_ "argc is " ++ d ++ b_ ", but argv is null").
Proof.
  intros n v e w H. unfold newArgsIntT, checkIntT in H. unfold to_stringZ in H.
  destruct (n <? 0)%Z eqn:E1.
  { cbn [rbind] in H. left. exists (to_string (Z.to_N (- n))). split; [lia|]. split; [apply to_string_written|]. split; [congruence|].
    assert (X : w = b_ "argc " ++ (45 :: to_string (Z.to_N (- n))) ++ b_ " is less than 0") by congruence. rewrite X. reflexivity. }
  destruct (65535 <? n)%Z eqn:E2.
  { cbn [rbind] in H. right. left. exists (to_string (Z.to_N n)). split; [lia|]. split; [apply to_string_written|].
    assert (R : to_string 65535 = b_ "65535") by reflexivity. rewrite R in H. split; [congruence|].
    assert (X : b_ " is greater than " ++ b_ "65535" = b_ " is greater than 65535") by reflexivity. rewrite X in H. congruence. }
  cbn [rbind] in H. unfold newArgsT in H. destruct (Z.to_N n =? 0) eqn:E3.
  - right; right; left. destruct v; [|discriminate H]. split; [lia|]. split; [discriminate|]. split; congruence.
  - right; right; right. destruct v; [discriminate H|]. exists (to_string (Z.to_N n)). split; [lia|]. split; [reflexivity|]. split; [apply to_string_written|]. split; congruence.
Qed.
Print Assumptions C122_count.
(** reading an argument that is not there *)
Theorem C122_subscript : forall l i e w, argAtT (argsOf l) i = Says e w ->
  exists d c, len l <= i /\ written d i /\ written c (len l) /\ e = RangeError /\ w = b_ "index " ++ d ++ b_ " must be less than argc " ++ c.
Proof.
  intros l i e w H. unfold argAtT in H. change (argc (argsOf l)) with (len l) in H. change (argv (argsOf l)) with (Some l) in H.
  destruct (len l <=? i) eqn:E; [|destruct (nth_error l (N.to_nat i)); discriminate H].
  exists (to_string i), (to_string (len l)). split; [lia|]. split; [apply to_string_written|]. split; [apply to_string_written|]. split; congruence.
Qed.
Print Assumptions C122_subscript.

Example C122_example :
  (exists e w, first_complaint (fun _ => []) (kept [b_ "-s"; b_ "-g7"; b_ "-x"]) e w /\ e = DomainError /\ w = b_ "invalid format for '-g', use -h for help")
  /\ readArgsT (fun _ => []) 20 (argsOf [b_ "kanjiQuiz"; b_ "-g"; b_ "-f1"]) = Says DomainError (b_ "only one quiz type can be specified, use -h for help")
  /\ readArgsT (fun _ => []) 20 (argsOf [b_ "kanjiQuiz"; b_ "-r65536"]) = Says DomainError (b_ "value for '-r' exceeds limit")
  /\ readArgsT (fun _ => []) 20 (argsOf [b_ "kanjiQuiz"; b_ "-info"; b_ "-x"]) = Says DomainError (b_ "illegal option '-x', use -h for help")
  /\ getDebugModeT (argsOf [b_ "kanjiQuiz"; b_ "-info"; b_ "-info"]) = Says DomainError (b_ "can only specify one '-debug' or '-info' option")
  /\ newArgsIntT (-12) None = Says RangeError (b_ "argc -12 is less than 0")
  /\ argAtT (argsOf [b_ "kanjiQuiz"]) 10 = Says RangeError (b_ "index 10 must be less than argc 1").
Proof.
  split; [|repeat split; reflexivity]. eexists _, _. split; [|split; reflexivity].
  exists [b_ "-s"], (b_ "-g7"), [b_ "-x"], [OMeanings]. split; [reflexivity|]. split.
  - split; [constructor; [exact doc_meanings|constructor]|split; cbn; lia].
  - apply (cp_type_format _ _ 103 (b_ "123456s")); [|intros (t & l & [X|[]]); discriminate X|discriminate|].
    + constructor.
    + intros c I X. injection X as <-. cbn in I. repeat (destruct I as [I|I]; [discriminate I|]). destruct I.
Qed.
