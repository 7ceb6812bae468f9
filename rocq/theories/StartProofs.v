(** Proofs about the start of a quiz. *)
From Verif Require Import BaseFacts.
From Verif Require Export QuizAsk StartModel StartSpec.
Open Scope N_scope.

(** ** Prompts *)

(** the request for a prompt *)
Definition requestOf (p : prompt) : request :=
  match p with
  | PMode => modeRequest | POrder => orderRequest | PType => typeRequest
  | PList t => if t =? 102 then freqRequest else if t =? 103 then gradeRequest else if t =? 107 then kyuRequest
               else if t =? 108 then levelRequest else kanjiTypeRequest
  | PCount => countRequest | PStyle => styleRequest
  end.
Definition known (p : prompt) : Prop := match p with PList t => In t (b_ "fgklmp") | _ => True end.

Definition requestKeys (rq : request) : list N :=
  map fst (rqChoices rq) ++ match rqRange rq with Some (a, b) => span a b | None => [] end.
Lemma in_span : forall a b c, In c (span a b) <-> a <= c <= b.
Proof.
  intros a b c. unfold span. rewrite in_map_iff. split.
  - intros [k [<- H]]. apply in_seq in H. lia.
  - intro H. exists (N.to_nat (c - a)). split; [lia|]. apply in_seq. lia.
Qed.
Lemma permitted_keys : forall rq c, rqUseQuit rq = true -> (permitted launcherQuit rq c <-> In c (requestKeys rq) \/ c = 47).
Proof.
  intros rq c H. unfold permitted, requestKeys. rewrite in_app_iff. split.
  - intros [X|[(a & b & E & X)|[_ (d & X)]]]; [auto|left; right; rewrite E; apply in_span; exact X|].
    unfold launcherQuit in X. inversion X. auto.
  - intros [[X|X]| ->]; [auto| |].
    + destruct (rqRange rq) as [[a b]|]; [|destruct X]. right. left. exists a, b. split; [reflexivity|]. apply in_span. exact X.
    + right. right. split; [exact H|]. exists (b_ "quit"). reflexivity.
Qed.
(** lists with the same members, by computation *)
Definition sameKeys (a b : list N) : bool := forallb (fun c => existsb (N.eqb c) b) a && forallb (fun c => existsb (N.eqb c) a) b.
Lemma sameKeys_iff : forall a b, sameKeys a b = true -> forall c, In c a <-> In c b.
Proof.
  intros a b H c. unfold sameKeys in H. apply andb_true_iff in H. destruct H as [H1 H2]. rewrite forallb_forall in H1, H2.
  split; intro X; [apply H1 in X|apply H2 in X]; apply existsb_exists in X; destruct X as (y & Hy & E); apply N.eqb_eq in E; subst; exact Hy.
Qed.
Definition requestFine (rq : request) : bool :=
  rqUseQuit rq && forallb (fun c => (32 <=? c) && (c <=? 126) && negb (c =? 47)) (requestKeys rq)
  && (match rqRange rq with Some (a, b) => (a <=? b) && forallb (fun e => negb ((a <=? fst e) && (fst e <=? b))) (rqChoices rq) | None => true end)
  && (match rqDefault rq with Some c => existsb (N.eqb c) (requestKeys rq) | None => true end).
Lemma request_proper : forall rq, is_map (rqChoices rq) -> requestFine rq = true -> proper launcherQuit rq.
Proof.
  intros rq Hm H. unfold requestFine in H. apply andb_true_iff in H. destruct H as [H H4]. apply andb_true_iff in H. destruct H as [H H3].
  apply andb_true_iff in H. destruct H as [H1 H2]. rewrite forallb_forall in H2.
  assert (K : forall c, In c (requestKeys rq) -> 32 <= c <= 126 /\ c <> 47).
  { intros c X. apply H2 in X. rewrite !andb_true_iff, negb_true_iff in X. lia. }
  split; [exact Hm|]. split; [exists 47; apply permitted_keys; auto|]. split; [|split; [|split]].
  - intros c X. apply permitted_keys in X; [|exact H1]. destruct X as [X| ->]; [apply (K c X)|split; discriminate].
  - intros a b E. rewrite E in H3. apply andb_true_iff in H3. destruct H3 as [X Y]. split; [lia|]. intros c Hc Z.
    apply in_map_iff in Z. destruct Z as ([c' t] & Ec & Z). cbn [fst] in Ec. subst c'. rewrite forallb_forall in Y. apply Y in Z. cbn [fst] in Z. lia.
  - intros c d E. unfold launcherQuit in E. inversion E; subst. split.
    + intro X. apply (proj2 (K 47 (in_or_app _ _ _ (or_introl X)))). reflexivity.
    + intros a b Er X. assert (Y : In 47 (requestKeys rq)) by (unfold requestKeys; rewrite Er; apply in_or_app; right; apply in_span; exact X).
      apply (proj2 (K 47 Y)). reflexivity.
  - intros c E. rewrite E in H4. apply permitted_keys; [exact H1|]. left. apply existsb_exists in H4. destruct H4 as (y & Hy & Ey).
    apply N.eqb_eq in Ey. subst. exact Hy.
Qed.
Ltac sorted := vm_compute; repeat constructor.
Lemma prompt_facts : forall p, known p ->
  proper launcherQuit (requestOf p) /\ rqMsg (requestOf p) = title p /\ rqDefault (requestOf p) = preset p
  /\ forall c, permitted launcherQuit (requestOf p) c <-> key_ok p c.
Proof.
  assert (X : forall p, is_map (rqChoices (requestOf p)) -> requestFine (requestOf p) = true ->
    beq (rqMsg (requestOf p)) (title p) = true -> rqDefault (requestOf p) = preset p -> sameKeys (requestKeys (requestOf p)) (keys p) = true ->
    proper launcherQuit (requestOf p) /\ rqMsg (requestOf p) = title p /\ rqDefault (requestOf p) = preset p
    /\ forall c, permitted launcherQuit (requestOf p) c <-> key_ok p c).
  { intros p H1 H2 H3 H4 H5. split; [apply request_proper; assumption|]. split; [apply beq_eq; exact H3|]. split; [exact H4|].
    intro c. rewrite permitted_keys; [|unfold requestFine in H2; destruct (rqUseQuit (requestOf p)); [reflexivity|discriminate]].
    unfold key_ok. rewrite (sameKeys_iff _ _ H5 c). reflexivity. }
  intros p K. destruct p as [| | |t| |]; try (apply X; [sorted|vm_compute; reflexivity..]).
  cbn [known] in K. destruct K as [<-|[<-|[<-|[<-|[<-|[<-|[]]]]]]]; (apply X; [sorted|vm_compute; reflexivity..]).
Qed.

Lemma reply_ok : forall p ls k l, known p -> reply p ls k l -> key_ok p k.
Proof.
  intros p ls k l K H. destruct (prompt_facts p K) as [P [_ [D Q]]].
  assert (X : forall c, preset p = Some c -> key_ok p c) by (intros c E; apply Q; apply P; rewrite D; exact E).
  inversion H as [junk la ls' k' _ [[_ A]|[_ A]]|k' A]; subst; auto.
Qed.

Section Start.
Variable R : Type.
Notation State := (State R).
Implicit Type s : State.

Lemma ask_prompt : forall p s ls, known p -> lines_left (input R s) ls ->
  (exists k l s', ask R launcherQuit (requestOf p) s = Ok k s' /\ reply p ls k l /\ lines_left (input R s') l /\ rng R s' = rng R s
     /\ exists ev, events R s' = events R s ++ [ev] /\ shown ev (p, k))
  \/ (ask R launcherQuit (requestOf p) s = NoReturn /\ silent p ls).
Proof.
  intros p s ls K L. destruct (prompt_facts p K) as [P [T [D Q]]].
  assert (A : forall l c, answers (permitted launcherQuit (requestOf p)) (rqDefault (requestOf p)) l c <-> answers (key_ok p) (preset p) l c).
  { intros l c. unfold answers. rewrite (Q c), D. reflexivity. }
  assert (Sh : forall k w, shown (Asked (requestOf p) k w) (p, k)) by (intros k w; exists (requestOf p), w; auto).
  destruct (ask_cases R launcherQuit (requestOf p) s ls P L) as [(junk & la & c & rest & i & w & E & -> & Ha & Hj & Hl)|[(-> & d & w & Ed & E)|(E & N & H)]].
  - left. exists c, rest. eexists. split; [exact E|]. split; [|split; [exact Hl|split; [reflexivity|]]].
    + constructor; [|apply A; exact Ha]. eapply Forall_impl; [|exact Hj]. intros l X x Y. apply (X x), A, Y.
    + eexists. split; [reflexivity|]. apply Sh.
  - left. exists d, []. eexists. split; [exact E|]. split; [constructor; rewrite <- D; exact Ed|]. split; [exact L|]. split; [reflexivity|].
    eexists. split; [reflexivity|]. apply Sh.
  - right. split; [exact E|]. split; [|rewrite <- D; exact H]. apply Forall_forall. intros l X c Y. apply (N l c X), A, Y.
Qed.

(** ** Dialogs *)

Section Meets.
Variable B : Type.
Variable fin : ending -> State -> res State B -> Prop.
(** a run from the state [s] with the lines [ls] is one of the dialog *)
Definition meets (D : dialog) (s : State) (ls : list bytes) (run : res State B) : Prop :=
  exists ks e ls' s' evs, D ls ks e ls' /\ events R s' = events R s ++ evs /\ Forall2 shown evs ks /\ rng R s' = rng R s
    /\ lines_left (input R s') ls' /\ fin e s' run.

Lemma meets_told : forall given p next s ls (k : N -> State -> res State B), known p -> lines_left (input R s) ls ->
  (forall c, given = Some c -> meets (next c) s ls (k c s)) ->
  (forall c l s', given = None -> In c (keys p) -> c <> 47 -> lines_left (input R s') l -> meets (next c) s' l (k c s')) ->
  (forall s', given = None -> fin (Quits p) s' (k 47 s')) -> (given = None -> fin Waits s NoReturn) ->
  meets (told given p next) s ls (rbind (orAsked R given (requestOf p) s) k).
Proof.
  intros given p next s ls k K L H1 H2 H3 H4. destruct given as [c|].
  - cbn [orAsked rbind]. destruct (H1 c eq_refl) as (ks & e & ls' & s' & evs & X & Y). exists ks, e, ls', s', evs. split; [|exact Y].
    left. exists c. auto.
  - cbn [orAsked]. unfold asked. destruct (ask_prompt p s ls K L) as [(c & l & s1 & E & Rp & L1 & Rg & ev & Ev & Sh)|[E Si]]; rewrite E; cbn [rbind].
    + destruct (N.eq_dec c 47) as [->|Nc].
      * exists [(p, 47)], (Quits p), l, s1, [ev]. split; [|split; [exact Ev|split; [constructor; [exact Sh|constructor]|split; [exact Rg|split; [exact L1|apply H3; reflexivity]]]]].
        right. split; [reflexivity|]. left. exists 47, l, []. split; [exact Rp|]. split; [reflexivity|]. left. auto.
      * pose proof (reply_ok p ls c l K Rp) as [Hc|Hc]; [|contradiction].
        destruct (H2 c l s1 eq_refl Hc Nc L1) as (ks & e & ls' & s' & evs & X & Y1 & Y2 & Y3 & Y4 & Y5).
        exists ((p, c) :: ks), e, ls', s', (ev :: evs). split; [|split; [rewrite Y1, Ev, <- app_assoc; reflexivity|split; [constructor; assumption|split; [congruence|split; assumption]]]].
        right. split; [reflexivity|]. left. exists c, l, ks. split; [exact Rp|]. split; [reflexivity|]. right. auto.
    + exists [], Waits, ls, s, []. split; [|split; [symmetry; apply app_nil_r|split; [constructor|split; [reflexivity|split; [exact L|apply H4; reflexivity]]]]].
      right. split; [reflexivity|]. right. auto.
Qed.
Lemma meets_done : forall e s ls run, lines_left (input R s) ls -> fin e s run -> meets (done e) s ls run.
Proof.
  intros e s ls run L H. exists [], e, ls, s, []. split; [repeat split|]. split; [symmetry; apply app_nil_r|]. split; [constructor|]. auto.
Qed.
Lemma meets_impl : forall (D D' : dialog) s ls run, (forall ls ks e ls', D ls ks e ls' -> D' ls ks e ls') -> meets D s ls run -> meets D' s ls run.
Proof. intros D D' s ls run H (ks & e & ls' & s' & evs & X & Y). exists ks, e, ls', s', evs. split; [apply H; exact X|exact Y]. Qed.
End Meets.
End Start.
