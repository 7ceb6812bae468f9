(** Specification of the start of a quiz: which questions are asked before it, and which list it is for. *)
From Verif Require Export QuizSpec LaunchSpec DataModel GroupModel.
Open Scope N_scope.

(** ** The prompts *)

Inductive prompt := PMode | POrder | PType | PList (t : N) | PCount | PStyle.
Definition title (p : prompt) : bytes :=
  match p with
  | PMode => b_ "Mode" | POrder => b_ "List order" | PType => b_ "Type"
  | PList t => if t =? 102 then b_ "Choose frequency list" else if t =? 103 then b_ "Choose grade"
               else if t =? 107 then b_ "Choose kyu" else if t =? 108 then b_ "Choose level" else b_ "Kanji type"
  | PCount => b_ "Number of choices" | PStyle => b_ "Quiz style"
  end.
(** the keys a user can give; '/' quits *)
Definition keys (p : prompt) : bytes :=
  match p with
  | PMode => b_ "rt" | POrder => b_ "ber" | PType => b_ "fgklmp"
  | PList t => if t =? 102 then b_ "0123456789" else if t =? 103 then b_ "123456s"
               else if t =? 107 then b_ "123456789abc" else if t =? 108 then b_ "12345" else b_ "1234"
  | PCount => b_ "23456789" | PStyle => b_ "kr"
  end.
(** the key that an empty line stands for *)
Definition preset (p : prompt) : option N :=
  match p with
  | PMode => Some 116 | POrder => Some 114 | PType => Some 103
  | PList t => if t =? 103 then Some 54 else if t =? 107 then Some 50
               else if (t =? 109) || (t =? 112) then Some 50 else None
  | PCount => Some 52 | PStyle => Some 107
  end.
Definition key_ok (p : prompt) (c : N) : Prop := In c (keys p) \/ c = 47.

(** the answer to [p] is given by the first of the lines that is one, or by the end of the input *)
Inductive reply (p : prompt) : list bytes -> N -> list bytes -> Prop :=
| reply_line : forall junk l ls k, Forall (fun l => forall c, ~ answers (key_ok p) (preset p) l c) junk ->
    answers (key_ok p) (preset p) l k -> reply p (junk ++ l :: ls) k ls
| reply_end : forall k, preset p = Some k -> reply p [] k [].
(** no line is one *)
Definition silent (p : prompt) (ls : list bytes) : Prop :=
  Forall (fun l => forall c, ~ answers (key_ok p) (preset p) l c) ls /\ (ls <> [] \/ preset p = None).

(** ** The lists *)

(** the Kanji that are asked for a quiz type and the key of a list, with the field that is not shown *)
Inductive list_named (d : Data) : N -> N -> N -> list Kanji -> Prop :=
| named_freq : forall b ks, b < 10 -> nth_error (dFreqs d) (N.to_nat b) = Some ks -> list_named d 102 (48 + b) Info_Freq ks
| named_grade : forall c g, In (c, g) [(49, G1); (50, G2); (51, G3); (52, G4); (53, G5); (54, G6); (115, GS)] ->
    list_named d 103 c Info_Grade (alist N.eqb (gradeNumber g) (dGrades d))
| named_kyu : forall c k, In (c, k) [(97, K10); (57, K9); (56, K8); (55, K7); (54, K6); (53, K5); (52, K4); (51, K3);
                                     (99, KJ2); (50, K2); (98, KJ1); (49, K1)] ->
    list_named d 107 c Info_Kyu (alist N.eqb (kyuNumber k) (dKyus d))
| named_level : forall c l, In (c, l) [(49, N1); (50, N2); (51, N3); (52, N4); (53, N5)] ->
    list_named d 108 c Info_Level (alist N.eqb (levelNumber l) (dLevels d)).
(** the groups and the members that are asked *)
Inductive groups_named (meaning pattern : list Group) : N -> N -> list Group -> MemberType -> Prop :=
| named_groups : forall t c gs m, In (t, gs) [(109, meaning); (112, pattern)] ->
    In (c, m) [(49, MJouyou); (50, MJLPT); (51, MFrequency); (52, MAll)] -> groups_named meaning pattern t c gs m.

(** ** The dialog *)

Inductive quiz :=
| ListOf (hidden count : N) (style : QuizStyle) (ks : list Kanji)
| GroupsOf (gs : list Group) (m : MemberType).
(** it is quit, waits for ever for an answer, or starts a test or a review in an order *)
Inductive ending := Quits (p : prompt) | Waits | Starts (test : bool) (o : QuestionOrder) (q : quiz).
(** what happens with the lines that are read: the keys given, the ending and the lines left *)
Definition dialog := list bytes -> list (prompt * N) -> ending -> list bytes -> Prop.

(** only if there is no key from the options the user is asked; '/' ends the dialog *)
Definition told (given : option N) (p : prompt) (next : N -> dialog) : dialog := fun ls ks e ls' =>
  (exists k, given = Some k /\ next k ls ks e ls')
  \/ (given = None
      /\ ((exists k l ks', reply p ls k l /\ ks = (p, k) :: ks'
             /\ ((k = 47 /\ ks' = [] /\ e = Quits p /\ ls' = l) \/ (k <> 47 /\ next k l ks' e ls')))
          \/ (silent p ls /\ ks = [] /\ e = Waits /\ ls' = ls))).
Definition done (e' : ending) : dialog := fun ls ks e ls' => ks = [] /\ e = e' /\ ls' = ls.

Definition mode_key (m : ProgramMode) : option N := match m with Review => Some 114 | QuizMode => Some 116 | NoMode => None end.
Definition order_key (o : QuestionOrder) : option N :=
  match o with FromBeginning => Some 98 | FromEnd => Some 101 | RandomOrder => Some 114 | NoOrder => None end.
Inductive order_of : N -> QuestionOrder -> Prop :=
| order_b : order_of 98 FromBeginning | order_e : order_of 101 FromEnd | order_r : order_of 114 RandomOrder.
Inductive style_of : N -> QuizStyle -> Prop := style_k : style_of 107 KanjiToReading | style_r : style_of 114 ReadingToKanji.

(** the quiz for a mode, an order, a quiz type and the key of a list; a test with a list also asks for
    the number of answers to choose from and the style *)
Definition chosen (d : Data) (meaning pattern : list Group) (km ko kt kl : N) : dialog := fun ls ks e ls' =>
  exists o, order_of ko o
  /\ ((exists gs m, groups_named meaning pattern kt kl gs m /\ done (Starts (km =? 116) o (GroupsOf gs m)) ls ks e ls')
      \/ (exists hidden l, list_named d kt kl hidden l
           /\ ((km = 114 /\ done (Starts false o (ListOf hidden 1 KanjiToReading l)) ls ks e ls')
               \/ (km = 116
                   /\ told None PCount (fun n => told None PStyle (fun st => fun ls ks e ls' =>
                        exists style, style_of st style /\ done (Starts true o (ListOf hidden (n - 48) style l)) ls ks e ls'))
                        ls ks e ls')))).
Definition start_dialog (d : Data) (meaning pattern : list Group) (p : Settings) : dialog :=
  told (mode_key (sMode p)) PMode (fun km =>
  told (order_key (sOrder p)) POrder (fun ko =>
  told (sType p) PType (fun kt =>
  told (sList p) (PList kt) (fun kl => chosen d meaning pattern km ko kt kl)))).

(** settings that options can give *)
Definition from_options (p : Settings) : Prop :=
  (forall t, sType p = Some t -> exists ks, list_keys t ks)
  /\ (forall c, sList p = Some c -> exists t ks, sType p = Some t /\ list_keys t ks /\ In c ks)
  /\ (sMode p = NoMode -> sOrder p = NoOrder).

(** ** The events *)

(** the prompt [p] was shown and answered with [k] *)
Definition shown (e : event) (pk : prompt * N) : Prop :=
  exists rq w, e = Asked rq (snd pk) w /\ rqMsg rq = title (fst pk) /\ rqDefault rq = preset (fst pk)
    /\ forall c, permitted launcherQuit rq c <-> key_ok (fst pk) c.
(** a quiz with the result [q] comes after the state [s]: [run] is the result of both together *)
Definition followed {R A B} (s : State R) (q : res (State R) A) (b : B) (run : res (State R) B) : Prop :=
  match q with
  | Ok _ s' => exists s2, run = Ok b s2 /\ events R s2 = events R s ++ events R s' /\ input R s2 = input R s' /\ rng R s2 = rng R s'
  | Err e s' => exists s2, run = Err e s2 /\ events R s2 = events R s ++ events R s' /\ input R s2 = input R s' /\ rng R s2 = rng R s'
  | Undefined => run = Undefined
  | NoReturn => run = NoReturn
  end.

(** the result of starting with the options [p], if the dialog before the quiz ends in [e] with state [s] *)
Section Result.
Variable R : Type.
Variable draw : N -> R -> N * R.
Variable shuffle : list QKanji -> R -> list QKanji * R.
Variable shuffleGroups : list Group -> R -> list Group * R.
Variable otherNumber : GroupType -> bytes -> option N.
Variable extraTypeInfo reviewDetails : QKanji -> bytes.
Variable fuel : nat.
Definition result_of (p : Settings) (randomize : bool) (e : ending) (s : State R) (run : res (State R) (ProgramMode * QuestionOrder)) : Prop :=
  match e with
  | Waits => run = NoReturn
  | Quits PMode => sMode p = NoMode /\ run = Ok (NoMode, sOrder p) s
  | Quits POrder => exists m, m <> NoMode /\ (sMode p <> NoMode -> m = sMode p) /\ run = Ok (m, NoOrder) s
  | Quits _ => run = Ok (NoMode, NoOrder) s
  | Starts test o q =>
      let l := MkLauncher test o randomize launcherQuit in
      match q with
      | ListOf hidden count style ks =>
          followed s (listQuiz R draw shuffle extraTypeInfo reviewDetails fuel l (sQuestion p) (sMeanings p) (map (fun k => MkQ k (dReading (kDetails k)) (dMeaning (kDetails k))) ks)
                        (Info_All - hidden) count style (input R s) (rng R s)) (NoMode, NoOrder) run
      | GroupsOf gs m =>
          followed s (groupQuiz R shuffleGroups shuffle otherNumber fuel l (sQuestion p) (sMeanings p) gs m (input R s) (rng R s))
            (NoMode, NoOrder) run
      end
  end.
End Result.
