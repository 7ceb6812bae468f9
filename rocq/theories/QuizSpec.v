(** Specification of list quizzes: what is shown, how the keys of the user are judged and counted. *)
From Coq Require Export Permutation.
From Verif Require Export ChoiceSpec QuizModel.
Open Scope N_scope.

(** * Prompts *)

(** the keys a request accepts *)
Definition permitted (q : Quit) (rq : request) (c : N) : Prop :=
  In c (map fst (rqChoices rq)) \/ (exists a b, rqRange rq = Some (a, b) /\ a <= c <= b)
  \/ (rqUseQuit rq = true /\ exists d, q = Some (c, d)).
(** requests that are not refused *)
Definition proper (q : Quit) (rq : request) : Prop :=
  is_map (rqChoices rq) /\ (exists c, permitted q rq c) /\ (forall c, permitted q rq c -> printable c)
  /\ (forall a b, rqRange rq = Some (a, b) -> a <= b /\ forall c, a <= c <= b -> ~ In c (map fst (rqChoices rq)))
  /\ (forall c d, q = Some (c, d) -> ~ In c (map fst (rqChoices rq)) /\ forall a b, rqRange rq = Some (a, b) -> ~ a <= c <= b)
  /\ (forall c, rqDefault rq = Some c -> permitted q rq c).

(** a run as the user sees it: for every prompt the text printed since the last one, and the key
    that was given; then the text after the last prompt *)
Record seen := MkSeen { sText : bytes; sRequest : request; sKey : N }.
Fixpoint transcript (pending : bytes) (es : list event) : list seen * bytes :=
  match es with
  | [] => ([], pending)
  | Print t :: r => transcript (pending ++ t) r
  | Asked rq k _ :: r => let '(l, e) := transcript [] r in (MkSeen pending rq k :: l, e)
  end.

(** the lines [ls] read by the prompts, up to the lines [rest]: a line that is no answer is skipped if
    there is another one *)
Inductive reads (q : Quit) : list bytes -> list seen -> list bytes -> Prop :=
| reads_nil : forall ls, reads q ls [] ls
| reads_junk : forall l ls p ps rest, (forall c, ~ answers (permitted q (sRequest p)) (rqDefault (sRequest p)) l c) -> ls <> [] ->
    reads q ls (p :: ps) rest -> reads q (l :: ls) (p :: ps) rest
| reads_key : forall l ls p ps rest, answers (permitted q (sRequest p)) (rqDefault (sRequest p)) l (sKey p) ->
    reads q ls ps rest -> reads q (l :: ls) (p :: ps) rest
| reads_end : forall p ps rest, rqDefault (sRequest p) = Some (sKey p) -> reads q [] ps rest -> reads q [] (p :: ps) rest.

(** * Where the keys lead *)

Definition toggles (k : N) : bool := k =? 45.
(** the question shown after the keys [ks]: '-' and '/' stay, ',' goes back and all others go on *)
Definition move (p k : N) : N := if (k =? 45) || (k =? 47) then p else if k =? 44 then p - 1 else p + 1.
Definition position (start : N) (ks : list N) : N := fold_left move ks start.
(** if meanings are shown after the keys [ks] *)
Definition toggled (m : bool) (ks : list N) : bool := fold_left (fun b k => if toggles k then negb b else b) ks m.
(** the keys that end a question *)
Definition ending (ks : list N) : list N := filter (fun k => negb (toggles k)) ks.
Definition visit (ks : list N) : nat := length (ending ks).

(** * Answers *)

(** for every time a question is put: its position, the place of the right answer and the
    questions whose readings (or names) are offered *)
Record offer := MkOffer { oQuestion : N; oRight : N; oList : list N }.
(** the key of the right answer *)
Definition rightKey (o : offer) : N := 49 + oRight o.
Definition good_offer (count : N) (qs : list QKanji) (o : offer) : Prop :=
  oRight o < count /\ len (oList o) = count /\ nth_error (oList o) (N.to_nat (oRight o)) = Some (oQuestion o)
  /\ exists ks, Forall2 (fun i k => nth_error qs (N.to_nat i) = Some k) (oList o) ks /\ NoDup (map qReading ks).

Inductive verdict := Right | Wrong | Skip.
Definition judge (k : N) (o : offer) : verdict :=
  if (44 <=? k) && (k <=? 47) then Skip else if k =? rightKey o then Right else Wrong.
Definition isRight (v : verdict) : bool := match v with Right => true | _ => false end.
Definition isWrong (v : verdict) : bool := match v with Wrong => true | _ => false end.
(** every key that ends a question, with what was offered *)
Definition answered (os : list offer) (ks : list N) : list (N * offer) := combine (ending ks) os.
Definition rights (os : list offer) (ks : list N) : N :=
  len (filter (fun p => isRight (judge (fst p) (snd p))) (answered os ks)).
Definition wrong (os : list offer) (ks : list N) : list N :=
  map (fun p => oQuestion (snd p)) (filter (fun p => isWrong (judge (fst p) (snd p))) (answered os ks)).
Definition nameAt (qs : list QKanji) (i : N) : bytes :=
  match nth_error qs (N.to_nat i) with Some k => qName k | None => [] end.
Definition wrongNames (qs : list QKanji) (os : list offer) (ks : list N) : list bytes := map (nameAt qs) (wrong os ks).
Definition skips (ks : list N) : N := len (filter (N.eqb 46) ks).

(** * Texts *)

Definition newline : bytes := [10].
(** right answers, questions passed, of those not answered, names of those answered wrongly *)
Definition score_text (right total skipped : N) (names : list bytes) : bytes :=
  newline ++ b_ "Final score: " ++ to_string right ++ b_ "/" ++ to_string total
  ++ (if total =? 0 then [] else
        (if 0 <? skipped then b_ ", skipped: " ++ to_string skipped else [])
        ++ (if 0 <? len names then b_ " - mistakes:" ++ flat_map (fun n => b_ " " ++ n) names else [])
        ++ (if (skipped =? 0) && (len names =? 0) then b_ " - Perfect!" else []))
  ++ newline.
(** what follows the keys [ks] *)
Definition reply (header : bytes) (start : N) (os : list offer) (ks : list N) : bytes :=
  match rev ks with
  | [] => header
  | k :: r =>
      match nth_error os (visit (rev r)) with
      | None => []
      | Some o =>
          match judge k o with
          | Right => b_ "  Correct! (" ++ to_string (rights os ks) ++ b_ "/" ++ to_string (position start ks) ++ b_ ")" ++ newline
          | Wrong => b_ "  Incorrect (correct answer is " ++ [rightKey o] ++ b_ ")" ++ newline
          | Skip => []
          end
      end
  end.
(** the legend of the fields that are shown *)
Definition legend_text (fields : N) : bytes :=
  let parts := (if hasField fields Info_Level then [b_ " N[1-5]=JLPT Level"] else [])
            ++ (if hasField fields Info_Kyu then [b_ " K[1-10]=Kentei Kyu"] else [])
            ++ (if hasField fields Info_Grade then [b_ " G[1-6]=Grade (S=Secondary School)"] else []) in
  b_ ">>> Legend:" ++ newline ++ b_ "Fields:" ++ join 44 parts ++ newline
  ++ b_ "Suffix: .=常用 '=JLPT ""=Freq ^=人名用 ~=LinkJ %=LinkO +=Extra @=検定 #=1級 *=Ucd" ++ newline.
Definition header_text (quiz : bool) (style : QuizStyle) (fields total : N) : bytes :=
  b_ ">>>" ++ newline ++ b_ ">>> Starting " ++ (if quiz then b_ "quiz" else b_ "review") ++ b_ " for " ++ to_string total
  ++ b_ " kanji" ++ newline ++ b_ ">>>" ++ newline
  ++ (match style with KanjiToReading => legend_text fields | ReadingToKanji => [] end).

Section Texts.
Variable extraTypeInfo reviewDetails : QKanji -> bytes.
(** what is shown of a Kanji *)
Definition front_text (quiz : bool) (style : QuizStyle) (fields : N) (k : QKanji) : bytes :=
  match style with
  | KanjiToReading => qName k ++ (if 0 <? len (info (qKanji k) fields) then b_ "  " ++ info (qKanji k) fields else [])
                      ++ (if quiz then [] else extraTypeInfo k)
  | ReadingToKanji => b_ "Reading:  " ++ qReading k
  end.
Definition meaning_text (quiz shown : bool) (k : QKanji) : bytes :=
  (if shown && (0 <? len (qMeaning k)) then (if quiz then b_ " : " else newline ++ b_ "    Meaning: ") ++ qMeaning k else []) ++ newline.
(** the lines with the answers, numbered from 1 *)
Definition answer_text (style : QuizStyle) (k : QKanji) : bytes :=
  match style with KanjiToReading => qReading k | ReadingToKanji => qName k end.
Definition answer_lines (style : QuizStyle) (qs : list QKanji) (l : list N) : bytes :=
  flat_map (fun p => b_ "    " ++ to_string (N.of_nat (fst p) + 1) ++ b_ ".  "
                     ++ (match nth_error qs (N.to_nat (snd p)) with Some k => answer_text style k | None => [] end) ++ newline)
           (combine (seq 0 (length l)) l).
Definition question_text (quiz : bool) (style : QuizStyle) (fields : N) (qs : list QKanji) (shown : bool) (k : QKanji) (o : offer) : bytes :=
  newline ++ (if quiz then b_ "Question " else []) ++ to_string (oQuestion o + 1) ++ b_ "/" ++ to_string (len qs) ++ b_ ":  "
  ++ front_text quiz style fields k ++ meaning_text quiz shown k
  ++ (if quiz then answer_lines style qs (oList o) else reviewDetails k).
(** what is asked *)
Definition question_request (quiz : bool) (style : QuizStyle) (count : N) (total : N) (shown : bool) (pos : N) : request :=
  MkRequest (if quiz then Some (49, 48 + count) else None)
    (b_ "  Select" ++ (if quiz then match style with KanjiToReading => b_ " correct reading" | ReadingToKanji => b_ " correct kanji" end else []))
    true
    ((if negb quiz && (0 <? pos) then [(44, b_ "prev")] else [])
     ++ [(45, if shown then b_ "hide meanings" else b_ "show meanings");
         (46, if pos + 1 =? total then b_ "finish" else if quiz then b_ "skip" else b_ "next")])
    None.

(** every prompt shows the question to which the keys before it lead *)
Definition shows (quiz : bool) (style : QuizStyle) (fields count : N) (qs : list QKanji) (start : N) (m : bool)
    (os : list offer) (ps : list seen) : Prop :=
  forall j p, nth_error ps j = Some p ->
    let before := firstn j (map sKey ps) in
    exists o k, nth_error os (visit before) = Some o /\ oQuestion o = position start before
      /\ nth_error qs (N.to_nat (oQuestion o)) = Some k
      /\ sText p = reply (header_text quiz style fields (len qs)) start os before
                   ++ question_text quiz style fields qs (toggled m before) k o
      /\ sRequest p = question_request quiz style count (len qs) (toggled m before) (oQuestion o).
End Texts.

(** the order of the questions *)
Definition ordered (o : QuestionOrder) (list qs : list QKanji) : Prop :=
  match o with FromBeginning => qs = list | FromEnd => qs = rev list | RandomOrder => Permutation list qs | NoOrder => qs = list end.

(** * Random values *)

(** drawn values are in range *)
Definition in_range {R} (draw : N -> R -> N * R) : Prop := forall n r, 0 < n -> fst (draw n r) < n.
(** the state after [k] values below [n] *)
Definition after {R} (draw : N -> R -> N * R) (n : N) (k : nat) (r : R) : R := Nat.iter k (fun r => snd (draw n r)) r.
(** every value comes up sooner or later *)
Definition fair {R} (draw : N -> R -> N * R) : Prop :=
  forall n r v, v < n -> exists k, fst (draw n (after draw n k r)) = v.
Definition shuffles {R A} (shuffle : list A -> R -> list A * R) : Prop := forall l r, Permutation l (fst (shuffle l r)).

(** * What a quiz needs in order to return *)

(** as many different readings as answers to choose from *)
Definition various (count : N) (qs : list QKanji) : Prop :=
  exists rs : list bytes, NoDup rs /\ incl rs (map qReading qs) /\ len rs = count.
(** lines that answer (or skip) a question of a quiz *)
Definition answering (count : N) (line : bytes) : bool :=
  match line with [k] => (k =? 46) || ((49 <=? k) && (k <=? 48 + count)) | _ => false end.

(** * Quizzes considered *)

(** the random values are proper, '/' quits, there are one to nine answers and the numbers fit *)
Definition quiz_fits {R} (draw : N -> R -> N * R) (shuffle : list QKanji -> R -> list QKanji * R) (l : Launcher)
    (count question : N) (list : list QKanji) : Prop :=
  in_range draw /\ shuffles shuffle /\ quitOption l = launcherQuit /\ 1 <= count <= 9 /\ len list <= 65535 /\ question <= 65535.
(** every Kanji has a reading and the first question exists *)
Definition startable (question : N) (list : list QKanji) : Prop :=
  Forall (fun k => qReading k <> []) list /\ question <= len list.
