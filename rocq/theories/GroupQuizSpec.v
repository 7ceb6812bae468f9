(** Specification of how a group quiz starts, of the groups and members it shows, and of its score. *)
From Verif Require Export KanjiSpec DisplaySpec GroupSpec.
Open Scope N_scope.

(** * Members *)

(** members to show: those with a reading that are Jouyou or belong to the wider set chosen *)
Definition included (m : MemberType) (k : QKanji) : Prop :=
  qReading k <> [] /\
  (kType (qKanji k) = Jouyou
   \/ match m with
      | MJouyou => False
      | MJLPT => kLevel (qKanji k) <> NoLevel
      | MFrequency => kLevel (qKanji k) <> NoLevel \/ kFrequency (qKanji k) <> 0
      | MAll => True
      end).
Definition blanks (n : N) : bytes := repeat 32 (N.to_nat n).
(** in a review, the number of the group of the other type that has the Kanji *)
Definition other_text (other : GroupType -> bytes -> option N) (quiz : bool) (ty : GroupType) (k : QKanji) : bytes :=
  if quiz then [] else
  match other ty (qName k) with
  | Some n => (match ty with MeaningType => b_ "p:" | PatternGroupType => b_ "m:" end) ++ to_string n
  | None => []
  end.
(** what is shown of a member: the name with the suffix of its kind, 12 columns with its pinyin, the
    other group, and spaces up to 22 columns; the pinyin takes 8 columns at most *)
Definition entry_shown (other : GroupType -> bytes -> option N) (quiz : bool) (ty : GroupType) (k : QKanji) (e : bytes) : Prop :=
  exists c cs n ps p,
    KanjiSpec.group (qKanji k) = Some c
    /\ chars cs /\ qName k = text cs /\ total cs n
    /\ chars ps /\ kPinyin (qKanji k) = text ps /\ total ps p /\ p <= 8
    /\ e = text cs ++ [c] ++ (match ps with [] => blanks 12 | _ => b_ "  (" ++ text ps ++ b_ ")" ++ blanks (8 - p) end)
           ++ other_text other quiz ty k ++ blanks (22 - (n + 13 + len (other_text other quiz ty k)))
    /\ len e < 2 ^ 30.

(** * Groups *)

(** at least two members to show *)
Definition worth (m : MemberType) (g : Group) : bool := 1 <? len (filter (includeMember m) (gMembers g)).
(** the mark is part of the name *)
Definition marked (mark : bytes) (g : Group) : Prop := exists a b, gName g = a ++ mark ++ b.
(** pattern groups are listed by name; the mark at which the part for a key starts *)
Definition mark_of (key : N) : option bytes :=
  if key =? 50 then Some (b_ "：カ") else if key =? 51 then Some (b_ "：サ") else if key =? 52 then Some (b_ "：タ")
  else if key =? 53 then Some (b_ "：ハ") else if key =? 54 then Some (b_ "：ヤ") else None.
(** [part] is the part of the list for a key: from the first group with its mark up to the next one
    with the mark of the next key *)
Definition part_for (key : N) (lst part : list Group) : Prop :=
  exists pre post, lst = pre ++ part ++ post
    /\ (match mark_of key with
        | None => pre = []
        | Some mk => Forall (fun g => ~ marked mk g) pre /\ (match part with [] => post = [] | g :: _ => marked mk g end)
        end)
    /\ (match mark_of (key + 1) with
        | None => post = []
        | Some mk => Forall (fun g => ~ marked mk g) (match mark_of key with None => part | Some _ => tl part end)
                     /\ (match post with [] => True | g :: _ => marked mk g end)
        end).
Definition name_request : request :=
  MkRequest None (b_ "Pattern name") true
    [(49, b_ "ア"); (50, b_ "カ"); (51, b_ "サ"); (52, b_ "タ、ナ"); (53, b_ "ハ、マ"); (54, b_ "ヤ、ラ、ワ")] (Some 49).

Section Start.
Variable R : Type.
Variable shuffleGroups : list Group -> R -> list Group * R.
Variable l : Launcher.
Variable m : MemberType.
(** the order of the groups, and the random values left *)
Definition arranged (kept : list Group) (r : R) (gs : list Group) (r' : R) : Prop :=
  match questionOrder l with
  | FromEnd => gs = rev kept /\ r' = r
  | RandomOrder => (gs, r') = shuffleGroups kept r
  | _ => gs = kept /\ r' = r
  end.
(** the prompts before the first group, and the groups of the quiz *)
Inductive starts (lst : list Group) (r : R) : list seen -> list Group -> R -> Prop :=
| starts_meaning : forall g rest gs r', lst = g :: rest -> gType g = MeaningType ->
    arranged (match questionOrder l, m with FromBeginning, MAll => lst | _, _ => filter (worth m) lst end) r gs r' ->
    starts lst r [] gs r'
| starts_pattern : forall g rest key part gs r', lst = g :: rest -> gType g = PatternGroupType -> 49 <= key <= 54 ->
    part_for key lst part -> arranged (filter (worth m) part) r gs r' ->
    starts lst r [MkSeen [] name_request key] gs r'.
End Start.

(** the quizzes considered: shuffling keeps what it shuffles, '/' quits, the numbers fit and every
    member to show has an entry *)
Definition groups_fit {R} (shuffleGroups : list Group -> R -> list Group * R) (shuffle : list QKanji -> R -> list QKanji * R)
    (other : GroupType -> bytes -> option N) (l : Launcher) (question : N) (m : MemberType) (lst : list Group) (entry : QKanji -> bytes) : Prop :=
  shuffles shuffleGroups /\ shuffles shuffle /\ quitOption l = launcherQuit /\ len lst <= 65535 /\ question <= 65535
  /\ Forall (fun g => len (gMembers g) <= 58) lst
  /\ (forall g0 g k, hd_error lst = Some g0 -> In g lst -> In k (gMembers g) -> included m k -> entry_shown other (isQuizMode l) (gType g0) k (entry k)).

(** the score: the groups before the first one count as skipped *)
Definition group_score {R} (quiz : bool) (question : N) (t : table R) (ks : list N) : bytes :=
  if quiz then score_text (tRight R t) (tPos R t) (question - 1 + skips ks) (tWrong R t) else [].

(** * How a quiz ends *)
Section Ends.
Variable R : Type.
Variable shuffle : list QKanji -> R -> list QKanji * R.
Variable l : Launcher.
Variable m : MemberType.
Variable gs : list Group.
Variable entry : QKanji -> bytes.
(** the first table with the text before it, the prompts before it, and the lines of the input *)
Variable start : table R * bytes.
Variable ps0 : list seen.
Variable ls : list bytes.
Notation after := (table_after R shuffle l m gs entry (fst start)).
Notation seen_for ks := (ps0 ++ fst (script R shuffle l m gs entry (fst start) (snd start) ks)).
(** the lines contain keys to the end of the quiz *)
Definition completes (ks : list N) (rest : list bytes) : Prop :=
  playable R shuffle l m gs entry launcherQuit (fst start) ks /\ finished R gs (after ks) = true /\ reads launcherQuit ls (seen_for ks) rest.
(** they contain keys up to one that completes a group with more than 26 members to show *)
Definition overflows : Prop := exists ks k rest,
  playable R shuffle l m gs entry launcherQuit (fst start) ks /\ finished R gs (after ks) = false
  /\ permitted launcherQuit (asks R l gs (after ks)) k /\ overfull R (after ks) k /\ reads launcherQuit ls (seen_for (ks ++ [k])) rest.
(** they end before the quiz does *)
Definition starves : Prop := exists ks rest,
  playable R shuffle l m gs entry launcherQuit (fst start) ks /\ finished R gs (after ks) = false
  /\ reads launcherQuit ls (seen_for ks) rest
  /\ no_answer (permitted launcherQuit (asks R l gs (after ks))) (rqDefault (asks R l gs (after ks))) rest
  /\ (rest <> [] \/ rqDefault (asks R l gs (after ks)) = None).
(** the members on both sides are those of the group to be shown, in some order *)
Definition shows_members (t : table R) : Prop := exists g,
  nth_error gs (N.to_nat (tPos R t)) = Some g
  /\ exists members, Permutation members (tQuestions R t) /\ Permutation members (tReadings R t)
     /\ (forall k, In k members <-> In k (gMembers g) /\ included m k).
(** every letter given stands beside a reading, and none was given twice *)
Definition sound_sheet (t : table R) : Prop :=
  NoDup (tSheet R t) /\ (forall c, In c (tSheet R t) -> In c (letters (size R t))) /\ (length (tSheet R t) < size R t)%nat.
End Ends.
