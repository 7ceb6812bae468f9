(** Specification of the messages about a quiz that cannot be started. *)
From Verif Require Export QuizSpec GroupQuizSpec StartSpec ErrArgsSpec ErrMainSpec ErrQuizModel.
From Verif Require Import MainSpec.
Open Scope N_scope.

(** the first question does not exist *)
Definition beyond (question total : N) (w : bytes) : Prop :=
  total < question
  /\ exists a b, written a question /\ written b total /\ w = b_ "entry num '" ++ a ++ b_ "' is larger than total questions: " ++ b.
(** a quiz on a list: a Kanji has no reading, or the first question does not exist *)
Inductive list_refused (question : N) (lst : list QKanji) : bytes -> Prop :=
| refused_reading : forall before k after, lst = before ++ k :: after -> Forall (fun k => qReading k <> []) before -> qReading k = [] ->
    list_refused question lst (kName (qKanji k) ++ b_ " has no reading")
| refused_question : forall w, Forall (fun k => qReading k <> []) lst -> beyond question (len lst) w -> list_refused question lst w.
(** the groups of a quiz for the members [m]: all of them in their order, or those with two or more such members; of pattern groups the part that
    the lines [ls] ask for *)
Inductive groups_asked (o : QuestionOrder) (m : MemberType) (lst : list Group) (ls : list bytes) : list Group -> Prop :=
| asked_all : forall g rest, lst = g :: rest -> gType g = MeaningType -> o = FromBeginning -> m = MAll -> groups_asked o m lst ls lst
| asked_meaning : forall g rest, lst = g :: rest -> gType g = MeaningType -> o <> FromBeginning \/ m <> MAll -> groups_asked o m lst ls (filter (worth m) lst)
| asked_pattern : forall g rest key part ls', lst = g :: rest -> gType g = PatternGroupType -> 49 <= key <= 54 ->
    QuizSpec.reads launcherQuit ls [MkSeen [] name_request key] ls' -> part_for key lst part -> groups_asked o m lst ls (filter (worth m) part).
(** a quiz on groups: there are none, or the first question does not exist *)
Inductive groups_refused (o : QuestionOrder) (question : N) (m : MemberType) (lst : list Group) (ls : list bytes) : bytes -> Prop :=
| refused_empty : lst = [] -> groups_refused o question m lst ls (b_ "empty group list")
| refused_group : forall gs w, groups_asked o m lst ls gs -> beyond question (len gs) w -> groups_refused o question m lst ls w.

(** a quiz after the dialog, with the lines that are left *)
Definition quiz_refused (o : QuestionOrder) (question : N) (q : quiz) (ls : list bytes) (w : bytes) : Prop :=
  match q with
  | ListOf _ _ _ ks => list_refused question (map (fun k => MkQ k (dReading (kDetails k)) (dMeaning (kDetails k))) ks) w
  | GroupsOf gs m => groups_refused o question m gs ls w
  end.
