(** Specification of the groups in a file of groups. *)
From Verif Require Export GroupLoadModel GroupSpec ListSpec.
From Verif Require Utf8CharSpec.
Open Scope N_scope.

(** [a] followed by [sub] and [b] *)
Definition has_inside (sub s : bytes) : Prop := exists a b, s = a ++ sub ++ b.
Definition has_front (sub s : bytes) : Prop := exists b, s = sub ++ b.
(** the pattern type that a name stands for *)
Inductive pattern_of : GroupType -> bytes -> PatternType -> Prop :=
| po_meaning : forall n, pattern_of MeaningType n NoPattern
| po_peer : forall n, has_front (b_ "：") n -> pattern_of PatternGroupType n Peer
| po_family : forall n, ~ has_front (b_ "：") n -> has_inside (b_ "：") n -> pattern_of PatternGroupType n Family
| po_reading : forall n, ~ has_inside (b_ "：") n -> pattern_of PatternGroupType n Reading.
(** the first character of a name *)
Definition first_char (name c : bytes) : Prop :=
  exists es, Utf8CharSpec.parse (upto_nul name) es /\ c = hd [] (Utf8CharSpec.yields true (Utf8CharSpec.items es)).
(** the names of the members: the head of a family comes first *)
Definition member_names (p : PatternType) (name members : bytes) (names : list bytes) : Prop :=
  exists listed, cut 44 members listed
  /\ match p with Family => exists h, first_char name h /\ names = h :: listed | _ => names = listed end.

Section Groups.
Variable findMember : bytes -> option QKanji.
(** the group that a row stands for *)
Definition group_of (t : GroupType) (r : GroupRow) (g : Group) : Prop :=
  gType g = t /\ gName g = grName r
  /\ (loose_number (grNumber r) (gNumber g) /\ gNumber g <= 65535)
  /\ pattern_of t (grName r) (gPattern g)
  /\ (grName r <> [] /\ Forall (fun b => 128 <= b) (grName r))
  /\ (forall s, grMembers r <> s ++ [44])
  /\ (exists names, member_names (gPattern g) (grName r) (grMembers r) names
      /\ Forall2 (fun n k => findMember n = Some k) names (gMembers g))
  /\ proper_members (gMembers g).
(** the group has a member with this name *)
Definition has_member (name : bytes) (g : Group) : bool := existsb (fun k => beq (qName k) name) (gMembers g).
End Groups.
