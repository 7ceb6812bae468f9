(** Specification of the messages about groups. *)
From Verif Require Export QuizDataSpec ErrRowsSpec ErrGroupModel.
From Verif Require Export ErrBase.
Open Scope N_scope.

(** names that are there more than once, in the order of their first places *)
Definition times (n : bytes) (l : list bytes) : N := len (filter (beq n) l).
Fixpoint firsts (l : list bytes) : list bytes :=
  match l with [] => [] | n :: r => n :: filter (fun m => negb (beq n m)) (firsts r) end.
Definition repeated (l : list bytes) : list bytes := filter (fun n => 2 <=? times n l) (firsts l).
(** what is wrong with the members of a group *)
Inductive members_wrong (l : list QKanji) : bytes -> Prop :=
| mw_none : l = [] -> members_wrong l (b_ "no members")
| mw_one : forall k, l = [k] -> members_wrong l (b_ "only one member")
| mw_many : 58 < len l -> members_wrong l (b_ "more than 58 members")
| mw_twice : forall n, 2 <= len l <= 58 -> repeated (map qName l) = [n] -> members_wrong l (b_ "1 duplicate member: " ++ n)
| mw_several : forall d m n ns, 2 <= len l <= 58 -> repeated (map qName l) = m :: n :: ns -> written d (len (m :: n :: ns)) ->
    members_wrong l (d ++ b_ " duplicate members:" ++ flat_map (fun n => b_ " " ++ n) (m :: n :: ns)).
Definition in_group (number : N) (name why w : bytes) : Prop :=
  exists d, written d number /\ w = b_ "group [" ++ d ++ b_ " " ++ name ++ b_ "] has " ++ why.

Section Groups.
Variable findMember : bytes -> option QKanji.
Definition listed (t : GroupType) (r : GroupRow) (names : list bytes) : Prop :=
  exists p, pattern_of t (grName r) p /\ member_names p (grName r) (grMembers r) names.
(** what is wrong with a row *)
Inductive group_says (t : GroupType) (r : GroupRow) (at_row : bytes) : bytes -> Prop :=
| gs_no_name : grName r = [] -> group_says t r at_row (b_ "group must have a name" ++ at_row)
| gs_ascii : grName r <> [] -> ~ Forall (fun b => 128 <= b) (grName r) -> group_says t r at_row (b_ "group name must be all MB characters" ++ at_row)
| gs_comma : forall s, grName r <> [] -> Forall (fun b => 128 <= b) (grName r) -> grMembers r = s ++ b_ "," ->
    group_says t r at_row (b_ "members ends with ," ++ at_row)
| gs_missing : forall names n, readable_row r -> listed t r names -> In n names -> findMember n = None ->
    group_says t r at_row (b_ "group failed to load all members" ++ at_row)
| gs_number : forall names ks why, readable_row r -> listed t r names -> Forall2 (fun n k => findMember n = Some k) names ks ->
    number_wrong 65535 (grNumber r) why ->
    group_says t r at_row (why ++ at_row ++ in_column (b_ "Number") (grNumber r) ++ at_row)
| gs_members : forall names ks v why w, readable_row r -> listed t r names -> Forall2 (fun n k => findMember n = Some k) names ks ->
    loose_number (grNumber r) v -> v <= 65535 -> members_wrong ks why -> in_group v (grName r) why w -> group_says t r at_row (w ++ at_row).

(** the fields of a row *)
Definition fields_are (l : list bytes) (r : GroupRow) : Prop := l = [grNumber r; grName r; grMembers r].
(** the groups of a table, one for each row *)
Definition group_step (t : GroupType) (file : bytes) (k : N) (row : list bytes) (a b : list Group) : Prop :=
  exists r g, fields_are row r /\ group_of findMember t r g /\ b = a ++ [g].
Definition group_fault (t : GroupType) (file : bytes) (k : N) (row : list bytes) (a : list Group) (e : exn) (w : bytes) : Prop :=
  e = DomainError /\ exists r, fields_are row r /\ group_says t r (in_row file k) w.
Definition group_names : list bytes := [b_ "Number"; b_ "Name"; b_ "Members"].

Section Files.
Variable fs : bytes -> option CountModel.node.
Variable writable : bytes -> bool.
Definition table_groups (t : GroupType) (dir file : bytes) (gs : list Group) : Prop :=
  table_loads fs writable (group_step t) dir file group_names [] gs.
Definition table_group_says (t : GroupType) (dir file : bytes) : exn -> bytes -> Prop :=
  table_says fs writable (group_step t) (group_fault t) dir file group_names [].
(** the first fault of the two tables *)
Inductive groups_say (dir : bytes) : exn -> bytes -> Prop :=
| gg_meaning : forall e w, table_group_says MeaningType dir (b_ "meaning-groups") e w -> groups_say dir e w
| gg_pattern : forall gs e w, table_groups MeaningType dir (b_ "meaning-groups") gs ->
    table_group_says PatternGroupType dir (b_ "pattern-groups") e w -> groups_say dir e w.
End Files.
End Groups.
