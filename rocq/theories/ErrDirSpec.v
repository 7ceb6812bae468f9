(** Specification of the messages about the data directory. *)
From Verif Require Export DirSpec.
Open Scope N_scope.

Definition expected_files : bytes := b_ "10 expected '.txt' files".
Definition not_found : bytes := b_ "couldn't find 'data' directory with 10 expected '.txt' files:
- searched up from current: ".
Definition what_to_do : bytes := b_ "
run in a directory where 'data' can be found or use '-data <dir>'".

(** [dir_says fs cs root ps prog l w]: in the directory with the names [cs], the program [prog] in the directory with the names [ps]
    ([root] if its path is absolute), run with the arguments [l], finds no data directory and says [w] *)
Inductive dir_says (fs : bytes -> option CountModel.node) (cs : list bytes) (root : bool) (ps : list bytes) (prog : bytes) (l : list bytes) : bytes -> Prop :=
| ds_last : forall before, l = before ++ [b_ "-data"] -> ~ In (b_ "-data") before ->
    dir_says fs cs root ps prog l (b_ "'-data' must be followed by a directory name")
| ds_no_dir : forall before d rest, l = before ++ b_ "-data" :: d :: rest -> ~ In (b_ "-data") before -> ~ is_dir fs d ->
    dir_says fs cs root ps prog l (b_ "'" ++ d ++ b_ "' is not a valid directory")
| ds_not_data : forall before d rest, l = before ++ b_ "-data" :: d :: rest -> ~ In (b_ "-data") before -> is_dir fs d -> ~ data_dir fs d ->
    dir_says fs cs root ps prog l (b_ "'" ++ d ++ b_ "' does not contain " ++ expected_files)
| ds_current : ~ In (b_ "-data") l -> (forall d, ~ nearest fs true cs d) -> ~ is_dir fs (path root ps) ->
    dir_says fs cs root ps prog l (not_found ++ path true cs ++ what_to_do)
| ds_both : ~ In (b_ "-data") l -> (forall d, ~ nearest fs true cs d) -> is_dir fs (path root ps) -> (forall d, ~ nearest fs root (removelast ps) d) ->
    dir_says fs cs root ps prog l (not_found ++ path true cs ++ b_ "
- searched up from arg0: " ++ path root (ps ++ [prog]) ++ what_to_do).
