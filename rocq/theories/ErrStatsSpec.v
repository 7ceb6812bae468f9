(** Specification of the messages of kanjiStats about its arguments. *)
From Verif Require Export StatsReportSpec.
From Verif Require Export ErrBase.
Open Scope N_scope.

(** [stats_says fs debug l w]: with the arguments [l] (without the options about the data), the program ends with the message [w];
    [debug] if one of the options about the data was given *)
Inductive stats_says (fs : bytes -> option CountModel.node) (debug : bool) (l : list bytes) : bytes -> Prop :=
| ss_illegal : forall a, other_switch l = Some a -> a <> b_ "-h" -> stats_says fs debug l (b_ "illegal option '" ++ a ++ b_ "' use -h for help")
| ss_nothing : debug = false -> other_switch l = None -> file_names l = [] ->
    stats_says fs debug l (b_ "please specify at least one option or '-h' for help")
| ss_missing : forall done p rest, other_switch l = None -> file_names l = done ++ p :: rest -> Forall (fun q => ~ missing fs q) done -> missing fs p ->
    stats_says fs debug l (b_ "file not found: " ++ p).
