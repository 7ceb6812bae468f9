(** Specification of quizzes answered with keys. *)
From Verif Require Export ChoiceSpec TermSpec KeyQuizModel.
Open Scope N_scope.

(** the questions among [es], asked in this order at a terminal [t], get the same answers: [t'] is the terminal after the last one.  For every
    line that is read the prompt is shown, and at a terminal a line feed after it *)
Inductive key_run (ic ec : N) : list event -> Term -> Term -> Prop :=
| kr_nil : forall t, key_run ic ec [] t t
| kr_print : forall x es t t', key_run ic ec es t t' -> key_run ic ec (Print x :: es) t t'
| kr_asked : forall rq c prompt n fuel es t t1 t', askKey ic ec fuel launcherQuit rq t = Val (c, t1, concat (repeat (prompt ++ [10]) n)) ->
    key_run ic ec es t1 t' -> key_run ic ec (Asked rq c (concat (repeat prompt n)) :: es) t t'.
