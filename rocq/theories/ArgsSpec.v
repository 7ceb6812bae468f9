(** Specification of what the command line means. *)
From Verif Require Export ArgsModel.
Open Scope N_scope.

(** Positions of the arguments that are left for the program when the options of KanjiData
    are taken out; [i] is the position of the first of [l].  "-data" takes the argument
    after it along, whatever it is. *)
Fixpoint others (i : N) (l : list bytes) : list N :=
  match l with
  | [] => []
  | a :: r =>
      if beq a (b_ "-data") then match r with [] => [] | _ :: r' => others (i + 2) r' end
      else if beq a (b_ "-debug") || beq a (b_ "-info") then others (i + 1) r
      else i :: others (i + 1) r
  end.

Definition is_option (s : bytes) : Prop := s = b_ "-data" \/ s = b_ "-debug" \/ s = b_ "-info".
Definition is_mode (s : bytes) : bool := beq s (b_ "-debug") || beq s (b_ "-info").
