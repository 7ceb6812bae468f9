(** std::map and std::set keyed by strings, as used by the rest of the model.
    A [std::map<String, V>] is the list of its entries in the order of the keys, which is
    [std::string]'s (lexicographic on unsigned bytes). *)
From Verif Require Export Base.
Open Scope N_scope.

(** [std::string::operator<] *)
Fixpoint blt (a b : bytes) : bool :=
  match a, b with
  | _, [] => false
  | [], _ :: _ => true
  | x :: a', y :: b' => (x <? y) || ((x =? y) && blt a' b')
  end.

Section StdMap.
  Context {V : Type}.
  Definition smap := list (bytes * V).
  (** [m.find(k)] *)
  Fixpoint mfind (k : bytes) (m : smap) : option V :=
    match m with
    | [] => None
    | (x, v) :: r => if beq x k then Some v else mfind k r
    end.
  (** [m[k]] followed by an update: [f None] is the value made from a new entry *)
  Fixpoint mupdate (f : option V -> V) (k : bytes) (m : smap) : smap :=
    match m with
    | [] => [(k, f None)]
    | (x, v) :: r =>
        if beq x k then (x, f (Some v)) :: r
        else if blt k x then (k, f None) :: (x, v) :: r
        else (x, v) :: mupdate f k r
    end.
End StdMap.
Arguments smap V : clear implicits.
