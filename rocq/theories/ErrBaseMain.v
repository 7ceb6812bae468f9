(** Model of the [catch] in the four mains, and of programs that write to std::cout and may end with an exception that has a text. *)
From Verif Require Export MainModel ErrArgsModel.
Open Scope N_scope.

(** apps/*.cpp: [catch (const std::exception& err)]: what is written to std::cerr, and the exit code *)
Definition caught {A} (x : res A) : bytes * Ended :=
  match x with
  | Got _ => ([], Exit 0)
  | Says _ w => (w ++ [10], Exit 1)
  | Undefined => ([], IsUndefined)
  | Unfinished => ([], DoesNotEnd)
  end.
(** the arguments of main *)
Definition mainArgsT (l : list bytes) : res Args := newArgsIntT (Z.of_nat (List.length l)) (Some l).
(** what is written to std::cout and how it ends *)
Definition printedT (A : Type) : Type := (bytes * res A)%type.
Definition failT {A} (x : res A) : printedT unit :=
  ([], match x with Got _ => Got tt | Says e w => Says e w | Undefined => Undefined | Unfinished => Unfinished end).

Section Other.
(** what() of exceptions of the standard library *)
Variable stdWhat : exn -> bytes.
Definition outT {A} (p : bytes * out A) : printedT A := (fst p, withText stdWhat (snd p)).
End Other.
