(** Shared vocabulary of the model: bytes, strings, outcomes. *)
From Coq Require Export String Ascii.
From Coq Require Export List NArith ZArith Bool Arith Lia.
From Coq Require Import ZifyBool ZifyNat ZifyN.
Export ListNotations.
Open Scope N_scope.

(** A byte / a code point / any unsigned C++ integer is an [N].  A C++ string is
    the list of its bytes (as unsigned values). *)
Definition bytes := list N.

(** every element is a byte *)
Definition bytes_ok (s : bytes) : Prop := Forall (fun b => b < 256) s.
(** no element is NUL, i.e. [c_str()] shows all of the string *)
Definition no_nul (s : bytes) : Prop := Forall (fun b => b <> 0) s.

(** A source-level string literal as its UTF-8 bytes. *)
Fixpoint b_ (s : string) : bytes :=
  match s with
  | EmptyString => []
  | String a r => N_of_ascii a :: b_ r
  end.

(** Kinds of C++ exceptions that the modelled code throws.
    DomainError and RangeError: libs/utils/include/kt_utils/Exception.h;
    the others come from the C++ standard library. *)
Inductive exn : Type :=
| DomainError            (** kanji_tools::DomainError *)
| RangeError             (** kanji_tools::RangeError *)
| StdInvalidArgument     (** std::invalid_argument *)
| StdOutOfRange.         (** std::out_of_range *)

(** Outcome of running a piece of code. *)
Inductive out (A : Type) : Type :=
| Val (a : A)            (** returns normally *)
| Throw (e : exn)        (** throws *)
| Ub                     (** undefined behaviour *)
| Fuel.                  (** the model's step bound was reached *)
Arguments Val {A} a.
Arguments Throw {A} e.
Arguments Ub {A}.
Arguments Fuel {A}.

Definition obind {A B} (x : out A) (f : A -> out B) : out B :=
  match x with
  | Val a => f a
  | Throw e => Throw e
  | Ub => Ub
  | Fuel => Fuel
  end.
Notation "x <- e ;; k" := (obind e (fun x => k))
  (at level 100, e at next level, right associativity).
Notation "' pat <- e ;; k" := (obind e (fun x => match x with pat => k end))
  (at level 100, pat pattern, e at next level, right associativity).

(** Equality of strings. *)
Fixpoint beq (a b : bytes) : bool :=
  match a, b with
  | [], [] => true
  | x :: a', y :: b' => (x =? y) && beq a' b'
  | _, _ => false
  end.

(** [N]-valued list length (C++ [size()]). *)
Definition len {A} (l : list A) : N := N.of_nat (List.length l).

(** wrap-around of unsigned integers *)
Definition u8 (x : N) : N := x mod 2^8.
Definition u16 (x : N) : N := x mod 2^16.
Definition u32 (x : N) : N := x mod 2^32.
Definition u64 (x : N) : N := x mod 2^64.
