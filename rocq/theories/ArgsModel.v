(** Model of libs/utils/include/kt_utils/Args.h, libs/utils/src/Args.cpp and of the
    functions of libs/kanji/src/KanjiData.cpp that look at the command line. *)
From Verif Require Export Base.
Open Scope N_scope.

(** Args.h:55-56: the members; a null [_argv] is [None].  Args.h:16 is the default. *)
Record Args := MkArgs { argc : N; argv : option (list bytes) }.
Definition noArgs : Args := MkArgs 0 None.

(** Args.cpp:7-12: constructor taking an unsigned (uint16_t) count *)
Definition newArgs (n : N) (v : option (list bytes)) : out Args :=
  if n =? 0
  then match v with Some _ => Throw DomainError | None => Val (MkArgs n v) end
  else match v with None => Throw DomainError | Some _ => Val (MkArgs n v) end.
(** Args.cpp:21-28: checkInt *)
Definition checkInt (n : Z) : out N :=
  if (n <? 0)%Z then Throw RangeError
  else if (65535 <? n)%Z then Throw RangeError else Val (Z.to_N n).
(** Args.h:29: constructor taking an int *)
Definition newArgsInt (n : Z) (v : option (list bytes)) : out Args :=
  c <- checkInt n ;; newArgs c v.
(** Args.cpp:14-19: operator[]; reading past the array that was passed in is undefined *)
Definition argAt (a : Args) (i : N) : out bytes :=
  if argc a <=? i then Throw RangeError
  else match argv a with
       | None => Ub
       | Some l => match nth_error l (N.to_nat i) with Some s => Val s | None => Ub end
       end.

(** KanjiData.h:30-32 *)
Definition DataArg : bytes := b_ "-data".
Definition DebugArg : bytes := b_ "-debug".
Definition InfoArg : bytes := b_ "-info".

(** KanjiData.cpp:23-38: nextArg; all numbers are uint16_t, so they wrap around *)
Fixpoint nextArg (fuel : nat) (a : Args) (current : N) : out N :=
  match fuel with
  | O => Fuel
  | S fuel' =>
      if argc a <? current then Throw DomainError
      else if argc a =? 0 then Val current
      else
        let result := u16 (current + 1) in
        if result <? argc a then
          arg <- argAt a result ;;
          if beq arg DataArg then nextArg fuel' a (u16 (result + 1))
          else if beq arg DebugArg || beq arg InfoArg then nextArg fuel' a result
          else Val result
        else Val result
  end.

(** KanjiData.h:46-47: the loop over the arguments ([i = nextArg(args, i)], as in
    libs/quiz/src/QuizLauncher.cpp and libs/stats; the comment leaves out the [i]): the
    arguments that the body sees *)
Fixpoint visitArgs (fuel : nat) (a : Args) (i : N) : out (list N) :=
  match fuel with
  | O => Fuel
  | S fuel' =>
      if i <? argc a then
        next <- nextArg fuel' a i ;;
        r <- visitArgs fuel' a next ;;
        Val (i :: r)
      else Val []
  end.
Definition allArgs (fuel : nat) (a : Args) : out (list N) :=
  i <- nextArg fuel a 0 ;; visitArgs fuel a i.

(** KanjiData.h:27: DebugMode *)
Inductive DebugMode := Full | Info | NoDebug.
(** KanjiData.cpp:210-224: getDebugMode, the loop from [i] on *)
Fixpoint debugLoop (n : nat) (a : Args) (i : N) (result : DebugMode) : out DebugMode :=
  match n with
  | O => Val result
  | S n' =>
      arg <- argAt a i ;;
      let set x := match result with
                   | NoDebug => debugLoop n' a (i + 1) x
                   | _ => Throw DomainError
                   end in
      if beq arg DebugArg then set Full
      else if beq arg InfoArg then set Info
      else debugLoop n' a (i + 1) result
  end.
Definition getDebugMode (a : Args) : out DebugMode :=
  debugLoop (N.to_nat (argc a) - 1) a 1 NoDebug.
