(** Model of the messages of libs/kana/src/Choice.cpp.  The functions are those of ChoiceModel with what() of what they throw (see C134_same).
    The message about an option that cannot be printed names the first one in the order of std::map<char, String>, which depends on
    whether char is signed; the model has both. *)
From Verif Require Export ChoiceModel.
From Verif Require Import ErrUcdModel.
From Verif Require Export ErrBase.
Open Scope N_scope.

Section Choices.
(** char is signed (x86) or not (ARM) *)
Variable signed : bool.

(** Choice.cpp:179-183; String.h:163 and 178-184: toHex of a char *)
Definition checkPrintableT (x : N) (msg : bytes) : res unit :=
  if (x <? 32) || (126 <? x) then h <~ quiet (toHex 1 x NoBrackets Lower 0) ;; Says DomainError (msg ++ b_ " is non-printable: 0x" ++ h) else Got tt.
(** Choice.cpp:24-28 *)
Definition setQuitT (c : N) (d : bytes) : res Quit := _ <~ checkPrintableT c (b_ "quit option") ;; Got (Some (c, d)).
(** the entries of a map in the order of char, from those in the order of bytes *)
Definition charOrder (m : Choices) : Choices :=
  if signed then filter (fun e => 128 <=? fst e) m ++ filter (fun e => fst e <? 128) m else m.
(** Choice.cpp:152-175 *)
Fixpoint addLoopT (first : bool) (rangeStart : option N) (prevChar : N) (m : Choices) (prompt : bytes) : res bytes :=
  match m with
  | [] => Got (match rangeStart with Some s => completeRange prompt s prevChar | None => prompt end)
  | (c, d) :: r =>
      _ <~ checkPrintableT c (b_ "option") ;;
      match d with
      | [] =>
          match rangeStart with
          | None => addLoopT false (Some c) c r ((if first then prompt else prompt ++ b_ ", ") ++ [c])
          | Some s =>
              if 1 <? c - prevChar then addLoopT false (Some c) c r (completeRange prompt s prevChar ++ b_ ", " ++ [c])
              else addLoopT false (Some s) c r prompt
          end
      | _ =>
          let prompt := match rangeStart with Some s => completeRange prompt s prevChar | None => prompt end in
          addLoopT false None c r ((if first then prompt else prompt ++ b_ ", ") ++ [c; 61] ++ d)
      end
  end.
(** Choice.cpp:11 *)
Definition AlreadyInChoices : bytes := b_ "' already in choices".
(** Choice.cpp:34-52 *)
Definition prepareT (q : Quit) (msg : bytes) (useQuit : bool) (choices : Choices) (def : option N) : res (Choices * bytes) :=
  m <~ (match q with
        | Some (c, d) => if hasKey c choices then Says DomainError (b_ "quit option '" ++ [c] ++ AlreadyInChoices)
                         else Got (if useQuit then insertKey c d choices else choices)
        | None => Got choices
        end) ;;
  match m with
  | [] => Says DomainError (b_ "must specify at least one choice")
  | _ =>
      let prompt := msg ++ (match msg with [] => b_ "(" | _ => b_ " (" end) in
      p <~ addLoopT true None 0 (charOrder m) prompt ;;
      match def with
      | Some d => if hasKey d m then Got (m, p ++ b_ ") def '" ++ [d] ++ b_ "': ") else Says DomainError (b_ "default option '" ++ [d] ++ b_ "' not in choices")
      | None => Got (m, p ++ b_ "): ")
      end
  end.
(** Choice.cpp:32-70 *)
Definition getT (fuel : nat) (q : Quit) (msg : bytes) (useQuit : bool) (choices : Choices) (def : option N) (i : istream) : res (N * istream * bytes) :=
  '(m, p) <~ prepareT q msg useQuit choices def ;; quiet (askLoop fuel m def p [] i []).
(** Choice.cpp:97-99 *)
Fixpoint addRangeT (n : nat) (c : N) (m : Choices) : res Choices :=
  match n with
  | O => Got m
  | S n' => if hasKey c m then Says DomainError (b_ "range option '" ++ [c] ++ AlreadyInChoices) else addRangeT n' (c + 1) (insertKey c [] m)
  end.
(** Choice.cpp:85-101 *)
Definition getRangeT (fuel : nat) (q : Quit) (first last : N) (msg : bytes) (useQuit : bool) (choices : Choices)
    (def : option N) (i : istream) : res (N * istream * bytes) :=
  _ <~ checkPrintableT first (b_ "first range option") ;;
  _ <~ checkPrintableT last (b_ "last range option") ;;
  if last <? first then Says DomainError (b_ "first range option '" ++ [first] ++ b_ "' is greater than last '" ++ [last] ++ b_ "'")
  else m <~ addRangeT (N.to_nat (last - first + 1)) first choices ;; getT fuel q msg useQuit m def i.
End Choices.
