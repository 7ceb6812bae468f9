(** Model of libs/kana/include/kt_kana/Choice.h and libs/kana/src/Choice.cpp, for a Choice made with
    an input stream (for Choice.cpp:58-66 and 119-142, keys read from a terminal, see TermModel.v).
    A char is its byte.  A std::map<char, String> is a list sorted by byte: the order of the C++
    map differs for bytes from 0x80, but choices with such a byte are refused whatever their order. *)
From Verif Require Export StringModel.
Open Scope N_scope.

Definition Choices := list (N * bytes).
(** std::map::contains *)
Definition hasKey (c : N) (m : Choices) : bool := existsb (fun e => fst e =? c) m.
(** std::map::emplace of a key that is not there *)
Fixpoint insertKey (c : N) (d : bytes) (m : Choices) : Choices :=
  match m with
  | [] => [(c, d)]
  | e :: r => if c <? fst e then (c, d) :: m else e :: insertKey c d r
  end.

(** Choice.cpp:179-181 checkPrintableAscii *)
Definition checkPrintableAscii (x : N) : out unit :=
  if (x <? 32) || (126 <? x) then Throw DomainError else Val tt.

(** Choice.h:103-104: the quit option with its description *)
Definition Quit := option (N * bytes).
(** Choice.cpp:24-28 setQuit; Choice.cpp:18-22: the constructor uses it *)
Definition setQuit (c : N) (d : bytes) : out Quit := _ <- checkPrintableAscii c ;; Val (Some (c, d)).
(** Choice.cpp:30 clearQuit *)
Definition clearQuit : Quit := None.
(** Choice.h:58 isQuit *)
Definition isQuit (q : Quit) (c : N) : bool := match q with Some (x, _) => x =? c | None => false end.

(** Choice.cpp:149-151 completeRange *)
Definition completeRange (prompt : bytes) (start prev : N) : bytes :=
  if start =? prev then prompt else prompt ++ [45; prev].
(** Choice.cpp:152-175: the loop of add; [first] says that this is the first choice *)
Fixpoint addLoop (first : bool) (rangeStart : option N) (prevChar : N) (m : Choices) (prompt : bytes) : out bytes :=
  match m with
  | [] => Val (match rangeStart with Some s => completeRange prompt s prevChar | None => prompt end)
  | (c, d) :: r =>
      _ <- checkPrintableAscii c ;;
      match d with
      | [] =>
          match rangeStart with
          | None => addLoop false (Some c) c r ((if first then prompt else prompt ++ b_ ", ") ++ [c])
          | Some s =>
              if 1 <? c - prevChar then addLoop false (Some c) c r (completeRange prompt s prevChar ++ b_ ", " ++ [c])
              else addLoop false (Some s) c r prompt
          end
      | _ =>
          let prompt := match rangeStart with Some s => completeRange prompt s prevChar | None => prompt end in
          addLoop false None c r ((if first then prompt else prompt ++ b_ ", ") ++ [c; 61] ++ d)
      end
  end.
(** Choice.cpp:144-177 add *)
Definition add (prompt : bytes) (m : Choices) : out bytes := addLoop true None 0 m prompt.

(** an input stream: what is left to read, and if its end has been seen (then reading fails) *)
Record istream := MkIn { inRest : bytes; inEof : bool }.
Fixpoint splitLine (s : bytes) : bytes * option bytes :=
  match s with
  | [] => ([], None)
  | c :: r => if c =? 10 then ([], Some r) else let '(l, q) := splitLine r in (c :: l, q)
  end.
(** std::getline into [line], which stays as it is when the end of the stream was already seen *)
Definition getline (i : istream) (line : bytes) : bytes * istream :=
  if inEof i then (line, i)
  else match splitLine (inRest i) with
       | (l, Some r) => (l, MkIn r false)
       | (l, None) => (l, MkIn [] true)
       end.

(** Choice.cpp:53-69: result, stream left and what was written *)
Fixpoint askLoop (fuel : nat) (m : Choices) (def : option N) (prompt line : bytes) (i : istream) (written : bytes)
    : out (N * istream * bytes) :=
  match fuel with
  | O => Fuel
  | S f =>
      let written := written ++ prompt in
      let '(line, i) := getline i line in
      match line, def with
      | [], Some d => Val (d, i, written)
      | [c], _ => if hasKey c m then Val (c, i, written) else askLoop f m def prompt line i written
      | _, _ => askLoop f m def prompt line i written
      end
  end.
(** Choice.cpp:32-70 get; the result also has the prompt *)
Definition prepare (q : Quit) (msg : bytes) (useQuit : bool) (choices : Choices) (def : option N) : out (Choices * bytes) :=
  m <- (match q with
        | Some (c, d) => if hasKey c choices then Throw DomainError
                         else Val (if useQuit then insertKey c d choices else choices)
        | None => Val choices
        end) ;;
  match m with
  | [] => Throw DomainError
  | _ =>
      let prompt := msg ++ (match msg with [] => b_ "(" | _ => b_ " (" end) in
      p <- add prompt m ;;
      match def with
      | Some d => if hasKey d m then Val (m, p ++ b_ ") def '" ++ [d] ++ b_ "': ") else Throw DomainError
      | None => Val (m, p ++ b_ "): ")
      end
  end.
Definition get (fuel : nat) (q : Quit) (msg : bytes) (useQuit : bool) (choices : Choices) (def : option N) (i : istream)
    : out (N * istream * bytes) :=
  '(m, p) <- prepare q msg useQuit choices def ;; askLoop fuel m def p [] i [].

(** Choice.cpp:97-99: the choices of a range; [n] is the number of values left *)
Fixpoint addRange (n : nat) (c : N) (m : Choices) : out Choices :=
  match n with
  | O => Val m
  | S n' => if hasKey c m then Throw DomainError else addRange n' (c + 1) (insertKey c [] m)
  end.
(** Choice.cpp:85-101 get with a range *)
Definition getRange (fuel : nat) (q : Quit) (first last : N) (msg : bytes) (useQuit : bool) (choices : Choices)
    (def : option N) (i : istream) : out (N * istream * bytes) :=
  _ <- checkPrintableAscii first ;;
  _ <- checkPrintableAscii last ;;
  if last <? first then Throw DomainError
  else m <- addRange (N.to_nat (last - first + 1)) first choices ;; get fuel q msg useQuit m def i.
