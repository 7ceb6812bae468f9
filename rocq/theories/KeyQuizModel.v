(** Questions of a quiz that are answered with keys: what the programs do, since Quiz.cpp:12-16 gives no input stream to QuizLauncher. *)
From Verif Require Export MainModel TermModel.
Open Scope N_scope.

Section Keys.
  (** see TermModel *)
  Variables icanon echo : N.
  (** Choice.cpp:85-101 get with a range, without an input stream *)
  Definition getRangeKey (fuel : nat) (q : Quit) (first last : N) (msg : bytes) (useQuit : bool) (choices : Choices) (def : option N) (t : Term)
      : out (N * Term * bytes) :=
    _ <- checkPrintableAscii first ;;
    _ <- checkPrintableAscii last ;;
    if last <? first then Throw DomainError
    else m <- addRange (N.to_nat (last - first + 1)) first choices ;; getKey icanon echo fuel q msg useQuit m def t.
  (** a call of Choice::get by a quiz: see QuizModel.ask *)
  Definition askKey (fuel : nat) (q : Quit) (rq : request) (t : Term) : out (N * Term * bytes) :=
    match rqRange rq with
    | Some (a, b) => getRangeKey fuel q a b (rqMsg rq) (rqUseQuit rq) (rqChoices rq) (rqDefault rq) t
    | None => getKey icanon echo fuel q (rqMsg rq) (rqUseQuit rq) (rqChoices rq) (rqDefault rq) t
    end.
End Keys.
