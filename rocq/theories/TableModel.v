(** Model of libs/kana/include/kt_kana/Table.h and libs/kana/src/Table.cpp.
    A stream is the list of bytes written to it.  [std::setw] takes an int: that the widths of
    columns fit is checked by [intPlus1]. *)
From Verif Require Export DisplayModel StringModel.
Open Scope N_scope.

(** Table.h:83-86 *)
Record Table := MkTable { tTitle : list bytes; tCount : bool; tRows : list (list bytes); tSections : list N }.
(** Table.h:42-43 *)
Definition newTable (title : list bytes) (count : bool) : Table := MkTable title count [] [].
(** Table.cpp:8-16 add *)
Definition addRow (t : Table) (row : list bytes) (startNewSection : bool) : Table :=
  MkTable (tTitle t) (tCount t)
    (tRows t ++ [if tCount t then to_string (len (tRows t) + 1) :: row else row])
    (if startNewSection then tSections t ++ [len (tRows t)] else tSections t).

(** Table.cpp:19-20: widths of the title *)
Fixpoint sizes (row : list bytes) : out (list N) :=
  match row with [] => Val [] | c :: r => w <- displaySize c ;; ws <- sizes r ;; Val (w :: ws) end.
(** Table.cpp:22-28: one row *)
Fixpoint widen (widths : list N) (row : list bytes) : out (list N) :=
  match row with
  | [] => Val widths
  | col :: r =>
      w <- displaySize col ;;
      match widths with
      | x :: xs => ws <- widen xs r ;; Val ((if x <? w then w else x) :: ws)
      | [] => ws <- widen [] r ;; Val (w :: ws)
      end
  end.
Fixpoint widenRows (widths : list N) (rows : list (list bytes)) : out (list N) :=
  match rows with [] => Val widths | r :: rs => ws <- widen widths r ;; widenRows ws rs end.

(** Table.cpp:58: static_cast<int>(w) + 1, an int overflow is undefined behaviour *)
Definition intPlus1 (w : N) : out Z :=
  let i := toInt w in if (i =? 2^31 - 1)%Z then Ub else Val (i + 1)%Z.
(** Table.cpp:57-59: the function cell *)
Definition cell (delim fill w : N) (s : bytes) : out bytes :=
  n <- intPlus1 w ;; Val (delim :: fill :: putSetw true fill n s).
(** Table.cpp:55-69 printRow; [row] is what is left of the row *)
Fixpoint printCells (delim fill : N) (widths : list N) (row : list bytes) : out bytes :=
  match widths with
  | [] => Val []
  | w :: ws =>
      match row with
      | c :: r =>
          d <- displaySize c ;;
          x <- cell delim fill (u64 (w + u64 (len c + (2^64 - d)))) c ;;
          y <- printCells delim fill ws r ;;
          Val (x ++ y)
      | [] => x <- cell delim fill w [] ;; y <- printCells delim fill ws [] ;; Val (x ++ y)
      end
  end.
Definition printRow (widths : list N) (row : list bytes) (fill delim : N) : out bytes :=
  x <- printCells delim fill widths row ;; Val (x ++ [delim; 10]).
(** Table.cpp:71-73 border *)
Definition border (widths : list N) : out bytes := printRow widths [] 45 43.
Definition hasSection (t : Table) (i : N) : bool := existsb (N.eqb i) (tSections t).
(** Table.cpp:32-35: the loop over the rows *)
Fixpoint printRows (t : Table) (widths : list N) (i : N) (rows : list (list bytes)) : out bytes :=
  match rows with
  | [] => Val []
  | r :: rs =>
      b <- (if hasSection t i then border widths else Val []) ;;
      x <- printRow widths r 32 124 ;;
      y <- printRows t widths (i + 1) rs ;;
      Val (b ++ x ++ y)
  end.
(** Table.cpp:18-38 print *)
Definition print (t : Table) : out bytes :=
  ws <- sizes (tTitle t) ;;
  ws <- widenRows ws (tRows t) ;;
  match ws with
  | [] => Val []
  | _ =>
      b <- border ws ;;
      h <- (match tTitle t with [] => Val [] | _ => printRow ws (tTitle t) 32 124 end) ;;
      r <- printRows t ws 0 (tRows t) ;;
      Val (b ++ h ++ r ++ b)
  end.

(** Table.cpp:81-87: the text of a cell with its pipes escaped *)
Definition escape (s : bytes) : bytes := flat_map (fun c => if c =? 124 then [92; 124] else [c]) s.
(** Table.cpp:75-96 printMarkdownRow; [header] stands for RowType::Header with an empty row and
    [section] for RowType::Section *)
Fixpoint markdownCells (header section : bool) (n : nat) (row : list bytes) : bytes :=
  match n with
  | O => []
  | S n' =>
      b_ "| " ++ (if header then b_ "---" else [])
      ++ (match row with
          | c :: _ => let out := escape c in
                      match out with
                      | [] => []
                      | _ => if section then b_ "**" ++ out ++ b_ "**" else out
                      end
          | [] => []
          end) ++ [32] ++ markdownCells header section n' (tl row)
  end.
Definition markdownRow (header section : bool) (n : nat) (row : list bytes) : bytes :=
  markdownCells header section n row ++ [124; 10].
(** Table.cpp:41-42 *)
Definition maxColumns (t : Table) : nat :=
  fold_left (fun m r => Nat.max m (List.length r)) (tRows t) (List.length (tTitle t)).
Fixpoint markdownRows (t : Table) (n : nat) (i : N) (rows : list (list bytes)) : bytes :=
  match rows with
  | [] => []
  | r :: rs => markdownRow false (hasSection t i) n r ++ markdownRows t n (i + 1) rs
  end.
(** Table.cpp:40-52 printMarkdown *)
Definition printMarkdown (t : Table) : bytes :=
  let n := maxColumns t in
  match n with
  | O => []
  | _ => markdownRow false false n (tTitle t) ++ markdownRow true false n [] ++ markdownRows t n 0 (tRows t)
  end.
