(** Specification of printed tables. *)
From Verif Require Export DisplaySpec StringSpec TableModel.
Open Scope N_scope.

(** a table after a history of calls of add *)
Definition table_of_adds (title : list bytes) (count : bool) (adds : list (list bytes * bool)) : Table :=
  fold_left (fun t a => addRow t (fst a) (snd a)) adds (newTable title count).

(** the rows as shown: with their number in front when rows are counted *)
Fixpoint numbered_rows (count : bool) (k : N) (adds : list (list bytes * bool)) : list (list bytes * bool) :=
  match adds with
  | [] => []
  | (r, s) :: rest => (if count then to_string k :: r else r, s) :: numbered_rows count (k + 1) rest
  end.

(** the lines of the printed table *)
Inductive line := Border | Cells (r : list bytes).
Definition table_lines (title : list bytes) (rows : list (list bytes * bool)) : list line :=
  [Border] ++ (match title with [] => [] | _ => [Cells title] end)
  ++ flat_map (fun r => (if snd r : bool then [Border] else []) ++ [Cells (fst r)]) rows ++ [Border].

(** the text of a line for columns of widths [ws] *)
Definition spaces (n : N) : bytes := repeat 32 (N.to_nat n).
Definition dashes (n : N) : bytes := repeat 45 (N.to_nat n).
Inductive cells_text : list N -> list bytes -> bytes -> Prop :=
| cells_end : forall r, cells_text [] r (b_ "|")
| cells_some : forall w ws c r d t, displaySize c = Val d -> d <= w -> cells_text ws r t ->
    cells_text (w :: ws) (c :: r) (b_ "| " ++ c ++ spaces (w - d) ++ b_ " " ++ t)
| cells_none : forall w ws t, cells_text ws [] t ->
    cells_text (w :: ws) [] (b_ "| " ++ spaces w ++ b_ " " ++ t).
Inductive border_text : list N -> bytes -> Prop :=
| border_end : border_text [] (b_ "+")
| border_some : forall w ws t, border_text ws t -> border_text (w :: ws) (b_ "+-" ++ dashes w ++ b_ "-" ++ t).
Inductive line_text (ws : list N) : line -> bytes -> Prop :=
| text_border : forall t, border_text ws t -> line_text ws Border t
| text_cells : forall r t, cells_text ws r t -> line_text ws (Cells r) t.

(** [ws] are the widths of the columns: as many as the longest row has cells, each as wide as the
    widest cell of the column *)
Definition column_widths (rows : list (list bytes)) (ws : list N) : Prop :=
  (forall r, In r rows -> (List.length r <= List.length ws)%nat)
  /\ (forall i w, nth_error ws i = Some w ->
        (forall r c, In r rows -> nth_error r i = Some c -> exists d, displaySize c = Val d /\ d <= w)
        /\ (exists r c, In r rows /\ nth_error r i = Some c /\ displaySize c = Val w)).

(** cells that can be shown: no NUL in them and less than 2^30 bytes *)
Definition cell_ok (c : bytes) : Prop := bytes_ok c /\ no_nul c /\ len c < 2^30.

(** columns of one line of the table, and where column [i] starts *)
Fixpoint table_width (ws : list N) : N := match ws with [] => 1 | w :: r => w + 3 + table_width r end.
Definition cell_start (ws : list N) (i : nat) : N := table_width (firstn i ws) + 1.

(** ** Markdown *)

(** parts of a line between pipes; a pipe with a backslash before it is no separator *)
Fixpoint pipe_split (after_backslash : bool) (cur s : bytes) : list bytes :=
  match s with
  | [] => [cur]
  | c :: r =>
      if (c =? 124) && negb after_backslash then cur :: pipe_split false [] r
      else pipe_split (c =? 92) (cur ++ [c]) r
  end.
(** the text meant: a backslash before a pipe is dropped *)
Fixpoint unescape (s : bytes) : bytes :=
  match s with
  | [] => []
  | a :: r => match r with
              | b :: _ => if (a =? 92) && (b =? 124) then unescape r else a :: unescape r
              | [] => [a]
              end
  end.
(** [n] cells, those missing are empty *)
Definition padded (n : nat) (r : list bytes) : list bytes := r ++ repeat [] (n - List.length r).
Definition bold (s : bytes) : bytes := match s with [] => [] | _ => b_ "**" ++ s ++ b_ "**" end.
(** [part] shows the cell [c] between two pipes *)
Definition shows (part c : bytes) : Prop := exists e, part = b_ " " ++ e ++ b_ " " /\ unescape e = c.
(** a Markdown line shows the cells *)
Definition markdown_line (t : bytes) (cells : list bytes) : Prop :=
  exists parts, pipe_split false [] t = [[]] ++ parts ++ [[]] /\ Forall2 shows parts cells.
