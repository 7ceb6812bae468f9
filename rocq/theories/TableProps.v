(** Properties of tables (C26). *)
From Verif Require Import Utf8Proofs DisplayProofs TableSpec TableProofs.
Open Scope N_scope.

(** what is printed: the borders, the title and every row in order, where each cell is followed by
    the spaces that fill its column, and columns are exactly as wide as their widest cell *)
Theorem C26_print_exact : forall title count adds,
  Forall cell_ok title -> (forall a, In a adds -> Forall cell_ok (fst a)) -> len adds < 2^63 ->
  let rows := numbered_rows count 1 adds in
  exists ws, column_widths (title :: map fst rows) ws
    /\ (ws = [] -> print (table_of_adds title count adds) = Val [])
    /\ (ws <> [] -> exists ts, Forall2 (line_text ws) (table_lines title rows) ts
          /\ print (table_of_adds title count adds) = Val (flat_map (fun t => t ++ [10]) ts)).
Proof. exact print_lines. Qed.
Print Assumptions C26_print_exact.
(** all lines take the same columns *)
Theorem C26_lines_aligned : forall ws l t, line_text ws l t ->
  (match l with Border => True | Cells r => Forall cell_ok r end) -> displaySize t = Val (table_width ws).
Proof.
  intros ws l t H. destruct H as [t H|r t H]; intro Hr; [apply (border_good ws t H)|apply (cells_good ws r t H Hr)].
Qed.
Print Assumptions C26_lines_aligned.
(** cells of a column start at the same place of their lines *)
Theorem C26_cells_aligned : forall ws r t, line_text ws (Cells r) t -> Forall cell_ok r ->
  forall i c, nth_error r i = Some c -> (i < List.length ws)%nat ->
  exists pre post, t = pre ++ c ++ b_ " " ++ post /\ displaySize pre = Val (cell_start ws i).
Proof. intros ws r t H. inversion H; subst. eapply cell_position. eassumption. Qed.
Print Assumptions C26_cells_aligned.
(** Markdown: a line for the title, one with dashes and one for each row; split at its pipes, each
    line shows the cells, in bold for the start of a section, with nothing lost *)
Theorem C26_markdown_exact : forall title count adds, let rows := numbered_rows count 1 adds in
  exists n, (forall r, In r (title :: map fst rows) -> (List.length r <= n)%nat)
    /\ (exists r, In r (title :: map fst rows) /\ List.length r = n)
    /\ (n = 0%nat -> printMarkdown (table_of_adds title count adds) = [])
    /\ (n <> 0%nat -> exists head rule body,
          printMarkdown (table_of_adds title count adds) = flat_map (fun t => t ++ [10]) (head :: rule :: body)
          /\ markdown_line head (padded n title) /\ markdown_line rule (repeat (b_ "---") n)
          /\ Forall2 (fun s r => markdown_line s (map (if snd r : bool then bold else fun c => c) (padded n (fst r)))) body rows).
Proof. exact markdown_lines. Qed.
Print Assumptions C26_markdown_exact.

Example C26_example :
  let t := table_of_adds [b_ "No"; b_ "x"] true [([text [0x4E00; 0x4E8C]], false); ([b_ "a|b"; b_ "c"], true)] in
  print t = Val (b_ "+----+------+---+
| No | x    |   |
| 1  | " ++ text [0x4E00; 0x4E8C] ++ b_ " |   |
+----+------+---+
| 2  | a|b  | c |
+----+------+---+
")
  /\ printMarkdown t = b_ "| No | x |  |
| --- | --- | --- |
| 1 | " ++ text [0x4E00; 0x4E8C] ++ b_ " |  |
| **2** | **a\|b** | **c** |
"
  /\ Forall cell_ok [b_ "No"; b_ "x"] /\ Forall cell_ok [text [0x4E00; 0x4E8C]] /\ Forall cell_ok [b_ "a|b"; b_ "c"].
Proof.
  split; [vm_compute; reflexivity|]. split; [vm_compute; reflexivity|].
  split; [|split]; repeat (apply Forall_cons || apply Forall_nil); (split; [|split]);
    try (vm_compute; reflexivity);
    vm_compute; repeat (apply Forall_cons || apply Forall_nil); try reflexivity; discriminate.
Qed.
