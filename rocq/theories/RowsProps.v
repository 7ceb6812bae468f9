(** Properties of reading the tables of the data directory. *)
From Verif Require Import BaseFacts ListProofs ColumnFileModel ColumnFileSpec RowsModel RowsSpec RowsProofs.
Open Scope N_scope.

(** * C111: the rows of a table *)

(** the loop over a file sees exactly the rows of the table, each with the fields under the names it asks for in the order in
    which it asks for them, wherever these columns are in the file *)
Theorem C111_rows : forall reg names contents rows, known reg -> names <> [] -> NoDup names ->
  tableRows reg names contents = Val (rows, true) <-> table names contents rows.
Proof. exact rows_iff. Qed.
Print Assumptions C111_rows.
(** the rows before the first line that is not a row are processed before it is refused *)
Theorem C111_broken : forall reg names contents rows, known reg -> names <> [] -> NoDup names ->
  tableRows reg names contents = Val (rows, false) <-> broken_table names contents rows.
Proof. exact broken_iff. Qed.
Print Assumptions C111_broken.
(** a file without the header is refused *)
Theorem C111_header : forall reg names contents, known reg -> names <> [] -> NoDup names ->
  tableRows reg names contents = Throw DomainError
  <-> ~ exists hl lines headers, cut 10 contents (hl :: lines) /\ header_of names hl headers.
Proof. exact refused_iff. Qed.
Print Assumptions C111_header.
(** a table has only one list of rows *)
Theorem C111_unique : forall names contents rows rows', NoDup names -> table names contents rows -> table names contents rows' -> rows = rows'.
Proof. intros names contents rows rows' N T U. exact (table_fun names contents rows rows' N T U). Qed.
Print Assumptions C111_unique.

Definition swapped : bytes := b_ "Reading	Name
いち	一
	二
さん	三	
".
Example C111_case : let names := [b_ "Name"; b_ "Reading"] in
  known [b_ "Number"; b_ "Reading"] /\ names <> [] /\ NoDup names
  /\ table names swapped [[b_ "一"; b_ "いち"]; [b_ "二"; []]; [b_ "三"; b_ "さん"]]
  /\ tableRows [b_ "Number"; b_ "Reading"] names swapped = Val ([[b_ "一"; b_ "いち"]; [b_ "二"; []]; [b_ "三"; b_ "さん"]], true)
  /\ tableRows [] names (swapped ++ b_ "し") = Val ([[b_ "一"; b_ "いち"]; [b_ "二"; []]; [b_ "三"; b_ "さん"]], false)
  /\ tableRows [] names (b_ "Name	Reading	Name") = Throw DomainError.
Proof.
  cbv zeta. assert (K : known [b_ "Number"; b_ "Reading"]) by (exists [b_ "Number"; b_ "Reading"]; vm_compute; reflexivity).
  assert (Nd : NoDup [b_ "Name"; b_ "Reading"]).
  { constructor; [|constructor; [intros []|constructor]]. intros [H|[]]. vm_compute in H. discriminate. }
  split; [exact K|]. split; [discriminate|]. split; [exact Nd|].
  assert (E : tableRows [b_ "Number"; b_ "Reading"] [b_ "Name"; b_ "Reading"] swapped = Val ([[b_ "一"; b_ "いち"]; [b_ "二"; []]; [b_ "三"; b_ "さん"]], true))
    by (vm_compute; reflexivity).
  split; [|split; [exact E|split; vm_compute; reflexivity]].
  eapply C111_rows; [exact K|discriminate|exact Nd|exact E].
Qed.
