(** Property C120: the messages of the errors about tables. *)
From Verif Require Import BaseFacts ErrTableModel ErrTableSpec ErrTableProofs ErrTableRows ColumnFileModel.
Open Scope N_scope.

(** C120: with their texts taken away, the functions are those of C12 and C13. *)
Theorem C120_same :
  (forall reg name s cols delim, plain (openFileE reg name (Contents s) cols delim) = openFile reg s cols delim)
  /\ (forall name n f, plain (readRowsE name n f) = readRows n f)
  /\ (forall name f c, plain (getFieldE name f c) = getField f c)
  /\ (forall name f c max, plain (getU64E name f c max) = getU64 f c max)
  /\ (forall name f c max, plain (getOptU64E name f c max) = getOptU64 f c max)
  /\ (forall name f c, plain (getBoolE name f c) = getBool f c)
  /\ (forall name f c, plain (getChar32E name f c) = getChar32 f c).
Proof. repeat split; intros; [apply open_plain|apply rows_plain|apply get_plain|apply getU64_plain|apply getOptU64_plain|apply getBool_plain|apply getChar32_plain]. Qed.
Print Assumptions C120_same.

(** C120: opening a table fails exactly for what is wrong with its path, its header or the columns asked for, with that reason and
    the name of the file; else it succeeds. *)
Theorem C120_header : forall history created reg cols delim name p,
  newColumns [] history = (created, reg) -> incl cols created ->
  (forall e w, openFileE reg name p cols delim = Says e w <->
     e = DomainError /\ exists r, header_wrong (map cname cols) delim p r /\ w = r ++ in_file name)
  /\ ((exists f, openFileE reg name p cols delim = Got f) <-> forall r, ~ header_wrong (map cname cols) delim p r).
Proof.
  intros history created reg cols delim name p Hreg Hi. split.
  - intros e w. split; [apply (says_wrong history created reg cols delim name Hreg Hi)|].
    intros [-> [r [H ->]]]. exact (wrong_says history created reg cols delim name Hreg Hi p r H).
  - split.
    + intros [f H] r Hr. rewrite (wrong_says history created reg cols delim name Hreg Hi p r Hr) in H. discriminate H.
    + intro H. destruct (open_ends history created reg cols delim name Hreg Hi p) as [G|[e [w G]]]; [exact G|].
      destruct (says_wrong history created reg cols delim name Hreg Hi p e w G) as [_ [r [Hr _]]]. destruct (H r Hr).
Qed.
Print Assumptions C120_header.

(** C120: reading [m] rows fails exactly when one of them has too many or too few fields; the message is about the first one. *)
Theorem C120_row : forall reg name s cols delim f0, openFileE reg name (Contents s) cols delim = Got f0 ->
  exists header rows, cut 10 s (header :: rows)
  /\ forall m e w, readRowsE name m f0 = Says e w <->
      e = DomainError /\ exists k line r, (k < m)%nat /\ nth_error rows k = Some line
        /\ (forall j l, (j < k)%nat -> nth_error rows j = Some l -> row_fits delim (List.length cols) l)
        /\ row_wrong delim (List.length cols) line r /\ w = r ++ in_row name (N.of_nat (S k)).
Proof.
  intros reg name s cols delim f0 H. destruct (open_state _ _ _ _ _ _ H) as [header [H1 [H2 [H3 [H4 H5]]]]].
  exists header, (file f0). split; [exact H1|]. intros m e w.
  assert (Hn : (1 <= List.length (rowValues f0))%nat) by (rewrite H4; destruct cols; [congruence|cbn; lia]).
  rewrite (rows_says name (file f0) m f0 e w eq_refl Hn), H2, H3, H4. reflexivity.
Qed.
Print Assumptions C120_row.

(** C120: a value is refused exactly for what is wrong with it; the message names the file, the row, the column and the value. *)
Theorem C120_value : forall name f c s, getFieldE name f c = Got s ->
  let told r := r ++ in_row name (currentRow f) ++ in_column (cname c) s in
  (forall max e w, getU64E name f c max = Says e w <-> e = DomainError /\ exists r, number_wrong max s r /\ w = told r)
  /\ (forall max e w, getOptU64E name f c max = Says e w <-> s <> [] /\ e = DomainError /\ exists r, number_wrong max s r /\ w = told r)
  /\ (forall e w, getBoolE name f c = Says e w <-> e = DomainError /\ exists r, bool_wrong s r /\ w = told r)
  /\ (forall e w, getChar32E name f c = Says e w <-> e = DomainError /\ exists r, code_wrong s r /\ w = told r).
Proof.
  intros name f c s H told. unfold told.
  split; [exact (u64_says name f c s H)|]. split; [exact (optU64_says name f c s H)|]. split; [exact (bool_says name f c s H)|exact (char_says name f c s H)].
Qed.
Print Assumptions C120_value.

(** C120: asking before the first row, for a column that was not asked for at opening, or for one created after opening. *)
Theorem C120_get : forall history created reg cols delim name s f0,
  newColumns [] history = (created, reg) -> incl cols created -> openFileE reg name (Contents s) cols delim = Got f0 ->
  (forall c, getFieldE name f0 c = Says DomainError (b_ "'nextRow' must be called before calling 'get'" ++ in_file name))
  /\ (file f0 <> [] -> forall k f, readRowsE name (S k) f0 = Got f ->
      (forall c, In c created -> ~ In (cname c) (map cname cols) ->
         getFieldE name f c = Says DomainError (b_ "invalid column " ++ quoted (cname c) ++ in_row name (currentRow f)))
      /\ (forall later n, ~ In n history ->
         getFieldE name f (column (snd (newColumns reg later)) n)
           = Says DomainError (b_ "unrecognized column " ++ quoted n ++ in_row name (currentRow f)))).
Proof.
  intros history created reg cols delim name s f0 Hreg Hi Ho. split; [exact (get_first reg cols delim name s f0 Ho)|].
  intros Hf k f Hr. split.
  - intros c Hc Hn. exact (get_invalid history created reg cols delim name s f0 Hreg Hi Ho k f c Hf Hr Hc Hn).
  - intros later n Hn. exact (get_unrecognized history created reg cols delim name s f0 Hreg Hi Ho k f later n Hf Hr Hn).
Qed.
Print Assumptions C120_get.

(** two columns asked for out of three; a header that misses one; a second row with a field too many; a value that is no number *)
Example C120_example :
  let '(created, reg) := newColumns [] [b_ "Name"; b_ "Age"; b_ "Other"] in
  let cols := firstn 2 created in
  let row a b := a ++ [9] ++ b ++ [10] in
  openFileE reg (b_ "t.txt") (Contents (b_ "Name" ++ [10])) cols 9 = Says DomainError (b_ "column 'Age' not found - file: t.txt")
  /\ openFileE reg (b_ "t.txt") (Contents (row (b_ "Other") (b_ "Age"))) cols 9 = Says DomainError (b_ "unrecognized header 'Other' - file: t.txt")
  /\ exists f0 f1, openFileE reg (b_ "t.txt") (Contents (row (b_ "Age") (b_ "Name") ++ row (b_ "x1") (b_ "A") ++ row (b_ "2") (b_ "B" ++ [9] ++ b_ "C"))) cols 9 = Got f0
     /\ readRowsE (b_ "t.txt") 1 f0 = Got f1
     /\ getU64E (b_ "t.txt") f1 (column reg (b_ "Age")) 0
          = Says DomainError (b_ "failed to convert to unsigned number - file: t.txt, row: 1, column: 'Age', value: 'x1'")
     /\ readRowsE (b_ "t.txt") 2 f0 = Says DomainError (b_ "too many columns - file: t.txt, row: 2").
Proof.
  cbv zeta. split; [vm_compute; reflexivity|]. split; [vm_compute; reflexivity|]. eexists. eexists.
  split; [vm_compute; reflexivity|]. split; [vm_compute; reflexivity|]. split; vm_compute; reflexivity.
Qed.
