(** Properties C12 and C13: column files. *)
From Verif Require Import BaseFacts ColumnFileModel ColumnFileSpec ColumnFileProofs ColumnFileLemmas.
From Coq Require Import Permutation.

(** Columns created at any time in any order are the same iff their names are. *)
Theorem C12_columns_identified_by_name : forall names cs reg a b,
  newColumns [] names = (cs, reg) -> In a cs -> In b cs ->
  (cnumber a = cnumber b <-> cname a = cname b).
Proof. exact columns_bijective. Qed.
Print Assumptions C12_columns_identified_by_name.

(** C12: for every history of column creations, every choice [cols] of created
    columns, every order [headers] of their names in the header line, and every
    table of rows with as many fields as the header: the file opens, asking before
    the first row is refused, the k-th call of nextRow gives row k, each column
    yields the field under its header, a column (created before or later) that is
    not in the header is refused, and after the last row nextRow says so. *)
Theorem C12_get_returns_field_under_header :
  forall history created reg cols delim headers hl lines table,
  newColumns [] history = (created, reg) -> incl cols created -> cols <> [] ->
  NoDup (map cname cols) -> Permutation headers (map cname cols) -> ~ In [] headers ->
  free_of 10 (hl :: lines) -> has_fields delim hl headers ->
  Forall2 (has_fields delim) lines table ->
  Forall (fun r => List.length r = List.length headers) table ->
  exists f0, openFile reg (unlines (hl :: lines)) cols delim = Val f0
    /\ (forall c, getField f0 c = Throw DomainError)
    /\ (forall k row, nth_error table k = Some row ->
          exists f, readRows (S k) f0 = Val f
            /\ currentRow f = N.of_nat (S k)
            /\ (forall c p, In c cols -> nth_error headers p = Some (cname c) ->
                  exists v, nth_error row p = Some v /\ getField f c = Val v)
            /\ (forall later name, ~ In name headers ->
                  getField f (column (snd (newColumns reg later)) name) = Throw DomainError))
    /\ (exists f, readRows (List.length table) f0 = Val f /\ nextRow f = Val (false, f)).
Proof. exact get_fields. Qed.
Print Assumptions C12_get_returns_field_under_header.

(** C12: exactly which headers are accepted: the names of the requested columns in
    any order, each once (a trailing delimiter is ignored). *)
Theorem C12_header_accepted_iff : forall history created reg cols delim hl rows headers,
  newColumns [] history = (created, reg) -> incl cols created ->
  free_of 10 (hl :: rows) -> has_fields delim hl headers ->
  let accepted := cols <> [] /\ NoDup (map cname cols)
                  /\ Permutation (strip_trailing_empty headers) (map cname cols) in
  (accepted -> exists f, openFile reg (unlines (hl :: rows)) cols delim = Val f)
  /\ (~ accepted -> openFile reg (unlines (hl :: rows)) cols delim = Throw DomainError).
Proof. exact header_accepted_iff. Qed.
Print Assumptions C12_header_accepted_iff.

(** C12: every line has fields, and which rows are accepted.  "A row with too many
    fields is rejected" holds except for one more field that is empty, which is
    silently dropped. *)
Theorem C12_row_accepted_iff : forall f line rest fs,
  file f = line :: rest -> (1 <= List.length (rowValues f))%nat ->
  has_fields (delimiter f) line fs ->
  let n := List.length (rowValues f) in
  (List.length fs = n -> exists g, nextRow f = Val (true, g) /\ rowValues g = fs)
  /\ (forall init, fs = init ++ [[]] -> List.length init = n ->
        exists g, nextRow f = Val (true, g) /\ rowValues g = init)
  /\ (List.length fs <> n -> (forall init, fs = init ++ [[]] -> List.length init <> n) ->
        nextRow f = Throw DomainError).
Proof. exact row_accepted_iff. Qed.
Print Assumptions C12_row_accepted_iff.
Theorem C12_every_line_has_fields : forall d line, exists fs, has_fields d line fs.
Proof. exact fields_exist. Qed.
Print Assumptions C12_every_line_has_fields.

(** a two column file with rows "1<tab>2<tab>" (three fields) *)
Theorem C12_too_many_fields_refuted :
  exists f g, file f = [b_ "1" ++ [9] ++ b_ "2" ++ [9]] /\ List.length (rowValues f) = 2%nat
    /\ has_fields 9 (b_ "1" ++ [9] ++ b_ "2" ++ [9]) [b_ "1"; b_ "2"; []]
    /\ nextRow f = Val (true, g).
Proof.
  exists {| file := [b_ "1" ++ [9] ++ b_ "2" ++ [9]]; delimiter := 9; currentRow := 0;
            rowValues := [[]; []]; columnToPosition := [Some 0%nat; Some 1%nat] |}.
  eexists. split; [reflexivity|]. split; [reflexivity|]. split.
  - split; [discriminate|]. split; [|reflexivity].
    repeat constructor; vm_compute; intuition discriminate.
  - vm_compute. reflexivity.
Qed.
Print Assumptions C12_too_many_fields_refuted.

(** the hypotheses are met: three created columns, two of them used in the opposite
    order, two rows, one of them ending with an empty field *)
Example C12_example :
  let created := fst (newColumns [] [b_ "Name"; b_ "Other"; b_ "Age"]) in
  let reg := snd (newColumns [] [b_ "Name"; b_ "Other"; b_ "Age"]) in
  let name := column reg (b_ "Name") in
  let age := column reg (b_ "Age") in
  incl [name; age] created /\ NoDup (map cname [name; age])
  /\ Permutation [b_ "Age"; b_ "Name"] (map cname [name; age])
  /\ (exists f0 f2,
        openFile reg (unlines [b_ "Age" ++ [9] ++ b_ "Name"; b_ "7" ++ [9] ++ b_ "x"; b_ "8" ++ [9]])
          [name; age] 9 = Val f0
        /\ readRows 2 f0 = Val f2
        /\ getField f2 name = Val [] /\ getField f2 age = Val (b_ "8")).
Proof.
  cbv zeta. split; [|split; [|split]].
  - intros x [<-|[<-|[]]]; vm_compute; tauto.
  - repeat constructor; vm_compute; intuition discriminate.
  - vm_compute. apply perm_swap.
  - eexists. eexists. split; [vm_compute; reflexivity|]. split; [vm_compute; reflexivity|].
    split; vm_compute; reflexivity.
Qed.

(** C13: what getU64 returns is exactly: the number that the C library reads from
    the field, if it is within the limit (0 is "no limit"); everything else is
    DomainError.  It never fails in another way. *)
Theorem C13_number_accepted_iff : forall s max,
  (forall v, processU64 s max = Val v <-> (loose_number s v /\ (max = 0 \/ v <= max)))
  /\ ((forall v, processU64 s max <> Val v) -> processU64 s max = Throw DomainError).
Proof. exact processU64_iff. Qed.
Print Assumptions C13_number_accepted_iff.

(** C13, the part that holds: a field of decimal digits gives its decimal value if
    that is within the limit, and DomainError otherwise. Missing: fields that are
    not just digits should be refused; they are not, see C13_not_a_number_refuted. *)
Theorem C13_decimal_fields_partial : forall s max, numeral s ->
  (decimal s < 2^64 -> max < 2^64 ->
     (max = 0 \/ decimal s <= max -> processU64 s max = Val (decimal s))
     /\ (max <> 0 -> max < decimal s -> processU64 s max = Throw DomainError))
  /\ (2^64 <= decimal s -> processU64 s max = Throw DomainError).
Proof.
  exact (fun s max Hn => conj (fun H Hm => number_ok s max Hn H Hm) (fun H => number_too_big s max Hn H)).
Qed.
Print Assumptions C13_decimal_fields_partial.
Example C13_example : numeral (b_ "0255") /\ decimal (b_ "0255") = 255
  /\ processU64 (b_ "0255") 255 = Val 255 /\ processU64 (b_ "256") 255 = Throw DomainError
  /\ processU64 (b_ "18446744073709551616") 0 = Throw DomainError
  /\ processU64 (b_ "x1") 0 = Throw DomainError.
Proof.
  split; [split; [discriminate|repeat constructor; vm_compute; discriminate]|].
  vm_compute. repeat split; reflexivity.
Qed.

(** Fields that are no decimal number are accepted: trailing letters are ignored,
    and a negative number wraps around, even into the range of an 8 bit column. *)
Theorem C13_not_a_number_refuted :
  processU64 (b_ "12abc") 0 = Val 12
  /\ processU64 (b_ " +7") 0 = Val 7
  /\ processU64 (b_ "-1") 0 = Val (2^64 - 1)
  /\ processU64 (b_ "-18446744073709551615") 255 = Val 1.
Proof. vm_compute. repeat split; reflexivity. Qed.
Print Assumptions C13_not_a_number_refuted.

(** Code point columns: exactly 4 or 5 upper case hex digits are accepted, with
    the number they denote; everything else is DomainError. *)
Theorem C13_code_point_accepted_iff : forall s,
  (forall x, convChar32 s = Val x <->
     ((len s = 4 \/ len s = 5) /\ Forall is_upper_hex s /\ denotes 16 s x))
  /\ ((forall x, convChar32 s <> Val x) -> convChar32 s = Throw DomainError).
Proof. exact char32_iff. Qed.
Print Assumptions C13_code_point_accepted_iff.

(** Boolean columns: Y/T are true, N/F and the empty field false, the rest DomainError. *)
Theorem C13_bool_accepted_iff : forall s,
  convBool s =
    if in_dec bytes_eq_dec s [b_ "Y"; b_ "T"] then Val true
    else if in_dec bytes_eq_dec s [[]; b_ "N"; b_ "F"] then Val false
    else Throw DomainError.
Proof. exact bool_spec. Qed.
Print Assumptions C13_bool_accepted_iff.
