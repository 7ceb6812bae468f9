(** Properties of radicals. *)
From Verif Require Import BaseFacts ListProofs RadicalModel RadicalSpec RadicalProofs.
Open Scope N_scope.

(** C77: a file can be loaded exactly if every row has its own row number (up to 255). *)
Theorem C77_load : forall rows,
  ((exists d, loadRadicals rows emptyRadicals = Val d) <->
   (forall n row, at_row rows n row -> loose_number (rrNumber row) n /\ n <= 255))
  /\ ((forall d, loadRadicals rows emptyRadicals <> Val d) -> loadRadicals rows emptyRadicals = Throw DomainError).
Proof. exact load_radicals. Qed.
Print Assumptions C77_load.
(** C77: a number finds the radical of that row, with the names, long name and reading of the
    row, and every other number is refused. *)
Theorem C77_by_number : forall rows d n, loadRadicals rows emptyRadicals = Val d ->
  (forall r, radicalByNumber d n = Val r <-> exists row, at_row rows n row /\ row_radical n row r)
  /\ ((forall r, radicalByNumber d n <> Val r) -> radicalByNumber d n = Throw DomainError).
Proof. exact by_number. Qed.
Print Assumptions C77_by_number.
(** C77: a name finds the last radical that has it as its (first) name, and every other text
    is refused. *)
Theorem C77_by_name : forall rows d s, loadRadicals rows emptyRadicals = Val d ->
  (forall r, radicalByName d s = Val r <->
     exists n row, at_row rows n row /\ row_radical n row r /\ radName r = s
       /\ forall n' row' r', n < n' -> at_row rows n' row' -> row_radical n' row' r' -> radName r' <> s)
  /\ ((forall r, radicalByName d s <> Val r) -> radicalByName d s = Throw DomainError).
Proof. exact by_name. Qed.
Print Assumptions C77_by_name.

Definition water_rows : list RadicalRow :=
  [MkRadicalRow (b_ "1") (b_ "一") (b_ "一部") (b_ "いち"); MkRadicalRow (b_ "2") (b_ "水 氵 氺") (b_ "水部") (b_ "みず")].
Example C77_example : exists d, loadRadicals water_rows emptyRadicals = Val d
  /\ radicalByName d (b_ "水") = Val (MkRadical 2 (b_ "水") [b_ "氵"; b_ "氺"] (b_ "水部") (b_ "みず"))
  /\ radicalByNumber d 2 = radicalByName d (b_ "水")
  /\ radicalByName d (b_ "氵") = Throw DomainError /\ radicalByNumber d 3 = Throw DomainError.
Proof. eexists. split; [vm_compute; reflexivity|]. repeat split; vm_compute; reflexivity. Qed.
