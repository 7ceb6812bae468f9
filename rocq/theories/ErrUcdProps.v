(** C129: the messages about the Unicode data. *)
From Verif Require Import BaseFacts ColumnFileProofs ColumnFileLemmas UcdProofs ErrTableProofs DirProps DirPaths ErrArgsProps ErrUcdTable.
From Verif Require Import ErrBase.
Open Scope N_scope.

(** The functions with texts are those of the other models: they give the same data and throw the same exceptions, whatever the order of evaluation. *)
Theorem C129_same :
  (forall c n, plain (newEntryT c n) = newEntry c n)
  /\ (forall s j n, plain (getSourcesT s j n) = getSources s j n)
  /\ (forall ltr file k d r, bytes_ok (rName r) -> plain (loadRowT ltr file k d r) = loadRow d r)
  /\ forall fs writable reg, (forall p c, is_file fs p c -> bytes_ok c) -> known (reg (b_ "ucd")) -> forall ltr dir,
       plain (ucdTableT ltr fs writable reg dir) = loadFrom (fileRows fs writable reg dir (b_ "ucd") UcdColumns) ucdRow (fun rows => loadUcd rows emptyUcdData).
Proof.
  split; [exact newEntryT_plain|]. split; [exact getSourcesT_plain|]. split; [|exact ucdTableT_plain].
  intros ltr file k d r H. apply loadRowT_plain. right. exact H.
Qed.
Print Assumptions C129_same.

(** A row after others is taken if it passes all checks, and otherwise the message is that of the first check it fails.
    What passes all checks is a row with data of its own and nothing that is already taken. *)
Theorem C129_row : forall ltr file k r, k <> 0 -> row_bytes r -> forall d us, loaded d us ->
  (forall e w, loadRowT ltr file k d r = Says e w <-> e = DomainError /\ first_fault (row_checks ltr (in_row file k) us r) w)
  /\ ((exists d', loadRowT ltr file k d r = Got d') <-> all_pass (row_checks ltr (in_row file k) us r))
  /\ (all_pass (row_checks ltr (in_row file k) us r)
      <-> exists u, row_is r u /\ NoDup (map ucdName (us ++ [u])) /\ NoDup (map fst (jinmei_links (us ++ [u])))).
Proof.
  intros ltr file k r K Hb d us Ld. pose proof (row_tells ltr file k K r Hb d us Ld) as T.
  assert (NF : forall cs w, all_pass cs -> ~ first_fault cs w).
  { intros cs w Al. induction Al as [|c cs H Al IH]; [intros []|]. intros [[X _]|[_ X]]; [contradiction|auto]. }
  assert (A : (exists d', loadRowT ltr file k d r = Got d') <-> all_pass (row_checks ltr (in_row file k) us r)).
  { destruct T as [(v & E & Al)|(e & w & E & F & U & Na)]; [split; eauto|]. split; [intros [d' X]; congruence|contradiction]. }
  split; [|split; [exact A|]].
  - intros e w. destruct T as [(v & E & Al)|(e0 & w0 & E & F & U & Na)].
    + split; [congruence|]. intros [_ X]. destruct (NF _ _ Al X).
    + pose proof (row_domain _ _ _ _ _ _ _ Hb E) as ->. rewrite E. split; [intro X; injection X as <- <-; auto|]. intros [-> X]. rewrite (U w X). reflexivity.
  - rewrite <- A. split.
    + intros [d' E]. destruct (row_got _ _ _ _ _ _ _ Hb Ld E) as (u & Hu & _ & _ & N1 & N2). eauto.
    + intros (u & Hu & N1 & N2). destruct (row_adds file k ltr _ _ _ _ Hb Ld Hu N1 N2) as (d' & E & _). eauto.
Qed.
Print Assumptions C129_row.
(** Loading the table throws exactly the message of its first fault. *)
Theorem C129_message : forall fs writable reg, (forall p c, is_file fs p c -> bytes_ok c) -> known (reg (b_ "ucd")) -> forall ltr dir e w,
  ucdTableT ltr fs writable reg dir = Says e w <-> ucd_says fs writable ltr dir e w.
Proof. intros fs writable reg A B ltr dir. exact (proj1 (proj2 (proj2 (ucd_table_view ltr fs writable reg A B dir)))). Qed.
Print Assumptions C129_message.
(** There is either one message or the data of all rows. *)
Theorem C129_loaded_or_message : forall fs writable reg, (forall p c, is_file fs p c -> bytes_ok c) -> known (reg (b_ "ucd")) -> forall ltr dir,
  (exists d us, ucdTableT ltr fs writable reg dir = Got d /\ ucd_table fs writable dir us /\ holds d us /\ forall e w, ~ ucd_says fs writable ltr dir e w)
  \/ exists e w, ucdTableT ltr fs writable reg dir = Says e w /\ ucd_says fs writable ltr dir e w
       /\ (forall e' w', ucd_says fs writable ltr dir e' w' -> e' = e /\ w' = w) /\ forall us, ~ ucd_table fs writable dir us.
Proof.
  intros fs writable reg A B ltr dir. destruct (ucd_table_view ltr fs writable reg A B dir) as (G & G' & S1 & [[d E]|(e & w & E)]); [left|right].
  - destruct (G d E) as (us & Tb & Ld). exists d, us. split; [exact E|]. split; [exact Tb|]. split; [exact (proj1 (proj2 Ld))|]. intros e w X. apply S1 in X. congruence.
  - exists e, w. split; [exact E|]. split; [apply S1; exact E|]. split; [intros e' w' X; apply S1 in X; rewrite E in X; injection X as <- <-; auto|].
    intros us Tb. destruct (G' us Tb) as (d & X & _). congruence.
Qed.
Print Assumptions C129_loaded_or_message.
(** The order in which the two arguments of the constructor are evaluated matters for no data, and for a message only if the name or code and the type of link are both wrong. *)
Theorem C129_order : forall fs writable reg, (forall p c, is_file fs p c -> bytes_ok c) -> known (reg (b_ "ucd")) -> forall dir,
  (forall a b d, ucdTableT a fs writable reg dir = Got d -> ucdTableT b fs writable reg dir = Got d)
  /\ forall at_row us r, all_pass (code_checks at_row r) \/ all_pass (type_checks at_row r) ->
       forall w, first_fault (row_checks true at_row us r) w <-> first_fault (row_checks false at_row us r) w.
Proof.
  intros fs writable reg A B dir. split; [intros a b; exact (order_view fs writable reg A B a b dir)|]. intros at_row us r H w. unfold row_checks.
  assert (X : forall cs l1 l2, (first_fault l1 w <-> first_fault l2 w) -> (first_fault (cs ++ l1) w <-> first_fault (cs ++ l2) w)).
  { intros cs l1 l2 E. induction cs as [|c cs IH]; [exact E|]. cbn [app first_fault]. tauto. }
  do 3 apply X.
  assert (Y : forall cs l, all_pass cs -> (first_fault (cs ++ l) w <-> first_fault l w)).
  { intros cs l Al. induction Al as [|c cs H' Al IH]; [reflexivity|]. cbn [app first_fault]. tauto. }
  rewrite <- !app_assoc. destruct H as [H|H].
  - rewrite (Y (code_checks at_row r)) by exact H. apply X. symmetry. apply Y. exact H.
  - rewrite (Y (type_checks at_row r) (code_checks at_row r ++ _)) by exact H. apply X. apply Y. exact H.
Qed.
Print Assumptions C129_order.

(** tables with a fault *)
Definition ucdFs (c : bytes) (p : bytes) : option CountModel.node := MapModel.mfind p [(b_ "/d", CountModel.Dir []); (b_ "/d/ucd.txt", CountModel.File c)].
Definition small_bytes (c : bytes) : bool := forallb (fun b => b <? 256) c.
Lemma ucdFs_ok : forall t, small_bytes t = true -> forall p c, is_file (ucdFs t) p c -> bytes_ok c.
Proof.
  intros t A p c (n & Hn & S1). apply MapProofs.In_mfind in Hn. apply resolve_seen in S1.
  assert (K : forall c, small_bytes c = true -> bytes_ok c) by (intros x X; apply Forall_forall; intros b I; unfold small_bytes in X; rewrite forallb_forall in X; apply N.ltb_lt; exact (X b I)).
  repeat (destruct Hn as [Hn|Hn]; [injection Hn as _ <-; cbn in S1; first [discriminate S1|injection S1 as <-; apply K; assumption]|]). destruct Hn.
Qed.
Definition line_of (l : list bytes) : bytes := join 9 l ++ [10].
Definition one_row (name radical strokes vstrokes joyo jinmei codes names type : bytes) : bytes :=
  line_of [b_ "4E00"; name; b_ "CJK"; b_ "1.1"; radical; strokes; vstrokes; b_ "yī"; b_ "1"; b_ "1"; b_ "GHJKTV"; b_ "J0-306C"; joyo; jinmei; codes; names; type;
           b_ "one; a, an; alone"; b_ "ICHI ITSU"; b_ "HITOTSU"; []].
Definition linked_row : bytes :=
  line_of [b_ "FA31"; [239; 168; 177]; b_ "CJK_Compat_Ideographs"; b_ "3.2"; b_ "9"; b_ "14"; []; []; []; []; b_ "J"; b_ "J3-2E49"; []; b_ "Y"; b_ "50E7"; b_ "僧"; b_ "Jinmei*";
           b_ "monk"; b_ "SOU"; b_ "BOUZU"; []].
Definition every (_ : bytes) : bool := true.
Example C129_case :
  let says c w := ucd_says (ucdFs (line_of ucd_names ++ c)) every true (b_ "/d") DomainError w in
  let one := b_ "1" in
  let good := one_row (b_ "一") one one [] (b_ "Y") [] [] [] [] in
  says (one_row (b_ "一二") one one [] (b_ "Y") [] [] [] []) (b_ "name more than 4 bytes - file: ucd.txt, row: 1")
  /\ says (one_row (b_ "一") (b_ "215") one [] (b_ "Y") [] [] [] []) (b_ "radical '215' out of range - file: ucd.txt, row: 1")
  /\ says (one_row (b_ "一") one (b_ "65") [] (b_ "Y") [] [] [] []) (b_ "strokes '65' out of range - file: ucd.txt, row: 1")
  /\ says (one_row (b_ "一") one (b_ "33") (b_ "34") (b_ "Y") [] [] [] []) (b_ "variant strokes '34' out of range - file: ucd.txt, row: 1")
  /\ says (one_row (b_ "一") one (b_ "a") [] (b_ "Y") [] [] [] [])
       (b_ "failed to convert to unsigned number - file: ucd.txt, row: 1, column: 'Strokes', value: 'a' - file: ucd.txt, row: 1")
  /\ says (good ++ good) (b_ "duplicate entry '一' - file: ucd.txt, row: 2")
  /\ says (one_row (b_ "一") one one [] (b_ "Y") [] (b_ "4E8C") (b_ "二,三") []) (b_ "LinkNames has more values than LinkCodes - file: ucd.txt, row: 1")
  /\ says (one_row (b_ "一") one one [] (b_ "Y") [] (b_ "4E8D") (b_ "二") []) (b_ "code '4E8D' doesn't match '4E8C'")
  /\ says (one_row (b_ "二") one one [] (b_ "Y") [] [] [] []) (b_ "code '4E00' doesn't match '4E8C' - file: ucd.txt, row: 1")
  /\ says (one_row (b_ "一") one one [] [] (b_ "Y") (b_ "50E7") (b_ "僧") (b_ "Jinmei") ++ linked_row)
       (b_ "jinmei entry '" ++ [239; 168; 177] ++ b_ "' with link '僧' failed - link already points to '一' - file: ucd.txt, row: 2").
Proof.
  intros says one good.
  assert (K : forall c w, small_bytes (line_of ucd_names ++ c) = true -> ucdTableT true (ucdFs (line_of ucd_names ++ c)) every (fun _ => []) (b_ "/d") = Says DomainError w -> says c w).
  { intros c w A H. apply (C129_message _ every _ (ucdFs_ok _ A) none_known) in H. exact H. }
  do 9 (split; [apply K; vm_compute; reflexivity|]). apply K; vm_compute; reflexivity.
Qed.
Example C129_order_case :
  let c := line_of ucd_names ++ one_row (b_ "二") (b_ "1") (b_ "1") [] [] [] (b_ "4E8C") (b_ "二") (b_ "x") in
  ucdTableT true (ucdFs c) every (fun _ => []) (b_ "/d") = Says DomainError (b_ "code '4E00' doesn't match '4E8C' - file: ucd.txt, row: 1")
  /\ ucdTableT false (ucdFs c) every (fun _ => []) (b_ "/d") = Says DomainError (b_ "name 'x' not found - file: ucd.txt, row: 1").
Proof. split; vm_compute; reflexivity. Qed.
Example C129_loaded_case : exists d us,
  ucdTableT true (ucdFs (line_of ucd_names ++ one_row (b_ "一") (b_ "1") (b_ "1") [] (b_ "Y") [] [] [] [] ++ linked_row)) every (fun _ => []) (b_ "/d") = Got d
  /\ ucd_table (ucdFs (line_of ucd_names ++ one_row (b_ "一") (b_ "1") (b_ "1") [] (b_ "Y") [] [] [] [] ++ linked_row)) every (b_ "/d") us /\ map fst (ucdMap d) = [b_ "一"; [239; 168; 177]].
Proof.
  set (c := line_of ucd_names ++ _). assert (A : small_bytes c = true) by (vm_compute; reflexivity).
  assert (E : exists d, ucdTableT true (ucdFs c) every (fun _ => []) (b_ "/d") = Got d /\ map fst (ucdMap d) = [b_ "一"; [239; 168; 177]]) by (eexists; split; vm_compute; reflexivity).
  destruct E as (d & E & F). destruct (proj1 (ucd_table_view true (ucdFs c) every (fun _ => []) (ucdFs_ok c A) none_known (b_ "/d")) d E) as (us & Tb & _). eauto.
Qed.
