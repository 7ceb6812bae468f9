(** Property theorems about counting the characters of strings and files. *)
From Verif Require Import BaseFacts MapProofs CountSpec CountFile CountProofs.
Open Scope N_scope.

(** C37: after any history of calls that add strings, files and directory trees, with any
    regular expression and any predicate, the count of every character is the number of times
    it occurs in the texts, in total and per tag; the numbers the calls returned are those of
    the characters of their texts; and nothing is undefined *)
Theorem C37_counts_are_exact : forall find allow p I rs, (forall t, bytes_ok t -> allow t = Val (p t)) -> reader I ->
  Forall request_ok rs ->
  exists c, let ts := flat_map (request_texts (file_strings find)) rs in
    let chars_of := flat_map (counted find p I) in
    serveAll find allow rs newCounter
      = Val (map (fun r => if exists_path r
                           then Some (len (chars_of (request_texts (file_strings find) r)))
                           else None) rs, c)
    /\ (forall k, countOf k c = occurs k (chars_of ts))
    /\ (forall k tag, match tagsOf k c with Some m => match mfind tag m with Some n => n | None => 0 end | None => 0 end
                      = occurs k (chars_of (filter (has_tag tag) ts)))
    /\ (forall k, match tagsOf k c with Some m => map_total m | None => 0 end
                  = occurs k (chars_of (filter tagged ts)))
    /\ map_total (cMap c) = len (chars_of ts)
    /\ uniqueEntries c = len (nodup bytes_eq_dec (chars_of ts)).
Proof.
  intros find allow p I rs Ha HI Hok. destruct (serveAll_spec find p I HI allow Ha rs newCounter Hok) as [c [E G]].
  exists c. cbv zeta. split; [exact E|]. exact (grown_counts find p I _ _ _ _ G).
Qed.
Print Assumptions C37_counts_are_exact.

(** C37: so the total is the sum of the returned numbers *)
Theorem C37_total_is_the_sum_of_results : forall find allow p rs,
  (forall t, bytes_ok t -> allow t = Val (p t)) -> Forall request_ok rs ->
  exists ns c, serveAll find allow rs newCounter = Val (ns, c)
    /\ map_total (cMap c) = total (map (fun n => match n with Some n => n | None => 0 end) ns).
Proof.
  intros find allow p rs Ha Hok. destruct (serveAll_spec find p read read_reader allow Ha rs newCounter Hok) as [c [E G]].
  eexists _, c. split; [exact E|].
  destruct (grown_counts find p read _ _ _ _ G) as (_ & _ & _ & -> & _).
  clear E G Hok. induction rs as [|r rs IH]; [reflexivity|].
  cbn [flat_map map total fold_right]. rewrite flat_map_app', len_app, IH. unfold answer at 2.
  destruct (exists_path r) eqn:X; [reflexivity|].
  destruct (missing_texts find r X) as [-> _]. reflexivity.
Qed.
Print Assumptions C37_total_is_the_sum_of_results.

(** C37: the counters shown by the header of the statistics *)
Theorem C37_events_are_exact : forall find allow p I rs, (forall t, bytes_ok t -> allow t = Val (p t)) -> reader I ->
  Forall request_ok rs ->
  exists ns c, let ts := flat_map (request_texts (file_strings find)) rs in
    let events f := total (map (fun t => count f (I (counted_text find (fst t)))) ts) in
    serveAll find allow rs newCounter = Val (ns, c)
    /\ cErrors c = events is_error /\ cVariants c = events is_variant /\ cMarks c = events is_combined
    /\ cReplacements c = count (fun t => negb (beq (counted_text find (fst t)) (fst t))) ts
    /\ cFiles c = total (map (visited node_files) rs) /\ cDirectories c = total (map (visited node_dirs) rs).
Proof.
  intros find allow p I rs Ha HI Hok. destruct (serveAll_spec find p I HI allow Ha rs newCounter Hok) as [c [E G]].
  eexists _, c. cbv zeta. split; [exact E|]. destruct G. cbn [newCounter cErrors cVariants cMarks cReplacements cFiles cDirectories] in *.
  rewrite N.add_0_l in *. auto 10.
Qed.
Print Assumptions C37_events_are_exact.

(** C37: without a regular expression, counting a file line by line counts the characters of
    its contents *)
Theorem C37_lines_are_the_contents : forall I contents, reader I -> bytes_ok contents -> no_nul contents ->
  flat_map (fun l => yields true (I l)) (getlines 10 contents) = yields true (I contents).
Proof. intros I c HI H1 H2. exact (lines_read _ c (Nat.le_refl _) H1 H2 I HI). Qed.
Print Assumptions C37_lines_are_the_contents.

(** There is a reading function, and this history meets the hypotheses: a string with a tag, a
    directory with a file, a link and a subdirectory, and a missing path. *)
Example C37_reader : reader read. Proof. exact read_reader. Qed.
Definition sample : list request :=
  [RAdd (b_ "漢a字漢") (Some (b_ "t"));
   RFile (Some (Dir [(b_ "f", File (b_ "か漢
か゚")); (b_ "l", Link (Some Other)); (b_ "字", Dir [])])) (b_ "d") true true true;
   RFile None (b_ "x") true true true].
Example C37_case : exists c, Forall request_ok sample
  /\ serveAll None (fun t => Val true) sample newCounter = Val ([Some 3; Some 4; None], c)
  /\ countOf (b_ "漢") c = 3 /\ countOf (b_ "字") c = 2 /\ countOf (b_ "か") c = 2
  /\ tagsOf (b_ "漢") c = Some [(b_ "f", 1); (b_ "t", 2)] /\ cErrors c = 1 /\ cFiles c = 1 /\ cDirectories c = 2.
Proof.
  eexists. split; [|vm_compute; repeat split; reflexivity].
  unfold sample. repeat (apply Forall_cons || apply Forall_nil); cbn; repeat split; repeat constructor.
Qed.

(** C38: the strings that are searched are all the text of the file in order, newlines removed,
    whatever brackets there are *)
Theorem C38_no_text_is_lost : forall contents, exists l,
  searched contents = Val l /\ concat l = filter (fun b => negb (b =? 10)) contents.
Proof. intro c. exists (pieces c). split; [apply searched_pieces|apply pieces_concat]. Qed.
Print Assumptions C38_no_text_is_lost.

(** C38: what add does plays no part in that: for every behaviour of add, the strings passed to
    it are these, in this order *)
Theorem C38_every_add_sees_them : forall S (add : bytes -> S -> out (N * S)) contents st, exists l,
  searched contents = Val l /\ processFileWithRegex add contents st = plainLoop add l 0 st.
Proof. intros S add c st. exists (pieces c). split; [apply searched_pieces|apply processFile_pieces]. Qed.
Print Assumptions C38_every_add_sees_them.

(** C38: each string is the end of a line, or the end of a line and the start of the next *)
Theorem C38_within_two_lines : forall contents l s, searched contents = Val l -> In s l ->
  (exists line, In line (getlines 10 contents) /\ suffix_of s line)
  \/ (exists l1 l2 a b, neighbours l1 l2 (getlines 10 contents) /\ suffix_of a l1 /\ prefix_of b l2 /\ s = a ++ b).
Proof.
  intros c l s H Hin. rewrite searched_pieces in H. inversion H; subst l.
  pose proof (pieces_spans c) as F. rewrite Forall_forall in F. exact (F s Hin).
Qed.
Print Assumptions C38_within_two_lines.

(** C38: a bracket left open at the end of one line and closed by the next, before any other
    is opened, is searched in one string *)
Theorem C38_brackets_are_joined : forall contents l1 l2 l,
  neighbours l1 l2 (getlines 10 contents) -> searched contents = Val l ->
  hasUnclosedBrackets l1 = true ->
  (exists x y, l2 = x ++ CloseWideBracket ++ y /\ pos_lt (Some (List.length x)) (sfind OpenWideBracket l2) = true) ->
  exists a u v, suffix_of a l1 /\ hasUnclosedBrackets a = true
    /\ l2 = u ++ CloseWideBracket ++ v /\ In (a ++ u ++ CloseWideBracket) l.
Proof.
  intros c l1 l2 l Hn Hl Hu [x [y [El2 Hlt]]]. rewrite searched_pieces in Hl. inversion Hl; subst l.
  assert (Hc : close_first l2).
  { unfold close_first. destruct (sfind_first CloseWideBracket x y) as [i [Ei Hi]]. rewrite <- El2 in Ei. rewrite Ei.
    destruct (sfind OpenWideBracket l2) as [j|]; [|reflexivity]. cbn [pos_lt] in *.
    apply Nat.ltb_lt in Hlt. apply Nat.ltb_lt. lia. }
  destruct (pieces_neighbours c l1 l2 Hn Hu Hc) as [rest [pos [A [B [C D]]]]].
  destruct (sfind_split _ _ _ C) as [u [v [E Hlen]]]. exists rest, u, v.
  split; [exact A|]. split; [exact B|]. split; [exact E|].
  replace (firstn (cut pos) l2) with (u ++ CloseWideBracket) in D; [exact D|].
  rewrite E, app_assoc, firstn_app. unfold cut. rewrite app_length, Hlen, Nat.sub_diag. cbn [firstn].
  rewrite app_nil_r, firstn_all2; [reflexivity|]. rewrite app_length. lia.
Qed.
Print Assumptions C38_brackets_are_joined.

(** 漢（か at the end of one line and ん）字 on the next; the rest of the text in order *)
Definition bracketed : bytes := b_ "一
漢（か
ん）字

二".
Example C38_case :
  searched bracketed = Val [b_ "一"; b_ "漢（かん）"; b_ "字"; b_ "二"]
  /\ hasUnclosedBrackets (b_ "漢（か") = true
  /\ neighbours (b_ "漢（か") (b_ "ん）字") (getlines 10 bracketed)
  /\ pos_lt (Some (List.length (b_ "ん"))) (sfind OpenWideBracket (b_ "ん）字")) = true.
Proof.
  split; [vm_compute; reflexivity|]. split; [vm_compute; reflexivity|].
  split; [exists [b_ "一"], [[]; b_ "二"]; vm_compute; reflexivity|vm_compute; reflexivity].
Qed.
