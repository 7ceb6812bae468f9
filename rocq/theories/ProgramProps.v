(** Properties of the program kanaConvert (C92-C95). *)
From Verif Require Import BaseFacts ArgsProofs ProgramSpec ProgramProofs ProgramRun ProgramChartSpec ProgramChart.
From Coq Require Import Sorting.Permutation Sorting.Sorted.
Open Scope N_scope.

(** ** C92: the command line *)
(** The arguments ask for exactly one thing, or they are refused and nothing is written. *)
Theorem C92_one_task : forall ltr fuel prog l terminal i, len (prog :: l) < 65535 -> (S (length l) < fuel)%nat ->
  (exists t, command terminal l t /\ forall t', command terminal l t' -> t' = t)
  \/ ((forall t, ~ command terminal l t) /\ program ltr fuel (argsOf (prog :: l)) terminal i = ([], Throw DomainError)).
Proof. exact tasks. Qed.
Print Assumptions C92_one_task.
(** Asked for help, it writes the usage message and does nothing else. *)
Theorem C92_usage : forall ltr fuel prog l terminal i, len (prog :: l) < 65535 -> (S (length l) < fuel)%nat ->
  command terminal l TUsage -> program ltr fuel (argsOf (prog :: l)) terminal i = (usage true, Val tt).
Proof. intros. rewrite (program_performs _ _ _ _ _ _ _ H H0 H1). reflexivity. Qed.
Print Assumptions C92_usage.
(** Given texts, it writes the conversion of each of them, in order, with the options that were given. *)
Theorem C92_texts : forall ltr fuel prog l terminal i v ss, len (prog :: l) < 65535 -> (S (length l) < fuel)%nat ->
  command terminal l (TStrings v ss) -> Forall bytes_ok ss ->
  exists outs, Forall2 (converted ltr v) ss outs
    /\ program ltr fuel (argsOf (prog :: l)) terminal i = (separated (separator v) outs ++ [10], Val tt).
Proof. exact strings_written. Qed.
Print Assumptions C92_texts.
(** With 65535 arguments "--" sets the index back to the program name: it never ends. *)
Theorem C92_bound_is_sharp : exists prog l terminal, len (prog :: l) = 65535
  /\ (exists v ss, command terminal l (TStrings v ss))
  /\ forall ltr fuel i, program ltr fuel (argsOf (prog :: l)) terminal i = ([], Fuel).
Proof.
  exists (b_ "kanaConvert"), (b_ "--" :: repeat (b_ "ka") (N.to_nat 65533)), false.
  assert (L : len (b_ "kanaConvert" :: b_ "--" :: repeat (b_ "ka") (N.to_nat 65533)) = 65535)
    by (rewrite !len_cons; unfold len; rewrite repeat_length; lia).
  split; [exact L|]. split.
  - exists noConv, (repeat (b_ "ka") (N.to_nat 65533)). apply cmd_strings with [].
    + split; [cbn; lia|]. right. exists [], (repeat (b_ "ka") (N.to_nat 65533)). split; [reflexivity|]. split; [constructor|reflexivity].
    + intro K. apply (f_equal (@length _)) in K. rewrite repeat_length in K. cbn [length] in K. lia.
    + left. reflexivity.
    + split; [reflexivity|]. split; [reflexivity|]. intro n. split; [rewrite N.bits_0; discriminate|intros []].
  - intros ltr fuel i. apply never_ends; [exact L|discriminate].
Qed.
Print Assumptions C92_bound_is_sharp.
Example C92_case : forall ltr,
  command true [b_ "-k"; b_ "-f"; b_ "r"; b_ "ka"; b_ "--"; b_ "-?"] (TStrings (MkConv None Katakana 8) [b_ "ka"; b_ "-?"])
  /\ program ltr 10 (argsOf (map b_ ["kanaConvert"; "-k"; "-f"; "r"; "ka"; "--"; "-?"]%string)) true (MkIn [] false) = (b_ "カ？" ++ [10], Val tt)
  /\ command true [b_ "-i"; b_ "ka"; b_ "-?"; b_ "-x"] TUsage
  /\ (forall t, ~ command true [b_ "-i"; b_ "-n"] t)
  /\ program ltr 10 (argsOf (map b_ ["kanaConvert"; "-i"; "-n"]%string)) true (MkIn [] false) = ([], Throw DomainError).
Proof.
  assert (S1 : spells [ITarget Katakana; IFlag 3; IText (b_ "ka")] [b_ "-k"; b_ "-f"; b_ "r"; b_ "ka"]).
  { apply (sp_cons _ [b_ "-k"]); [apply (said_target 107); constructor|]. apply (sp_cons _ [b_ "-f"; b_ "r"]); [apply (said_flag 114); constructor|].
    apply (sp_cons _ [b_ "ka"]); [apply said_text; discriminate|constructor]. }
  intro ltr. split; [|split; [destruct ltr; vm_compute; reflexivity|split; [|split; [|vm_compute; reflexivity]]]].
  - apply cmd_strings with [ITarget Katakana; IFlag 3; IText (b_ "ka")].
    + split; [cbn; lia|]. right. exists [b_ "-k"; b_ "-f"; b_ "r"; b_ "ka"], [b_ "-?"]. split; [reflexivity|]. split; [exact S1|reflexivity].
    + discriminate.
    + left. reflexivity.
    + split; [reflexivity|]. split; [reflexivity|]. intro n. cbn [cFlags]. split.
      * intro H. assert (n = 3) as -> by (destruct (N.eq_dec n 3); [assumption|]; change 8 with (2 ^ 3) in H; rewrite N.pow2_bits_false in H by congruence; discriminate).
        right. left. reflexivity.
      * intros [H|[H|[H|[]]]]; try discriminate. injection H as <-. reflexivity.
  - apply cmd_usage with (is := [IMode MInteractive; IText (b_ "ka")]) (l := [b_ "-i"; b_ "ka"]) (r := [b_ "-x"]); [cbn; lia|].
    apply (sp_cons _ [b_ "-i"]); [constructor|]. apply (sp_cons _ [b_ "ka"]); [apply said_text; discriminate|constructor].
  - intros t C. apply command_plan in C. vm_compute in C. discriminate.
Qed.

(** ** C93: lines of input *)
(** Every input is a list of lines for which the documented session ends, or waits for a flag. *)
Theorem C93_lines : forall ltr interactive newline v text, bytes_ok text -> exists ls, lines text ls /\ (forall ls', lines text ls' -> ls = ls')
  /\ ((exists w, session ltr interactive newline v ls w /\ forall w', session ltr interactive newline v ls w' -> w' = w)
      \/ waits ltr interactive newline v ls).
Proof.
  intros ltr interactive newline v text B. destruct (session_exists ltr interactive newline v text B) as (ls & L & H). exists ls.
  split; [exact L|]. split; [apply lines_unique; exact L|]. destruct H as [[w S]|H]; [left|right; exact H]. exists w. split; [exact S|].
  intros w' S'. eapply session_unique; [exact S'|exact S|]. clear - L. induction L as [|l A B|l s ls A L IH]; [constructor|constructor; [exact B|constructor]|constructor; assumption].
Qed.
Print Assumptions C93_lines.
(** When it ends, the program writes the options (if interactive) and what the session writes. *)
Theorem C93_session : forall ltr fuel prog l terminal text ls interactive newline v w, len (prog :: l) < 65535 -> (S (length l) < fuel)%nat ->
  command terminal l (TInput interactive newline v) -> lines text ls -> (length ls < fuel)%nat -> session ltr interactive newline v ls w ->
  program ltr fuel (argsOf (prog :: l)) terminal (MkIn text false) = ((if interactive : bool then options_shown v else []) ++ w, Val tt).
Proof. exact session_written. Qed.
Print Assumptions C93_session.
(** When the input ends while a flag is asked for, the program never ends. *)
Theorem C93_waits : forall ltr fuel prog l terminal text ls interactive newline v, len (prog :: l) < 65535 -> (S (length l) < fuel)%nat ->
  command terminal l (TInput interactive newline v) -> lines text ls -> waits ltr interactive newline v ls ->
  snd (program ltr fuel (argsOf (prog :: l)) terminal (MkIn text false)) = Fuel.
Proof. exact session_hangs. Qed.
Print Assumptions C93_waits.
(** Piped input without a line "q": the conversion of each line, on a line of its own unless "-n" is given. *)
Theorem C93_piped_partial : forall ltr fuel prog l text ls newline v, len (prog :: l) < 65535 -> (S (length l) < fuel)%nat ->
  command false l (TInput false newline v) -> lines text ls -> bytes_ok text -> (length ls < fuel)%nat -> ~ In (b_ "q") ls ->
  exists outs, Forall2 (converted ltr v) ls outs
    /\ program ltr fuel (argsOf (prog :: l)) false (MkIn text false)
       = (flat_map (fun o => o ++ if newline : bool then [10] else []) outs, Val tt).
Proof.
  intros ltr fuel prog l text ls newline v Hl Hf C L B Hs Q. pose proof (lines_ok _ _ L B) as F.
  assert (X : exists outs, Forall2 (converted ltr v) ls outs).
  { clear - F. induction F as [|s ss H F IH]; [exists []; constructor|]. destruct IH as [outs IH]. destruct (converted_total ltr v s H) as [o Ho].
    exists (o :: outs). constructor; assumption. }
  destruct X as [outs X]. exists outs. split; [exact X|].
  rewrite (session_written ltr fuel prog l false text ls false newline v _ Hl Hf C L Hs (piped_session _ _ _ _ _ X Q)). reflexivity.
Qed.
Print Assumptions C93_piped_partial.
(** A line "q" ends piped input too: what follows is not converted. *)
Theorem C93_piped_refuted : exists prog l text ls v, command false l (TInput false true v) /\ lines text ls /\ bytes_ok text /\
  forall ltr, exists outs, Forall2 (converted ltr v) ls outs /\
    program ltr 10 (argsOf (prog :: l)) false (MkIn text false) = (b_ "か" ++ [10], Val tt)
    /\ flat_map (fun o => o ++ [10]) outs <> b_ "か" ++ [10].
Proof.
  exists (b_ "kanaConvert"), [], (b_ "ka" ++ [10] ++ b_ "q" ++ [10] ++ b_ "ki" ++ [10]), [b_ "ka"; b_ "q"; b_ "ki"], noConv.
  split; [|split; [|split]].
  - apply cmd_input with []; [reflexivity| |reflexivity|].
    + split; [cbn; lia|]. left. split; [constructor|reflexivity].
    + split; [reflexivity|]. split; [reflexivity|]. intro n. split; [rewrite N.bits_0; discriminate|intros []].
  - apply (ln_cons (b_ "ka")); [intros [K|[K|[]]]; discriminate|]. apply (ln_cons (b_ "q")); [intros [K|[]]; discriminate|].
    apply (ln_cons (b_ "ki")); [intros [K|[K|[]]]; discriminate|constructor].
  - repeat (apply Forall_cons; [reflexivity|]). apply Forall_nil.
  - intro ltr. exists [b_ "か"; b_ "q"; b_ "き"]. split.
    + repeat (apply Forall2_cons; [destruct ltr; vm_compute; reflexivity|]). apply Forall2_nil.
    + split; [destruct ltr; vm_compute; reflexivity|discriminate].
Qed.
Print Assumptions C93_piped_refuted.
Example C93_case : forall ltr,
  let text := b_ "f" ++ [10] ++ b_ "x" ++ [10] ++ b_ "k" ++ [10] ++ b_ "-r" ++ [10] ++ b_ "し" ++ [10] ++ b_ "q" ++ [10] in
  let v0 := noConv in let v1 := MkConv None Hiragana 2 in let v2 := MkConv None Romaji 2 in
  command true [b_ "-i"] (TInput true true v0)
  /\ lines text [b_ "f"; b_ "x"; b_ "k"; b_ "-r"; b_ "し"; b_ "q"]
  /\ session ltr true true v0 [b_ "f"; b_ "x"; b_ "k"; b_ "-r"; b_ "し"; b_ "q"]
       ((flag_prompt ++ flag_prompt ++ options_shown v1) ++ options_shown v2 ++ (b_ "si" ++ [10]) ++ [])
  /\ waits ltr true true v0 [b_ "f"; b_ "x"].
Proof.
  intro ltr. cbv zeta.
  assert (NA : Forall (fun s => ~ answers_flag s) [b_ "x"]).
  { constructor; [|constructor]. intros (c & n & E & K). injection E as <-. inversion K. }
  split; [|split; [|split]].
  - apply cmd_interactive with [IMode MInteractive]; [|reflexivity|].
    + split; [cbn; lia|]. left. split; [apply (sp_cons _ [b_ "-i"]); constructor|reflexivity].
    + split; [reflexivity|]. split; [reflexivity|]. intro n. split; [rewrite N.bits_0; discriminate|intros [K|[]]; discriminate].
  - apply (ln_cons (b_ "f")); [intros [K|[]]; discriminate|]. apply (ln_cons (b_ "x")); [intros [K|[]]; discriminate|].
    apply (ln_cons (b_ "k")); [intros [K|[]]; discriminate|]. apply (ln_cons (b_ "-r")); [intros [K|[K|[]]]; discriminate|].
    apply (ln_cons (b_ "し")); [intros [K|[K|[K|[]]]]; discriminate|]. apply (ln_cons (b_ "q")); [intros [K|[]]; discriminate|constructor].
  - exists (MkConv None Romaji 2), [b_ "q"]. split; [|right; exists []; reflexivity]. eapply sts_one.
    { apply (st_flag ltr true true noConv [b_ "x"] 107 1 [b_ "-r"; b_ "し"; b_ "q"]); [reflexivity|exact NA|constructor|reflexivity]. }
    eapply sts_one. { eapply (st_target ltr true true _ 114); [reflexivity|constructor|reflexivity]. }
    eapply sts_one; [|constructor]. apply st_text; [discriminate|intros _; repeat split; discriminate|destruct ltr; vm_compute; reflexivity].
  - split; [reflexivity|]. exists [], noConv, [b_ "x"]. split; [constructor|exact NA].
Qed.

(** ** C94: between and after texts *)
(** Between Kana there is a wide space unless spaces are removed.  Between Romaji there is nothing,
    and "-n" changes nothing. *)
Theorem C94_exact_partial : forall ltr fuel prog l terminal i is ss v outs, len (prog :: l) < 65535 -> (S (length l) < fuel)%nat ->
  asks l is ss -> ss <> [] -> modes is = [] \/ modes is = [MNoNewline] -> conv_of is v -> Forall2 (converted ltr v) ss outs ->
  program ltr fuel (argsOf (prog :: l)) terminal i
  = (separated (match cTarget v with Romaji => [] | _ => if N.testbit (cFlags v) 3 then [] else b_ "　" end) outs ++ [10], Val tt).
Proof.
  intros ltr fuel prog l terminal i is ss v outs Hl Hf A Hs M C X.
  rewrite (program_performs _ _ _ _ _ _ _ Hl Hf (cmd_strings terminal is l ss v A Hs M C)). apply (say_strings ltr v ss outs X).
Qed.
Print Assumptions C94_exact_partial.
(** "kanaConvert [-n] string ..." with "-n: suppress newline on output": it does not. *)
Theorem C94_newline_refuted : ~ forall ltr fuel prog l terminal i is ss v outs, len (prog :: l) < 65535 -> (S (length l) < fuel)%nat ->
  asks l is ss -> ss <> [] -> modes is = [MNoNewline] -> conv_of is v -> Forall2 (converted ltr v) ss outs ->
  last (fst (program ltr fuel (argsOf (prog :: l)) terminal i)) 0 <> 10.
Proof.
  intro H. specialize (H true 10%nat (b_ "kanaConvert") [b_ "-n"; b_ "ka"] true (MkIn [] false) [IMode MNoNewline; IText (b_ "ka")] [b_ "ka"] noConv [b_ "か"]).
  apply H; try reflexivity; try discriminate; try (cbn; lia).
  - split; [cbn; lia|]. left. split; [|reflexivity]. apply (sp_cons _ [b_ "-n"]); [constructor|]. apply (sp_cons _ [b_ "ka"]); [apply said_text; discriminate|constructor].
  - split; [reflexivity|]. split; [reflexivity|]. intro n. split; [rewrite N.bits_0; discriminate|intros [K|[K|[]]]; discriminate].
  - repeat (apply Forall2_cons; [vm_compute; reflexivity|]). apply Forall2_nil.
Qed.
Print Assumptions C94_newline_refuted.
(** The space that is meant to be written between texts in Romaji is never written. *)
Theorem C94_separator_refuted : ~ forall ltr fuel prog l terminal i is ss v outs, len (prog :: l) < 65535 -> (S (length l) < fuel)%nat ->
  asks l is ss -> ss <> [] -> modes is = [] -> conv_of is v -> Forall2 (converted ltr v) ss outs ->
  program ltr fuel (argsOf (prog :: l)) terminal i = (separated (documented_separator v) outs ++ [10], Val tt).
Proof.
  intro H. specialize (H true 10%nat (b_ "kanaConvert") [b_ "-r"; b_ "か"; b_ "き"] true (MkIn [] false) [ITarget Romaji; IText (b_ "か"); IText (b_ "き")]
    [b_ "か"; b_ "き"] (MkConv None Romaji 0) [b_ "ka"; b_ "ki"]).
  assert (L : len [b_ "kanaConvert"; b_ "-r"; b_ "か"; b_ "き"] < 65535) by (vm_compute; reflexivity).
  assert (A : asks [b_ "-r"; b_ "か"; b_ "き"] [ITarget Romaji; IText (b_ "か"); IText (b_ "き")] [b_ "か"; b_ "き"]).
  { split; [cbn; lia|]. left. split; [|reflexivity]. apply (sp_cons _ [b_ "-r"]); [apply (said_target 114); constructor|].
    apply (sp_cons _ [b_ "か"]); [apply said_text; discriminate|]. apply (sp_cons _ [b_ "き"]); [apply said_text; discriminate|constructor]. }
  assert (V : conv_of [ITarget Romaji; IText (b_ "か"); IText (b_ "き")] (MkConv None Romaji 0)).
  { split; [reflexivity|]. split; [reflexivity|]. intro n. split; [rewrite N.bits_0; discriminate|intros [K|[K|[K|[]]]]; discriminate]. }
  assert (F : Forall2 (converted true (MkConv None Romaji 0)) [b_ "か"; b_ "き"] [b_ "ka"; b_ "ki"]).
  { repeat (apply Forall2_cons; [vm_compute; reflexivity|]). apply Forall2_nil. }
  specialize (H L ltac:(cbn; lia) A ltac:(discriminate) eq_refl V F). vm_compute in H. discriminate.
Qed.
Print Assumptions C94_separator_refuted.

(** ** C95: the chart *)
(** What the notes above the chart say is true of its rows, whatever order arguments are evaluated in. *)
Theorem C95_chart : exists rows,
  (forall markdown fuel prog l terminal i ltr, len (prog :: l) < 65535 -> (S (length l) < fuel)%nat -> command terminal l (TChart markdown) ->
     exists shown, (if markdown : bool then shown = printMarkdown (table_of_adds chart_columns true (chart_rows rows))
                    else print (table_of_adds chart_columns true (chart_rows rows)) = Val shown)
       /\ program ltr fuel (argsOf (prog :: l)) terminal i = (chartHeader markdown ++ shown ++ totals markdown rows, Val tt))
  /\ (forall ltr, Forall (row_ok ltr) rows)
  /\ StronglySorted before (map rHira rows)
  /\ NoDup (map rHira rows) /\ NoDup (map rKata rows) /\ NoDup (flat_map (fun r => rRoma r :: rVariants r) rows)
  /\ Permutation (map rHira rows) (map (fun k => hira (kd k)) allKana)
  /\ (forall c, 0x3041 <= c <= 0x3096 -> exists r, In r rows /\ one_character (rHira r) c).
Proof.
  exists allRows. split.
  { intros markdown fuel prog l terminal i ltr Hl Hf C. destruct (chart_printed markdown) as (shown & E1 & E2). exists shown. split; [exact E1|].
    rewrite (program_performs _ _ _ _ _ _ _ Hl Hf C). exact E2. }
  split; [exact rows_ok|]. split; [exact rows_sorted|]. split; [exact hira_distinct|]. split; [exact kata_distinct|].
  split; [exact roma_distinct|]. split; [exact rows_complete|exact symbols_complete].
Qed.
Print Assumptions C95_chart.
Example C95_case : command true [b_ "-p"] (TChart false)
  /\ cells (MkRow (b_ "D") (b_ "di") (b_ "ぢ") (b_ "ヂ") (b_ "3062") (b_ "30C2") (b_ "(ji)") (b_ "(zi)") []) =
     [b_ "D"; b_ "di"; b_ "ぢ"; b_ "ヂ"; b_ "3062"; b_ "30C2"; b_ "(ji)"; b_ "(zi)"; []]
  /\ In (MkRow (b_ "D") (b_ "di") (b_ "ぢ") (b_ "ヂ") (b_ "3062") (b_ "30C2") (b_ "(ji)") (b_ "(zi)") []) allRows.
Proof.
  split; [|split; [reflexivity|]].
  - apply cmd_chart with [IMode MChart]; [|reflexivity]. split; [cbn; lia|]. left. split; [apply (sp_cons _ [b_ "-p"]); constructor|reflexivity].
  - first [apply (nth_error_In _ 79); vm_compute; reflexivity|apply (nth_error_In _ 78); vm_compute; reflexivity|apply (nth_error_In _ 77); vm_compute; reflexivity|apply (nth_error_In _ 76); vm_compute; reflexivity].
Qed.
