(** Properties of list files. *)
From Verif Require Import BaseFacts ListModel ListSpec ListProofs.
Open Scope N_scope.

(** C31: a file loads exactly when its words are distinct multi-byte characters that are not
    used up (alone on their lines if the type of the file says so), and then the list is the
    words in order, each at its 1-based position; the words become used up. *)
Theorem C31_positions : forall ft typed c taken ls, bytes_ok c -> file_words c ls ->
  let ws := flat_map snd ls in
  (good_file (oneb ft) taken ls /\ exists s l, load ft typed c taken = Val (Done s l)
     /\ listOf l = ws
     /\ (forall i w, nth_error ws i = Some w -> getIndex l w = N.of_nat i + 1)
     /\ (forall w, ~ In w ws -> getIndex l w = 0)
     /\ (forall w, list_exists l w = true <-> In w ws)
     /\ list_toString l = concat ws
     /\ (forall w, In w s <-> In w taken \/ In w ws))
  \/ (~ good_file (oneb ft) taken ls /\ exists s e, load ft typed c taken = Val (Failed s e)).
Proof.
  intros ft typed c taken ls Hc Hls ws.
  destruct (load_spec ft typed c taken ls Hc Hls) as [[Hg [s [l [E [El [Hi Hs]]]]]]|[Hg [s [e [E _]]]]].
  - left. split; [exact Hg|]. exists s, l. destruct (getIndex_spec l Hi) as [H1 [H2 H3]].
    unfold list_toString. rewrite El in *. auto 10.
  - right. split; [exact Hg|]. exists s, e. exact E.
Qed.
Print Assumptions C31_positions.

(** every text has exactly one division into lines and words, so the theorem above covers
    all files *)
Theorem C31_words_exist : forall c, exists ls, file_words c ls /\ forall ls', file_words c ls' -> ls' = ls.
Proof.
  intro c. eexists. split; [apply file_words_fun; reflexivity|].
  intros ls' H. apply file_words_fun in H. exact H.
Qed.
Print Assumptions C31_words_exist.

(** C31: the error reported: either a typed list has words used up by other lists and the
    error lists all of them in order, or the first word that cannot be accepted is reported
    with its line number and the reason. *)
Theorem C31_errors : forall ft typed c taken ls s e, bytes_ok c -> file_words c ls ->
  load ft typed c taken = Val (Failed s e) ->
  let ws := flat_map snd ls in
  (typed = true /\ Forall (tok_ok ft) (numbered 1 ls)
     /\ e = Duplicates (filter (fun w => existsb (beq w) taken) ws)
     /\ NoDup (filter (fun w => negb (existsb (beq w) taken)) ws)
     /\ (exists w, In w ws /\ In w taken))
  \/ exists before x rest, numbered 1 ls = before ++ x :: rest
       /\ Forall (tok_ok ft) before
       /\ NoDup (filter (fun w => negb (existsb (beq w) taken)) (map word_of before))
       /\ (typed = false -> forall w, In w (map word_of before) -> ~ In w taken)
       /\ refused ft typed taken before x e.
Proof.
  intros ft typed c taken ls s e Hc Hls E ws.
  destruct (load_spec ft typed c taken ls Hc Hls) as [[_ [s' [l [E' _]]]]|[_ [s' [e' [E' K]]]]]; rewrite E in E'.
  - discriminate.
  - inversion E'; subst s' e'. destruct K as [K|[b [x [r K]]]].
    + left. destruct K as [K1 [K2 [K3 [K4 [K5 _]]]]]. auto.
    + right. exists b, x, r. destruct K as [K1 [K2 [K3 [K4 [K5 _]]]]]. auto.
Qed.
Print Assumptions C31_errors.

(** C31: in every history without a call of clearUniqueCheckData, whatever failed in it, two
    lists of the same kind that loaded successfully have no name in common. *)
Theorem C31_lists_disjoint : forall ops st st' rs, Forall op_ok ops -> Forall no_clear ops ->
  list_run ops st = Val (st', rs) -> ForallOrdPairs apart rs.
Proof. intros ops st st' rs H1 H2 E. exact (proj1 (list_run_apart ops st st' rs H1 H2 E)). Qed.
Print Assumptions C31_lists_disjoint.

Theorem C31_histories_run : forall ops st, Forall op_ok ops -> exists st' rs, list_run ops st = Val (st', rs).
Proof. exact list_run_total. Qed.
Print Assumptions C31_histories_run.

Example C31_example :
  load OnePerLine false (b_ "雪
犬
") [] = Val (Done [b_ "犬"; b_ "雪"] (MkList [b_ "雪"; b_ "犬"] [(b_ "犬", 2); (b_ "雪", 1)]))
  /\ (exists st rs, list_run [Construct LevelList OnePerLine (b_ "雪 犬");
                              Construct LevelList OnePerLine (b_ "猫 雪 犬");
                              Construct KyuList OnePerLine (b_ "猫 雪")] initStatic = Val (st, rs)
      /\ map (fun r => match snd r with inl l => inl (listOf l) | inr e => inr e end) rs =
         [inl [b_ "雪"; b_ "犬"]; inr (Duplicates [b_ "雪"; b_ "犬"]); inl [b_ "猫"; b_ "雪"]])
  /\ load OnePerLine false (b_ "雪 ") [] = Val (Failed [] (MultipleTokens 1)).
Proof. vm_compute. split; [reflexivity|]. split; [eexists; eexists; split; reflexivity|reflexivity]. Qed.

(** C32 is false: a load that fails leaves names behind, and a corrected file is then
    refused although it loads in a fresh program. *)
Theorem C32_failed_load_refuted : exists c1 c2 st1 e,
  construct LevelList MultiplePerLine c1 initStatic = Val (st1, inr e)
  /\ (exists st l, construct LevelList MultiplePerLine c2 initStatic = Val (st, inl l))
  /\ (exists st e2, construct LevelList MultiplePerLine c2 st1 = Val (st, inr e2)).
Proof.
  exists (b_ "雪 犬 x"), (b_ "雪 犬"). eexists. eexists. split; [vm_compute; reflexivity|].
  split; eexists; eexists; vm_compute; reflexivity.
Qed.
Print Assumptions C32_failed_load_refuted.

(** C32, what holds: after a failed load the names in front of the reported word ([left])
    count as used up, and nothing else changes for later loads. *)
Theorem C32_after_failure_partial : forall k ft c st st1 e ls ft2 c2 ls2, bytes_ok c -> file_words c ls ->
  construct k ft c st = Val (st1, inr e) -> bytes_ok c2 -> file_words c2 ls2 ->
  exists left rest, flat_map snd ls = left ++ rest
  /\ ((exists st2 l, construct k ft2 c2 st1 = Val (st2, inl l))
      <-> good_file (oneb (kind_type k ft2)) (left ++ uniqueOf st k) ls2)
  /\ match e with Duplicates _ => rest = [] | _ => rest <> [] \/ e = TooManyEntries end.
Proof. exact after_failure. Qed.
Print Assumptions C32_after_failure_partial.

(** C32, what holds: after any history, clearUniqueCheckData makes every file loadable that
    a fresh program can load. *)
Theorem C32_clear_recovers : forall ops k ft c ls st rs, Forall op_ok ops -> bytes_ok c -> file_words c ls ->
  list_run ops initStatic = Val (st, rs) ->
  ((exists st' l, construct k ft c (clearUnique st) = Val (st', inl l))
   <-> good_file (oneb (kind_type k ft)) [] ls).
Proof. exact after_clear. Qed.
Print Assumptions C32_clear_recovers.
Example C32_example :
  exists st1 e st2 l, construct LevelList MultiplePerLine (b_ "雪 犬 x") initStatic = Val (st1, inr e)
  /\ construct LevelList MultiplePerLine (b_ "雪 犬") (clearUnique st1) = Val (st2, inl l)
  /\ listOf l = [b_ "雪"; b_ "犬"].
Proof. do 4 eexists. split; [vm_compute; reflexivity|]. split; vm_compute; reflexivity. Qed.
