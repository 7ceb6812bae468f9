(** Property theorems about Romaji spellings and the kinds of Kana. *)
From Verif Require Import BaseFacts KanaModel ConverterModel JoinSpec KanaRomajiSpec KanaProofs KanaRomajiProofs.

(** C76: with the Hepburn or the Kunrei flag a Kana is spelled as that system spells it *)
Theorem C76_spelling : forall k flags, In k allKana ->
  match spellings (hira (kd k)) with
  | None => getRomaji (kd k) flags = romaji (kd k)
  | Some (usual, hepburn, kunrei) =>
      romaji (kd k) = usual
      /\ (hasFlag flags FlagHepburn = false -> hasFlag flags FlagKunrei = false -> getRomaji (kd k) flags = usual)
      /\ (hasFlag flags FlagHepburn = true -> hasFlag flags FlagKunrei = false -> getRomaji (kd k) flags = hepburn)
      /\ (hasFlag flags FlagHepburn = false -> hasFlag flags FlagKunrei = true -> getRomaji (kd k) flags = kunrei)
      /\ (hasFlag flags FlagHepburn = true -> hasFlag flags FlagKunrei = true ->
          getRomaji (kd k) flags = if beq usual hepburn then kunrei else hepburn)
  end.
Proof.
  intros k flags Hk. rewrite (romaji_expected k flags Hk).
  pose proof (romaji_expected k FlagNone Hk) as R. change (romaji (kd k)) with (romaji (kd k)) in R.
  unfold expected in *. change (hasFlag FlagNone FlagHepburn) with false in R.
  change (hasFlag FlagNone FlagKunrei) with false in R.
  change (getRomaji (kd k) FlagNone) with (romaji (kd k)) in R.
  destruct (spellings (hira (kd k))) as [[[d x] y]|]; [|reflexivity]. cbv iota beta in R.
  split; [exact R|]. repeat split; intros -> ->; reflexivity.
Qed.
Print Assumptions C76_spelling.
Example C76_spelling_case :
  (exists k, mapFind HiraganaMap (b_ "ぢゃ") = Some k /\ In k allKana /\ getRomaji (kd k) FlagNone = b_ "dya"
     /\ getRomaji (kd k) FlagHepburn = b_ "ja" /\ getRomaji (kd k) FlagKunrei = b_ "zya")
  /\ spellings (b_ "か") = None.
Proof.
  split; [|vm_compute; reflexivity].
  destruct (mapFind HiraganaMap (b_ "ぢゃ")) as [k|] eqn:E; [|vm_compute in E; discriminate].
  exists k. split; [reflexivity|]. split; [exact (proj1 (proj1 (lookup_exact Hiragana _ _) E))|].
  vm_compute in E. injection E as <-. vm_compute. auto.
Qed.

(** C76: after a small tsu the first consonant is doubled, with "tch" before "ch" *)
Theorem C76_doubled : forall k flags, In k allKana ->
  exists c r, getRomaji (kd k) flags = c :: r /\ 0x61 <= c <= 0x7A
    /\ getSokuonRomaji (kd k) flags = (if c =? 0x63 then 0x74 else c) :: c :: r.
Proof.
  intros k flags Hk. destruct (romaji_letter k flags Hk) as [c [r [E L]]]. exists c, r.
  split; [exact E|]. split; [exact L|]. rewrite (sokuon_doubled k flags Hk), E. reflexivity.
Qed.
Print Assumptions C76_doubled.
Example C76_doubled_case :
  exists k, mapFind HiraganaMap (b_ "ち") = Some k /\ getSokuonRomaji (kd k) FlagNone = b_ "tchi"
            /\ getSokuonRomaji (kd k) FlagKunrei = b_ "tti".
Proof. eexists. split; [vm_compute; reflexivity|]. vm_compute. auto. Qed.

(** C24: a Kana is accented exactly if its first character is a composition in Unicode *)
Theorem C24_accented_kinds : forall k, In k allKana ->
  (isDakuten k = true <-> exists a, accented 0x3099 a (hira (kd k)))
  /\ (isHanDakuten k = true <-> exists a, accented 0x309A a (hira (kd k))).
Proof. exact kinds. Qed.
Print Assumptions C24_accented_kinds.

(** C24: monographs, digraphs and small Kana by their characters *)
Theorem C24_sizes : forall k cs, In k allKana -> chars cs -> hira (kd k) = text cs ->
  (isMonograph (kd k) = true <-> len cs = 1) /\ (isDigraph (kd k) = true <-> len cs = 2)
  /\ (isSmall (kd k) = true <-> exists c, cs = [c] /\ In c small_letters).
Proof. exact sizes. Qed.
Print Assumptions C24_sizes.
Example C24_kinds_case :
  exists k, mapFind HiraganaMap (b_ "ゔぁ") = Some k /\ In k allKana /\ isDakuten k = true /\ isHanDakuten k = false
            /\ hira (kd k) = text [0x3094; 0x3041] /\ isDigraph (kd k) = true /\ isSmall (kd k) = false.
Proof.
  destruct (mapFind HiraganaMap (b_ "ゔぁ")) as [k|] eqn:E; [|vm_compute in E; discriminate].
  exists k. split; [reflexivity|]. split; [exact (proj1 (proj1 (lookup_exact Hiragana _ _) E))|].
  vm_compute in E. injection E as <-. vm_compute. auto 10.
Qed.

(** C76: an iteration mark repeats the Kana before it in Romaji: the plain mark without its
    accent, the accented mark with one where there is one *)
Theorem C76_iteration_mark : forall p flags, In p allKana ->
  (forall e, In e allKana -> accented 0x3099 (hira (kd p)) (hira (kd e)) ->
     markGet RepeatAccented Romaji flags (Some p) = getRomaji (kd e) flags
     /\ markGet RepeatPlain Romaji flags (Some e) = getRomaji (kd p) flags)
  /\ (forall e, In e allKana -> accented 0x309A (hira (kd p)) (hira (kd e)) ->
     markGet RepeatPlain Romaji flags (Some e) = getRomaji (kd p) flags)
  /\ ((forall e, In e allKana -> ~ accented 0x3099 (hira (kd p)) (hira (kd e))) ->
     markGet RepeatAccented Romaji flags (Some p) = getRomaji (kd p) flags)
  /\ ((forall e, In e allKana -> ~ accented 0x3099 (hira (kd e)) (hira (kd p))
                              /\ ~ accented 0x309A (hira (kd e)) (hira (kd p))) ->
     markGet RepeatPlain Romaji flags (Some p) = getRomaji (kd p) flags).
Proof.
  intros p flags Hp. split; [intros e He; exact (mark_accented p e flags Hp He)|].
  split; [intros e He; exact (mark_semi p e flags Hp He)|]. exact (mark_none p flags Hp).
Qed.
Print Assumptions C76_iteration_mark.
Example C76_iteration_case :
  exists p, mapFind HiraganaMap (b_ "は") = Some p /\ In p allKana
    /\ markGet RepeatAccented Romaji FlagNone (Some p) = b_ "ba"
    /\ markGet RepeatPlain Romaji FlagNone (Some p) = b_ "ha".
Proof.
  destruct (mapFind HiraganaMap (b_ "は")) as [k|] eqn:E; [|vm_compute in E; discriminate].
  exists k. split; [reflexivity|]. split; [exact (proj1 (proj1 (lookup_exact Hiragana _ _) E))|].
  vm_compute in E. injection E as <-. vm_compute. auto 10.
Qed.

(** C76: the flags are written out by name, in a fixed order *)
Theorem C76_flag_text : forall flags,
  flagString flags = if flags =? 0 then b_ "None"
    else separated (b_ "|") (map snd (filter (fun p => N.testbit flags (fst p))
           [(0, b_ "Hepburn"); (1, b_ "Kunrei"); (2, b_ "NoProlongMark"); (3, b_ "RemoveSpaces")])).
Proof. exact flag_text. Qed.
Print Assumptions C76_flag_text.
Example C76_flag_case : flagString 10 = b_ "Kunrei|RemoveSpaces" /\ flagString 0 = b_ "None" /\ flagString 16 = [].
Proof. vm_compute. auto. Qed.
