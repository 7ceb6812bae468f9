(** Property theorems about the Kana table. *)
From Verif Require Import BaseFacts KanaModel KanaSpec KanaProofs.

(** C24: a lookup succeeds exactly for the spellings of the entries, and finds the entry *)
Theorem C24_lookups_are_exact : forall t s k,
  mapFind (getMap t) s = Some k <-> In k allKana /\ In s (kanaKeys t k).
Proof. exact lookup_exact. Qed.
Print Assumptions C24_lookups_are_exact.

(** C24: no two entries share a Hiragana, a Katakana or a Romaji spelling *)
Theorem C24_no_shared_spelling : forall t s k1 k2, In k1 allKana -> In k2 allKana ->
  In s (kanaKeys t k1) -> In s (kanaKeys t k2) -> k1 = k2.
Proof. exact no_shared. Qed.
Print Assumptions C24_no_shared_spelling.
Example C24_lookup_case :
  exists k, mapFind (getMap Romaji) (b_ "sya") = Some k /\ romaji (kd k) = b_ "sha"
            /\ hira (kd k) = b_ "しゃ" /\ In (b_ "sya") (kanaKeys Romaji k).
Proof. eexists. split; [vm_compute; reflexivity|]. vm_compute. intuition. Qed.

(** C24: an entry is one or two Hiragana, and the same Katakana *)
Theorem C24_scripts_are_aligned : forall k, In k allKana ->
  exists cs, Forall (within 0x3041 0x3096) cs /\ (len cs = 1 \/ len cs = 2)
    /\ hira (kd k) = text cs /\ kata (kd k) = text (katakana_of cs).
Proof. intros k H. eexists. exact (aligned_spec _ (aligned_all k H)). Qed.
Print Assumptions C24_scripts_are_aligned.

(** C24: the accent links are exactly Unicode's compositions between entries, in both
    scripts *)
Theorem C24_accent_links : forall k e, In k allKana -> In e allKana ->
  (kDakuten k = Some (kd e) <-> accented 0x3099 (hira (kd k)) (hira (kd e)))
  /\ (kHanDakuten k = Some (kd e) <-> accented 0x309A (hira (kd k)) (hira (kd e)))
  /\ (kPlain e = Some (kd k) <-> accented 0x3099 (hira (kd k)) (hira (kd e))
                                \/ accented 0x309A (hira (kd k)) (hira (kd e)))
  /\ (forall m, m = 0x3099 \/ m = 0x309A ->
      (accented m (hira (kd k)) (hira (kd e)) <-> accented m (kata (kd k)) (kata (kd e)))).
Proof.
  intros k e Hk He. split; [exact (dakuten_link k e Hk He)|]. split; [exact (hanDakuten_link k e Hk He)|].
  split; [exact (plain_link k e Hk He)|]. intros m Hm. exact (same_in_katakana m k e Hm Hk He).
Qed.
Print Assumptions C24_accent_links.
Example C24_links_case :
  exists k e, In k allKana /\ In e allKana /\ hira (kd k) = b_ "きゃ" /\ kDakuten k = Some (kd e)
              /\ hira (kd e) = b_ "ぎゃ".
Proof.
  destruct (mapFind HiraganaMap (b_ "きゃ")) as [k|] eqn:Ek; [|vm_compute in Ek; discriminate].
  destruct (mapFind HiraganaMap (b_ "ぎゃ")) as [e|] eqn:Ee; [|vm_compute in Ee; discriminate].
  exists k, e. split; [exact (proj1 (proj1 (lookup_exact Hiragana _ _) Ek))|].
  split; [exact (proj1 (proj1 (lookup_exact Hiragana _ _) Ee))|].
  vm_compute in Ek. vm_compute in Ee. injection Ek as <-. injection Ee as <-. vm_compute. auto.
Qed.

(** C24: every linked Kana is an entry of the table *)
Theorem C24_links_stay_in_the_table : forall k d, In k allKana ->
  kDakuten k = Some d \/ kHanDakuten k = Some d \/ kPlain k = Some d ->
  exists e, In e allKana /\ kd e = d.
Proof. exact link_member. Qed.
Print Assumptions C24_links_stay_in_the_table.

(** C24: looking up the accented form of one character is Unicode's composition, except for
    iteration marks and the Katakana from wa to wo, which have none here *)
Theorem C24_accented_lookup : forall c, scalar c ->
  findDakuten (enc c) = option_map enc (folded c 0x3099)
  /\ findHanDakuten (enc c) = option_map enc (folded c 0x309A).
Proof. exact find_both. Qed.
Print Assumptions C24_accented_lookup.
Example C24_accented_case :
  findDakuten (b_ "う") = Some (b_ "ゔ") /\ findHanDakuten (b_ "ホ") = Some (b_ "ポ")
  /\ findDakuten (b_ "ら") = None /\ scalar 0x3046.
Proof. repeat split; vm_compute; auto. Qed.
