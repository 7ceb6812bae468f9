(** Properties of display sizes (C25). *)
From Verif Require Import Utf8Proofs DisplaySpec DisplayProofs.
Open Scope N_scope.

(** every byte string has a size, and it is never more than the number of bytes *)
Theorem C25_size_at_most_bytes : forall s, bytes_ok s -> exists d, displaySize s = Val d /\ d <= len s.
Proof. intros s H. destruct (size_total s H) as [d [E [L _]]]. exists d. split; assumption. Qed.
Print Assumptions C25_size_at_most_bytes.
(** the size of a text is the sum of the columns of its characters *)
Theorem C25_size_of_text : forall cs n, chars cs -> (displaySize (text cs) = Val n <-> total cs n).
Proof. exact size_text. Qed.
Print Assumptions C25_size_of_text.
(** sizes add up when the second string starts at the start of a character *)
Theorem C25_size_additive : forall a b x y, bytes_ok a -> no_nul a -> bytes_ok b -> boundary b ->
  displaySize a = Val x -> displaySize b = Val y -> displaySize (a ++ b) = Val (x + y).
Proof. exact size_app. Qed.
Print Assumptions C25_size_additive.
(** Kana and common Kanji take two columns, printable ASCII takes one *)
Theorem C25_japanese_is_wide : forall c,
  (common_kanji c \/ within 0x3041 0x3096 c \/ within 0x30A0 0x30FF c \/ within 0x31F0 0x31FF c -> columns c 2)
  /\ (within 0x20 0x7E c -> columns c 1)
  /\ (non_spacing c -> columns c 0).
Proof. exact japanese_columns. Qed.
Print Assumptions C25_japanese_is_wide.
(** the width made by wideSetw pads with exactly the columns missing, before or after *)
Theorem C25_padding_exact : forall left s n d,
  bytes_ok s -> no_nul s -> boundary s -> displaySize s = Val d -> n + len s < 2^31 ->
  exists w, wideSetw s n = Val w /\ displaySize (putSetw left 32 w s) = Val (N.max n d)
    /\ putSetw left 32 w s = (if left then s ++ repeat 32 (N.to_nat (n - d)) else repeat 32 (N.to_nat (n - d)) ++ s).
Proof. exact wideSetw_pads. Qed.
Print Assumptions C25_padding_exact.
Example C25_example : displaySize (text [0x4E00; 0xFE00; 0x61; 0x304B; 0x3099]) = Val 5
  /\ boundary (text [0x4E00]) /\ ~ boundary [0x80] /\ wideSetw (text [0x4E00; 0x304B]) 6 = Val 8%Z
  /\ putSetw true 32 8 (text [0x4E00; 0x304B]) = text [0x4E00; 0x304B; 32; 32]
  /\ displaySize [0xE4; 0xB8] = Val 1.
Proof.
  split; [vm_compute; reflexivity|]. split; [change (text [0x4E00]) with [0xE4; 0xB8; 0x80]; cbn [boundary]; lia|].
  split; [cbn; lia|]. repeat split; vm_compute; reflexivity.
Qed.
(** adding up fails when a character is split *)
Example C25_boundary_needed : displaySize [0xE4; 0xB8] = Val 1 /\ displaySize [0x80] = Val 1 /\ displaySize ([0xE4; 0xB8] ++ [0x80]) = Val 2
  /\ displaySize [0xE4] = Val 1 /\ displaySize ([0xE4] ++ [0xB8; 0x80]) <> Val 3.
Proof. repeat split; try reflexivity. vm_compute. discriminate. Qed.
