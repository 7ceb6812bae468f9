(** A small quiz for the examples of QuizProps.v, with a counter as the source of random values. *)
From Verif Require Import BaseFacts.
From Verif Require Export KanjiSpec QuizSpec.
Open Scope N_scope.

Definition counter (n r : N) : N * N := (r mod n, r + 1).
Definition keep (l : list QKanji) (r : N) : list QKanji * N := (rev l, r).
Lemma counter_in_range : in_range counter.
Proof. intros n r H. unfold counter. cbn [fst]. apply N.mod_lt. lia. Qed.
Lemma counter_after : forall n k r, after counter n k r = r + N.of_nat k.
Proof.
  intros n k r. induction k as [|k IH]; [cbn; lia|].
  change (after counter n (S k) r) with (snd (counter n (after counter n k r))). rewrite IH. unfold counter. cbn [snd]. lia.
Qed.
Lemma counter_fair : fair counter.
Proof.
  intros n r v H. exists (N.to_nat (v + (n - r mod n))). rewrite counter_after, N2Nat.id. unfold counter. cbn [fst].
  assert (X : r mod n < n) by (apply N.mod_lt; lia). assert (Y : r = n * (r / n) + r mod n) by (apply N.div_mod; lia).
  replace (r + (v + (n - r mod n))) with (v + (r / n + 1) * n) by nia. rewrite N.mod_add by lia. apply N.mod_small. exact H.
Qed.
Lemma keep_shuffles : shuffles keep.
Proof. intros l r. apply Permutation_rev. Qed.

Definition q1 : QKanji := MkQ (sample (b_ "一") 1 2) (b_ "イチ") (b_ "one").
Definition q2 : QKanji := MkQ (sample (b_ "二") 2 9) (b_ "ニ") (b_ "two").
Definition q3 : QKanji := MkQ (sample (b_ "三") 3 14) (b_ "サン") [].
Definition sampleList : list QKanji := [q1; q2; q3].
Definition quizLauncher : Launcher := MkLauncher true FromBeginning true launcherQuit.
Definition reviewLauncher : Launcher := MkLauncher false FromEnd false launcherQuit.
Definition nothing (k : QKanji) : bytes := [].
Definition lines (ls : list bytes) : istream := MkIn (join 10 ls) false.
