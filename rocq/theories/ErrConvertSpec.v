(** Specification of the messages of kanaConvert about wrong arguments. *)
From Verif Require Export ProgramSpec.
Open Scope N_scope.

(** [refusal terminal l w]: the arguments [l] are refused with the message [w]; what stands before is right *)
Inductive refusal (terminal : bool) : list bytes -> bytes -> Prop :=
| rf_two_modes : forall is l a r, spells is l -> length (modes is) = 1%nat -> In a [b_ "-i"; b_ "-m"; b_ "-n"; b_ "-p"] ->
    refusal terminal (l ++ a :: r) (b_ "can only specify one of -i, -m, -n, or -p")
| rf_no_flag : forall is l, spells is l -> (length (modes is) <= 1)%nat ->
    refusal terminal (l ++ [b_ "-f"]) (b_ "-f must be followed by a flag value")
| rf_flag : forall is l a r, spells is l -> (length (modes is) <= 1)%nat -> (forall c n, flag_letter c n -> a <> [c]) ->
    refusal terminal (l ++ b_ "-f" :: a :: r) (b_ "illegal option for -f: " ++ a)
| rf_illegal : forall is l a r, spells is l -> (length (modes is) <= 1)%nat -> hd_error a = Some 45 ->
    ~ In a [b_ "--"; b_ "-?"; b_ "-f"; b_ "-i"; b_ "-m"; b_ "-n"; b_ "-p"] ->
    (forall c t, target_letter c t \/ source_letter c t -> a <> [45; c]) ->
    refusal terminal (l ++ a :: r) (b_ "illegal option: " ++ a)
| rf_texts : forall is l ss m, asks l is ss -> ss <> [] -> modes is = [m] -> m <> MNoNewline ->
    refusal terminal l (b_ "'string' args can't be combined with '-i', '-m' or '-p'")
| rf_nothing : forall is l, terminal = true -> asks l is [] -> modes is = [] \/ modes is = [MNoNewline] ->
    refusal terminal l (b_ "provide one or more 'strings' or '-i' for interactive mode").
