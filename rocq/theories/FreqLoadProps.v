(** Properties of the frequency lists of loaded data. *)
From Verif Require Import BaseFacts DataModel LoadModel LoadSpec LoadSample DirSpec MainSpec MainProofs FreqLoadSpec FreqLoad.
Open Scope N_scope.

(** * C140: frequency lists of a data directory *)

(** every name of the frequency file that is not hidden by a name with a variation selector has its Kanji in exactly one list,
    chosen by the frequency of that Kanji; the order is that of the file *)
Theorem C140_lists : forall ltr f st m e d ws, files_ok f -> loadData ltr f st m = Val (e, d) -> words (frequencyFile f) ws ->
  (forall s, In s ws -> own_name d s) ->
  exists ks, Forall2 (found_own d) ws ks
  /\ forall b, exists sub, frequencyList d b = Val sub /\ (b < 10 -> chosen (in_bucket b) ks sub) /\ (10 <= b -> sub = []).
Proof. exact lists_exact. Qed.
Print Assumptions C140_lists.
(** lookup by number gives exactly the Kanji at that place of the file, and it is defined for all numbers.  This is for files of at most
    2750 names without an Extra Kanji, and for programs that have not made an object with a longer list before; the theorem below and
    C34_long_list_refuted and C34_second_object_refuted show that these are needed. *)
Theorem C140_find_partial : forall ltr f st m e d ws, files_ok f -> loadData ltr f st m = Val (e, d) -> words (frequencyFile f) ws ->
  (forall s, In s ws -> own_name d s) -> (forall s k, In s ws -> findByName d s = Some k -> kType k <> Extra) ->
  len ws <= 2750 -> m <= len ws + 1 ->
  forall n, (1 <= n <= len ws -> exists k, findByFrequency d n = Val (Some k) /\ nth_error ws (N.to_nat (n - 1)) = Some (kName k)
      /\ findByName d (kName k) = Some k /\ kFrequency k = n)
    /\ (n = 0 \/ len ws < n -> findByFrequency d n = Val None).
Proof. exact find_exact. Qed.
Print Assumptions C140_find_partial.
(** so kanjiQuiz is defined for all numbers it is given with such a directory (see C116) *)
Theorem C140_program : forall fs writable sort ltr st cs root ps l k ws, files_bytes fs -> kanji_loaded fs writable sort ltr st cs root ps l k ->
  words (frequencyFile (kFiles k)) ws -> (forall s, In s ws -> own_name (kData k) s) ->
  (forall s x, In s ws -> findByName (kData k) s = Some x -> kType x <> Extra) -> len ws <= 2750 ->
  forall a, ~ undefined_frequency k a.
Proof.
  intros fs writable sort ltr st cs root ps l k ws Hb [_ _ K3 K4 _] Hw Own Ne Hl a (_ & _ & U). destruct (MainProofs.dir_ok fs writable Hb _ _ K3) as [O _].
  destruct (find_exact _ _ _ _ _ _ ws O K4 Hw Own Ne Hl ltac:(lia) (decimal a)) as [F1 F2].
  destruct (N.eq_dec (decimal a) 0) as [E|E]; [exact (U _ (F2 (or_introl E)))|].
  destruct (N.le_gt_cases (decimal a) (len ws)) as [G|G]; [|exact (U _ (F2 (or_intror G)))].
  destruct F1 as (x & X & _); [lia|]. exact (U _ X).
Qed.
Print Assumptions C140_program.

(** the sample directory with another frequency file *)
Definition with_list (c : bytes) : Files :=
  let f := sample_files sample_jouyou in
  MkFiles (levelFiles f) (kyuFiles f) c (ucdRows f) (radicalRows f) (readingRows f) (jouyouRows f) (linkedFile f) (jinmeiRows f) (extraRows f).
Lemma with_ok : forall c, bytes_ok c -> files_ok (with_list c).
Proof. intros c H. destruct (sample_ok sample_jouyou) as (A1 & A2 & A3 & A4 & _). exact (conj A1 (conj A2 (conj A3 (conj A4 H)))). Qed.
(** an Extra Kanji in the file: the number of the Kanji after it is undefined, and that Kanji is given for the number before *)
Theorem C140_extra_refuted : exists f e d ws s k, files_ok f /\ loadData true f initStatic 0 = Val (e, d) /\ words (frequencyFile f) ws
  /\ (forall s, In s ws -> own_name d s) /\ len ws = 2 /\ nth_error ws 1 = Some s /\ findByName d s = Some k
  /\ findByFrequency d 2 = Ub /\ findByFrequency d 1 = Val (Some k).
Proof.
  exists (with_list (b_ "且" ++ [10] ++ b_ "歩")). eexists. eexists. exists [b_ "且"; b_ "歩"], (b_ "歩"). eexists.
  split; [apply with_ok; vm_compute; repeat constructor|]. split; [vm_compute; reflexivity|]. split.
  { exists [(b_ "且", [b_ "且"]); (b_ "歩", [b_ "歩"])]. split; [|reflexivity]. apply ListProofs.file_words_fun. vm_compute. reflexivity. }
  split; [|split; [reflexivity|split; [reflexivity|split; [vm_compute; reflexivity|split; vm_compute; reflexivity]]]].
  intros s [<-|[<-|[]]] k; vm_compute; intro E; injection E as <-; reflexivity.
Qed.
Print Assumptions C140_extra_refuted.
(** a directory that meets the conditions *)
Example C140_case : exists f e d ws, files_ok f /\ loadData true f initStatic 0 = Val (e, d) /\ words (frequencyFile f) ws /\ len ws = 2
  /\ (forall s, In s ws -> own_name d s) /\ (forall s k, In s ws -> findByName d s = Some k -> kType k <> Extra)
  /\ map (fun n => match findByFrequency d n with Val (Some k) => kName k | _ => [] end) [0; 1; 2; 3] = [[]; b_ "丈"; b_ "歩"; []].
Proof.
  exists (with_list (b_ "丈" ++ [10] ++ b_ "歩")). eexists. eexists. exists [b_ "丈"; b_ "歩"].
  split; [apply with_ok; vm_compute; repeat constructor|]. split; [vm_compute; reflexivity|]. split.
  { exists [(b_ "丈", [b_ "丈"]); (b_ "歩", [b_ "歩"])]. split; [|reflexivity]. apply ListProofs.file_words_fun. vm_compute. reflexivity. }
  split; [reflexivity|]. split; [|split; [|vm_compute; reflexivity]].
  - intros s [<-|[<-|[]]] k; vm_compute; intro E; injection E as <-; reflexivity.
  - intros s k [<-|[<-|[]]]; vm_compute; intro E; injection E as <-; discriminate.
Qed.
