(** Model of the tables of libs/kanji/src/KanjiData.cpp and of
    TextKanjiData::processList (libs/kanji/src/TextKanjiData.cpp).
    A KanjiPtr is the Kanji it points to (a Kanji never changes).  Messages printed for
    errors and in debug mode are not modelled, asserts are (as in release builds) absent. *)
From Verif Require Export KanjiModel.
Open Scope N_scope.

(** std::map or EnumMap from a key to a list of Kanji: only lookups are observed, so the
    order of the keys is not kept *)
Section Assoc.
  Context {K V : Type} (eqb : K -> K -> bool).
  (** the list for a key, empty if there is none *)
  Fixpoint alist (k : K) (m : list (K * list V)) : list V :=
    match m with
    | [] => []
    | (x, l) :: r => if eqb x k then l else alist k r
    end.
  (** [m[k].emplace_back(v)] *)
  Fixpoint aappend (k : K) (v : V) (m : list (K * list V)) : list (K * list V) :=
    match m with
    | [] => [(k, [v])]
    | (x, l) :: r => if eqb x k then (x, l ++ [v]) :: r else (x, l) :: aappend k v r
    end.
End Assoc.

Definition idEqb (a b : N * IdType) : bool := match morohashiCompare a b with Eq => true | _ => false end.
Definition gradeNumber (g : KanjiGrades) : N :=
  match g with G1 => 0 | G2 => 1 | G3 => 2 | G4 => 3 | G5 => 4 | G6 => 5 | GS => 6 | NoGrade => 7 end.
Definition levelNumber (l : JlptLevels) : N :=
  match l with N5 => 0 | N4 => 1 | N3 => 2 | N2 => 3 | N1 => 4 | NoLevel => 5 end.
Definition kyuNumber (k : KenteiKyus) : N :=
  match k with
  | K10 => 0 | K9 => 1 | K8 => 2 | K7 => 3 | K6 => 4 | K5 => 5 | K4 => 6 | K3 => 7 | KJ2 => 8 | K2 => 9
  | KJ1 => 10 | K1 => 11 | NoKyu => 12
  end.
Definition kanjiTypeNumber (t : KanjiTypes) : N :=
  match t with
  | Jouyou => 0 | Jinmei => 1 | LinkedJinmei => 2 | LinkedOld => 3 | FrequencyType => 4 | Extra => 5
  | Kentei => 6 | UcdType => 7 | NoType => 8
  end.

(** KanjiData.h:288-309.  [dMax] is the static _maxFrequency. *)
Record Data := MkData {
  dNames : smap Kanji;                       (* _nameMap *)
  dCompat : smap bytes;                      (* _compatibilityMap *)
  dTypes : list (N * list Kanji);            (* _types, by kanjiTypeNumber *)
  dGrades : list (N * list Kanji);
  dLevels : list (N * list Kanji);
  dKyus : list (N * list Kanji);
  dFreqs : list (list Kanji);                (* _frequencies *)
  dMoro : list ((N * IdType) * list Kanji);
  dNelson : list (N * list Kanji);
  dMax : N
}.
(** KanjiData.h:53 *)
Definition FrequencyBuckets := 10.
Definition FrequencyEntries := 250.
(** a new object; the static maximum is kept *)
Definition newData (max : N) : Data :=
  MkData [] [] [] [] [] [] (repeat [] (N.to_nat FrequencyBuckets)) [] [] max.

(** [map.emplace(k, v)] of a key that is not there *)
Definition madd {V} (k : bytes) (v : V) (m : smap V) : smap V := mupdate (fun _ => v) k m.

(** KanjiData.cpp:101-107: findByName *)
Definition findByName (d : Data) (s : bytes) : option Kanji :=
  mfind (match mfind s (dCompat d) with Some n => n | None => s end) (dNames d).
(** KanjiData.cpp:96-99: getType *)
Definition getType (d : Data) (s : bytes) : KanjiTypes :=
  match findByName d s with Some k => kType k | None => NoType end.
(** KanjiData.cpp:109-116: findByFrequency; reading outside of an array or vector is
    undefined *)
Definition findByFrequency (d : Data) (freq : N) : out (option Kanji) :=
  if (freq =? 0) || (dMax d <=? freq) then Val None
  else
    let freq := freq - 1 in
    let bucket := freq / FrequencyEntries in
    let bucket := if bucket =? FrequencyBuckets then bucket - 1 else bucket in
    match nth_error (dFreqs d) (N.to_nat bucket) with
    | None => Ub
    | Some l => match nth_error l (N.to_nat (freq - bucket * FrequencyEntries)) with
                | Some k => Val (Some k)
                | None => Ub
                end
    end.
(** KanjiData.cpp:91-94: frequencyList *)
Definition frequencyList (d : Data) (bucket : N) : out (list Kanji) :=
  if bucket <? FrequencyBuckets then
    match nth_error (dFreqs d) (N.to_nat bucket) with Some l => Val l | None => Ub end
  else Val [].
(** KanjiData.cpp:118-125: findByMorohashiId *)
Definition findByMorohashiId (d : Data) (id : N * IdType) : list Kanji :=
  if fst id =? 0 then [] else alist idEqb id (dMoro d).
(** KanjiData.cpp:127-129 *)
Definition findByMorohashiText (d : Data) (s : bytes) : out (list Kanji) :=
  id <- newMorohashi s ;; Val (findByMorohashiId d id).
(** KanjiData.cpp:131-134: findByNelsonId *)
Definition findByNelsonId (d : Data) (id : N) : list Kanji := alist N.eqb id (dNelson d).

(** KanjiData.cpp:226-244: checkInsert.  insertSanityChecks (lines 297-318) only prints. *)
Definition checkInsert (d : Data) (k : Kanji) : out (Data * bool) :=
  match mfind (kName k) (dNames d) with
  | Some _ => Val (d, false)
  | None =>
      v <- variant k ;;
      let compat := if v : bool then
                      match mfind (compatibilityName k) (dCompat d) with
                      | Some _ => dCompat d
                      | None => madd (compatibilityName k) (kName k) (dCompat d)
                      end
                    else dCompat d in
      Val (MkData (madd (kName k) k (dNames d)) compat (dTypes d)
             (if hasGrade k then aappend N.eqb (gradeNumber (kGrade k)) k (dGrades d) else dGrades d)
             (dLevels d) (dKyus d) (dFreqs d)
             (if fst (kMorohashi k) =? 0 then dMoro d else aappend idEqb (kMorohashi k) k (dMoro d))
             (fold_left (fun m id => aappend N.eqb id k m) (kNelson k) (dNelson d))
             (dMax d), true)
  end.
(** KanjiData.cpp:246-250: checkInsert into one of the lists of types *)
Definition checkInsertType (d : Data) (t : KanjiTypes) (k : Kanji) : out (Data * bool) :=
  '(d, inserted) <- checkInsert d k ;;
  if inserted : bool then
    Val (MkData (dNames d) (dCompat d) (aappend N.eqb (kanjiTypeNumber t) k (dTypes d)) (dGrades d)
           (dLevels d) (dKyus d) (dFreqs d) (dMoro d) (dNelson d) (dMax d), true)
  else Val (d, false).

(** KanjiData.cpp:252-255 and EnumMap::operator[]: None is not a valid index *)
Definition addToKyus (d : Data) (k : Kanji) : out Data :=
  if hasKyu k then
    Val (MkData (dNames d) (dCompat d) (dTypes d) (dGrades d) (dLevels d)
           (aappend N.eqb (kyuNumber (kKyu k)) k (dKyus d)) (dFreqs d) (dMoro d) (dNelson d) (dMax d))
  else Throw RangeError.
(** KanjiData.cpp:257-260 *)
Definition addToLevels (d : Data) (k : Kanji) : out Data :=
  if hasLevel k then
    Val (MkData (dNames d) (dCompat d) (dTypes d) (dGrades d)
           (aappend N.eqb (levelNumber (kLevel k)) k (dLevels d)) (dKyus d)
           (dFreqs d) (dMoro d) (dNelson d) (dMax d))
  else Throw RangeError.
(** [l[i].emplace_back(x)] *)
Fixpoint appendAt {A} (i : nat) (x : A) (l : list (list A)) : list (list A) :=
  match l, i with
  | [], _ => []
  | a :: r, O => (a ++ [x]) :: r
  | a :: r, S j => a :: appendAt j x r
  end.
(** KanjiData.cpp:262-269: addToFrequencies; the frequency is promoted to 32 bits, so
    subtracting 1 from 0 gives a bucket beyond the last one *)
Definition addToFrequencies (d : Data) (k : Kanji) : Data :=
  let f := kFrequency k in
  let bucket := u32 (f + 0xffffffff) / FrequencyEntries in
  let bucket := if bucket <? FrequencyBuckets then bucket else FrequencyBuckets - 1 in
  MkData (dNames d) (dCompat d) (dTypes d) (dGrades d) (dLevels d) (dKyus d)
    (appendAt (N.to_nat bucket) k (dFreqs d)) (dMoro d) (dNelson d)
    (if dMax d <=? f then u16 (f + 1) else dMax d).

(** which list is processed: ListFile::level() and kyu() *)
Inductive ListKind := LevelList | KyuList (k : KenteiKyus) | FrequencyList.
(** TextKanjiData.cpp:134-173: processList.  [make i name] is the FrequencyKanji or
    KenteiKanji constructor: it is given the position i + 1 in the list; it throws
    DomainError if the UCD data has no entry (KanjiData.cpp:70-80). *)
Fixpoint processLoop (kind : ListKind) (make : N -> bytes -> out Kanji) (i : N) (l : list bytes) (d : Data) : out Data :=
  match l with
  | [] => Val d
  | name :: r =>
      '(d, kanji) <- match findByName d name with
                     | Some k => Val (d, k)
                     | None =>
                         k <- make (i + 1) name ;;
                         '(d, _) <- checkInsertType d (match kind with KyuList _ => Kentei | _ => FrequencyType end) k ;;
                         Val (d, k)
                     end ;;
      d <- match kind with
           | KyuList _ => addToKyus d kanji
           | LevelList => addToLevels d kanji
           | FrequencyList => Val (addToFrequencies d kanji)
           end ;;
      processLoop kind make (i + 1) r d
  end.
Definition processList (kind : ListKind) (make : N -> bytes -> out Kanji) (l : list bytes) (d : Data) : out Data :=
  processLoop kind make 0 l d.

(** any sequence of insertions, as TextKanjiData's loaders make them (the results are not
    looked at) *)
Fixpoint insertAll (d : Data) (ks : list Kanji) : out Data :=
  match ks with
  | [] => Val d
  | k :: r => '(d, _) <- checkInsert d k ;; insertAll d r
  end.

(** ** Nelson ids: KanjiData.cpp:54-64 *)

(** the white space skipped by operator>> in the C locale *)
Definition isSpace (c : N) : bool := (c =? 32) || ((9 <=? c) && (c <=? 13)).
Fixpoint skipSpaces (s : bytes) : bytes :=
  match s with c :: r => if isSpace c then skipSpaces r else s | [] => [] end.
(** the digits at the front: their value and the rest *)
Fixpoint readDigits (s : bytes) (v : N) (any : bool) : option (N * bytes) :=
  match s with
  | c :: r => if (48 <=? c) && (c <=? 57) then readDigits r (v * 10 + (c - 48)) true
              else if any then Some (v, s) else None
  | [] => if any then Some (v, []) else None
  end.
(** [ss >> id] for a uint16_t: None if the stream fails.  A minus sign negates modulo 2^16. *)
Definition readU16 (s : bytes) : option (N * bytes) :=
  let s := skipSpaces s in
  let neg := match s with c :: _ => c =? 45 | [] => false end in
  let s := match s with c :: r => if (c =? 45) || (c =? 43) then r else s | [] => [] end in
  match readDigits s 0 false with
  | Some (v, r) => if 65535 <? v then None else Some (if neg then u16 (65536 - v) else v, r)
  | None => None
  end.
(** lines 59-62; every number takes at least one character *)
Fixpoint nelsonLoop (fuel : nat) (s : bytes) : list N :=
  match fuel with
  | O => []
  | S fuel => match readU16 s with Some (v, r) => v :: nelsonLoop fuel r | None => [] end
  end.
(** KanjiData.cpp:54-64: getNelsonIds of a Ucd with these nelsonIds *)
Definition getNelsonIds (s : bytes) : list N :=
  let s := map (fun c => if c =? 44 then 32 else c) s in nelsonLoop (S (List.length s)) s.
