(** Specification of the Unicode data: letters of sources, rows of the file and what is made
    from them. *)
From Verif Require Export BlockSpec StringSpec ColumnFileSpec IdsSpec ListSpec UcdModel.
Open Scope N_scope.

(** the letters for the sources, in alphabetical order *)
Definition source_letters : bytes := b_ "GHJKTV".
Definition good_sources (s : bytes) : Prop := NoDup s /\ incl s source_letters.

(** [s] is (up to a NUL) the Kanji with code point [c], a non-spacing character may follow *)
Definition kanji_name (s : bytes) (c : N) : Prop :=
  kanji c /\ len s <= 8
  /\ (upto_nul s = enc c \/ exists d, non_spacing d /\ upto_nul s = enc c ++ enc d).
(** four or five upper case hexadecimal digits for [c] *)
Definition hex_code (s : bytes) (c : N) : Prop :=
  (len s = 4 \/ len s = 5) /\ Forall is_upper_hex s /\ denotes 16 s c.
(** fields for flags *)
Definition flag (s : bytes) (b : bool) : Prop :=
  In s (if b then [b_ "Y"; b_ "T"] else [[]; b_ "N"; b_ "F"]).

(** the stroke counts of a row *)
Definition row_strokes (r : UcdRow) (s : N * N) : Prop :=
  exists v, loose_number (rStrokes r) v /\
  match rVStrokes r with
  | [] => 1 <= v <= 64 /\ s = (v, 0)
  | _ => exists w, loose_number (rVStrokes r) w /\ 2 <= v <= 64 /\ 3 <= w <= 33 /\ v <> w /\ s = (v, w)
  end.
(** the names of the links of a row have their codes in the other column *)
Definition row_links (r : UcdRow) (links : list bytes) : Prop :=
  cut 44 (rLinkNames r) links /\ exists codes extra, cut 44 (rLinkCodes r) (codes ++ extra)
  /\ Forall2 (fun n c => exists x, hex_code c x /\ kanji_name n x) links codes.

(** what a good row is, and the data that is made from it *)
Record row_is (r : UcdRow) (u : Ucd) : Prop := {
  is_used : rOn r <> [] \/ rKun r <> [] \/ rMorohashi r <> [] \/ rJSource r <> [];
  is_name : ucdName u = rName r /\ len (rName r) <= 4
            /\ exists c, hex_code (rCode r) c /\ kanji c /\ upto_nul (rName r) = enc c;
  is_radical : loose_number (rRadical r) (ucdRadical u) /\ 1 <= ucdRadical u <= 214;
  is_joyo : flag (rJoyo r) (joyo u);
  is_jinmei : flag (rJinmei r) (jinmei u);
  is_exclusive : joyo u = true -> jinmei u = false /\ rMeaning r <> [] /\ rLinkNames r = [];
  is_sources : good_sources (rSources r)
               /\ sources u = filter (fun c => existsb (N.eqb c) (rSources r)) source_letters
               /\ ucdBits u < 256;
  is_links : row_links r (ucdLinks u)
             /\ (rLinkNames r = [] -> rLinkCodes r = [] /\ rLinkType r = [])
             /\ (rLinkNames r <> [] -> rLinkType r <> []);
  is_link_type : (rLinkType r = [] /\ ucdLinkType u = len LinkTypeNames)
                 \/ nth_error LinkTypeNames (N.to_nat (ucdLinkType u)) = Some (rLinkType r);
  is_strokes : row_strokes r (ucdStrokes u);
  is_morohashi : morohashi (rMorohashi r) (fst (ucdMorohashi u)) (snd (ucdMorohashi u));
  is_text : ucdBlock u = rBlock r /\ ucdVersion u = rVersion r /\ ucdPinyin u = rPinyin r
            /\ ucdNelson u = rNelson r /\ ucdJSource u = rJSource r /\ ucdMeaning u = rMeaning r
            /\ ucdOn u = rOn r /\ ucdKun u = rKun r
}.

(** all the fields that are read are made of bytes *)
Definition row_bytes (r : UcdRow) : Prop := bytes_ok (rName r) /\ bytes_ok (rLinkNames r).

(** the links of the Jinmei rows: link and name *)
Definition jinmei_links (us : list Ucd) : list (bytes * bytes) :=
  flat_map (fun u => if jinmei u then map (fun l => (l, ucdName u)) (ucdLinks u) else []) us.
(** the names of the other rows that have a link to [l], in order *)
Definition other_links (us : list Ucd) (l : bytes) : list bytes :=
  flat_map (fun u => if jinmei u then [] else map (fun _ => ucdName u) (filter (beq l) (ucdLinks u))) us.

(** the rows of a file that is accepted and the data made from them *)
Definition good_file (rows : list UcdRow) (us : list Ucd) : Prop :=
  Forall2 row_is rows us /\ NoDup (map ucdName us) /\ NoDup (map fst (jinmei_links us)).
(** what is held after loading *)
Definition holds (d : UcdData) (us : list Ucd) : Prop :=
  (forall n u, mfind n (ucdMap d) = Some u <-> In u us /\ ucdName u = n)
  /\ (forall l n, mfind l (linkedJinmei d) = Some n <-> In (l, n) (jinmei_links us))
  /\ (forall l, mfind l (linkedOther d) = match other_links us l with [] => None | ns => Some ns end).

(** readings separated by spaces *)
Definition readings (s : bytes) (rs : list bytes) : Prop :=
  (s = [] /\ rs = []) \/ (rs <> [] /\ free_of 32 rs /\ s = join 32 rs).
(** each reading and what it is in kana *)
Definition converts (t : CharType) (rs ks : list bytes) : Prop :=
  Forall2 (fun r k => (forall ltr, convertFrom t FlagNone ltr Romaji r = Val k) /\ k <> []) rs ks.
(** separated by wide commas *)
Fixpoint wide_list (ks : list bytes) : bytes :=
  match ks with [] => [] | [k] => k | k :: r => k ++ b_ "、" ++ wide_list r end.
