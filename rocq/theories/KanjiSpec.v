(** Specification of the orders and texts of Kanji. *)
From Verif Require Export KanjiModel Utf8Spec.
Open Scope N_scope.

(** a comparison that always answers and is a strict weak order on the values in [P] *)
Definition strict_weak {A} (P : A -> Prop) (lt : A -> A -> out bool) : Prop :=
  (forall a b, P a -> P b -> exists r, lt a b = Val r)
  /\ (forall a, P a -> lt a a = Val false)
  /\ (forall a b c, P a -> P b -> P c -> lt a b = Val true -> lt b c = Val true -> lt a c = Val true)
  /\ (forall a b c, P a -> P b -> P c ->
        lt a b = Val false -> lt b a = Val false -> lt b c = Val false -> lt c b = Val false ->
        lt a c = Val false /\ lt c a = Val false).

(** the name shown in Unicode is any byte string *)
Definition kanji_ok (k : Kanji) : Prop := bytes_ok (compatibilityName k).
(** the name shown in Unicode is UTF-8 text (of code points [cs]) *)
Definition kanji_text (k : Kanji) (cs : list N) : Prop :=
  Forall (fun c => scalar c /\ c <> 0) cs /\ compatibilityName k = flat_map enc cs.

(** the groups of Kanji.h:181-190, each with its suffix *)
Definition group (k : Kanji) : option N :=
  match kType k with
  | Jouyou => Some 46
  | t => if hasLevel k then Some 39 else if 0 <? kFrequency k then Some 34
         else match t with
              | Jinmei => Some 94 | LinkedJinmei => Some 126 | LinkedOld => Some 37 | Extra => Some 43
              | UcdType => Some 42
              | _ => match kKyu k with K1 => Some 35 | _ => Some 64 end
              end
  end.

(** texts with a separator between them *)
Fixpoint sep_by (sep : bytes) (l : list bytes) : bytes :=
  match l with
  | [] => []
  | [x] => x
  | x :: r => x ++ sep ++ sep_by sep r
  end.
(** the fields of a Kanji that have a value: the bit that selects it and its text *)
Definition fields_of (k : Kanji) : list (N * bytes) :=
  let star := if kLinkedReadings k then b_ "*" else [] in
  [(0, b_ "Rad " ++ kRadicalName k ++ b_ "(" ++ to_string (kRadicalNumber k) ++ b_ ")");
   (1, b_ "Strokes " ++ strokesToString (kStrokes k) false)]
  ++ match kPinyin k with [] => [] | p => [(2, p)] end
  ++ match kGrade k with NoGrade => [] | g => [(3, gradeToString g)] end
  ++ match kLevel k with NoLevel => [] | l => [(4, levelToString l)] end
  ++ (if 0 <? kFrequency k then [(5, b_ "Frq " ++ to_string (kFrequency k))] else [])
  ++ match kNewName k, kOldNames k with
     | Some n, _ => [(6, b_ "New " ++ n ++ star)]
     | None, [] => []
     | None, o :: os => [(7, b_ "Old " ++ sep_by (b_ "／") ((o ++ star) :: os))]
     end
  ++ match kKyu k with NoKyu => [] | y => [(8, kyuToString y)] end.

(** a Kanji for the examples: name, strokes, frequency *)
Definition sample (n : bytes) (s f : N) : Kanji :=
  MkKanji n None (b_ "一") 1 (s, 0) (b_ "yi") (1, Plain) [1] Jouyou f G1 K10 N5 None [] false (MkDetails (b_ "one") (b_ "イチ") 7 0 None).
