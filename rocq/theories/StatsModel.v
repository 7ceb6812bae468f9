(** Model of libs/stats/src/Stats.cpp and libs/stats/include/kt_stats/Stats.h, and of the
    regular expression for Furigana (libs/stats/src/Utf8Count.cpp:19-22).

    Left out: the threads that compute the rows (each row has its own objects and only reads the
    shared data).  The command line and the text of the report are in StatsReportModel.v. *)
From Verif Require Export CountModel BlockModel.
Open Scope N_scope.

(** ** Counts *)

(** what a row needs to know of a Kanji: frequency (0 for none), type and level, the positions
    in KanjiEnums.h:10-20 and 47-54 *)
Record Entry := { eFrequency : N; eType : N; eLevel : N }.
Definition TypeNone : N := 8.
(** Stats.h:53-55 *)
Record SCount := { kCount : N; kName : bytes; kEntry : option Entry }.

Section Order.
  (** KanjiData::maxFrequency() *)
  Variable maxFrequency : N.
  (** Kanji.cpp:29-32 frequencyOrDefault *)
  Definition frequencyOrDefault (e : Entry) (x : N) : N := if eFrequency e =? 0 then x else eFrequency e.
  (** Stats.cpp:103-106 frequency (uint16_t) *)
  Definition frequency (c : SCount) : N :=
    match kEntry c with
    | Some e => frequencyOrDefault e maxFrequency
    | None => u16 (maxFrequency + 1)
    end.
  (** Stats.cpp:108-110 type *)
  Definition type (c : SCount) : N := match kEntry c with Some e => eType e | None => TypeNone end.
  (** Stats.cpp:112-117 operator<, with the grouping C++ gives it *)
  Definition less (a b : SCount) : bool :=
    (kCount b <? kCount a)
    || (((kCount a =? kCount b) && (frequency a <? frequency b))
        || (((frequency a =? frequency b) && (type a <? type b))
            || ((type a =? type b) && blt (kName a) (kName b)))).
End Order.

(** ** std::set with an arbitrary [operator<]

    A set is a binary search tree of any shape.  Inserting walks down from the root, left when
    the new value is less than the one in the node, and ends between two neighbours [a | b];
    the value is new if there is nothing before it or the value before is less than it.
    Afterwards the tree may be rebalanced in any way that keeps the order of its values. *)
Inductive tree (A : Type) := Leaf | Node (l : tree A) (x : A) (r : tree A).
Arguments Leaf {A}.
Arguments Node {A} l x r.
Fixpoint inorder {A} (t : tree A) : list A :=
  match t with Leaf => [] | Node l x r => inorder l ++ x :: inorder r end.
Section Set_.
  Context {A : Type} (lt : A -> A -> bool).
  Fixpoint descend (k : A) (t : tree A) : list A * list A :=
    match t with
    | Leaf => ([], [])
    | Node l x r =>
        if lt k x then let '(a, b) := descend k l in (a, b ++ x :: inorder r)
        else let '(a, b) := descend k r in (inorder l ++ x :: a, b)
    end.
  Definition insertPos (k : A) (t : tree A) : list A :=
    let '(a, b) := descend k t in
    match rev a with
    | [] => k :: b
    | p :: _ => if lt p k then a ++ k :: b else a ++ b
    end.
  (** [built ks t]: inserting the values [ks] in this order can give [t] *)
  Inductive built : list A -> tree A -> Prop :=
  | built_nil : built [] Leaf
  | built_add : forall ks t k t', built ks t -> inorder t' = insertPos k t -> built (ks ++ [k]) t'.
End Set_.

(** Stats.cpp:159-164: the values inserted for a row, in the order of the map *)
Definition rowCounts (findByName : bytes -> option Entry) (isKanji : bool) (m : smap N) : list SCount :=
  map (fun e => {| kCount := snd e; kName := fst e; kEntry := if isKanji then findByName (fst e) else None |}) m.
(** Stats.cpp:161 _total *)
Definition rowTotal (m : smap N) : N := fold_left (fun t e => t + snd e) m 0.

(** Stats.cpp:209-216: totals, numbers and examples per type, from the set in order *)
Definition typeTotal (t : N) (l : list SCount) : N :=
  fold_left (fun n c => if type c =? t then n + kCount c else n) l 0.
Definition typeUnique (t : N) (l : list SCount) : N :=
  fold_left (fun n c => if type c =? t then n + 1 else n) l 0.
Definition MaxExamples : nat := 5.
Definition typeExamples (t : N) (l : list SCount) : list SCount :=
  fold_left (fun f c => if (type c =? t) && (List.length f <? MaxExamples)%nat then f ++ [c] else f) l [].

(** Stats.cpp:262-267: the file shown beside a character *)
Definition highestFile (tags : smap N) : bytes :=
  snd (fold_left (fun s j => if fst s <? snd j then (snd j, fst j) else s) tags (0, [])).

(** ** Rows (Stats.cpp:63-75) *)
Definition oand (x : out bool) (y : bool) : out bool := b <- x ;; Val (b && y).
Definition rows (findUcd : bytes -> bool) : list (bytes * (bytes -> out bool)) :=
  [(b_ "Hiragana", fun x => isHiragana x true);
   (b_ "Katakana", fun x => isKatakana x true);
   (b_ "Common Kanji", fun x => oand (isCommonKanji x true) (findUcd x));
   (b_ "Rare Kanji", fun x => oand (isRareKanji x true) (findUcd x));
   (b_ "Non-UCD Kanji", fun x => oand (isKanji x true) (negb (findUcd x)));
   (b_ "MB-Punctuation", fun x => isMBPunctuation x false true);
   (b_ "MB-Symbol", fun x => isMBSymbol x true);
   (b_ "MB-Letter", fun x => isMBLetter x true);
   (b_ "Unrecognized", fun x => b <- isRecognizedUtf8 x true ;; Val (negb b))].

(** ** Furigana (Utf8Count.cpp:19-22): what [regex_replace] does with
    "([<Kanji><wide letters>]{1})（[<Kana>]+）" and "$1" *)
Definition inClass (bs : list block) (c : N) : bool := existsb (fun b => inBlock b c) bs.
Definition furiganaBase (c : N) : bool := inClass (KanjiRange ++ WideLetterRange) c.
Definition furiganaKana (c : N) : bool := inClass KanaRange c.
Fixpoint skipKana (cs : list N) : list N :=
  match cs with c :: r => if furiganaKana c then skipKana r else cs | [] => [] end.
(** the text after a match that starts at the head *)
Definition matchFurigana (cs : list N) : option (list N) :=
  match cs with
  | c :: o :: k :: r =>
      if furiganaBase c && (o =? 0xFF08) && furiganaKana k then
        match skipKana r with x :: rest => if x =? 0xFF09 then Some rest else None | [] => None end
      else None
  | _ => None
  end.
Fixpoint removeLoop (fuel : nat) (cs : list N) : list N :=
  match fuel, cs with
  | S fuel', c :: r =>
      match matchFurigana cs with
      | Some rest => c :: removeLoop fuel' rest
      | None => c :: removeLoop fuel' r
      end
  | _, _ => []
  end.
Definition removeFurigana (cs : list N) : list N := removeLoop (List.length cs) cs.
