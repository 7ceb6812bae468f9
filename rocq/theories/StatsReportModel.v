(** Model of the program kanjiStats: the command line and the text it prints
    (libs/stats/src/Stats.cpp, apps/statsMain.cpp) and the [debug] stream of
    libs/stats/src/Utf8Count.cpp:34-44.

    The nine rows are computed one after the other here (in the code by threads that share only
    constant data).  Sizes are unbounded numbers.  The position of every [std::right] and
    [std::left] is as in the code, so that a width pads on the side given by the last one (right
    aligned before the first). *)
From Verif Require Export StatsModel DisplayModel StringModel ArgsModel.
Open Scope N_scope.

(** * Numbers of type double (IEEE 754 binary64, rounding to nearest, ties to even) *)

(** the integer nearest to n/d, the even one of two *)
Definition roundDiv (n d : N) : N :=
  let q := n / d in
  let r := n mod d in
  if 2 * r <? d then q else if d <? 2 * r then q + 1 else if N.even q then q else q + 1.
(** a number that is not negative: a fraction *)
Record Fraction := { fNum : N; fDen : N }.
(** [m * 2^e] *)
Definition ofScale (m : N) (e : Z) : Fraction :=
  if (0 <=? e)%Z then {| fNum := m * 2 ^ Z.to_N e; fDen := 1 |} else {| fNum := m; fDen := 2 ^ Z.to_N (- e) |}.
(** [n / d / 2^e] *)
Definition unscale (n d : N) (e : Z) : Fraction :=
  if (0 <=? e)%Z then {| fNum := n; fDen := d * 2 ^ Z.to_N e |} else {| fNum := n * 2 ^ Z.to_N (- e); fDen := d |}.
(** the exponent for which n/d has 53 digits before the point *)
Definition exponent (n d : N) : Z :=
  let k := (Z.of_N (N.log2 n) - Z.of_N (N.log2 d))%Z in
  let x := unscale n d k in
  if fDen x <=? fNum x then (k - 52)%Z else (k - 53)%Z.
(** the double nearest to n/d (which is in the range of the type here: sizes have 64 bits) *)
Definition nearestDouble (n d : N) : Fraction :=
  if n =? 0 then {| fNum := 0; fDen := 1 |}
  else let e := exponent n d in let x := unscale n d e in ofScale (roundDiv (fNum x) (fDen x)) e.

(** Stats.cpp:20-22 asPercent *)
Definition asPercent (amount total : N) : Fraction :=
  let a := nearestDouble amount 1 in
  let p := nearestDouble (fNum a * 100) (fDen a) in
  let t := nearestDouble total 1 in
  nearestDouble (fNum p * fDen t) (fDen p * fNum t).
(** [os << std::fixed << std::setprecision(p) << x]: the decimal number nearest to x *)
Definition putFixed (p : nat) (x : Fraction) : bytes :=
  let v := roundDiv (fNum x * 10 ^ N.of_nat p) (fDen x) in
  let f := to_string (v mod 10 ^ N.of_nat p) in
  to_string (v / 10 ^ N.of_nat p) ++ [46] ++ repeat 48 (p - List.length f) ++ f.

(** * std::filesystem::path *)

(** [filename()]: what follows the last '/' *)
Fixpoint filename (p : bytes) : bytes :=
  match p with
  | [] => []
  | c :: r => if existsb (N.eqb 47) p then filename r else p
  end.
Fixpoint dropSlashes (p : bytes) : bytes :=
  match p with c :: r => if c =? 47 then dropSlashes r else p | [] => [] end.
(** [parent_path().filename()] of a path that ends with '/': the last name before the slashes *)
Definition parentName (p : bytes) : bytes := filename (rev (dropSlashes (rev p))).

(** * Counting with a debug stream *)

Section Verbose.
  (** the counter and what was written to [*_debug] *)
  Definition Counting := (Counter * bytes)%type.
  Variable find : option (list N -> list N).
  Variable allow : bytes -> out bool.
  (** [_debug] is not null *)
  Variable debug : bool.

  (** Utf8Count.cpp:34-44: what is written for a changed line *)
  Definition debugText (s n : bytes) (tag : option bytes) (c : Counter) : bytes :=
    let count := to_string (cReplacements c + 1) in
    (match tag with
     | Some t => if beq t (cLastReplaceTag c) then [] else b_ "Tag '" ++ t ++ b_ "'" ++ [10]
     | None => []
     end)
    ++ b_ "  " ++ count ++ b_ " : " ++ s ++ [10]
    ++ putSetw false 32 (Z.of_nat (List.length count) + 5) (b_ ": ") ++ n ++ [10].
  (** Utf8Count.cpp:28-59 add *)
  Definition addV (s : bytes) (tag : option bytes) (st : Counting) : out (N * Counting) :=
    let '(c, os) := st in
    '(n, (c1, os1)) <- match find with
                | Some f =>
                    w <- fromUtf8 s 0 ;;
                    n <- toUtf8 (f w) ;;
                    Val (n, if beq n s then (c, os)
                            else (addReplacement tag c, if debug then os ++ debugText s n tag c else os))
                | None => Val (s, (c, os))
                end ;;
    '(added, u, c2) <- tokenLoop allow (S (List.length n)) (newUtf8Char n) tag 0 c1 ;;
    Val (added, (addEvents u c2, os1)).
  (** Utf8Count.cpp:118-124 processFile *)
  Definition processFileV (contents : bytes) (tag : option bytes) (st : Counting) : out (N * Counting) :=
    match find with
    | Some _ => processFileWithRegex (fun s => addV s tag) contents st
    | None => plainLoop (fun s => addV s tag) (getlines 10 contents) 0 st
    end.
  Definition addPathV (files dirs : N) (st : Counting) : Counting := (addPath files dirs (fst st), snd st).
  (** Utf8Count.cpp:78-99 doAddFile (as in CountModel.v, with the stream) *)
  Fixpoint doAddFileV (n : node) (name : bytes) (addTag fileNames recurse : bool) (st : Counting)
    : out (N * Counting) :=
    let tag := if addTag then Some name else None in
    let finish (added : N) (st : Counting) :=
      if fileNames then '(k, st') <- addV name tag st ;; Val (added + k, st') else Val (added, st) in
    match n with
    | File contents =>
        '(added, c1) <- processFileV contents tag (addPathV 1 0 st) ;; finish added c1
    | Dir entries =>
        '(added, c1) <-
          (fix children (es : list (bytes * node)) (added : N) (c : Counting) : out (N * Counting) :=
             match es with
             | [] => Val (added, c)
             | (nm, e) :: r =>
                 '(k, c') <- match e with
                             | Link _ => Val (0, c)
                             | File _ => doAddFileV e nm addTag fileNames recurse c
                             | _ => if recurse then doAddFileV e nm addTag fileNames true c
                                    else Val (0, c)
                             end ;;
                 children r (added + k) c'
             end) entries 0 (addPathV 0 1 st) ;;
        finish added c1
    | Link _ | Other => Val (0, st)
    end.
  (** Utf8Count.cpp:61-66 addFile; [None] is a path that does not exist *)
  Definition addFileV (n : option node) (name : bytes) (addTag fileNames recurse : bool) (st : Counting)
    : out (N * Counting) :=
    match n with
    | None => Throw DomainError
    | Some n =>
        match resolve n with
        | None => Throw DomainError
        | Some t => doAddFileV t name addTag fileNames recurse st
        end
    end.
End Verbose.

(** * The text of a row *)

(** KanjiEnums.h:23-26, 57-59 with EnumList.h:232-235 *)
Definition typeNames : list bytes :=
  [b_ "Jouyou"; b_ "Jinmei"; b_ "LinkedJinmei"; b_ "LinkedOld"; b_ "Frequency"; b_ "Extra"; b_ "Kentei"; b_ "Ucd"; b_ "None"].
Definition levelNames : list bytes := [b_ "N5"; b_ "N4"; b_ "N3"; b_ "N2"; b_ "N1"].
Definition typeName (t : N) : bytes := nth (N.to_nat t) typeNames [].

(** Stats.cpp:119-131 operator<<; 5 is JlptLevels::None *)
Definition putCount (c : SCount) : out bytes :=
  rest <- match kEntry c with
          | Some e => Val (putSetw false 32 5 (to_string (frequencyOrDefault e 0)) ++ b_ ", "
                           ++ (if eLevel e <? 5 then nth (N.to_nat (eLevel e)) levelNames [] else b_ "--")
                           ++ b_ ", " ++ typeName (eType e))
          | None => u <- toUnicode_string (kName c) NoBrackets ;;
                    Val (b_ ", " ++ putSetw false 32 7 (b_ "U+" ++ u))
          end ;;
  Val (b_ "[" ++ kName c ++ b_ " " ++ putSetw false 32 4 (to_string (kCount c)) ++ b_ "]" ++ rest).

(** Stats.cpp:181-199 printHeaderInfo *)
Definition printHeaderInfo (top : bytes) (c : Counter) : bytes :=
  b_ ">>> Stats for: '" ++ (match filename top with [] => parentName top | f => f end) ++ b_ "'"
  ++ (if 1 <? cFiles c then
        b_ " (" ++ to_string (cFiles c) ++ (if 1 <? cFiles c then b_ " files" else b_ " file")
        ++ (if 1 <? cDirectories c then b_ " from " ++ to_string (cDirectories c) ++ b_ " directories" else [])
        ++ b_ ")"
      else [])
  ++ b_ " - showing top " ++ to_string (N.of_nat MaxExamples) ++ b_ " Kanji per type"
  ++ (if negb (cReplacements c =? 0) || negb (cMarks c =? 0) || negb (cVariants c =? 0) then
        [10] ++ b_ ">>> Furigana Removed: " ++ to_string (cReplacements c)
        ++ b_ ", Combining Marks Replaced: " ++ to_string (cMarks c)
        ++ b_ ", Variation Selectors: " ++ to_string (cVariants c)
      else [])
  ++ (if negb (cErrors c =? 0) then b_ ", Errors: " ++ to_string (cErrors c) else [])
  ++ [10].
(** Stats.cpp:201-206 printTotalAndUnique *)
Definition printTotalAndUnique (name : bytes) (total unique : N) : bytes :=
  b_ ">>> " ++ putSetw false 32 16 name ++ b_ ": " ++ putSetw false 32 6 (to_string total)
  ++ b_ ", unique: " ++ putSetw false 32 4 (to_string unique).
(** Stats.cpp:227-230, 239-243: names with their counts *)
Fixpoint putExamples (first : bool) (l : list SCount) : bytes :=
  match l with
  | [] => []
  | c :: r => (if first then [] else b_ ", ") ++ kName c ++ b_ " " ++ to_string (kCount c) ++ putExamples false r
  end.
(** Stats.cpp:218-232: the line of one type, if the type is in the map *)
Definition typeLine (total : N) (l : list SCount) (t : N) : bytes :=
  if existsb (fun c => type c =? t) l then
    printTotalAndUnique (b_ "[" ++ typeName t ++ b_ "] ") (typeTotal t l) (typeUnique t l)
    ++ b_ ", " ++ putSetw false 32 6 (putFixed 2 (asPercent (typeTotal t l) total)) ++ b_ "%  ("
    ++ putExamples true (typeExamples t l) ++ b_ ")" ++ [10]
  else [].
(** Stats.cpp:208-233 printKanjiTypeCounts *)
Definition printKanjiTypeCounts (total : N) (l : list SCount) : bytes :=
  flat_map (typeLine total l) [0; 1; 2; 3; 4; 5; 6; 7; 8].
(** Stats.cpp:235-245 printRareExamples *)
Definition printRareExamples (l : list SCount) : bytes :=
  putSetw false 32 12 (b_ "(") ++ putExamples true (firstn MaxExamples l) ++ b_ ")" ++ [10].

(** std::string::ends_with *)
Definition endsWithText (s p : bytes) : bool := BlockModel.startsWith (rev s) (rev p).
(** Stats.cpp:138 *)
Definition isKanjiRow (name : bytes) : bool := endsWithText name (b_ "Kanji").
(** Stats.cpp:255-272: the lines; [rank] is the number of lines before *)
Fixpoint breakdownLines (showBreakdown : bool) (c : Counter) (rank : N) (l : list SCount) : out bytes :=
  match l with
  | [] => Val []
  | i :: r =>
      x <- putCount i ;;
      rest <- breakdownLines showBreakdown c (rank + 1) r ;;
      Val (b_ "  " ++ (if showBreakdown then putSetw true 32 5 (to_string (rank + 1)) ++ b_ " " else []) ++ x
           ++ (match kEntry i with
               | Some _ => []
               | None => match tagsOf (kName i) c with Some tags => b_ ", " ++ highestFile tags | None => [] end
               end) ++ [10] ++ rest)
  end.
(** Stats.cpp:247-273 printBreakdown *)
Definition printBreakdown (name : bytes) (showBreakdown : bool) (c : Counter) (l : list SCount) : out bytes :=
  lines <- breakdownLines showBreakdown c 0 l ;;
  Val (b_ ">>> Showing Breakdown for '" ++ name ++ b_ "':" ++ [10] ++ b_ "  Rank  [Val Num]"
       ++ (if isKanjiRow name && negb (BlockModel.startsWith name (b_ "Non-UCD")) then b_ " Freq, LV, Type"
           else b_ ", Unicode, Highest Count File") ++ [10] ++ lines).

(** ** The whole report *)

Section Stats.
  (** KanjiData::maxFrequency(), findUcd() (found or not) and findByName() *)
  Variable maxFrequency : N.
  Variable findUcd : bytes -> bool.
  Variable findByName : bytes -> option Entry.
  (** the order in which a std::set<Count> that the values were inserted into is visited (see
      [built] in StatsModel.v) *)
  Variable order : list SCount -> list SCount.
  (** the files *)
  Variable fs : bytes -> option node.

  (** Stats.cpp:140-179 run: the total and the text *)
  Definition run (showBreakdown verbose firstCount : bool) (top : bytes) (row : bytes * (bytes -> out bool)) : out (N * bytes) :=
    let name := fst row in
    let isHiragana := beq name (b_ "Hiragana") in
    let isUnrecognized := beq name (b_ "Unrecognized") in
    let isKanji := isKanjiRow name in
    let isCommonKanji := isKanji && BlockModel.startsWith name (b_ "Common") in
    let removes := isHiragana || beq name (b_ "Katakana") || beq name (b_ "MB-Letter") in
    let os := if isHiragana && verbose then b_ ">>> Showing all Furigana replacements:" ++ [10] else [] in
    '(_, (c, os)) <- addFileV (if removes then Some removeFurigana else None) (snd row) (isHiragana && verbose)
                       (fs top) (filename top) (isKanji || isUnrecognized || (isHiragana && verbose)) true true (newCounter, os) ;;
    let os := os ++ (if firstCount then printHeaderInfo top c else []) in
    let frequency := order (rowCounts findByName isKanji (cMap c)) in
    let total := rowTotal (cMap c) in
    if negb (total =? 0) then
      breakdown <- (if isUnrecognized || (isKanji && showBreakdown) then printBreakdown name showBreakdown c frequency
                    else Val []) ;;
      Val (total, os ++ printTotalAndUnique name total (len frequency)
                  ++ (if isCommonKanji then b_ ", 100.00%" ++ [10] ++ printKanjiTypeCounts total frequency
                      else if isKanji then printRareExamples frequency else [10])
                  ++ breakdown)
    else Val (total, os).

  (** what was printed, and how the function ended *)
  Definition printed (A : Type) := (bytes * out A)%type.
  (** Stats.cpp:76: the loop; the totals of the rows *)
  Fixpoint printRows (rs : list (out (N * bytes))) (text : bytes) : printed (list N) :=
    match rs with
    | [] => (text, Val [])
    | Val (n, s) :: r =>
        let '(t, ns) := printRows r (text ++ s) in (t, ns <- ns ;; Val (n :: ns))
    | Throw e :: _ => (text, Throw e)
    | Ub :: _ => (text, Ub)
    | Fuel :: _ => (text, Fuel)
    end.
  Definition IncludeInTotals : nat := 5.
  (** Stats.cpp:83-88: the rows with their totals; the total of the Kanji rows and the text *)
  Fixpoint percentLoop (total : N) (rs : list (bytes * N)) (totalKanji : N) : N * bytes :=
    match rs with
    | [] => (totalKanji, [])
    | (name, n) :: r =>
        if isKanjiRow name then percentLoop total r (totalKanji + n)
        else let '(k, s) := percentLoop total r totalKanji in
             (k, (if negb (n =? 0) then name ++ b_ ": " ++ putFixed 1 (asPercent n total) ++ b_ "%, " else []) ++ s)
    end.
  (** Stats.cpp:77-91 with KanjiData.cpp:142-144 *)
  Definition totalLine (rs : list (bytes * N)) : bytes :=
    let rs := firstn IncludeInTotals rs in
    let total := fold_left (fun t r => t + snd r) rs 0 in
    b_ ">>> Total Kana+Kanji: " ++ to_string total
    ++ (if negb (total =? 0) then
          let '(k, s) := percentLoop total rs 0 in
          b_ " (" ++ s ++ b_ "Kanji: " ++ putFixed 1 (asPercent k total) ++ b_ "%)"
        else []) ++ [10].
  (** Stats.cpp:54-75: the rows; the first one prints the header *)
  Definition runRows (showBreakdown verbose : bool) (top : bytes) : list (out (N * bytes)) :=
    match rows findUcd with
    | row :: rs => run showBreakdown verbose true top row :: map (run showBreakdown verbose false top) rs
    | [] => []
    end.
  (** Stats.cpp:51-92 countKanji *)
  Definition countKanji (showBreakdown verbose : bool) (top : bytes) : printed unit :=
    let '(text, ns) := printRows (runRows showBreakdown verbose top) [] in
    match ns with
    | Val ns => (text ++ totalLine (combine (map fst (rows findUcd)) ns), Val tt)
    | Throw e => (text, Throw e)
    | Ub => (text, Ub)
    | Fuel => (text, Fuel)
    end.
  (** Stats.cpp:48 *)
  Fixpoint countAll (showBreakdown verbose : bool) (files : list bytes) (text : bytes) : printed unit :=
    match files with
    | [] => (text, Val tt)
    | f :: r => match countKanji showBreakdown verbose f with
                | (t, Val _) => countAll showBreakdown verbose r (text ++ t)
                | (t, e) => (text ++ t, e)
                end
    end.

  (** Stats.cpp:14-18 *)
  Definition HelpText : bytes :=
    b_ "kanjiStats [-bhv] file [file ...]:" ++ [10]
    ++ b_ "  -b: show full Kanji breakdown for 'file' (instead of just a summary)" ++ [10]
    ++ b_ "  -h: show help message for command-line options" ++ [10]
    ++ b_ "  -v: show 'before' and 'after' versions of lines changed by Furigana removal" ++ [10].
  (** what the arguments ask for *)
  Inductive Command := Help | Count (breakdown verbose : bool) (files : list bytes).
  (** Stats.cpp:29-45 *)
  Fixpoint argsLoop (fuel : nat) (a : Args) (i : N) (breakdown endOptions verbose : bool) (files : list bytes) : out Command :=
    match fuel with
    | O => Fuel
    | S f =>
        if i <? argc a then
          arg <- argAt a i ;;
          let continue b e v l := next <- nextArg f a i ;; argsLoop f a next b e v l in
          if negb endOptions && BlockModel.startsWith arg (b_ "-") then
            if beq arg (b_ "-h") then Val Help
            else if beq arg (b_ "-b") then continue true endOptions verbose files
            else if beq arg (b_ "-v") then continue breakdown endOptions true files
            else if beq arg (b_ "--") then continue breakdown true verbose files
            else Throw DomainError
          else continue breakdown endOptions verbose (files ++ [arg])
        else Val (Count breakdown verbose files)
    end.
  Definition readArgs (fuel : nat) (a : Args) : out Command :=
    i <- nextArg fuel a 0 ;; argsLoop fuel a i false false false [].
  (** Stats.cpp:26-49 the constructor; [debug] is data->debug() *)
  Definition stats (fuel : nat) (a : Args) (debug : bool) : printed unit :=
    match readArgs fuel a with
    | Val Help => (HelpText, Val tt)
    | Val (Count breakdown verbose files) =>
        match files with
        | [] => if negb debug then ([], Throw DomainError) else ([], Val tt)
        | _ => countAll breakdown verbose files []
        end
    | Throw e => ([], Throw e)
    | Ub => ([], Ub)
    | Fuel => ([], Fuel)
    end.
End Stats.
