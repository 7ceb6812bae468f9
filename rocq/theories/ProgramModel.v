(** Model of libs/kana/src/KanaConvert.cpp and libs/kana/include/kt_kana/KanaConvert.h, the program
    kanaConvert.  The input is a stream: an interactive session here is one whose input stream was
    given.  ConsoleModel is the program with single keys read from a terminal (Choice.cpp:58-66). *)
From Verif Require Export ConverterModel ChoiceModel TableModel ArgsModel.
Open Scope N_scope.

(** what a function writes, and how it ends *)
Definition W (A : Type) : Type := (bytes * out A)%type.
Definition wret {A} (x : A) : W A := ([], Val x).
Definition say (s : bytes) : W unit := (s, Val tt).
Definition lift {A} (x : out A) : W A := ([], x).
Definition wbind {A B} (m : W A) (f : A -> W B) : W B :=
  let '(w, r) := m in
  match r with
  | Val x => let '(w', r') := f x in (w ++ w', r')
  | Throw e => (w, Throw e)
  | Ub => (w, Ub)
  | Fuel => (w, Fuel)
  end.

(** ** Options *)
(** KanaConvert.h:53-54: the source, and the target and flags of the converter *)
Record Conv := MkConv { cSource : option CharType; cTarget : CharType; cFlags : ConvertFlags }.
(** Converter.h:40-41 *)
Definition noConv : Conv := MkConv None Hiragana FlagNone.
(** KanaConvert.cpp:278-280 setFlag *)
Definition setFlag (v : Conv) (f : ConvertFlags) : Conv := MkConv (cSource v) (cTarget v) (N.lor (cFlags v) f).
Definition setTarget (v : Conv) (t : CharType) : Conv := MkConv (cSource v) t (cFlags v).
Definition setSource (v : Conv) (t : CharType) : Conv := MkConv (Some t) (cTarget v) (cFlags v).
(** KanaConvert.cpp:163-177 charTypeArgs; [None] stands for false *)
Definition charTypeArgs (v : Conv) (arg : bytes) : option Conv :=
  match arg with
  | [_; c] =>
      if c =? 104 then Some (setTarget v Hiragana)
      else if c =? 107 then Some (setTarget v Katakana)
      else if c =? 114 then Some (setTarget v Romaji)
      else if c =? 72 then Some (setSource v Hiragana)
      else if c =? 75 then Some (setSource v Katakana)
      else if c =? 82 then Some (setSource v Romaji)
      else None
  | _ => None
  end.
(** KanaConvert.cpp:179-188 flagArgs; [None] stands for false *)
Definition flagArgs (v : Conv) (c : N) : option Conv :=
  if c =? 104 then Some (setFlag v FlagHepburn)
  else if c =? 107 then Some (setFlag v FlagKunrei)
  else if c =? 110 then Some (setFlag v FlagNoProlongMark)
  else if c =? 114 then Some (setFlag v FlagRemoveSpaces)
  else None.

(** KanaConvert.h:51 and KanaConvert.cpp:109-110: what the constructor collects *)
Record Prog := MkProg {
  pInteractive : bool; pSuppress : bool; pKana : bool; pMarkdown : bool;
  pConv : Conv; pStrings : list bytes
}.
Definition noProg : Prog := MkProg false false false false noConv [].
Definition withConv (p : Prog) (v : Conv) : Prog :=
  MkProg (pInteractive p) (pSuppress p) (pKana p) (pMarkdown p) v (pStrings p).
Definition withStrings (p : Prog) (l : list bytes) : Prog :=
  MkProg (pInteractive p) (pSuppress p) (pKana p) (pMarkdown p) (pConv p) (pStrings p ++ l).

(** arg.starts_with("-") *)
Definition dashed (s : bytes) : bool := match s with c :: _ => c =? 45 | [] => false end.
(** KanaConvert.cpp:140-161 processArg; [None] stands for false *)
Definition processArg (p : Prog) (arg : bytes) : out (option Prog) :=
  let setBool (q : Prog) : out (option Prog) :=
    if pInteractive p || pSuppress p || pKana p || pMarkdown p then Throw DomainError else Val (Some q) in
  if beq arg (b_ "-i") then setBool (MkProg true (pSuppress p) (pKana p) (pMarkdown p) (pConv p) (pStrings p))
  else if beq arg (b_ "-m") then setBool (MkProg (pInteractive p) (pSuppress p) (pKana p) true (pConv p) (pStrings p))
  else if beq arg (b_ "-n") then setBool (MkProg (pInteractive p) true (pKana p) (pMarkdown p) (pConv p) (pStrings p))
  else if beq arg (b_ "-p") then setBool (MkProg (pInteractive p) (pSuppress p) true (pMarkdown p) (pConv p) (pStrings p))
  else if dashed arg then
    match charTypeArgs (pConv p) arg with Some v => Val (Some (withConv p v)) | None => Throw DomainError end
  else Val None.

(** KanaConvert.cpp:113: the inner loop; the strings it adds and the index it ends with *)
Fixpoint restArgs (fuel : nat) (a : Args) (i : N) : out (list bytes * N) :=
  match fuel with
  | O => Fuel
  | S f =>
      let i := u16 (i + 1) in
      if i <? argc a then s <- argAt a i ;; '(l, j) <- restArgs f a i ;; Val (s :: l, j) else Val ([], i)
  end.
(** KanaConvert.cpp:111-122: the loop over the arguments; [None] stands for the usage message *)
Fixpoint readLoop (fuel : nat) (a : Args) (i : N) (p : Prog) : out (option Prog) :=
  match fuel with
  | O => Fuel
  | S f =>
      if i <? argc a then
        arg <- argAt a i ;;
        if beq arg (b_ "--") then
          '(l, j) <- restArgs f a i ;; readLoop f a (u16 (j + 1)) (withStrings p l)
        else if beq arg (b_ "-?") then Val None
        else if beq arg (b_ "-f") then
          let i := u16 (i + 1) in
          if argc a <=? i then Throw DomainError
          else
            arg <- argAt a i ;;
            match arg with
            | [c] => match flagArgs (pConv p) c with
                     | Some v => readLoop f a (u16 (i + 1)) (withConv p v)
                     | None => Throw DomainError
                     end
            | _ => Throw DomainError
            end
        else
          o <- processArg p arg ;;
          readLoop f a (u16 (i + 1)) (match o with Some q => q | None => withStrings p [arg] end)
      else Val (Some p)
  end.
Definition readProgram (fuel : nat) (a : Args) : out (option Prog) := readLoop fuel a 1 noProg.

(** ** Messages *)
(** KanaConvert.cpp:190-220 usage *)
Definition usageAll : bytes := b_ "usage: kanaConvert -i
       kanaConvert [-n] string ...
       kanaConvert -m|-p|-?
  -i: interactive mode
  -n: suppress newline on output (for non-interactive mode)
  -m: print Kana chart in 'Markdown' format and exit
  -p: print Kana chart aligned for terminal output and exit
  -?: prints this usage message
  --: finish options, subsequent args are treated as strings to convert
  string ...: one or more strings to convert, no strings means read stdin
  
options for setting conversion source and target types as well as conversion
related flags can also be specified:
  -f opt: set 'opt' (can use multiple times to combine options). Options are:
    h: conform Rōmaji output more closely to 'Modern Hepburn' style
    k: conform Rōmaji output more closely to 'Kunrei Shiki' style
    n: no prolonged marks (repeat vowels instead of 'ー' for Hiragana output)
    r: remove spaces on output (only applies to Hiragana and Katakana output)
".
Definition usage (showAllOptions : bool) : bytes :=
  (if showAllOptions then usageAll else []) ++ b_ "  -h: set conversion output to Hiragana"
  ++ (if showAllOptions then b_ " (default)" else []) ++ b_ "
  -k: set conversion output to Katakana
  -r: set conversion output to Rōmaji
  -H: restrict conversion input to Hiragana
  -K: restrict conversion input to Katakana
  -R: restrict conversion input to Rōmaji
".
(** KanaEnums.h:18-19 *)
Definition typeName (t : CharType) : bytes :=
  match t with Hiragana => b_ "Hiragana" | Katakana => b_ "Katakana" | Romaji => b_ "Romaji" end.
(** KanaConvert.cpp:247-254 printOptions *)
Definition optionsText (v : Conv) : bytes :=
  b_ ">>> current options: source=" ++ (match cSource v with Some t => typeName t | None => b_ "any" end)
  ++ b_ ", target=" ++ typeName (cTarget v) ++ b_ ", flags=" ++ flagString (cFlags v)
  ++ b_ "
>>> enter string (c=clear flags, f=set flag, q=quit, h=help, -k|-h|-r|-K|-H|-R):
".

(** ** Conversion *)
Section Convert.
(** see ConverterModel *)
Variable ltr : bool.
(** KanaConvert.cpp:274-276 convert *)
Definition convertText (v : Conv) (s : bytes) : out bytes :=
  match cSource v with
  | Some t => convertFrom (cTarget v) (cFlags v) ltr t s
  | None => convert (cTarget v) (cFlags v) ltr s
  end.
Definition sayText (v : Conv) (s : bytes) : W unit := wbind (lift (convertText v s)) say.

(** KanaConvert.cpp:226-233: the loop over the strings *)
Fixpoint sayStrings (v : Conv) (space : bool) (l : list bytes) : W unit :=
  match l with
  | [] => wret tt
  | s :: r =>
      wbind (if space then say (if ctEqb (cTarget v) Romaji then b_ " " else b_ "　") else wret tt) (fun _ =>
      let space := if space then true
                   else negb (ctEqb (cTarget v) Romaji) && negb (hasFlag (cFlags v) FlagRemoveSpaces) in
      wbind (sayText v s) (fun _ => sayStrings v space r))
  end.
(** KanaConvert.cpp:225-235 *)
Definition startStrings (v : Conv) (l : list bytes) : W unit :=
  wbind (sayStrings v false l) (fun _ => say [10]).

(** KanaConvert.cpp:258-259 *)
Definition flagChoices : Choices :=
  [(104, b_ "Hepburn"); (107, b_ "Kunrei"); (110, b_ "NoProlongMark"); (114, b_ "RemoveSpaces")].
Definition flagMessage : bytes := b_ ">>> enter flag option".
(** KanaConvert.cpp:263: the new options and the rest of the input.  The prompts that are written
    while nothing comes back are not part of the result when the fuel runs out. *)
Definition askFlag (fuel : nat) (v : Conv) (i : istream) : W (Conv * istream) :=
  match ChoiceModel.get fuel None flagMessage true flagChoices None i with
  | Val (c, i, w) => (w, Val (match flagArgs v c with Some v' => v' | None => v end, i))
  | Throw e => ([], Throw e)
  | Ub => ([], Ub)
  | Fuel => ([], Fuel)
  end.
(** KanaConvert.cpp:256-272 processLine: if the line has to be converted, options, input *)
Definition processLine (fuel : nat) (v : Conv) (line : bytes) (i : istream) : W (bool * Conv * istream) :=
  let next (w : bytes) (v : Conv) (i : istream) : W (bool * Conv * istream) :=
    wbind (say (w ++ optionsText v)) (fun _ => wret (false, v, i)) in
  match line with
  | [] => wret (false, v, i)
  | _ =>
      if beq line (b_ "c") then next [] (MkConv (cSource v) (cTarget v) FlagNone) i
      else if beq line (b_ "f") then wbind (askFlag fuel v i) (fun '(v, i) => next [] v i)
      else if beq line (b_ "h") then next (usage false) v i
      else if dashed line then
        match charTypeArgs v line with
        | Some v => next [] v i
        | None => next (b_ "  illegal option: " ++ line ++ [10]) v i
        end
      else wret (true, v, i)
  end.
(** std::getline: false when there is nothing to read *)
Definition getlineOk (i : istream) : bool := negb (inEof i) && negb (len (inRest i) =? 0).
(** KanaConvert.cpp:240-244: the loop over the lines *)
Fixpoint inputLoop (fuel : nat) (interactive suppress : bool) (v : Conv) (i : istream) : W unit :=
  match fuel with
  | O => ([], Fuel)
  | S f =>
      if getlineOk i then
        let '(line, i) := getline i [] in
        if beq line (b_ "q") then wret tt
        else
          wbind (if interactive then processLine f v line i else wret (true, v, i)) (fun '(text, v, i) =>
          wbind (if text : bool then wbind (sayText v line) (fun _ => if suppress then wret tt else say [10]) else wret tt)
            (fun _ => inputLoop f interactive suppress v i))
      else wret tt
  end.
(** KanaConvert.cpp:238-245 getInput *)
Definition getInput (fuel : nat) (interactive suppress : bool) (v : Conv) (i : istream) : W unit :=
  wbind (if interactive then say (optionsText v) else wret tt) (fun _ => inputLoop fuel interactive suppress v i).
End Convert.

(** ** The chart *)
(** KanaConvert.cpp:12-32 KanaCount: Dakuten, HanDakuten, plain and small; the counters are uint16_t *)
Record KanaCount := MkCount { kcDakuten : N; kcHanDakuten : N; kcPlain : N; kcSmall : N }.
Definition countKana (c : KanaCount) (k : Kana) : KanaCount :=
  if isSmall (kd k) then MkCount (kcDakuten c) (kcHanDakuten c) (kcPlain c) (u16 (kcSmall c + 1))
  else if isDakuten k then MkCount (u16 (kcDakuten c + 1)) (kcHanDakuten c) (kcPlain c) (kcSmall c)
  else if isHanDakuten k then MkCount (kcDakuten c) (u16 (kcHanDakuten c + 1)) (kcPlain c) (kcSmall c)
  else MkCount (kcDakuten c) (kcHanDakuten c) (u16 (kcPlain c + 1)) (kcSmall c).
Definition countTotal (c : KanaCount) : N := kcDakuten c + kcHanDakuten c + kcPlain c + kcSmall c.
(** KanaConvert.cpp:34-39 operator<<; the width that is set applies to the first number *)
Definition countText (width : Z) (c : KanaCount) : bytes :=
  putSetw false 32 width (to_string (countTotal c)) ++ b_ " (Plain=" ++ to_string (kcPlain c)
  ++ b_ ", Dakuten=" ++ to_string (kcDakuten c) ++ b_ ", HanDakuten=" ++ to_string (kcHanDakuten c)
  ++ (if kcSmall c =? 0 then [] else b_ ", Small=" ++ to_string (kcSmall c)) ++ b_ ")".
(** KanaConvert.cpp:41-62 printChartHeader *)
Definition chartHeader (markdown : bool) : bytes :=
  (if markdown then b_ "**Notes:**" ++ [10] else b_ ">>> Notes:") ++ b_ "
- Column names use some abbreviations: 'Roma' = Rōmaji, 'Hira' = Hiragana,
  'Kata' = Katakana, 'Uni' = Unicode, 'Hepb' = Hepburn, 'Kunr' = Kunrei
- 'Roma' is mainly 'Modern Hepburn', but can be 'Nihon Shiki' or 'Wāpuro'
- 'Hepb' and 'Kunr' are only populated when they would produce different output
  - Values in () means 'output-only' since inputting leads to a different Kana
- 'Roma Variants' are alternative key combinations that lead to the same Kana
- When populated, 'Roma', 'Hira' and 'Kata' columns are unique (no duplicates)
- Unicode values are only shown for 'monograph' (single-symbol) entries
- Some 'digraphs' may not be in any 'official words', but are supported by IMEs
- Chart output is sorted by Hiragana, so 'a, ka, sa, ta, na, ...' ordering
- Katakana 'dakuten w' (ヷ, ヸ, ヹ, ヺ) aren't supported (no conversions exist)
- Type values: P=Plain Kana, D=Dakuten (濁点), H=HanDakuten (半濁点), N=None
- Type 'N' includes:
  - Middle Dot/Interpunct (・): maps to Rōmaji '/' to match IME keyboard entry
  - Prolong Mark (ー): convert to/from macrons (ā, ī, ū, ē, ō)
  - Repeat symbols (ゝ, ゞ, ヽ, ヾ): only supported when 'target' is Rōmaji
" ++ (if markdown then [10] else []).
(** KanaConvert.cpp:64-90 printChartFooter *)
Definition chartFooter (markdown : bool) (romajiVariants : N) (monographs digraphs : KanaCount) : bytes :=
  let head (s : bytes) := if markdown then b_ "- **" ++ s ++ b_ ":** " else putSetw false 32 10 s ++ b_ ": " in
  let width : Z := if markdown then 0%Z else 3%Z in
  let first (n : N) := putSetw false 32 width (to_string n) in
  let plain := kcSmall monographs + kcPlain monographs + kcPlain digraphs in
  let dakuten := kcDakuten monographs + kcDakuten digraphs in
  let hanDakuten := kcHanDakuten monographs + kcHanDakuten digraphs in
  [10] ++ (if markdown then b_ "**Totals:**" ++ [10] else b_ ">>> Totals:") ++ [10]
  ++ head (b_ "Monographs") ++ countText width monographs ++ [10]
  ++ head (b_ "Digraphs") ++ countText width digraphs ++ [10]
  ++ head (b_ "All Kana") ++ first (countTotal monographs + countTotal digraphs)
  ++ b_ " (Monographs=" ++ to_string (countTotal monographs) ++ b_ ", Digraphs=" ++ to_string (countTotal digraphs)
  ++ b_ "), Rōmaji Variants=" ++ to_string romajiVariants ++ [10]
  ++ head (b_ "Types") ++ first (plain + dakuten + hanDakuten + 4) ++ b_ " (P=" ++ to_string plain
  ++ b_ ", D=" ++ to_string dakuten ++ b_ ", H=" ++ to_string hanDakuten
  ++ b_ ", N=4), N types aren't included in 'All Kana'
".
(** KanaConvert.cpp:92-96 getHepburn *)
Definition getHepburn (k : KanaData) : bytes :=
  let h := getRomaji k FlagHepburn in if beq (romaji k) h then [] else addBrackets h Round.
(** KanaConvert.cpp:98-103 getKunrei *)
Definition getKunrei (k : KanaData) : bytes :=
  let x := getRomaji k FlagKunrei in
  if beq (romaji k) x then [] else if vKunrei (variants k) then x else addBrackets x Round.
(** the keys of a std::map in order: bytes compared one by one *)
Fixpoint bltb (a b : bytes) : bool :=
  match a, b with
  | _, [] => false
  | [], _ => true
  | x :: a, y :: b => if x <? y then true else if y <? x then false else bltb a b
  end.
Fixpoint insertSorted (e : bytes * Kana) (m : KMap) : KMap :=
  match m with
  | [] => [e]
  | x :: r => if bltb (fst e) (fst x) then e :: m else x :: insertSorted e r
  end.
Definition sortedMap (m : KMap) : KMap := fold_right insertSorted [] m.
(** KanaConvert.cpp:302-306 *)
Fixpoint variantsText (l : list bytes) : bytes :=
  match l with [] => [] | [s] => s | s :: r => s ++ b_ ", " ++ variantsText r end.
Definition chartGroups : list bytes :=
  [b_ "la"; b_ "ka"; b_ "sa"; b_ "ta"; b_ "na"; b_ "ha"; b_ "ma"; b_ "lya"; b_ "ra"; b_ "lwa"].
(** KanaConvert.cpp:308-310 *)
Definition getUni (k : KanaData) (s : bytes) : out bytes :=
  if isMonograph k then toUnicode_string s NoBrackets else Val [].
(** KanaConvert.cpp:296-313: the row of one Kana *)
Definition chartRow (k : Kana) : out (list bytes) :=
  let d := kd k in
  h <- getUni d (hira d) ;;
  t <- getUni d (kata d) ;;
  Val [if isDakuten k then b_ "D" else if isHanDakuten k then b_ "H" else b_ "P"; romaji d; hira d; kata d; h; t;
       getHepburn d; getKunrei d; variantsText (vList (variants d))].
Fixpoint chartLoop (m : KMap) (t : Table) (vars : N) (mono di : KanaCount) : out (Table * N * KanaCount * KanaCount) :=
  match m with
  | [] => Val (t, vars, mono, di)
  | (_, k) :: r =>
      row <- chartRow k ;;
      let '(mono, di) := if isMonograph (kd k) then (countKana mono k, di) else (mono, countKana di k) in
      chartLoop r (addRow t row (existsb (beq (romaji (kd k))) chartGroups))
        (vars + len (vList (variants (kd k)))) mono di
  end.
Definition noCount : KanaCount := MkCount 0 0 0 0.
Definition chartTitle : list bytes :=
  [b_ "No."; b_ "Type"; b_ "Roma"; b_ "Hira"; b_ "Kata"; b_ "HUni"; b_ "KUni"; b_ "Hepb"; b_ "Kunr"; b_ "Roma Variants"].
(** KanaConvert.cpp:282-323: the table, the number of variants and the counts *)
Definition chartTable : out (Table * N * KanaCount * KanaCount) :=
  '(t, vars, mono, di) <- chartLoop (sortedMap (getMap Hiragana)) (newTable chartTitle true) 0 noCount noCount ;;
  dot <- toUnicode_string (b_ "・") NoBrackets ;;
  let t := addRow t [b_ "N"; b_ "/"; []; b_ "・"; []; dot] true in
  mark <- toUnicode_string ProlongMark NoBrackets ;;
  let t := addRow t [b_ "N"; []; []; ProlongMark; []; mark] false in
  ph <- toUnicode_string (imHira RepeatPlain) NoBrackets ;;
  pk <- toUnicode_string (imKata RepeatPlain) NoBrackets ;;
  let t := addRow t [b_ "N"; []; imHira RepeatPlain; imKata RepeatPlain; ph; pk] false in
  ah <- toUnicode_string (imHira RepeatAccented) NoBrackets ;;
  ak <- toUnicode_string (imKata RepeatAccented) NoBrackets ;;
  let t := addRow t [b_ "N"; []; imHira RepeatAccented; imKata RepeatAccented; ah; ak] false in
  Val (t, vars, mono, di).
(** KanaConvert.cpp:282-326 printKanaChart *)
Definition printKanaChart (markdown : bool) : W unit :=
  wbind (say (chartHeader markdown)) (fun _ =>
  wbind (lift chartTable) (fun '(t, vars, mono, di) =>
  wbind (if markdown then say (printMarkdown t) else wbind (lift (print t)) say) (fun _ =>
  say (chartFooter markdown vars mono di)))).

(** ** The program *)
(** KanaConvert.cpp:107-138: the constructor; [terminal] stands for [_in || isatty(fileno(stdin))] *)
Definition program (ltr : bool) (fuel : nat) (a : Args) (terminal : bool) (i : istream) : W unit :=
  wbind (lift (readProgram fuel a)) (fun o =>
  match o with
  | None => say (usage true)
  | Some p =>
      match pStrings p with
      | _ :: _ =>
          if pInteractive p || pKana p || pMarkdown p then lift (Throw DomainError)
          else startStrings ltr (pConv p) (pStrings p)
      | [] =>
          if pKana p || pMarkdown p then printKanaChart (pMarkdown p)
          else if terminal && negb (pInteractive p) then lift (Throw DomainError)
          else getInput ltr fuel (pInteractive p) (pSuppress p) (pConv p) i
      end
  end).
