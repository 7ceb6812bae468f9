(** Specification of the program kanaConvert, from its usage message. *)
From Verif Require Export ProgramModel JoinSpec.
Open Scope N_scope.

(** ** The command line *)
Inductive mode := MInteractive | MMarkdown | MNoNewline | MChart.
(** what can be said on the command line *)
Inductive item := IMode (m : mode) | ITarget (t : CharType) | ISource (t : CharType) | IFlag (bit : N) | IText (s : bytes).
(** the letters of targets, sources and flags; flags are numbered *)
Inductive target_letter : N -> CharType -> Prop :=
| tl_h : target_letter 104 Hiragana | tl_k : target_letter 107 Katakana | tl_r : target_letter 114 Romaji.
Inductive source_letter : N -> CharType -> Prop :=
| sl_h : source_letter 72 Hiragana | sl_k : source_letter 75 Katakana | sl_r : source_letter 82 Romaji.
Inductive flag_letter : N -> N -> Prop :=
| fl_h : flag_letter 104 0 | fl_k : flag_letter 107 1 | fl_n : flag_letter 110 2 | fl_r : flag_letter 114 3.
(** how it is said *)
Inductive said : item -> list bytes -> Prop :=
| said_i : said (IMode MInteractive) [b_ "-i"]
| said_m : said (IMode MMarkdown) [b_ "-m"]
| said_n : said (IMode MNoNewline) [b_ "-n"]
| said_p : said (IMode MChart) [b_ "-p"]
| said_target : forall c t, target_letter c t -> said (ITarget t) [[45; c]]
| said_source : forall c t, source_letter c t -> said (ISource t) [[45; c]]
| said_flag : forall c n, flag_letter c n -> said (IFlag n) [b_ "-f"; [c]]
| said_text : forall s, hd_error s <> Some 45 -> said (IText s) [s].
Inductive spells : list item -> list bytes -> Prop :=
| sp_nil : spells [] []
| sp_cons : forall x a is l, said x a -> spells is l -> spells (x :: is) (a ++ l).

Definition modes (is : list item) : list mode := flat_map (fun x => match x with IMode m => [m] | _ => [] end) is.
Definition targets (is : list item) : list CharType := flat_map (fun x => match x with ITarget t => [t] | _ => [] end) is.
Definition sources (is : list item) : list CharType := flat_map (fun x => match x with ISource t => [t] | _ => [] end) is.
Definition texts (is : list item) : list bytes := flat_map (fun x => match x with IText s => [s] | _ => [] end) is.
(** the last target counts, the last source counts, flags add up *)
Definition conv_of (is : list item) (v : Conv) : Prop :=
  cTarget v = last (targets is) Hiragana
  /\ cSource v = last (map Some (sources is)) None
  /\ forall n, N.testbit (cFlags v) n = true <-> In (IFlag n) is.

(** what the program is asked to do *)
Inductive task := TUsage | TStrings (v : Conv) (l : list bytes) | TChart (markdown : bool)
| TInput (interactive newline : bool) (v : Conv).
(** the arguments [l]: options and texts [is], and the list of all texts *)
Definition asks (l : list bytes) (is : list item) (ss : list bytes) : Prop :=
  (length (modes is) <= 1)%nat
  /\ ((spells is l /\ ss = texts is)
      \/ exists l1 r, l = l1 ++ b_ "--" :: r /\ spells is l1 /\ ss = texts is ++ r).
Inductive command (terminal : bool) : list bytes -> task -> Prop :=
| cmd_usage : forall is l r, (length (modes is) <= 1)%nat -> spells is l -> command terminal (l ++ b_ "-?" :: r) TUsage
| cmd_strings : forall is l ss v, asks l is ss -> ss <> [] -> modes is = [] \/ modes is = [MNoNewline] -> conv_of is v ->
    command terminal l (TStrings v ss)
| cmd_chart : forall is l, asks l is [] -> modes is = [MChart] -> command terminal l (TChart false)
| cmd_markdown : forall is l, asks l is [] -> modes is = [MMarkdown] -> command terminal l (TChart true)
| cmd_interactive : forall is l v, asks l is [] -> modes is = [MInteractive] -> conv_of is v ->
    command terminal l (TInput true true v)
| cmd_input : forall is l v, terminal = false -> asks l is [] -> modes is = [] -> conv_of is v ->
    command terminal l (TInput false true v)
| cmd_input_n : forall is l v, terminal = false -> asks l is [] -> modes is = [MNoNewline] -> conv_of is v ->
    command terminal l (TInput false false v).

(** ** Texts *)
(** [o] is the conversion of [s] *)
Definition converted (ltr : bool) (v : Conv) (s o : bytes) : Prop :=
  match cSource v with
  | Some t => convertFrom (cTarget v) (cFlags v) ltr t s = Val o
  | None => convert (cTarget v) (cFlags v) ltr s = Val o
  end.
(** the documented separator: a space in the width of the output, unless spaces are to be removed
    from Kana *)
Definition documented_separator (v : Conv) : bytes :=
  match cTarget v with
  | Romaji => b_ " "
  | _ => if N.testbit (cFlags v) 3 then [] else b_ "　"
  end.
(** the one that is used *)
Definition separator (v : Conv) : bytes :=
  match cTarget v with Romaji => [] | _ => if N.testbit (cFlags v) 3 then [] else b_ "　" end.

(** ** Lines of input *)
Inductive lines : bytes -> list bytes -> Prop :=
| ln_nil : lines [] []
| ln_last : forall l, l <> [] -> ~ In 10 l -> lines l [l]
| ln_cons : forall l s ls, ~ In 10 l -> lines s ls -> lines (l ++ 10 :: s) (l :: ls).

(** the line that shows the options *)
Definition options_shown (v : Conv) : bytes :=
  b_ ">>> current options: source="
  ++ match cSource v with None => b_ "any" | Some Hiragana => b_ "Hiragana" | Some Katakana => b_ "Katakana" | Some Romaji => b_ "Romaji" end
  ++ b_ ", target=" ++ match cTarget v with Hiragana => b_ "Hiragana" | Katakana => b_ "Katakana" | Romaji => b_ "Romaji" end
  ++ b_ ", flags=" ++ (if cFlags v =? 0 then b_ "None"
      else separated (b_ "|") (map snd (filter (fun p => N.testbit (cFlags v) (fst p))
           [(0, b_ "Hepburn"); (1, b_ "Kunrei"); (2, b_ "NoProlongMark"); (3, b_ "RemoveSpaces")])))
  ++ [10] ++ b_ ">>> enter string (c=clear flags, f=set flag, q=quit, h=help, -k|-h|-r|-K|-H|-R):" ++ [10].
Definition flag_prompt : bytes :=
  b_ ">>> enter flag option (h=Hepburn, k=Kunrei, n=NoProlongMark, r=RemoveSpaces): ".
Definition short_help : bytes := b_ "  -h: set conversion output to Hiragana
  -k: set conversion output to Katakana
  -r: set conversion output to Rōmaji
  -H: restrict conversion input to Hiragana
  -K: restrict conversion input to Katakana
  -R: restrict conversion input to Rōmaji
".
Definition answers_flag (s : bytes) : Prop := exists c n, s = [c] /\ flag_letter c n.
Definition is_type_option (s : bytes) : Prop := exists c t, s = [45; c] /\ (target_letter c t \/ source_letter c t).

(** one step of a session: what is done with the first lines, what it prints, new options and the
    lines that are left *)
Inductive step (ltr interactive newline : bool) (v : Conv) : list bytes -> bytes -> Conv -> list bytes -> Prop :=
| st_text : forall s o r, s <> b_ "q" ->
    (interactive = true -> s <> [] /\ s <> b_ "c" /\ s <> b_ "f" /\ s <> b_ "h" /\ hd_error s <> Some 45) ->
    converted ltr v s o -> step ltr interactive newline v (s :: r) (o ++ if newline then [10] else []) v r
| st_empty : forall r, interactive = true -> step ltr interactive newline v ([] :: r) [] v r
| st_clear : forall r v', interactive = true -> v' = MkConv (cSource v) (cTarget v) 0 ->
    step ltr interactive newline v (b_ "c" :: r) (options_shown v') v' r
| st_help : forall r, interactive = true ->
    step ltr interactive newline v (b_ "h" :: r) (short_help ++ options_shown v) v r
| st_target : forall c t r v', interactive = true -> target_letter c t -> v' = MkConv (cSource v) t (cFlags v) ->
    step ltr interactive newline v ([45; c] :: r) (options_shown v') v' r
| st_source : forall c t r v', interactive = true -> source_letter c t -> v' = MkConv (Some t) (cTarget v) (cFlags v) ->
    step ltr interactive newline v ([45; c] :: r) (options_shown v') v' r
| st_illegal : forall s r, interactive = true -> hd_error s = Some 45 -> ~ is_type_option s ->
    step ltr interactive newline v (s :: r) (b_ "  illegal option: " ++ s ++ [10] ++ options_shown v) v r
| st_flag : forall others c n r v', interactive = true -> Forall (fun s => ~ answers_flag s) others -> flag_letter c n ->
    v' = MkConv (cSource v) (cTarget v) (N.setbit (cFlags v) n) ->
    step ltr interactive newline v (b_ "f" :: others ++ [c] :: r)
      (concat (repeat flag_prompt (S (length others))) ++ options_shown v') v' r.
Inductive steps (ltr interactive newline : bool) (v : Conv) : list bytes -> bytes -> Conv -> list bytes -> Prop :=
| sts_none : forall ls, steps ltr interactive newline v ls [] v ls
| sts_one : forall ls w v' ls' w' v'' ls'', step ltr interactive newline v ls w v' ls' ->
    steps ltr interactive newline v' ls' w' v'' ls'' -> steps ltr interactive newline v ls (w ++ w') v'' ls''.
(** a session that ends: with the input or with "q" *)
Definition session (ltr interactive newline : bool) (v : Conv) (ls : list bytes) (w : bytes) : Prop :=
  exists v' ls', steps ltr interactive newline v ls w v' ls' /\ (ls' = [] \/ exists r, ls' = b_ "q" :: r).
(** a session whose input ends while a flag is asked for *)
Definition waits (ltr interactive newline : bool) (v : Conv) (ls : list bytes) : Prop :=
  interactive = true /\ exists w v' others, steps ltr interactive newline v ls w v' (b_ "f" :: others)
    /\ Forall (fun s => ~ answers_flag s) others.
