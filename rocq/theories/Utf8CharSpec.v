(** What iterating over the characters of a string means, independent of the code. *)
From Verif Require Export Base Utf8Spec BlockSpec.
Open Scope N_scope.

(** Any byte string read from left to right: well-formed characters, and single bytes
    where no well-formed character starts. *)
Inductive element := Good (c : N) | Bad (b : N).
Inductive parse : bytes -> list element -> Prop :=
| parse_nil : parse [] []
| parse_good : forall c s es, scalar c -> parse s es -> parse (enc c ++ s) (Good c :: es)
| parse_bad : forall b s es, ~ (exists c r, scalar c /\ b :: s = enc c ++ r) ->
    parse s es -> parse (b :: s) (Bad b :: es).

(** Unicode's canonical compositions with U+3099 (voiced) and U+309A (semi-voiced). *)
Definition plain_voiced : list N :=  (* かきくけこさしすせそたちつてと はひふへほ *)
  [0x304B; 0x304D; 0x304F; 0x3051; 0x3053; 0x3055; 0x3057; 0x3059; 0x305B; 0x305D; 0x305F;
   0x3061; 0x3064; 0x3066; 0x3068; 0x306F; 0x3072; 0x3075; 0x3078; 0x307B].
Definition plain_semi_voiced : list N := [0x306F; 0x3072; 0x3075; 0x3078; 0x307B].
Definition mem (c : N) (l : list N) : bool := existsb (N.eqb c) l.
Definition shift (l : list N) : list N := map (fun c => c + 0x60) l. (* to Katakana *)
Definition composition (c m : N) : option N :=
  if m =? 0x3099 then
    if mem c (plain_voiced ++ shift plain_voiced) then Some (c + 1)
    else if mem c [0x3046; 0x30A6] then Some (c + 0x4E)              (* う ウ *)
    else if mem c [0x309D; 0x30FD] then Some (c + 1)                 (* ゝ ヽ *)
    else if mem c [0x30EF; 0x30F0; 0x30F1; 0x30F2] then Some (c + 8) (* ワ ヰ ヱ ヲ *)
    else None
  else if m =? 0x309A then
    if mem c (plain_semi_voiced ++ shift plain_semi_voiced) then Some (c + 2) else None
  else None.
(** the compositions the project supports: not those of iteration marks and of ワ to ヲ *)
Definition supported (c : N) : bool := negb (mem c [0x309D; 0x30FD; 0x30EF; 0x30F0; 0x30F1; 0x30F2]).
Definition folded (c m : N) : option N := if supported c then composition c m else None.

(** What one step of the iteration can find. *)
Inductive item :=
| Ascii (c : N)
| Plain (c : N)                 (** a multi-byte character on its own *)
| WithSelector (c v : N)        (** one followed by a variation selector *)
| Folded (c m d : N)            (** one folded with the combining mark [m] to [d] *)
| DroppedMark (c m : N)         (** one followed by a mark it does not go with *)
| Stray (c : N)                 (** a selector or mark with nothing to go with *)
| Malformed (b : N).            (** a byte that is not part of a character *)

Definition is_selector (c : N) : bool := (0xFE00 <=? c) && (c <=? 0xFE0F).
Definition is_mark (c : N) : bool := (c =? 0x3099) || (c =? 0x309A).

Fixpoint items (es : list element) : list item :=
  match es with
  | [] => []
  | Bad b :: r => Malformed b :: items r
  | Good c :: r =>
      if c <? 0x80 then Ascii c :: items r
      else if is_selector c || is_mark c then Stray c :: items r
      else match r with
           | Good d :: r' =>
               if is_selector d then WithSelector c d :: items r'
               else if is_mark d then
                 (match folded c d with Some x => Folded c d x | None => DroppedMark c d end) :: items r'
               else Plain c :: items r
           | _ => Plain c :: items r
           end
  end.

(** the value a step yields, if any *)
Definition shown (onlyMB : bool) (i : item) : option bytes :=
  match i with
  | Ascii c => if onlyMB then None else Some [c]
  | Plain c => Some (enc c)
  | WithSelector c v => Some (enc c ++ enc v)
  | Folded c m d => Some (enc d)
  | DroppedMark c m => Some (enc c)
  | Stray _ | Malformed _ => None
  end.
Definition yields (onlyMB : bool) (its : list item) : list bytes :=
  flat_map (fun i => match shown onlyMB i with Some x => [x] | None => [] end) its.

Definition count {A} (f : A -> bool) (l : list A) : N := len (filter f l).
Definition is_error (i : item) : bool :=
  match i with DroppedMark _ _ | Stray _ | Malformed _ => true | _ => false end.
Definition is_variant (i : item) : bool := match i with WithSelector _ _ => true | _ => false end.
Definition is_combined (i : item) : bool := match i with Folded _ _ _ => true | _ => false end.

(** Text in which nothing has to be folded or dropped: every selector directly follows a
    multi-byte character and there are no combining marks. *)
Definition ordinary (c : N) : Prop := 0x80 <= c /\ is_selector c = false /\ is_mark c = false.
Inductive clean : list N -> Prop :=
| clean_nil : clean []
| clean_ascii : forall c r, c < 0x80 -> clean r -> clean (c :: r)
| clean_char : forall c r, ordinary c -> clean r -> clean (c :: r)
| clean_selected : forall c v r, ordinary c -> is_selector v = true -> clean r -> clean (c :: v :: r).
