(** Specification of choices. *)
From Coq Require Export Sorted.
From Verif Require Export ColumnFileSpec ChoiceModel.
Open Scope N_scope.

Definition printable (c : N) : Prop := 32 <= c <= 126.
(** a std::map: every key once, in order *)
Definition is_map (m : Choices) : Prop := StronglySorted N.lt (map fst m).

(** the choices a user has: the ones given, and the quit option if it is used *)
Definition offered (q : Quit) (useQuit : bool) (choices : Choices) (e : N * bytes) : Prop :=
  In e choices \/ (useQuit = true /\ q = Some e).
Definition allowed (q : Quit) (useQuit : bool) (choices : Choices) (c : N) : Prop := exists d, offered q useQuit choices (c, d).

(** requests that make sense *)
Definition valid_request (q : Quit) (useQuit : bool) (choices : Choices) (def : option N) : Prop :=
  (forall c d, q = Some (c, d) -> ~ In c (map fst choices))
  /\ (exists c, allowed q useQuit choices c)
  /\ (forall c, allowed q useQuit choices c -> printable c)
  /\ (forall c, def = Some c -> allowed q useQuit choices c).

(** the lines still to be read; the last one (maybe empty) has no line feed after it *)
Definition lines_left (i : istream) (ls : list bytes) : Prop :=
  if inEof i then ls = [] else has_fields 10 (inRest i) ls.

(** [line] answers the question with [c] *)
Definition answers (ok : N -> Prop) (def : option N) (line : bytes) (c : N) : Prop :=
  (line = [c] /\ ok c) \/ (line = [] /\ def = Some c).
(** line [k] is the first one that is an answer *)
Definition first_answer (ok : N -> Prop) (def : option N) (ls : list bytes) (k : nat) (c : N) : Prop :=
  (exists l, nth_error ls k = Some l /\ answers ok def l c)
  /\ (forall j l x, (j < k)%nat -> nth_error ls j = Some l -> ~ answers ok def l x).
Definition no_answer (ok : N -> Prop) (def : option N) (ls : list bytes) : Prop :=
  forall l c, In l ls -> ~ answers ok def l c.

(** the prompt lists the choices in groups *)
Inductive group := Single (c : N) | Span (a b : N) | Described (c : N) (d : bytes).
Definition span (a b : N) : list N := map (fun k => a + N.of_nat k) (seq 0 (N.to_nat (b + 1 - a))).
Definition group_text (g : group) : bytes :=
  match g with Single c => [c] | Span a b => [a] ++ b_ "-" ++ [b] | Described c d => [c] ++ b_ "=" ++ d end.
Definition group_choices (g : group) : Choices :=
  match g with Single c => [(c, [])] | Span a b => map (fun c => (c, [])) (span a b) | Described c d => [(c, d)] end.
Definition group_ok (g : group) : Prop :=
  match g with Single _ => True | Span a b => a < b | Described _ d => d <> [] end.
(** the groups cannot be made larger *)
Definition apart (g h : group) : Prop :=
  match g, h with
  | Described _ _, _ => True
  | _, Described _ _ => True
  | Single a, Single b => a + 1 < b
  | Single a, Span b _ => a + 1 < b
  | Span _ a, Single b => a + 1 < b
  | Span _ a, Span b _ => a + 1 < b
  end.
Fixpoint all_apart (gs : list group) : Prop :=
  match gs with
  | [] => True
  | g :: r => group_ok g /\ (match r with h :: _ => apart g h | [] => True end) /\ all_apart r
  end.
Definition listed (gs : list group) : bytes :=
  match gs with [] => [] | g :: r => group_text g ++ flat_map (fun g => b_ ", " ++ group_text g) r end.
Definition prompt_text (msg : bytes) (gs : list group) (def : option N) : bytes :=
  (match msg with [] => [] | _ => msg ++ b_ " " end) ++ b_ "(" ++ listed gs
  ++ (match def with Some d => b_ ") def '" ++ [d] ++ b_ "': " | None => b_ "): " end).
