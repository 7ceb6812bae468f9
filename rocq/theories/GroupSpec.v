(** Specification of groups and group quizzes.  A group quiz is a table on which every key has one
    effect; what is shown and asked depends on the table alone. *)
From Verif Require Export QuizSpec GroupModel.
Open Scope N_scope.

(** * Groups *)

(** two to 58 members with different names *)
Definition proper_members (l : list QKanji) : Prop := 2 <= len l <= 58 /\ NoDup (map qName l).

(** * Letters *)

(** the letter beside the reading at place [j]: a to z, then the characters from A on *)
Definition letter (j : nat) : N := if (j <? 26)%nat then 97 + N.of_nat j else 65 + N.of_nat (j - 26).
Definition letters (n : nat) : list N := map letter (seq 0 n).
Definition member (c : N) (l : list N) : bool := existsb (N.eqb c) l.
(** the reading beside a letter *)
Definition beside (rs : list QKanji) (c : N) : option QKanji :=
  match find (fun p => fst p =? c) (combine (letters (length rs)) rs) with Some p => Some (snd p) | None => None end.
(** the place of a letter on the answer sheet *)
Definition place (sheet : list N) (c : N) : option nat :=
  match find (fun p => snd p =? c) (combine (seq 0 (length sheet)) sheet) with Some p => Some (fst p) | None => None end.
(** the sheet with a new letter at place [e] *)
Definition replaced (sheet : list N) (e : nat) (c : N) : list N := firstn e sheet ++ c :: skipn (S e) sheet.

(** ** Right answers *)
Definition matches (shown : bool) (q r : QKanji) : bool :=
  beq (qReading q) (qReading r) && (negb shown || beq (qMeaning q) (qMeaning r)).
Definition fitting (shown : bool) (rs : list QKanji) (p : QKanji * N) : bool :=
  match beside rs (snd p) with Some r => matches shown (fst p) r | None => false end.
(** how many letters on the sheet stand beside the right reading *)
Definition points (shown : bool) (qs rs : list QKanji) (sheet : list N) : N :=
  len (filter (fitting shown rs) (combine qs sheet)).

(** * The table *)

(** what the next key is for: an answer or a command, the answer to edit, or its new letter *)
Inductive phase := Choosing | Picking | Replacing (e : nat).

Section Table.
Variable R : Type.
Variable shuffle : list QKanji -> R -> list QKanji * R.
Variable l : Launcher.
Variable m : MemberType.
Variable gs : list Group.
(** what is shown of a member *)
Variable entry : QKanji -> bytes.
Notation quiz := (isQuizMode l).
Notation total := (len gs).

Record table := MkTable {
  tPos : N;              (* the position of the group *)
  tShown : bool;         (* meanings are shown *)
  tQuestions : list QKanji; tReadings : list QKanji;  (* the members, on the left and on the right *)
  tSheet : list N;       (* the letters given so far *)
  tPhase : phase;
  tRight : N;            (* groups answered without a mistake *)
  tWrong : list bytes;   (* names of the others that were answered *)
  tQuit : bool;
  tRng : R
}.
Definition finished (t : table) : bool := tQuit t || (total <=? tPos t).
Definition groupAt (t : table) : option Group := nth_error gs (N.to_nat (tPos t)).
Definition size (t : table) : nat := length (tQuestions t).

(** ** Texts *)
Definition to_right (n : nat) (s : bytes) : bytes := repeat 32 (n - length s) ++ s.
Definition number (j : nat) : bytes := to_string (N.of_nat (S j)).
Definition assigned (sheet : list N) (c : N) : bytes :=
  match place sheet c with Some j => to_right 2 (number j) ++ b_ "->" | None => b_ "    " end.
Definition row (shown : bool) (sheet : list N) (j : nat) (q r : QKanji) : bytes :=
  let c := if quiz then letter j else 32 in
  to_right 4 (number j) ++ b_ ":  " ++ entry q ++ assigned sheet c ++ [c] ++ b_ ":  " ++ qReading r ++ meaning_text true shown r.
Fixpoint rows (shown : bool) (sheet : list N) (j : nat) (qs rs : list QKanji) : bytes :=
  match qs, rs with
  | q :: qs', r :: rs' => row shown sheet j q r ++ rows shown sheet (S j) qs' rs'
  | _, _ => newline
  end.
(** the name of a group; only the groups of peers show their first member *)
Definition title (g : Group) : bytes :=
  match gPattern g with
  | Peer => b_ "[Peers " ++ match gMembers g with k :: _ => kName (qKanji k) | [] => [] end ++ gName g ++ b_ "]"
  | Family | Reading | NoPattern => b_ "[" ++ gName g ++ b_ "]"
  end.
Definition heading (t : table) : bytes :=
  newline ++ (if quiz then b_ "Question " else []) ++ to_string (tPos t + 1) ++ b_ "/" ++ to_string total ++ b_ ":  "
  ++ (match groupAt t with
      | Some g => title g ++ b_ ", "
                  ++ (if (size t =? length (gMembers g))%nat then [] else b_ "showing ")
                  ++ to_string (N.of_nat (size t))
                  ++ (if (size t =? length (gMembers g))%nat then [] else b_ " out of " ++ to_string (len (gMembers g)))
      | None => []
      end) ++ b_ " members" ++ newline.
Definition painted (t : table) : bytes := heading t ++ rows (tShown t) (tSheet t) 0 (tQuestions t) (tReadings t).
Definition sheet_text (sheet : list N) : bytes :=
  match sheet with
  | [] => []
  | _ => b_ "   " ++ flat_map (fun p => b_ " " ++ number (fst p) ++ b_ "->" ++ [snd p]) (combine (seq 0 (length sheet)) sheet) ++ newline
  end.

(** ** What is asked *)

(** the choices among the characters that satisfy [p] *)
Definition listing (p : N -> bool) (d : N -> bytes) : Choices := map (fun c => (c, d c)) (filter p (map N.of_nat (seq 0 128))).
Definition offered_key (t : table) (c : N) : bool :=
  (c =? 45) || (c =? 46)
  || (if quiz then ((c =? 39) || (c =? 42)) && negb (len (tSheet t) =? 0) || (member c (letters (size t)) && negb (member c (tSheet t)))
      else (c =? 44) && (0 <? tPos t)).
Definition described (t : table) (c : N) : bytes :=
  if c =? 39 then b_ "refresh" else if c =? 42 then b_ "edit" else if c =? 44 then b_ "prev"
  else if c =? 45 then (if tShown t then b_ "hide meanings" else b_ "show meanings")
  else if c =? 46 then (if tPos t + 1 =? total then b_ "finish" else if quiz then b_ "skip" else b_ "next")
  else [].
Definition asks (t : table) : request :=
  match tPhase t with
  | Choosing => MkRequest None (if quiz then b_ "  Reading for: " ++ number (length (tSheet t)) else b_ "  Select") true
                  (listing (offered_key t) (described t)) None
  | Picking => MkRequest None (b_ "    Answer to edit: ") false (listing (fun c => member c (tSheet t)) (fun _ => [])) None
  | Replacing e =>
      let old := nth e (tSheet t) 0 in
      MkRequest None (b_ "    New reading for Entry: " ++ number e) false
        (listing (fun c => (c =? old) || (member c (letters (size t)) && negb (member c (tSheet t)))) (fun _ => [])) (Some old)
  end.

(** ** What a key does *)

(** the members of the next group *)
Definition dealt (pos : N) (r : R) : list QKanji * list QKanji * R :=
  let members := match nth_error gs (N.to_nat pos) with Some g => filter (includeMember m) (gMembers g) | None => [] end in
  if quiz && randomizeAnswers l && (pos <? total)
  then let '(q, r1) := shuffle members r in let '(x, r2) := shuffle members r1 in (q, x, r2)
  else (members, members, r).
Definition moved (t : table) (pos : N) : table :=
  let '(q, x, r) := dealt pos (tRng t) in MkTable pos (tShown t) q x [] Choosing (tRight t) (tWrong t) (tQuit t) r.
(** the verdict on a sheet, and what is printed; the number of right answers has 16 bits *)
Definition judged (t : table) : table * bytes :=
  let n := points (tShown t) (tQuestions t) (tReadings t) (tSheet t) in
  if n =? len (tSheet t)
  then (MkTable (tPos t) (tShown t) (tQuestions t) (tReadings t) (tSheet t) (tPhase t) ((tRight t + 1) mod 65536) (tWrong t) (tQuit t) (tRng t),
        b_ "  Correct! (" ++ to_string ((tRight t + 1) mod 65536) ++ b_ "/" ++ to_string (tPos t + 1) ++ b_ ")" ++ newline)
  else (MkTable (tPos t) (tShown t) (tQuestions t) (tReadings t) (tSheet t) (tPhase t) (tRight t)
          (tWrong t ++ [match groupAt t with Some g => gName g | None => [] end]) (tQuit t) (tRng t),
        b_ "  Incorrect (got " ++ to_string n ++ b_ " right out of " ++ to_string (len (tSheet t)) ++ b_ ")" ++ newline).
(** a group without members to show counts as answered *)
Fixpoint settled (fuel : nat) (t : table) : table * bytes :=
  match fuel with
  | O => (t, [])
  | S f =>
      if finished t then (t, [])
      else match tQuestions t with
           | [] => let '(t1, x) := judged t in let '(t2, y) := settled f (moved t1 (tPos t1 + 1)) in (t2, painted t ++ x ++ y)
           | _ => (t, painted t)
           end
  end.
(** go to the group at [pos] *)
Definition opened (t : table) (pos : N) : table * bytes := settled (S (N.to_nat (total - pos))) (moved t pos).

Definition with_sheet (t : table) (sheet : list N) (p : phase) : table :=
  MkTable (tPos t) (tShown t) (tQuestions t) (tReadings t) sheet p (tRight t) (tWrong t) (tQuit t) (tRng t).
Definition with_shown (t : table) (b : bool) : table :=
  MkTable (tPos t) b (tQuestions t) (tReadings t) (tSheet t) (tPhase t) (tRight t) (tWrong t) (tQuit t) (tRng t).
Definition with_quit (t : table) : table :=
  MkTable (tPos t) (tShown t) (tQuestions t) (tReadings t) (tSheet t) (tPhase t) (tRight t) (tWrong t) true (tRng t).
(** the table after a key, and what is printed then *)
Definition played (t : table) (k : N) : table * bytes :=
  match tPhase t with
  | Choosing =>
      if k =? 47 then (with_quit t, [])
      else if k =? 45 then let t' := with_shown t (negb (tShown t)) in (t', painted t' ++ sheet_text (tSheet t'))
      else if k =? 39 then (t, painted t ++ sheet_text (tSheet t))
      else if k =? 44 then opened t (tPos t - 1)
      else if k =? 46 then opened t (tPos t + 1)
      else if k =? 42 then (with_sheet t (tSheet t) (if (length (tSheet t) =? 1)%nat then Replacing 0 else Picking), [])
      else
        let t' := with_sheet t (tSheet t ++ [k]) Choosing in
        if (length (tSheet t') <? size t)%nat then (t', sheet_text (tSheet t'))
        else let '(t1, x) := judged t' in let '(t2, y) := opened t1 (tPos t1 + 1) in (t2, x ++ y)
  | Picking => (with_sheet t (tSheet t) (match place (tSheet t) k with Some e => Replacing e | None => Choosing end), [])
  | Replacing e => let sheet := replaced (tSheet t) e k in (with_sheet t sheet Choosing, sheet_text sheet)
  end.
(** the table after the keys *)
Definition table_after (t : table) (ks : list N) : table := fold_left (fun t k => fst (played t k)) ks t.
(** what is seen: the prompts, and the text after the last key *)
Fixpoint script (t : table) (pending : bytes) (ks : list N) : list seen * bytes :=
  match ks with
  | [] => ([], pending)
  | k :: r => let '(t', x) := played t k in let '(ps, e) := script t' x r in (MkSeen pending (asks t) k :: ps, e)
  end.

(** the key completes the sheet of a group with more than 26 members *)
Definition overfull (t : table) (k : N) : Prop :=
  tPhase t = Choosing /\ In k (letters (size t)) /\ S (length (tSheet t)) = size t /\ (26 < size t)%nat.

(** the keys can be given one after the other, and none of them is [overfull] *)
Fixpoint playable (q : Quit) (t : table) (ks : list N) : Prop :=
  match ks with
  | [] => True
  | k :: r => finished t = false /\ permitted q (asks t) k /\ ~ overfull t k /\ playable q (fst (played t k)) r
  end.

Definition empty_table (question : N) (shown : bool) (r : R) : table := MkTable question shown [] [] [] Choosing 0 [] false r.
Definition opening_text (ty : GroupType) : bytes :=
  b_ ">>>" ++ newline ++ b_ ">>> Starting " ++ (if quiz then b_ "quiz" else b_ "review") ++ b_ " for " ++ to_string total
  ++ b_ " " ++ groupTypeText ty ++ b_ " groups" ++ newline
  ++ (match m with MJouyou => [] | _ => b_ ">>>   .=常用 '=JLPT ""=Freq ^=人名用 ~=LinkJ %=LinkO +=Extra @=検定 #=1級 *=Ucd" ++ newline end).
(** the table on which a quiz starts, and what is printed first *)
Definition starting (ty : GroupType) (question : N) (shown : bool) (r : R) : table * bytes :=
  let '(t, x) := opened (empty_table question shown r) (question - 1) in (t, opening_text ty ++ x).
End Table.
