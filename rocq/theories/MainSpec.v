(** Specification of what the programs do with their command line, the file system and the input. *)
From Verif Require Export DirSpec LoadLogSpec QuizDataSpec LaunchSpec StartSpec DetailsSpec.
From Verif Require Import LoadLogModel GroupLoadModel GroupReportModel MainModel.
From Verif Require ProgramSpec ProgramChartSpec ProgramChart TableSpec TableModel JoinSpec.
Open Scope N_scope.

(** the bytes of all files are bytes *)
Definition files_bytes (fs : bytes -> option CountModel.node) : Prop := forall p c, is_file fs p c -> bytes_ok c.

(** ** The data directory *)

(** the data directory for the arguments [l] of a program: the one after the first -data, else the nearest one above the current
    directory, else the nearest one above the directory that has the directory of the program *)
Definition uses (fs : bytes -> option CountModel.node) (current : list bytes) (root : bool) (program : list bytes) (l : list bytes) (d : bytes) : Prop :=
  (exists before rest, l = before ++ b_ "-data" :: d :: rest /\ ~ In (b_ "-data") before /\ data_dir fs d)
  \/ (~ In (b_ "-data") l
      /\ (nearest fs true current d
          \/ ((forall e, ~ nearest fs true current e) /\ is_dir fs (path root program) /\ nearest fs root (removelast program) d))).
(** the debug mode: at most one of the two options is given *)
Definition no_mode (l : list bytes) : Prop := ~ In (b_ "-debug") l /\ ~ In (b_ "-info") l.
Inductive mode_of (l : list bytes) : ReportModel.DebugMode -> Prop :=
| mode_none : no_mode l -> mode_of l DebugNone
| mode_full : forall a b, l = a ++ b_ "-debug" :: b -> no_mode (a ++ b) -> mode_of l DebugFull
| mode_info : forall a b, l = a ++ b_ "-info" :: b -> no_mode (a ++ b) -> mode_of l DebugInfo.

(** ** Loading *)

Section Loading.
Variable fs : bytes -> option CountModel.node.
Variable writable : bytes -> bool.
Variable sort : list Kanji -> list Kanji.
Variable ltr : bool.
Variable st : list_static.
(** all that the programs load *)
Record Kanjis := { kDir : bytes; kMode : ReportModel.DebugMode; kFiles : Files; kEnv : Env; kData : Data }.
Record kanji_loaded (current : list bytes) (root : bool) (program : list bytes) (l : list bytes) (k : Kanjis) : Prop := {
  ld_dir : uses fs current root program l (kDir k);
  ld_mode : mode_of l (kMode k);
  ld_files : dir_files fs writable (kDir k) (kFiles k);
  ld_data : loadData ltr (kFiles k) st 0 = Val (kEnv k, kData k);
  ld_report : kMode k = DebugFull -> exists t, finishedLoadingData sort DebugFull (kEnv k) (kData k) = Val t }.
Record Groups := { gMeaningRows : list GroupRow; gPatternRows : list GroupRow; gGroups : GroupData; gJukugoFiles : JukugoFiles; gJukugo : JukugoData }.
Record groups_loaded (k : Kanjis) (g : Groups) : Prop := {
  lg_files : groups_in fs writable (kDir k) (gMeaningRows g) (gPatternRows g);
  lg_groups : loadGroups (findMember (kData k)) (gMeaningRows g) (gPatternRows g) = Val (gGroups g);
  lg_report : kMode k <> DebugNone ->
    exists t, printGroupData (isFull (kMode k)) (leftSet (kMode k) (kEnv k) (kData k)) (kData k) (gGroups g) = Val t;
  lg_jukugo_files : jukugo_in fs (kDir k) (gJukugoFiles g);
  lg_jukugo : loadJukugo (gJukugoFiles g) = Val (gJukugo g) }.
End Loading.

(** ** What the quiz does *)

Section Quiz.
Variable sortNames : list Kanji -> list Kanji.
Variable fuel : nat.
Variable R : Type.
Variable draw : N -> R -> N * R.
Variable shuffle : list QKanji -> R -> list QKanji * R.
Variable shuffleGroups : list Group -> R -> list Group * R.
Variable k : Kanjis.
Variable g : Groups.
(** the review details are those of C88, for all Kanji whose Jukugo are text *)
Definition details_of (details : QKanji -> bytes) : Prop :=
  forall q, let x := qKanji q in let js := jFind (gJukugo g) (kName x) in
    Forall entry_ok js -> review_lines (dReading (kDetails x)) x (meaningGroups (gGroups g)) (patternGroups (gGroups g)) js (details q).
(** the text about what an argument stands for (see C87 and C88) *)
Definition text_about (x : DetailsSpec.shown) : out bytes :=
  match x with
  | One n => printDetails sortNames (kData k) (envUcd (kEnv k)) (gGroups g) (gJukugo g) n true
  | Several w i ks => printList sortNames (kData k) (envUcd (kEnv k)) (gGroups g) (gJukugo g) ks w i
  end.
(** frequencies that findByFrequency is not defined for (see C34) *)
Definition undefined_frequency (a : bytes) : Prop :=
  numeral a /\ decimal a <= 65535 /\ forall x, findByFrequency (kData k) (decimal a) <> Val x.
Inductive does (l : list bytes) (i : istream) (r : R) : out (Done R) -> Prop :=
| does_details : forall a x, command (kept l) (KanjiDetails a) -> stands_for (kData k) a x -> does l i r (t <- text_about x ;; Val (DoneText R t))
| does_not_stand : forall a, command (kept l) (KanjiDetails a) -> (forall x, ~ stands_for (kData k) a x) -> does l i r (Throw DomainError)
| does_undefined : forall a, command (kept l) (KanjiDetails a) -> undefined_frequency a -> does l i r Ub
| does_help : command (kept l) HelpMessage -> does l i r (Val (DoneText R MainModel.HelpText))
| does_nothing : forall p, command (kept l) (Options p) -> kMode k <> DebugNone -> does l i r (Val (DoneNothing R))
| does_quiz : forall p ls details asked e ls' s q, command (kept l) (Options p) -> kMode k = DebugNone -> lines_left i ls -> details_of details ->
    start_dialog (kData k) (meaningGroups (gGroups g)) (patternGroups (gGroups g)) p ls asked e ls' ->
    Forall2 StartSpec.shown (events R s) asked -> rng R s = r -> lines_left (input R s) ls' ->
    result_of R draw shuffle shuffleGroups (groupNumber (gGroups g)) (fun q => extraTypeText (qKanji q) (kDetails (qKanji q))) details fuel p true e s q ->
    does l i r (Val (DoneQuiz R q))
| does_refuse : forall x, (forall c, ~ command (kept l) c) ->
    x = DomainError \/ (exists before a after os, kept l = before ++ a :: after /\ options before os /\ unconvertible a x) ->
    does l i r (Throw x).
End Quiz.

(** what the groups leave as the fill of the stream: '0' only if radicals have been shown as missing and no variant or meaning
    group has been shown *)
Definition jukugo_fill (k : Kanjis) (g : Groups) : N :=
  match kMode k with
  | DebugFull => match meaningGroups (gGroups g) with
                 | [] => if missesRadicals (kEnv k) (kData k) && negb (hasVariants (kData k)) then 48 else 32
                 | _ => 32
                 end
  | _ => 32
  end.

(** ** What kanaConvert does *)

(** [converts ltr terminal l text w e]: with the arguments [l] and the input [text] it writes [w] and ends as [e] *)
Inductive converts (ltr terminal : bool) (l : list bytes) (text : bytes) : bytes -> Ended -> Prop :=
| cv_nothing : (forall t, ~ ProgramSpec.command terminal l t) -> converts ltr terminal l text [] (Exit 1)
| cv_usage : ProgramSpec.command terminal l ProgramSpec.TUsage -> converts ltr terminal l text (ProgramModel.usage true) (Exit 0)
| cv_strings : forall v ss outs, ProgramSpec.command terminal l (ProgramSpec.TStrings v ss) -> Forall2 (ProgramSpec.converted ltr v) ss outs ->
    converts ltr terminal l text (JoinSpec.separated (ProgramSpec.separator v) outs ++ [10]) (Exit 0)
| cv_chart : forall markdown shown, ProgramSpec.command terminal l (ProgramSpec.TChart markdown) ->
    (let table := TableSpec.table_of_adds ProgramChartSpec.chart_columns true (ProgramChartSpec.chart_rows ProgramChart.allRows) in
     if markdown : bool then shown = TableModel.printMarkdown table else TableModel.print table = Val shown) ->
    converts ltr terminal l text (ProgramModel.chartHeader markdown ++ shown ++ ProgramChartSpec.totals markdown ProgramChart.allRows) (Exit 0)
| cv_session : forall interactive newline v ls w, ProgramSpec.command terminal l (ProgramSpec.TInput interactive newline v) -> ProgramSpec.lines text ls ->
    ProgramSpec.session ltr interactive newline v ls w ->
    converts ltr terminal l text ((if interactive : bool then ProgramSpec.options_shown v else []) ++ w) (Exit 0)
| cv_waits : forall interactive newline v ls w, ProgramSpec.command terminal l (ProgramSpec.TInput interactive newline v) -> ProgramSpec.lines text ls ->
    ProgramSpec.waits ltr interactive newline v ls -> converts ltr terminal l text w DoesNotEnd.
