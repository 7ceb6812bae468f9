(** Specification of the messages that kanjiQuiz and kanjiStats end with. *)
From Verif Require Import StringSpec.
From Verif Require Export MainSpec ErrArgsSpec ErrDirSpec ErrEnvSpec ErrGroupSpec ErrJukugoSpec ErrDetailsSpec ErrStatsSpec ErrMainModel.
From Verif Require Import DirSpec LoadLogModel MainModel.
From Verif Require Export ErrBase.
Open Scope N_scope.

Section Messages.
Variable std : exn -> bytes.
Variable fs : bytes -> option CountModel.node.
Variable writable : bytes -> bool.
Variable reg : bytes -> registry.
Variable sort : list Kanji -> list Kanji.
Variable ltr : bool.
(** the names of the current directory and of the directory of the program, whether the path of the program is absolute, its name and its arguments *)
Variable cs : list bytes.
Variable root : bool.
Variable ps : list bytes.
Variable prog : bytes.
Variable l : list bytes.

(** loading the files of the directory [dir] ends with [w] (see C132) *)
Definition dir_stops (mode : ReportModel.DebugMode) (dir w : bytes) : Prop :=
  exists x, ErrEnvSpec.reads fs writable ltr [] [] [] dir (inr (x, w))
    \/ exists e p, readEnvT fs writable reg ltr dir initStatic = Got e /\ ErrEnvSpec.reads fs writable ltr [] [] [] dir (inl p) /\ env_is ltr e p
         /\ (loads e fs writable dir [] (inr (x, w)) \/ exists ks, loads e fs writable dir [] (inl ks) /\ reports mode e ks (inr (x, w))).
(** there is no data directory, or two options about debug output, or a file of the directory is wrong *)
Inductive load_stops : bytes -> Prop :=
| stop_dir : forall w, dir_says fs cs root ps prog l w -> load_stops w
| stop_mode : forall dir, uses fs cs root ps l dir -> (forall m, ~ mode_of l m) -> load_stops (b_ "can only specify one '-debug' or '-info' option")
| stop_data : forall dir mode w, uses fs cs root ps l dir -> mode_of l mode -> dir_stops mode dir w -> load_stops w.
Notation loaded := (kanji_loaded fs writable sort ltr initStatic cs root ps l).
(** kanjiQuiz: the Kanji, then the groups, then the Jukugo, then the arguments, then the Kanji that is asked for *)
Inductive quiz_stops : bytes -> Prop :=
| quiz_load : forall w, load_stops w -> quiz_stops w
| quiz_groups : forall k x w, loaded k -> groups_say (findMember (kData k)) fs writable (kDir k) x w -> quiz_stops w
| quiz_jukugo : forall k j w, loaded k -> (forall x w', ~ groups_say (findMember (kData k)) fs writable (kDir k) x w') ->
    child (kDir k) (b_ "jukugo") j -> files_say std fs j GradeFiles w -> quiz_stops w
| quiz_arguments : forall k g x w, loaded k -> groups_loaded fs writable k g -> first_complaint std (kept l) x w -> quiz_stops w
| quiz_kanji : forall k g a w, loaded k -> groups_loaded fs writable k g -> command (kept l) (KanjiDetails a) -> kanji_says (kData k) a w -> quiz_stops w.
(** kanjiStats: the Kanji, then the arguments *)
Inductive stats_stops : bytes -> Prop :=
| stats_load : forall w, load_stops w -> stats_stops w
| stats_arguments : forall k w, loaded k -> stats_says fs (isDebug (kMode k)) (kept l) w -> stats_stops w.
End Messages.
