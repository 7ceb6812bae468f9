(** Model of apps/formatMain.cpp for a file given by its content.  Not modelled: finding the
    file and messages on errors.  [std::regex_search] with the two expressions is written out:
    '$' only matches at the end (no multiline flag). *)
From Verif Require Export Utf8Model BlockModel ColumnFileModel.
Open Scope N_scope.

Definition inBlocks (bs : list block) (c : N) : bool := existsb (fun b => inBlock b c) bs.
(** formatMain.cpp:17: [<KanjiRange>]{1}$ *)
Definition searchEndsWithKanji (w : list N) : bool :=
  match rev w with [] => false | c :: _ => inBlocks KanjiRange c end.
(** formatMain.cpp:18: ^[<KanaRange>]+$ *)
Definition searchAllKana (w : list N) : bool :=
  match w with [] => false | _ => forallb (inBlocks KanaRange) w end.

Definition openBracket : bytes := b_ "（".
Definition closeBracket : bytes := b_ "）".

(** formatMain.cpp:22-42: what is printed for the lines that are left *)
Fixpoint formatLoop (lines : list bytes) (prevLine : bytes) (prevLineEndedWithKanji : bool) : out bytes :=
  match lines with
  | [] => Val []
  | line :: r =>
      wline <- fromUtf8 line 0 ;;
      if prevLineEndedWithKanji then
        if searchAllKana wline then
          o <- formatLoop r line false ;; Val (prevLine ++ openBracket ++ line ++ closeBracket ++ o)
        else if negb (searchEndsWithKanji wline) then
          o <- formatLoop r line false ;; Val (prevLine ++ [10] ++ line ++ [10] ++ o)
        else o <- formatLoop r line true ;; Val (prevLine ++ [10] ++ o)
      else if searchEndsWithKanji wline then formatLoop r line true
      else o <- formatLoop r line false ;; Val (line ++ [10] ++ o)
  end.
(** formatMain.cpp:19-42 *)
Definition format (content : bytes) : out bytes := formatLoop (getlines 10 content) [] false.
