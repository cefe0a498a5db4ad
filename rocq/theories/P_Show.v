(** C45: an exported document shows the data its templates name. *)
From Coq Require Import List NArith ZArith Bool Lia Arith.
From Verif Require Import PyStr PyDict Globals NovelModel Template SpecTemplate TemplateProofs Export SpecExport SpecShow ShowProofs ShowUnique.
Import ListNotations.

(** The document is the rendered header, the rendered blocks of the document (C24), the characters, locations and items below their
    headings, the project notes and the footer; every text is its template with every placeholder replaced as the table of the element says. *)
Theorem C45_document : forall (e : exporter) conv (projectName projectPath : option str) (n : novel), standard e conv projectName projectPath -> complete n ->
  exists header blocks chars locs items notes,
    get_text e n = Ok (header ++ concat blocks ++ t_characterHeading e ++ concat chars ++ t_locationHeading e ++ concat locs ++ t_itemHeading e ++ concat items ++ concat notes ++ t_fileFooter e) /\
    rendered (header_table conv n) (t_fileHeader e) header /\
    Forall2 (block_shown conv projectName projectPath n e) (document e n) blocks /\
    elements_shown (character_table conv projectName projectPath) (nv_characters n) (t_character e) (filter (f_character e) (nv_srtCharacters n)) chars /\
    elements_shown (world_table conv projectName projectPath) (nv_locations n) (t_location e) (filter (f_location e) (nv_srtLocations n)) locs /\
    elements_shown (world_table conv projectName projectPath) (nv_items n) (t_item e) (filter (f_item e) (nv_srtItems n)) items /\
    elements_shown (note_table conv projectName projectPath) (nv_projectNotes n) (t_projectNote e) (nv_srtPrjNotes n) notes.
Proof. exact document_shown. Qed.
Print Assumptions C45_document.
(** The tables leave no choice: for every placeholder there is one text only. *)
Theorem C45_tables : forall conv (projectName projectPath : option str) (n : novel),
  no_choice (header_table conv n) /\ (forall i k, no_choice (chapter_table conv projectName projectPath n i k)) /\
  (forall i c, no_choice (character_table conv projectName projectPath i c)) /\ (forall i w, no_choice (world_table conv projectName projectPath i w)) /\
  (forall i p, no_choice (note_table conv projectName projectPath i p)) /\ (forall i k w l, no_choice (scene_table conv projectName projectPath n i k w l)).
Proof. exact tables_unique. Qed.
Print Assumptions C45_tables.

(** ** A sample *)
Definition S_exporter : exporter := {|
  t_fileHeader := s "[$Title by $AuthorName]"; t_part := s "P($Title)"; t_chapter := s "C$ChapterNumber($Title)"; t_notesPart := []; t_todoPart := []; t_notesChapter := []; t_todoChapter := [];
  t_unusedChapter := []; t_notExportedChapter := [];
  t_scene := s "s$SceneNumber:$SceneContent $Status $ScDate $Time $Duration $ReactionScene ($Characters/$Viewpoint/$Locations/$Items) $Goal-$Conflict-$Outcome $Tags $WordCount/$WordsTotal;";
  t_firstScene := []; t_appendedScene := []; t_notesScene := []; t_todoScene := []; t_unusedScene := [];
  t_notExportedScene := []; t_divider := s "*";
  t_chapterEnd := []; t_unusedChapterEnd := []; t_notExportedChapterEnd := []; t_notesChapterEnd := []; t_todoChapterEnd := [];
  t_characterHeading := s "#"; t_character := s "$Title=$FullName,$Status;"; t_locationHeading := []; t_location := s "$Title.$AKA."; t_itemHeading := []; t_item := s "$Title"; t_fileFooter := s "end"; t_projectNote := s "!$Title";
  f_scene := fun _ => true; f_chapter := fun _ => true; f_character := fun _ => true; f_location := fun _ => true; f_item := fun _ => true;
  m_fileHeader := fileHeaderMapping plain_convert; m_chapter := chapterMapping plain_convert None None; m_scene := sceneMapping plain_convert None None;
  m_character := characterMapping plain_convert None None; m_location := fun n => worldMapping plain_convert None None (nv_locations n);
  m_item := fun n => worldMapping plain_convert None None (nv_items n); m_projectNote := prjNoteMapping plain_convert None None |}.
Definition S_scene1 : scene := Eval vm_compute in
  set_sc_content (Some (s "a $Goal")) (set_sc_type (Some 0%N) (set_sc_status (Some 2%Z) (set_sc_characters (Some [s "2"; s "1"]) (set_sc_locations (Some [s "1"])
   (set_sc_goal (Some (s "g")) (set_sc_conflict (Some (s "c")) (set_sc_outcome (Some (s "o")) (set_sc_date (Some (s "2020-02-29")) (set_sc_time (Some (s "12:30:00"))
   (set_sc_lastsDays (Some (s "0")) (set_sc_lastsHours (Some (s "2")) (set_sc_tags (Some [s "x"; s "y"]) new_scene)))))))))))).
Definition S_scene2 : scene := Eval vm_compute in
  set_sc_content (Some (s "b")) (set_sc_type (Some 0%N) (set_sc_status (Some 5%Z) (set_sc_day (Some (s "3")) (set_sc_isReactionScene (Some true) new_scene)))).
Definition S_novel : novel := Eval vm_compute in
  set_nv_title (Some (s "T")) (set_nv_authorName (Some (s "A")) (set_nv_srtChapters [s "1"]
   (set_nv_chapters [(s "1", set_ch_title (Some (s "One")) (set_ch_type (Some 0%N) (set_ch_level (Some 0%N) (set_ch_srtScenes [s "1"; s "2"] new_chapter))))]
   (set_nv_scenes [(s "1", S_scene1); (s "2", S_scene2)]
   (set_nv_characters [(s "1", set_cr_title (Some (s "Joe")) (set_cr_fullName (Some (s "Joe Doe")) (set_cr_isMajor (Some true) new_character))); (s "2", set_cr_title (Some (s "Ann")) new_character)]
   (set_nv_srtCharacters [s "1"; s "2"] (set_nv_locations [(s "1", set_we_title (Some (s "Rome")) new_world)] (set_nv_srtLocations [s "1"] new_novel)))))))).
Example C45_instance_standard : standard S_exporter plain_convert None None.
Proof. split; [intros t q; now eexists|]. repeat split. Qed.
Example C45_instance_complete : complete S_novel.
Proof.
  split.
  - intros ch H. cbn in H. destruct H as [<-|[]]. eexists. split; [vm_compute; reflexivity|]. intros i Hi. cbn in Hi. destruct Hi as [<-|[<-|[]]]; eexists; vm_compute; reflexivity.
  - intros i x H. apply dget_In in H. change (In (i, x) [(s "1", S_scene1); (s "2", S_scene2)]) in H. destruct H as [H|[H|[]]]; injection H as _ <-.
    + split; [|split; [exact I|exists 2%Z; split; [reflexivity|lia]]]. intros j [<-|[]]. eexists. vm_compute. reflexivity.
    + split; [exact I|split; [exact I|exists 5%Z; split; [reflexivity|lia]]].
  - intros j Hj. cbn in Hj. destruct Hj as [<-|[<-|[]]]; eexists; vm_compute; reflexivity.
  - intros j Hj. cbn in Hj. destruct Hj as [<-|[]]; eexists; vm_compute; reflexivity.
  - intros j [].
  - intros j [].
Qed.
Example C45_instance : get_text S_exporter S_novel =
  Ok (s "[T by A]C1(One)s1:a $Goal Draft 2020-02-29 12:30 2h  A (Ann, Joe/Ann/Rome/) g-c-o x, y 0/0;*s2:b Done Day 3   R (///) --  0/0;#Joe=Joe Doe,Major;Ann=,Minor;Rome..end").
Proof. vm_compute. reflexivity. Qed.

(** Texts that are not written by _convert_from_yw stand for themselves, so a missing one shows as the word None. *)
Theorem C45_missing_refuted : exists t, fill (s "$Image $Field1") (sceneMapping plain_convert None None S_novel (s "2") 1 0 0) = Ok t /\ t = s "None None".
Proof. eexists. split; vm_compute; reflexivity. Qed.
Print Assumptions C45_missing_refuted.
(** A reference to a character that does not exist hides all characters of the scene. *)
Theorem C45_unknown_character_refuted : exists n, dget (s "1") (nv_characters n) <> None /\ sc_characters (scene_of n (s "1")) = Some [s "1"; s "9"] /\
  fill (s "($Characters)") (sceneMapping plain_convert None None n (s "1") 1 0 0) = Ok (s "()").
Proof.
  exists (set_nv_scenes [(s "1", set_sc_characters (Some [s "1"; s "9"]) (set_sc_locations None S_scene1))] S_novel). repeat split; vm_compute; try reflexivity. discriminate.
Qed.
Print Assumptions C45_unknown_character_refuted.
