(** C23, C24: templates and the structure of exported documents. *)
From Coq Require Import List NArith ZArith Bool Lia Arith.
From Verif Require Import PyStr PyDict NovelModel Template SpecTemplate TemplateProofs Export SpecExport ExportProofs ExportProofs2.
Import ListNotations.

(** * C23: filling in a template *)

(** Every template, read as segments, has the value of its segments in place of the segments, whatever the mapping; inserted
    values are not looked at, unknown placeholders and single dollar signs stay. safe_substitute is a total function: it never fails. *)
Theorem C23_substitution : forall (l : list segment) (m : dict str), unambiguous l ->
  safe_substitute (template_text l) m = flat_map (seg_value m) l.
Proof. exact substitute_segments. Qed.
Print Assumptions C23_substitution.
(** every template can be read so *)
Theorem C23_segments : forall t : str, exists l, template_text l = t /\ unambiguous l.
Proof. exact segments_exist. Qed.
Print Assumptions C23_segments.
Example C23_instance :
  safe_substitute (s "<p>$Title costs $$5, ${ID}x $Unknown $ 5</p>") [(s "Title", s "$ID $$"); (s "ID", s "7")]
  = s "<p>$ID $$ costs $5, 7x $Unknown $ 5</p>".
Proof. vm_compute. reflexivity. Qed.
Example C23_instance_segments :
  unambiguous [SChar 60; SName (s "Title"); SChar 32; SDollar; SBraced (s "ID"); SLone; SChar 32] /\
  template_text [SChar 60; SName (s "Title"); SChar 32; SDollar; SBraced (s "ID"); SLone; SChar 32] = s "<$Title $$${ID}$ ".
Proof.
  split; [|reflexivity]. cbn [unambiguous]. repeat split; try discriminate; intros; cbn in *;
    repeat match goal with H : _ :: _ = _ :: _ |- _ => injection H as <- ?; subst | |- _ <> _ => intro end; try reflexivity; try discriminate.
Qed.

(** * C24: the chapters and scenes of an exported document *)

(** The exported chapters and scenes are the texts of the blocks of the document, in order. *)
Theorem C24_document : forall (e : exporter) (n : novel), all_listed n -> get_chapters e n = mapM (block_text e n) (document e n).
Proof. exact chapters_document. Qed.
Print Assumptions C24_document.
(** Headings: the accepted chapters that have one, in novel order; *)
Theorem C24_headings : forall (e : exporter) (n : novel), map fst (headings (document e n)) = filter (has_heading e n) (filter (f_chapter e) (nv_srtChapters n)).
Proof. exact heading_chapters. Qed.
Print Assumptions C24_headings.
(** the numbers of the numbered ones are 1, 2, 3, ...; *)
Theorem C24_heading_numbers : forall (e : exporter) (n : novel),
  map snd (filter (fun x => numbered_chapter e n (fst x)) (headings (document e n))) = seq 1 (length (filter (numbered_chapter e n) (filter (f_chapter e) (nv_srtChapters n)))).
Proof. exact heading_numbers. Qed.
Print Assumptions C24_heading_numbers.
(** the others have no number. *)
Theorem C24_heading_unnumbered : forall (e : exporter) (n : novel) ch k, In (ch, k) (headings (document e n)) -> numbered_chapter e n ch = false -> k = 0.
Proof. exact heading_unnumbered. Qed.
Print Assumptions C24_heading_unnumbered.
(** The same for scenes. *)
Theorem C24_scenes : forall (e : exporter) (n : novel),
  map fst (scenes (document e n))
  = flat_map (fun ch => map (pair ch) (filter (shown_scene e n ch) (ch_srtScenes (chapter_of n ch)))) (filter (f_chapter e) (nv_srtChapters n)).
Proof. exact scene_order. Qed.
Print Assumptions C24_scenes.
Theorem C24_scene_numbers : forall (e : exporter) (n : novel),
  map snd (filter (fun x => numbered_scene n (fst x)) (scenes (document e n))) = seq 1 (length (filter (numbered_scene n) (map fst (scenes (document e n))))).
Proof. intros e n. rewrite (scene_order e n). exact (scene_numbers e n). Qed.
Print Assumptions C24_scene_numbers.
Theorem C24_scene_unnumbered : forall (e : exporter) (n : novel) x k, In (x, k) (scenes (document e n)) -> numbered_scene n x = false -> k = 0.
Proof. exact scene_unnumbered. Qed.
Print Assumptions C24_scene_unnumbered.
(** Without templates for notes, todo, unused and hidden elements none of them appears. *)
Theorem C24_only_normal_scenes : forall (e : exporter) (n : novel), normal_only e -> forall ch i k, In (ch, i, k) (scenes (document e n)) ->
  In ch (nv_srtChapters n) /\ In i (ch_srtScenes (chapter_of n ch)) /\ scene_kind n ch i = Normal /\ raw_code (scene_of n i) = false.
Proof. exact normal_only_scenes. Qed.
Print Assumptions C24_only_normal_scenes.
Theorem C24_only_normal_chapters : forall (e : exporter) (n : novel), normal_only e -> forall ch k, In (ch, k) (headings (document e n)) ->
  In ch (nv_srtChapters n) /\ (chapter_kind n ch = Normal \/ chapter_kind n ch = Part).
Proof. exact normal_only_chapters. Qed.
Print Assumptions C24_only_normal_chapters.
(** Exporting a complete novel does not fail. *)
Theorem C24_total : forall e conv name path n, standard e conv name path -> complete n -> exists t, get_text e n = Ok t.
Proof. exact export_total. Qed.
Print Assumptions C24_total.

(** ** A sample *)
Definition sample_exporter : exporter := {|
  t_fileHeader := s "[$Title]"; t_part := s "P($Title)"; t_chapter := s "C$ChapterNumber($Title)"; t_notesPart := []; t_todoPart := []; t_notesChapter := []; t_todoChapter := [];
  t_unusedChapter := []; t_notExportedChapter := [];
  t_scene := s "s$SceneNumber:$SceneContent;"; t_firstScene := []; t_appendedScene := s "a$SceneNumber:$SceneContent;"; t_notesScene := []; t_todoScene := []; t_unusedScene := [];
  t_notExportedScene := []; t_divider := s "*";
  t_chapterEnd := s "/$ChapterNumber"; t_unusedChapterEnd := []; t_notExportedChapterEnd := []; t_notesChapterEnd := []; t_todoChapterEnd := [];
  t_characterHeading := []; t_character := []; t_locationHeading := []; t_location := []; t_itemHeading := []; t_item := []; t_fileFooter := s "."; t_projectNote := [];
  f_scene := fun _ => true; f_chapter := fun _ => true; f_character := fun _ => true; f_location := fun _ => true; f_item := fun _ => true;
  m_fileHeader := fileHeaderMapping plain_convert; m_chapter := chapterMapping plain_convert None None; m_scene := sceneMapping plain_convert None None;
  m_character := characterMapping plain_convert None None; m_location := fun n => worldMapping plain_convert None None (nv_locations n);
  m_item := fun n => worldMapping plain_convert None None (nv_items n); m_projectNote := prjNoteMapping plain_convert None None |}.
Definition sc (t : str) (ty : N) (app : bool) : scene :=
  set_sc_content (Some t) (set_sc_type (Some ty) (set_sc_status (Some 1%Z) (set_sc_appendToPrev (Some app) new_scene))).
Definition chap (t : str) (ty lv : N) (l : list str) : chapter :=
  set_ch_title (Some t) (set_ch_type (Some ty) (set_ch_level (Some lv) (set_ch_srtScenes l new_chapter))).
Definition sample_novel : novel := Eval vm_compute in
  set_nv_title (Some (s "T")) (set_nv_srtChapters [s "1"; s "2"; s "3"; s "4"]
   (set_nv_chapters [(s "1", chap (s "One") 0 1 []); (s "2", chap (s "Two") 0 0 [s "1"; s "2"; s "3"]); (s "3", chap (s "Notes") 1 0 [s "4"]); (s "4", chap (s "Four") 0 0 [s "5"])]
   (set_nv_scenes [(s "1", sc (s "a $Title") 0 false); (s "2", sc (s "n") 1 false); (s "3", sc (s "b") 0 true); (s "4", sc (s "x") 1 false); (s "5", sc (s "c") 0 false)] new_novel))).
Example C24_instance : get_text sample_exporter sample_novel = Ok (s "[T]P(One)/C1(Two)s1:a $Title;a2:b;/1C2(Four)s3:c;/2.").
Proof. vm_compute. reflexivity. Qed.
Example C24_instance_document : document sample_exporter sample_novel =
  [BHeading (s "1") 0; BEnding (s "1") 0; BHeading (s "2") 1; BScene (s "2") (s "1") true 1 0 0; BScene (s "2") (s "3") false 2 0 0; BEnding (s "2") 1;
   BHeading (s "4") 2; BScene (s "4") (s "5") true 3 0 0; BEnding (s "4") 2].
Proof. vm_compute. reflexivity. Qed.
Example C24_instance_listed : all_listed sample_novel.
Proof.
  intros ch H. cbn in H. repeat (destruct H as [<-|H]; [eexists; split; [vm_compute; reflexivity|]; intros i Hi; cbn in Hi; repeat (destruct Hi as [<-|Hi]; [eexists; vm_compute; reflexivity|]); destruct Hi|]).
  destruct H.
Qed.
Example C24_instance_normal_only : normal_only sample_exporter.
Proof. repeat split. Qed.

(** A peculiarity: a normal scene in a notes chapter is exported and numbered although the chapter's heading is not there. *)
Definition notes_novel : novel := Eval vm_compute in
  set_nv_title (Some (s "T")) (set_nv_srtChapters [s "3"]
   (set_nv_chapters [(s "3", chap (s "Notes") 1 0 [s "4"])] (set_nv_scenes [(s "4", sc (s "x") 0 false)] new_novel))).
Theorem C24_normal_scene_in_notes_chapter : normal_only sample_exporter /\ chapter_kind notes_novel (s "3") = Notes /\
  headings (document sample_exporter notes_novel) = [] /\ scenes (document sample_exporter notes_novel) = [(s "3", s "4", 1)] /\
  get_text sample_exporter notes_novel = Ok (s "[T]s1:x;.").
Proof. repeat split. Qed.
Print Assumptions C24_normal_scene_in_notes_chapter.
