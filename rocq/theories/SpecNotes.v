(** When the notes (or the "todo" chapters) of a novel can be exported and read back. *)
From Coq Require Import String List NArith ZArith Bool.
From Verif Require Import PyStr PyDict NovelModel NovelOps SpecFormat SpecManuscript.
Import ListNotations.

(** kind: 1 for notes, 2 for "todo".  What is required of each scene in a chapter: *)
Record scene_fit (kind : N) (languages : list str) (n : novel) (x : scene) : Prop := mkSceneFit {
  sf_type : known_type (sc_type x) = true;
  (* it has a status and refers to locations and items of the novel *)
  sf_status : known_status (sc_status x) = true;
  sf_locations : forall l i, sc_locations x = Some l -> In i l -> dmem i (nv_locations n) = true;
  sf_items : forall l i, sc_items x = Some l -> In i l -> dmem i (nv_items n) = true;
  (* if it has a text, this is not split, and its counts are up to date *)
  sf_text : forall t, sc_content x = Some t -> no_headings t /\ set_sceneContent t x = x;
  (* if it is of the kind that is exported, it has a text that survives *)
  sf_kind : sc_type x = Some kind -> otitle_ok (sc_title x) = true /\ exists t, sc_content x = Some t /\ restorable languages t }.
Record chapter_fit (kind : N) (languages : list str) (n : novel) (c : chapter) : Prop := mkChapterFit {
  cf_type : known_type (ch_type c) = true;
  (* if it is of the kind that is exported, it has a title *)
  cf_title : ch_type c = Some kind -> exists t, ch_title c = Some t /\ title_ok t = true;
  cf_scenes : forall i, In i (ch_srtScenes c) -> number_id i = true /\ exists x, dget i (nv_scenes n) = Some x /\ scene_fit kind languages n x }.
(** the range: languages are those of the exporter *)
Record novel_fit (kind : N) (author : str) (languages : list str) (n : novel) : Prop := mkNovelFit {
  nf_names : names_ok author languages;
  nf_locales : Forall locale_ok languages;
  nf_title : otitle_ok (nv_title n) = true;
  nf_author : otitle_ok (nv_authorName n) = true;
  nf_chapters : forall i, In i (nv_srtChapters n) -> number_id i = true /\ exists c, dget i (nv_chapters n) = Some c /\ chapter_fit kind languages n c }.
