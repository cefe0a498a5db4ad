(** When a tagged manuscript can be exported and read back: what the parser may deliver, and the range of novels. *)
From Coq Require Import String List NArith ZArith Bool Lia Arith.
From Verif Require Import PyStr PyDict YwText OdfXml NovelModel NovelOps SpecOdf SpecFormat SpecManuscript.
Import ListNotations.

(** ** What a streaming XML parser delivers *)
(** a text with the beginning of a scene marker *)
Definition marker (t : str) : bool := containsb (s "[ScID") t || containsb (s "[/ScID") t.
(** the title of the document *)
Definition unmarked (t : option str) : Prop := match t with Some x => containsb (s "[ScID") x = false /\ containsb (s "[/ScID") x = false | None => True end.
(** the same tags; each piece of text in one piece, or, unless it is a marker, in any number of pieces *)
Inductive deliver_text : list event -> list event -> Prop :=
| text_end : deliver_text [] []
| text_open : forall n a es es', deliver_text es es' -> deliver_text (Start n a :: es) (Start n a :: es')
| text_close : forall n es es', deliver_text es es' -> deliver_text (End n :: es) (End n :: es')
| text_whole : forall t es es', deliver_text es es' -> deliver_text (Data t :: es) (Data t :: es')
| text_parts : forall ts es es', marker (concat ts) = false -> deliver_text es es' -> deliver_text (Data (concat ts) :: es) (map Data ts ++ es').

(** ** Texts *)
(** a text that survives: its markup is well-formed and well-nested, no white space at the ends, no marker *)
Definition provable (languages : list str) (t : str) : Prop :=
  exists ks, t = typed ks /\ marked_up languages ks /\ well_tagged [] ks = true /\ strip t = t /\ marker t = false.

(** ** Novels *)
(** titles and the author name: one line, no square bracket, no comment mark *)
Definition line_ok (t : str) : bool := title_ok t && negb (existsb (N.eqb 10) t) && negb (containsb (s "/*") t) && negb (containsb (s "*/") t).
Definition oline_ok (t : option str) : bool := match t with Some x => line_ok x | None => true end.
(** what is required of each scene in a chapter: *)
Record proof_scene_ok (languages : list str) (n : novel) (x : scene) : Prop := mkProofSceneOk {
  po_type : known_type (sc_type x) = true;
  (* its text is not split, and its word and letter counts are up to date *)
  po_text : forall t, sc_content x = Some t -> no_headings t /\ set_sceneContent t x = x;
  (* if it is a normal scene, it can be exported and has a text that survives *)
  po_normal : sc_type x = Some 0%N -> known_status (sc_status x) = true /\ oline_ok (sc_title x) = true /\
    (forall l i, sc_locations x = Some l -> In i l -> dmem i (nv_locations n) = true) /\ (forall l i, sc_items x = Some l -> In i l -> dmem i (nv_items n) = true) /\
    exists t, sc_content x = Some t /\ provable languages t }.
Record proof_chapter_ok (languages : list str) (n : novel) (c : chapter) : Prop := mkProofChapterOk {
  pc_type : known_type (ch_type c) = true;
  pc_title : oline_ok (ch_title c) = true;
  pc_scenes : forall i, In i (ch_srtScenes c) -> number_id i = true /\ exists x, dget i (nv_scenes n) = Some x /\ proof_scene_ok languages n x }.
(** the novels: the languages are those that are written into the document *)
Record proof_ok (author : str) (languages : list str) (n : novel) : Prop := mkProofOk {
  pr_names : names_ok author languages;
  pr_locales : Forall locale_ok languages;
  pr_title : oline_ok (nv_title n) = true;
  pr_author : oline_ok (nv_authorName n) = true;
  pr_chapters : forall i, In i (nv_srtChapters n) -> exists c, dget i (nv_chapters n) = Some c /\ proof_chapter_ok languages n c }.
