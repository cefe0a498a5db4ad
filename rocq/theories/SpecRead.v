(** Reading documents with marked sections: what may change (C29). *)
From Coq Require Import String List NArith ZArith Bool Sorting.Permutation.
From Verif Require Import PyStr PyDict NovelModel NovelOps SpecNovel SpecSplit OdfXml OdtRead.
Import ListNotations.

(** the names of the sections in a document *)
Definition section_names (es : list event) : list str :=
  flat_map (fun e => match e with Start n a => if str_eqb n (s "text:section") then match dget (s "text:name") a with Some v => [v] | None => [] end else [] | _ => [] end) es.
(** a section marked with the ID: its name begins with the mark, and the ID is the first number in it *)
Definition marked (mark : str) (es : list event) (id : str) : Prop := exists v, In v (section_names es) /\ prefixb mark v = true /\ first_number v = Some id.
(** the data in a document, as the parser reports them *)
Definition data_of (es : list event) : list str := flat_map (fun e => match e with Data t => [t] | _ => [] end) es.
(** a scene marked with visible marks in one of the texts *)
Definition tagged (texts : list str) (id : str) : Prop := exists t, In t texts /\ containsb (s "[ScID") t = true /\ first_number t = Some id.
Definition texts_of (title : option str) (es : list event) : list str := match title with Some t => [t] | None => [] end ++ data_of es.

(** what a document type cannot change in a scene: all but the fields set to a constant here *)
Definition ms_scene (x : scene) : scene := set_sc_title None (set_sc_type None (set_sc_content None (set_sc_wordCount 0 (set_sc_letterCount 0 x)))).
Definition pf_scene (x : scene) : scene := set_sc_content None (set_sc_wordCount 0 (set_sc_letterCount 0 x)).
Definition sd_scene (x : scene) : scene := set_sc_title None (set_sc_type None (set_sc_desc None x)).
Definition cd_scene (x : scene) : scene := set_sc_type None x.
(** in a chapter *)
Definition ms_chapter (c : chapter) : chapter := set_ch_title None (set_ch_type None (set_ch_srtScenes [] c)).
Definition cd_chapter (c : chapter) : chapter := set_ch_title None (set_ch_desc None (set_ch_type None (set_ch_srtScenes [] c))).
(** in the novel: all but chapters, scenes, the language list, and the default language *)
Definition doc_rest (n : novel) : novel :=
  set_nv_languageCode None (set_nv_countryCode None (set_nv_languages None (set_nv_srtChapters [] (set_nv_chapters [] (set_nv_scenes [] n))))).

(** an element afterwards, compared with itself before or, if it is new, with an empty one *)
Definition origin {A} (fresh : A) (old : option A) : A := match old with Some x => x | None => fresh end.

(** the frame: scenes and chapters without a mark are unchanged; marked ones keep the fields outside the document type;
    new ones are those marked and unknown before; a new scene is appended to the scenes of exactly one marked chapter;
    new chapters come at the end; a chapter title is only set where there was none *)
Record framed (scene_marked chapter_marked : str -> Prop) (scene_core : scene -> scene) (chapter_core : chapter -> chapter) (has_title : chapter -> bool) (n0 n : novel) : Prop := mkFramed {
  fr_rest : doc_rest n = doc_rest n0;
  fr_scene : forall id, ~ scene_marked id -> dget id (nv_scenes n) = dget id (nv_scenes n0);
  fr_scene_marked : forall id x, dget id (nv_scenes n) = Some x -> scene_core x = scene_core (origin new_scene (dget id (nv_scenes n0)));
  fr_chapter : forall id, ~ chapter_marked id -> dget id (nv_chapters n) = dget id (nv_chapters n0);
  fr_chapter_marked : forall id c, dget id (nv_chapters n) = Some c ->
    let c0 := origin new_chapter (dget id (nv_chapters n0)) in chapter_core c = chapter_core c0 /\ (has_title c0 = true -> ch_title c = ch_title c0);
  fr_new : exists (NS NC : list str) (added : str -> list str),
    dkeys (nv_scenes n) = dkeys (nv_scenes n0) ++ NS /\ dkeys (nv_chapters n) = dkeys (nv_chapters n0) ++ NC /\ nv_srtChapters n = nv_srtChapters n0 ++ NC /\
    (forall id c, dget id (nv_chapters n) = Some c -> ch_srtScenes c = ch_srtScenes (origin new_chapter (dget id (nv_chapters n0))) ++ added id) /\
    Permutation (flat_map added (dkeys (nv_chapters n))) NS
}.

(** the same for a list of characters, locations or items: one dictionary and the order of its IDs *)
Record list_framed {A} (is_marked : str -> Prop) (core : A -> A) (fresh : A) (d0 d : dict A) (l0 l : list str) : Prop := mkListFramed {
  lf_other : forall id, ~ is_marked id -> dget id d = dget id d0;
  lf_marked : forall id x, dget id d = Some x -> core x = core (origin fresh (dget id d0));
  lf_new : exists new, dkeys d = dkeys d0 ++ new /\ l = l0 ++ new
}.
Definition character_core (x : character) : character := set_cr_desc None (set_cr_bio None (set_cr_goals None (set_cr_notes None x))).
Definition element_core (x : world) : world := set_we_desc None x.
