(** What a project file contains after a number of saves.  A save overlays what is in the file: where the novel has no
    value (None), the value in the file stays; chapters, scenes, locations, items, characters and notes which the novel
    does not have disappear.  Nothing here refers to the functions that write or read files. *)
From Coq Require Import String List NArith ZArith Bool.
From Verif Require Import PyStr PyDict NovelModel SpecYw7 Yw7Session.
Import ListNotations.

Definition over {A} (v old : option A) : option A := match v with None => old | Some _ => v end.

(** the start of a scene: a date with a time replaces everything; nothing leaves everything; a day and/or a time
    replace the day and the time and remove a date with its time *)
Definition over_start (x o : scene) : option str * option str * option str :=
  match sc_date x, sc_time x, sc_day x with
  | Some d, t, _ => (Some d, t, None)
  | None, None, None => (sc_date o, sc_time o, sc_day o)
  | None, t, y => (None, over t (match sc_date o with None => sc_time o | Some _ => None end), over y (sc_day o))
  end.

Definition over_scene (x o : scene) : scene :=
  let '(d, t, y) := over_start x o in
  {| sc_title := over (sc_title x) (sc_title o);
     sc_desc := over (sc_desc x) (sc_desc o);
     sc_kw := sc_kw x;
     sc_content := over (sc_content x) (sc_content o);
     sc_wordCount := sc_wordCount x;
     sc_letterCount := sc_letterCount x;
     sc_type := sc_type x;
     sc_doNotExport := over (sc_doNotExport x) (sc_doNotExport o);
     sc_status := over (sc_status x) (sc_status o);
     sc_notes := over (sc_notes x) (sc_notes o);
     sc_tags := over (sc_tags x) (sc_tags o);
     sc_field1 := over (sc_field1 x) (sc_field1 o);
     sc_field2 := over (sc_field2 x) (sc_field2 o);
     sc_field3 := over (sc_field3 x) (sc_field3 o);
     sc_field4 := over (sc_field4 x) (sc_field4 o);
     sc_appendToPrev := sc_appendToPrev x;
     sc_isReactionScene := sc_isReactionScene x;
     sc_isSubPlot := sc_isSubPlot x;
     sc_goal := over (sc_goal x) (sc_goal o);
     sc_conflict := over (sc_conflict x) (sc_conflict o);
     sc_outcome := over (sc_outcome x) (sc_outcome o);
     sc_characters := sc_characters x;
     sc_locations := sc_locations x;
     sc_items := sc_items x;
     sc_date := d; sc_time := t; sc_day := y;
     sc_lastsMinutes := over (sc_lastsMinutes x) (sc_lastsMinutes o);
     sc_lastsHours := over (sc_lastsHours x) (sc_lastsHours o);
     sc_lastsDays := over (sc_lastsDays x) (sc_lastsDays o);
     sc_image := over (sc_image x) (sc_image o);
     sc_scnArcs := sc_scnArcs x;
     sc_scnMode := sc_scnMode x |}.

Definition over_chapter (c o : chapter) : chapter :=
  {| ch_title := over (ch_title c) (ch_title o);
     ch_desc := over (ch_desc c) (ch_desc o);
     ch_kw := ch_kw c;
     ch_level := over (ch_level c) (ch_level o);
     ch_type := ch_type c;
     ch_suppressTitle := ch_suppressTitle c;
     ch_isTrash := ch_isTrash c;
     ch_suppressBreak := ch_suppressBreak c;
     ch_srtScenes := ch_srtScenes c |}.

(** an element with the ID [i] covers the old one with this ID, if there is one *)
Definition cover {A} (f : A -> A -> A) (old : dict A) (p : str * A) : str * A :=
  (fst p, match dget (fst p) old with Some o => f (snd p) o | None => snd p end).

Definition over_novel (o n : novel) : novel :=
  set_nv_title (over (nv_title n) (nv_title o))
  (set_nv_desc (over (nv_desc n) (nv_desc o))
  (set_nv_authorName (over (nv_authorName n) (nv_authorName o))
  (set_nv_authorBio (over (nv_authorBio n) (nv_authorBio o))
  (set_nv_fieldTitle1 (over (nv_fieldTitle1 n) (nv_fieldTitle1 o))
  (set_nv_fieldTitle2 (over (nv_fieldTitle2 n) (nv_fieldTitle2 o))
  (set_nv_fieldTitle3 (over (nv_fieldTitle3 n) (nv_fieldTitle3 o))
  (set_nv_fieldTitle4 (over (nv_fieldTitle4 n) (nv_fieldTitle4 o))
  (set_nv_wordTarget (over (nv_wordTarget n) (nv_wordTarget o))
  (set_nv_wordCountStart (over (nv_wordCountStart n) (nv_wordCountStart o))
  (set_nv_scenes (map (cover over_scene (nv_scenes o)) (nv_scenes n))
  (set_nv_chapters (map (cover over_chapter (nv_chapters o)) (nv_chapters n)) n))))))))))).

(** what the file contains after the novels [l] have been saved one after another *)
Definition contents (l : list novel) : novel := fold_left over_novel l new_novel.

(** the language of the novel can be determined: it has a language code, or the system locale has the form aa_BB *)
Definition locale_name (x : option str) : Prop := exists a b, x = Some (a ++ s "_" ++ b) /\ ~ In 95%N a /\ ~ In 95%N b.
Definition language_known (loc dloc : option str) (n : novel) : Prop :=
  (exists v, nv_languageCode n = Some v /\ v <> []) \/ locale_name loc \/ locale_name dloc.

(** the novels saved in the course of a history *)
Definition saves (l : list action) : list novel := flat_map (fun a => match a with Save _ _ n => [n] | Open => [] end) l.
(** every saved novel can be represented in a project file *)
Definition fits (a : action) : Prop := match a with Save loc dloc n => representable n /\ locale_text loc /\ locale_text dloc | Open => True end.
(** and its language can be determined *)
Definition known (a : action) : Prop := match a with Save loc dloc n => language_known loc dloc n | Open => True end.
(** and its language tags are plain *)
Definition plain_save (a : action) : Prop := match a with Save _ _ n => plain_tags n | Open => True end.
