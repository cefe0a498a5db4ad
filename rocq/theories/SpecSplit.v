(** Vocabulary for the statements about splitting scenes (C06, C07). *)
From Coq Require Import List NArith ZArith Bool.
From Verif Require Import PyStr PyDict NovelModel SpecNovel.
Import ListNotations.

(** separator lines inserted by the author: "### ..." begins a scene, "## ..." a chapter, "# ..." a part *)
Definition is_separator (l : str) : bool := prefixb (s "#") l.
Definition is_scene_separator (l : str) : bool := prefixb (s "###") l.
Definition text_lines (t : str) : list str := splitc 10 t.

(** the text of a scene *)
Definition content_at (n : novel) (scId : str) : option str :=
  match dget scId (nv_scenes n) with Some x => sc_content x | None => None end.

(** non-empty lines of the scene, and of the novel in reading order *)
Definition scene_lines (n : novel) (scId : str) : list str :=
  match content_at n scId with Some t => filter truthy (text_lines t) | None => [] end.
Definition novel_lines (n : novel) : list str := flat_map (scene_lines n) (all_scenes n).

(** A scene text cut at its separator lines: the line groups that become scenes.  [cur]: lines of the current
    group; [keep]: the current group becomes a scene even if it is empty (it has its own scene heading). *)
Fixpoint groups (cur : list str) (keep : bool) (ls : list str) : list (list str) :=
  let out := if keep || match cur with [] => false | _ => true end then [cur] else [] in
  match ls with
  | [] => out
  | l :: ls' =>
      if is_scene_separator l then out ++ groups [] true ls'
      else if is_separator l then out ++ groups [] false ls'
      else groups (cur ++ [l]) keep ls'
  end.
Definition parts_of (c : option str) : list (option str) :=
  match c with
  | Some (x :: t) => map (fun g => Some (join [10%N] g)) (groups [] true (text_lines (x :: t)))
  | _ => [c]
  end.

(** no scene heading directly behind a chapter or part heading *)
Fixpoint no_bare_chapter (ls : list str) : bool :=
  match ls with
  | a :: (b :: _) as ls' =>
      negb (is_separator a && negb (is_scene_separator a) && is_scene_separator b) && no_bare_chapter ls'
  | _ => true
  end.
Definition splittable (n : novel) : Prop :=
  forall scId t, In scId (all_scenes n) -> content_at n scId = Some t -> no_bare_chapter (text_lines t) = true.

(** every ID in the reading order exists and is listed once *)
Definition structure_ok (n : novel) : Prop :=
  NoDup (nv_srtChapters n) /\ incl (nv_srtChapters n) (dkeys (nv_chapters n)) /\
  NoDup (all_scenes n) /\ incl (all_scenes n) (dkeys (nv_scenes n)).

(** what splitting may not change in a scene: everything but text, counts, status and the texts marked "(!)" *)
Definition scene_core (x : scene) : scene :=
  set_sc_status None (set_sc_outcome None (set_sc_conflict None (set_sc_goal None (set_sc_desc None
  (set_sc_letterCount 0 (set_sc_wordCount 0 (set_sc_content None x))))))).
(** what it may not change in a chapter: everything but the scene list *)
Definition chapter_core (x : chapter) : chapter := set_ch_srtScenes [] x.
(** the rest of the novel *)
Definition novel_rest (n : novel) : novel := set_nv_srtChapters [] (set_nv_chapters [] (set_nv_scenes [] n)).

(** ** what happens to the scenes that are split *)
(** texts that must be checked get a mark, once *)
Definition flagged (x : option str) : option str :=
  match x with Some (c :: t) => if prefixb (s "(!)") (c :: t) then x else Some (s "(!)" ++ c :: t) | _ => x end.
(** a scene with its notes marked; done scenes are drafts again *)
Definition marked_scene (x y : scene) : Prop :=
  scene_core y = scene_core x /\ (exists z, sc_status x = Some z /\ sc_status y = Some (Z.min z 2)) /\
  sc_desc y = flagged (sc_desc x) /\ sc_goal y = flagged (sc_goal x) /\ sc_conflict y = flagged (sc_conflict x) /\ sc_outcome y = flagged (sc_outcome x).
Definition same_notes (x y : scene) : Prop :=
  scene_core y = scene_core x /\ sc_status y = sc_status x /\ sc_desc y = sc_desc x /\ sc_goal y = sc_goal x /\ sc_conflict y = sc_conflict x /\ sc_outcome y = sc_outcome x.
(** a new scene takes over type, status and time from the scene it was split from, and nothing else but what is in the separator *)
Definition born_scene (x y : scene) : Prop :=
  (exists z, sc_status x = Some z /\ sc_status y = Some (Z.min z 2)) /\
  y = set_sc_lastsMinutes (sc_lastsMinutes x) (set_sc_lastsHours (sc_lastsHours x) (set_sc_lastsDays (sc_lastsDays x)
      (set_sc_day (sc_day x) (set_sc_time (sc_time x) (set_sc_date (sc_date x) (set_sc_type (sc_type x)
      (set_sc_status (sc_status y) (set_sc_desc (sc_desc y) (set_sc_title (sc_title y) (set_sc_letterCount (sc_letterCount y)
      (set_sc_wordCount (sc_wordCount y) (set_sc_content (sc_content y) new_scene)))))))))))).
