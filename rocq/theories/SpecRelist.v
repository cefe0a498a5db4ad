(** Novels that differ in what the lists show of some elements. *)
From Coq Require Import List NArith ZArith Bool.
From Verif Require Import PyStr PyDict NovelModel NovelOps SpecExport SpecRedesc.
Import ListNotations.

(** a list that shows the text t replaces the text u: an empty cell replaces a text by the empty text, and leaves a missing one missing *)
Definition replaces_text (t u : option str) : Prop := match t with None => u = None | Some [] => u <> None | Some (_ :: _) => True end.
Definition replaces_tags (t u : option (list str)) : Prop := match t with None => u = None | Some [] => u <> None | Some (_ :: _) => True end.
(** the character x is listed and replaces y: all but the keywords and the image may differ *)
Definition relisted_character (x y : character) : Prop :=
  cr_kw y = cr_kw x /\ cr_image y = cr_image x /\
  replaces_text (cr_title x) (cr_title y) /\ replaces_text (cr_fullName x) (cr_fullName y) /\ replaces_text (cr_aka x) (cr_aka y) /\
  replaces_text (cr_desc x) (cr_desc y) /\ replaces_text (cr_bio x) (cr_bio y) /\ replaces_text (cr_goals x) (cr_goals y) /\
  replaces_text (cr_notes x) (cr_notes y) /\ replaces_tags (cr_tags x) (cr_tags y).
(** the location or item x is listed and replaces y *)
Definition relisted_world (x y : world) : Prop :=
  we_kw y = we_kw x /\ we_image y = we_image x /\
  replaces_text (we_title x) (we_title y) /\ replaces_text (we_desc x) (we_desc y) /\ replaces_text (we_aka x) (we_aka y) /\ replaces_tags (we_tags x) (we_tags y).
(** the scene x is listed and replaces y: the title, the description, the tags, the notes, the action or reaction mark, the goal, the conflict,
    the outcome, the ratings and the status (if x has one) may differ *)
Definition relisted_scene (x y : scene) : Prop :=
  exists title desc tags notes ar goal conflict outcome f1 f2 f3 f4 status,
    y = set_sc_title title (set_sc_desc desc (set_sc_tags tags (set_sc_notes notes (set_sc_isReactionScene ar (set_sc_goal goal (set_sc_conflict conflict
      (set_sc_outcome outcome (set_sc_field1 f1 (set_sc_field2 f2 (set_sc_field3 f3 (set_sc_field4 f4 (set_sc_status status x)))))))))))) /\
    replaces_text (sc_notes x) notes /\ replaces_text (sc_goal x) goal /\ replaces_text (sc_conflict x) conflict /\ replaces_text (sc_outcome x) outcome /\
    replaces_tags (sc_tags x) tags /\ (sc_status x = Some 0%Z -> status = Some 0%Z).
(** m is n, except for what the lists show, and except for the order and choice of the listed elements *)
Definition other_character_list (n m : novel) : Prop := exists ids d, m = set_nv_srtCharacters ids (set_nv_characters d n) /\
  other_entries relisted_character (fun i => In i (nv_srtCharacters n)) (nv_characters n) d.
Definition other_location_list (n m : novel) : Prop := exists ids d, m = set_nv_srtLocations ids (set_nv_locations d n) /\
  other_entries relisted_world (fun i => In i (nv_srtLocations n)) (nv_locations n) d.
Definition other_item_list (n m : novel) : Prop := exists ids d, m = set_nv_srtItems ids (set_nv_items d n) /\
  other_entries relisted_world (fun i => In i (nv_srtItems n)) (nv_items n) d.
(** the scenes in the scene list: the normal ones, but for raw code *)
Definition listed_scene (n : novel) (i : str) : Prop :=
  exists ch, In ch (nv_srtChapters n) /\ In i (ch_srtScenes (chapter_of n ch)) /\ scene_kind n ch i = Normal /\ raw_code (scene_of n i) = false.
(** m is n, except for what the scene list shows *)
Definition other_scene_list (n m : novel) : Prop := exists d, m = set_nv_scenes d n /\ other_entries relisted_scene (listed_scene n) (nv_scenes n) d.
