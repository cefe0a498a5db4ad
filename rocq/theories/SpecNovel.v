(** Vocabulary about novels used in the statements of the property theorems.  It refers to the data model
    (NovelModel.v) only. *)
From Coq Require Import List NArith ZArith Bool.
From Verif Require Import PyStr PyDict NovelModel.
Import ListNotations.

(** scene IDs of a chapter; scene IDs of the novel in reading order *)
Definition chapter_scenes (n : novel) (chId : str) : list str :=
  match dget chId (nv_chapters n) with Some ch => ch_srtScenes ch | None => [] end.
Definition all_scenes (n : novel) : list str := flat_map (chapter_scenes n) (nv_srtChapters n).

(** IDs (or tags) a scene refers to through attribute f *)
Definition scene_refs (f : scene -> option (list str)) (n : novel) (scId : str) : list str :=
  match dget scId (nv_scenes n) with
  | Some sc => match f sc with Some l => l | None => [] end
  | None => []
  end.
(** tags of an element *)
Definition elem_tags {A} (tags : A -> option (list str)) (es : dict A) (id : str) : list str :=
  match dget id es with
  | Some e => match tags e with Some l => l | None => [] end
  | None => []
  end.

(** the scenes among scIds, in order, that refer to k (as often as they do) *)
Definition references (f : scene -> option (list str)) (n : novel) (k : str) (scIds : list str) : list str :=
  flat_map (fun scId => repeat scId (count_occ str_eq_dec (scene_refs f n scId) k)) scIds.
(** the elements among ids, in order, that carry tag t *)
Definition tagged {A} (tags : A -> option (list str)) (es : dict A) (t : str) (ids : list str) : list str :=
  flat_map (fun id => repeat id (count_occ str_eq_dec (elem_tags tags es id) t)) ids.

(** a tag without elements has no entry *)
Definition tag_entry (l : list str) : option (list str) := match l with [] => None | _ => Some l end.

(** everything that is referred to exists *)
Definition refs_exist (n : novel) : Prop :=
  (forall chId, In chId (nv_srtChapters n) -> In chId (dkeys (nv_chapters n))) /\
  (forall scId, In scId (all_scenes n) -> In scId (dkeys (nv_scenes n)) /\
     (forall k, In k (scene_refs sc_characters n scId) -> In k (nv_srtCharacters n)) /\
     (forall k, In k (scene_refs sc_locations n scId) -> In k (nv_srtLocations n)) /\
     (forall k, In k (scene_refs sc_items n scId) -> In k (nv_srtItems n))) /\
  (forall id, In id (nv_srtCharacters n) -> In id (dkeys (nv_characters n))) /\
  (forall id, In id (nv_srtLocations n) -> In id (dkeys (nv_locations n))) /\
  (forall id, In id (nv_srtItems n) -> In id (dkeys (nv_items n))).
