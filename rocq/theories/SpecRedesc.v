(** Novels that differ in the descriptions of some elements, and the elements in the exported documents with descriptions. *)
From Coq Require Import List NArith Bool.
From Verif Require Import PyStr PyDict NovelModel NovelOps SpecExport.
Import ListNotations.

(** the same keys in the same order; the entries with a key in P may be replaced by another one that is related by R *)
Definition other_entries {A} (R : A -> A -> Prop) (P : str -> Prop) (d d' : dict A) : Prop :=
  Forall2 (fun p q => fst q = fst p /\ (snd q = snd p \/ (P (fst p) /\ R (snd p) (snd q)))) d d'.
(** another description *)
Definition redescribed_scene (x y : scene) : Prop := exists t, y = set_sc_desc t x.
Definition redescribed_chapter (x y : chapter) : Prop := exists t, y = set_ch_desc t x.
Definition redescribed_world (x y : world) : Prop := exists t, y = set_we_desc t x.
(** another description, biography, goals and notes *)
Definition redescribed_character (x y : character) : Prop := exists d b g o, y = set_cr_notes o (set_cr_goals g (set_cr_bio b (set_cr_desc d x))).
(** m is n, except that the scenes (chapters, ...) in P may have other descriptions *)
Definition other_scenes (P : str -> Prop) (n m : novel) : Prop := exists d, m = set_nv_scenes d n /\ other_entries redescribed_scene P (nv_scenes n) d.
Definition other_chapters (P : str -> Prop) (n m : novel) : Prop := exists d, m = set_nv_chapters d n /\ other_entries redescribed_chapter P (nv_chapters n) d.
Definition other_characters (P : str -> Prop) (n m : novel) : Prop := exists d, m = set_nv_characters d n /\ other_entries redescribed_character P (nv_characters n) d.
Definition other_locations (P : str -> Prop) (n m : novel) : Prop := exists d, m = set_nv_locations d n /\ other_entries redescribed_world P (nv_locations n) d.
Definition other_items (P : str -> Prop) (n m : novel) : Prop := exists d, m = set_nv_items d n /\ other_entries redescribed_world P (nv_items n) d.
(** the chapters of the novel that are of a kind *)
Definition chapters_of_kind (k : kind) (n : novel) (i : str) : Prop := In i (nv_srtChapters n) /\ chapter_kind n i = k.
