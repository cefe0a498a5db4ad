(** Novels that differ in the texts of some scenes, and the scenes in an exported document. *)
From Coq Require Import List NArith Bool.
From Verif Require Import PyStr PyDict NovelModel NovelOps SpecExport.
Import ListNotations.

(** m is n, except that the scenes in P may have other texts (and the word and letter counts of these texts) *)
Definition other_texts (P : str -> Prop) (n m : novel) : Prop := exists scs : dict scene,
  m = set_nv_scenes scs n /\
  Forall2 (fun p q => fst q = fst p /\ (snd q = snd p \/ (P (fst p) /\ exists t, snd q = set_sceneContent t (snd p)))) (nv_scenes n) scs.
(** the scene i is in a document of the normal scenes: it is in a chapter of the novel, it is not of another type, not excluded, and not raw code *)
Definition in_document (n : novel) (i : str) : Prop :=
  exists ch, In ch (nv_srtChapters n) /\ In i (ch_srtScenes (chapter_of n ch)) /\ scene_kind n ch i = Normal /\ raw_code (scene_of n i) = false.
(** the scene i is in a document of the notes (kind 1) or of the "todo" chapters (kind 2): it is in a chapter of the novel, and of this kind *)
Definition in_typed_document (kind : N) (n : novel) (i : str) : Prop :=
  exists ch, In ch (nv_srtChapters n) /\ In i (ch_srtScenes (chapter_of n ch)) /\ sc_type (scene_of n i) = Some kind.
