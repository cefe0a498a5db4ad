(** What PyWriter does not understand in an existing project file, and what "preserved" means. *)
From Coq Require Import List NArith Bool.
From Verif Require Import PyStr PyDict YwTree SpecText.
Import ListNotations.

(** the sub-elements of a scene PyWriter reads or writes *)
Definition known_in_scene : list str :=
  [s "Title"; s "Desc"; s "SceneContent"; s "WordCount"; s "LetterCount"; s "Unused"; s "Fields"; s "ExportCondSpecific"; s "ExportWhenRTF";
   s "Status"; s "Notes"; s "Tags"; s "Field1"; s "Field2"; s "Field3"; s "Field4"; s "AppendToPrev"; s "SpecificDateTime"; s "SpecificDateMode";
   s "Day"; s "Hour"; s "Minute"; s "LastsDays"; s "LastsHours"; s "LastsMinutes"; s "ReactionScene"; s "SubPlot"; s "Goal"; s "Conflict"; s "Outcome";
   s "ImageFile"; s "Characters"; s "Locations"; s "Items"; s "RTFFile"; s "BelongsToChID"].
Definition known_scene_fields : list str := [s "Field_SceneType"; s "Field_SceneArcs"; s "Field_SceneMode"].
Definition known_in_chapter : list str :=
  [s "Title"; s "Desc"; s "Unused"; s "SortOrder"; s "Fields"; s "SectionStart"; s "Type"; s "ChapterType"; s "Scenes"].
Definition known_chapter_fields : list str := [s "Field_SuppressChapterTitle"; s "Field_SuppressChapterBreak"; s "Field_IsTrash"].
Definition known_sections : list str :=
  [s "PROJECT"; s "LOCATIONS"; s "ITEMS"; s "CHARACTERS"; s "PROJECTNOTES"; s "PROJECTVARS"; s "SCENES"; s "CHAPTERS"].

(** the elements with other tags, in their order *)
Definition unknown (known : list str) (k : list elem) : list elem := filter (fun e => negb (smem (e_tag e) known)) k.
(** the elements with tag f below <Fields> *)
Definition field_elems (f : str) (k : list elem) : list elem :=
  match filter (fun e => str_eqb (e_tag e) (s "Fields")) k with F :: _ => filter (fun e => str_eqb (e_tag e) f) (e_kids F) | [] => [] end.

Definition preserved (known fields : list str) (e e' : elem) : Prop :=
  e_tag e' = e_tag e /\ e_text e' = e_text e /\ unknown known (e_kids e') = unknown known (e_kids e) /\
  forall f, ~ In f fields -> field_elems f (e_kids e') = field_elems f (e_kids e).

(** the section with tag t *)
Definition section (t : str) (r : list elem) : option (list elem) :=
  match filter (fun e => str_eqb (e_tag e) t) r with e :: _ => Some (e_kids e) | [] => None end.

(** k consists of elements with tag t, each with one ID; l are these elements by their IDs *)
Definition numbered (t : str) (k : list elem) (l : dict elem) : Prop :=
  map snd l = k /\ Forall (fun p => e_tag (snd p) = t /\
     filter (fun e => str_eqb (e_tag e) (s "ID")) (e_kids (snd p)) = [Elem (s "ID") (Some (fst p)) []]) l.
(** at most one <Fields> element *)
Definition one_fields (e : elem) : Prop := length (filter (fun x => str_eqb (e_tag x) (s "Fields")) (e_kids e)) <= 1.

(** ** The same in the file: elements are the same if their tags and texts are, see SpecText.same_tree *)
Definition preserved_in_file (known fields : list str) (e e' : elem) : Prop :=
  e_tag e' = e_tag e /\ Forall2 same_tree (unknown known (e_kids e)) (unknown known (e_kids e')) /\
  forall f, ~ In f fields -> Forall2 same_tree (field_elems f (e_kids e)) (field_elems f (e_kids e')).
