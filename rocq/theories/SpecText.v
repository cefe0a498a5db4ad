(** Vocabulary for statements about the elements of a project file and the texts read from it. *)
From Coq Require Import List NArith ZArith Bool.
From Verif Require Import PyStr PyDict NovelModel YwTree IsoDate YwText SpecYw7.
Import ListNotations.

(** the text of the first element with tag t *)
Definition first_text (t : str) (k : list elem) : option str :=
  match filter (fun e => str_eqb (e_tag e) t) k with e :: _ => e_text e | [] => None end.
(** there is an element with tag t *)
Definition tag_present (t : str) (k : list elem) : bool := existsb (fun e => str_eqb (e_tag e) t) k.
(** the elements of the section t *)
Definition entries (t : str) (r : list elem) : list elem :=
  match filter (fun e => str_eqb (e_tag e) t) r with e :: _ => e_kids e | [] => [] end.
(** no ID is used twice *)
Definition unique_ids (es : list elem) : Prop := NoDup (map (fun e => first_text (s "ID") (e_kids e)) es).

(** which text element is which attribute *)
Definition scene_text_fields : list (str * (scene -> option str)) :=
  [(s "Title", sc_title); (s "Desc", sc_desc); (s "SceneContent", sc_content); (s "Notes", sc_notes);
   (s "Field1", sc_field1); (s "Field2", sc_field2); (s "Field3", sc_field3); (s "Field4", sc_field4);
   (s "LastsDays", sc_lastsDays); (s "LastsHours", sc_lastsHours); (s "LastsMinutes", sc_lastsMinutes);
   (s "Goal", sc_goal); (s "Conflict", sc_conflict); (s "Outcome", sc_outcome); (s "ImageFile", sc_image)].
Definition chapter_text_fields : list (str * (chapter -> option str)) := [(s "Title", ch_title); (s "Desc", ch_desc)].
Definition world_text_fields : list (str * (world -> option str)) :=
  [(s "Title", we_title); (s "Desc", we_desc); (s "ImageFile", we_image); (s "AKA", we_aka)].
Definition character_text_fields : list (str * (character -> option str)) :=
  [(s "Title", cr_title); (s "Desc", cr_desc); (s "ImageFile", cr_image); (s "AKA", cr_aka); (s "Notes", cr_notes);
   (s "Bio", cr_bio); (s "Goals", cr_goals); (s "FullName", cr_fullName)].
Definition project_text_fields : list (str * (novel -> option str)) :=
  [(s "Title", nv_title); (s "AuthorName", nv_authorName); (s "Bio", nv_authorBio); (s "Desc", nv_desc);
   (s "FieldTitle1", nv_fieldTitle1); (s "FieldTitle2", nv_fieldTitle2); (s "FieldTitle3", nv_fieldTitle3); (s "FieldTitle4", nv_fieldTitle4)].

(** each element e of the section, with ID i, is in the dictionary under i with all its texts *)
Definition texts_present {A} (table : list (str * (A -> option str))) (es : list elem) (d : dict A) : Prop :=
  forall e i, In e es -> first_text (s "ID") (e_kids e) = Some i ->
  exists a, dget i d = Some a /\ forall t f, In (t, f) table -> f a = first_text t (e_kids e).

(** ** The elements whose text is stored as CDATA: yw7_file.py 42-77, without Conflict and Field_ChapterHeadingPrefix
    (a missing comma glues these two together) *)
Definition text_tags : list str :=
  [s "Title"; s "AuthorName"; s "Bio"; s "Desc"; s "FieldTitle1"; s "FieldTitle2"; s "FieldTitle3"; s "FieldTitle4"; s "LaTeXHeaderFile";
   s "Tags"; s "AKA"; s "ImageFile"; s "FullName"; s "Goals"; s "Notes"; s "RTFFile"; s "SceneContent"; s "Outcome"; s "Goal";
   s "Field_ChapterHeadingSuffix"; s "Field_PartHeadingPrefix"; s "Field_PartHeadingSuffix"; s "Field_CustomGoal"; s "Field_CustomConflict";
   s "Field_CustomOutcome"; s "Field_CustomChrBio"; s "Field_CustomChrGoals"; s "Field_ArcDefinition"; s "Field_SceneArcs"; s "Field_CustomAR"].
(** a name such as those of the elements *)
Definition tag_name (t : str) : Prop :=
  match t with [] => False | c :: _ => (65 <= c <= 90 \/ 97 <= c <= 122 \/ c = 95)%N end /\
  Forall (fun c => 65 <= c <= 90 \/ 97 <= c <= 122 \/ c = 95 \/ 48 <= c <= 57 \/ c = 45 \/ c = 46)%N t /\
  t <> s "ConflictField_ChapterHeadingPrefix".
(** nothing, or only blanks, tabs and line breaks (the indentation in front of the first sub-element) *)
Definition blank_text (x : option str) : Prop := match x with None => True | Some v => Forall (fun c => c = 9 \/ c = 10 \/ c = 32)%N v end.
(** trees with any texts in the text elements and without markup in the others *)
Inductive text_tree : elem -> Prop :=
| tt_text : forall t v, In t text_tags -> long_text v -> text_tree (Elem t (Some v) [])
| tt_plain : forall t v, tag_name t -> ~ In t text_tags -> plain_text v -> text_tree (Elem t (Some v) [])
| tt_empty : forall t, tag_name t -> text_tree (Elem t None [])
| tt_node : forall t x k, tag_name t -> ~ In t text_tags -> k <> [] -> blank_text x -> Forall text_tree k -> text_tree (Elem t x k).
(** the same elements with the same texts; the indentation of nodes is not compared *)
Inductive same_tree : elem -> elem -> Prop :=
| sm_leaf : forall t x y, same_text x y -> same_tree (Elem t x []) (Elem t y [])
| sm_node : forall t x y k k', Forall2 same_tree k k' -> same_tree (Elem t x k) (Elem t y k').

(** ** The types *)
(** Field_SceneType, presence of <Unused>: 0 normal, 1 notes, 2 todo, 3 unused *)
Definition scene_type_table (field : option str) (unused : bool) : N :=
  match field with
  | Some y => if str_eqb y (s "1") then 1%N else if str_eqb y (s "2") then 2%N else if unused then 3%N else 0%N
  | None => if unused then 3%N else 0%N
  end.
(** <ChapterType>, legacy <Type>, presence of <Unused> *)
Definition chapter_type_table (new old : option (option str)) (unused : bool) : N :=
  match new, old with
  | Some y, _ => if match y with Some y => str_eqb y (s "2") | None => false end then 2%N
                 else if match y with Some y => str_eqb y (s "1") | None => false end then 1%N
                 else if unused then 3%N else 0%N
  | None, Some y => if match y with Some y => str_eqb y (s "1") | None => false end then 1%N
                    else if unused then 3%N else 0%N
  | None, None => 0%N
  end.
(** the text of the element t, if there is one *)
Definition present_text (t : str) (k : list elem) : option (option str) :=
  match filter (fun e => str_eqb (e_tag e) t) k with e :: _ => Some (e_text e) | [] => None end.

(** ** The start of a scene *)
(** a date that is unset, discarded (empty) or a calendar date *)
Definition date_or_nothing (d : option str) : Prop := match d with None => True | Some v => v = [] \/ valid_date v = true end.
Definition day_or_nothing (d : option str) : Prop := match d with None => True | Some v => v = [] \/ parse_int v <> None end.

(** ** Project notes *)
Definition note_text_fields : list (str * (note -> option str)) := [(s "Title", pn_title); (s "Desc", pn_desc)].
(** an element with an ID and without custom fields *)
Definition simple_note (e : elem) : Prop := first_text (s "ID") (e_kids e) <> None /\ tag_present (s "Fields") (e_kids e) = false.
