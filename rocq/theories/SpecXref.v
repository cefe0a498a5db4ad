(** What the cross reference document contains. *)
From Coq Require Import List NArith ZArith Bool.
From Verif Require Import PyStr PyDict NovelModel SpecNovel SpecShow OdtText SpecExport Descriptions.
Import ListNotations.

(** the elements of l, each at its first place only *)
Fixpoint firsts (l : list str) : list str :=
  match l with [] => [] | x :: l => x :: filter (fun y => negb (str_eqb y x)) (firsts l) end.
(** the number of x in l, from 1 *)
Fixpoint position (x : str) (l : list str) : nat :=
  match l with [] => 0 | y :: l => if str_eqb y x then 1 else S (position x l) end.

Section Xref.
Variable tr : str -> str.
Variables projectName projectPath : option str.
Variable n : novel.

(** the last chapter that contains the scene *)
Definition its_chapter (scId : str) : str := last (filter (fun ch => smem scId (chapter_scenes n ch)) (nv_srtChapters n)) [].
(** scenes are numbered in reading order; Chapter is the number of the chapter among all chapters *)
Definition xref_scene_table (i : str) : table :=
  (s "Chapter", number (position (its_chapter i) (nv_srtChapters n))) :: (s "sceneTitle", exactly (tr (s "Scene"))) ::
  scene_table odt_conv projectName projectPath n i (position i (all_scenes n)) 0 0.
Definition tag_table (t : str) : table := [(s "Tag", exactly t)].

(** a line of the document: a template, and the texts for its placeholders *)
Definition line : Type := table * str.
Definition line_shown (l : line) (t : str) : Prop := rendered (fst l) (snd l) t.

Definition heading2 (text : str) : str := s "<text:h text:style-name=""Heading_20_2"" text:outline-level=""2"">" ++ text ++ s ":</text:h>
".
Definition scene_line (i : str) : line :=
  (xref_scene_table i,
   match sc_type (scene_of n i) with
   | Some 1%N => s "<text:p text:style-name=""scene_20_mark_20_notes"">
$SceneNumber (Ch $Chapter) $Title (Notes)
</text:p>
"
   | Some 2%N => s "<text:p text:style-name=""scene_20_mark_20_todo"">
$SceneNumber (Ch $Chapter) $Title (ToDo)
</text:p>
"
   | Some 3%N => s "<text:p text:style-name=""scene_20_mark_20_unused"">
$SceneNumber (Ch $Chapter) $Title (Unused)
</text:p>
"
   | _ => s "<text:p text:style-name=""scene_20_mark"">
<text:a xlink:href=""../${ProjectName}_manuscript.odt#ScID:$ID%7Cregion"">$SceneNumber</text:a> (Ch $Chapter) $Title
</text:p>
"
   end).
Definition character_line (tpl i : str) : list line :=
  match dget i (nv_characters n) with Some c => [(character_table odt_conv projectName projectPath i c, tpl)] | None => [] end.
Definition world_line (d : dict world) (tpl i : str) : list line :=
  match dget i d with Some w => [(world_table odt_conv projectName projectPath i w, tpl)] | None => [] end.
Definition tag_line (tpl t : str) : list line := [(tag_table t, tpl)].

(** what has entries gets a heading *)
Definition section (heading entries : list line) : list line := match entries with [] => [] | _ => heading ++ entries end.

Definition scenes_with_character (i : str) : list line :=
  section (character_line (heading2 (s "Scenes with Character $Title")) i) (map scene_line (references sc_characters n i (all_scenes n))).
Definition scenes_with_location (i : str) : list line :=
  section (world_line (nv_locations n) (heading2 (s "Scenes with Location $Title")) i) (map scene_line (references sc_locations n i (all_scenes n))).
Definition scenes_with_item (i : str) : list line :=
  section (world_line (nv_items n) (heading2 (s "Scenes with Item $Title")) i) (map scene_line (references sc_items n i (all_scenes n))).
Definition scenes_tagged (t : str) : list line :=
  section (tag_line (heading2 (s "Scenes tagged $Tag")) t) (map scene_line (references sc_tags n t (all_scenes n))).
Definition characters_tagged (t : str) : list line :=
  section (tag_line (heading2 (s "Characters tagged $Tag")) t)
    (flat_map (character_line (s "<text:p text:style-name=""Text_20_body"">
<text:a xlink:href=""../${ProjectName}_characters.odt#CrID:$ID%7Cregion"">$Title</text:a> $FullName
</text:p>
")) (tagged cr_tags (nv_characters n) t (nv_srtCharacters n))).
Definition locations_tagged (t : str) : list line :=
  section (tag_line (heading2 (s "Locations tagged $Tag")) t)
    (flat_map (world_line (nv_locations n) (s "<text:p text:style-name=""Text_20_body"">
<text:a xlink:href=""../${ProjectName}_locations.odt#LcID:$ID%7Cregion"">$Title</text:a>
</text:p>
")) (tagged we_tags (nv_locations n) t (nv_srtLocations n))).
Definition items_tagged (t : str) : list line :=
  section (tag_line (heading2 (s "Items tagged $Tag")) t)
    (flat_map (world_line (nv_items n) (s "<text:p text:style-name=""Text_20_body"">
<text:a xlink:href=""../${ProjectName}_items.odt#ItID:$ID%7Cregion"">$Title</text:a>
</text:p>
")) (tagged we_tags (nv_items n) t (nv_srtItems n))).

(** the lines between the title and the end of the document *)
Definition xref_lines : list line :=
  flat_map scenes_with_character (firsts (nv_srtCharacters n)) ++
  flat_map scenes_with_location (firsts (nv_srtLocations n)) ++
  flat_map scenes_with_item (firsts (nv_srtItems n)) ++
  flat_map scenes_tagged (firsts (flat_map (scene_refs sc_tags n) (all_scenes n))) ++
  flat_map characters_tagged (firsts (flat_map (elem_tags cr_tags (nv_characters n)) (nv_srtCharacters n))) ++
  flat_map locations_tagged (firsts (flat_map (elem_tags we_tags (nv_locations n)) (nv_srtLocations n))) ++
  flat_map items_tagged (firsts (flat_map (elem_tags we_tags (nv_items n)) (nv_srtItems n))).
End Xref.
