(** The scene list as a spreadsheet: src/pywriter/ods_w/ods_w_scenelist.py OdsWSceneList. *)
From Coq Require Import String List NArith ZArith.
From Verif Require Import PyStr PyDict NovelModel OdtText Export Templates OdsWrite.
Import ListNotations.
Section Exporter.
Variables projectName projectPath : option str.
(** 224-231 a rating "1" is left blank *)
Definition blank_rating (f : option str) (key : string) (m : dict str) : dict str :=
  match f with Some v => if str_eqb v (s "1") then dset (s key) [] m else m | None => m end.
(** src/pywriter/ods_w/ods_w_scenelist.py 208-232 _get_sceneMapping *)
Definition scenelist_sceneMapping (n : novel) (i : str) (number words letters : nat) : res (dict str) :=
  do m <- sceneMapping ods_conv projectName projectPath n i number words letters;
  do x <- dindex i (nv_scenes n);
  Ok (blank_rating (sc_field4 x) "Field4" (blank_rating (sc_field3 x) "Field3" (blank_rating (sc_field2 x) "Field2" (blank_rating (sc_field1 x) "Field1" m)))).
(** 11-206 the templates *)
Definition OdsWSceneList : exporter :=
  OdsWSceneList_with (fileHeaderMapping ods_conv) (chapterMapping ods_conv projectName projectPath) scenelist_sceneMapping
    (characterMapping ods_conv projectName projectPath) (fun n => worldMapping ods_conv projectName projectPath (nv_locations n))
    (fun n => worldMapping ods_conv projectName projectPath (nv_items n)) (prjNoteMapping ods_conv projectName projectPath).
End Exporter.
