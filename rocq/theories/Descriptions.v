(** Writing the documents with descriptions: src/pywriter/odt_w/odt_w_scenedesc.py, odt_w_chapterdesc.py, odt_w_partdesc.py,
    odt_w_characters.py, odt_w_locations.py, odt_w_items.py (templates: Templates.v), content.xml.

    Not modelled: styles.xml, meta.xml and the other parts of the ODT archive. *)
From Coq Require Import String List NArith ZArith Bool Lia Arith.
From Verif Require Import PyStr PyDict NovelModel OdtText Template Export Templates.
Import ListNotations.

(** odt_writer.py 367-398 as a method *)
Definition odt_conv (t : option str) (quick : bool) : res str := Ok (odt_convert t quick).
Section Exporters.
(** the translation of the messages; the name and the path of the project *)
Variable tr : str -> str.
Variables projectName projectPath : option str.
(** odt_writer.py 400-413 *)
Definition odt_scene (n : novel) (scId : str) (number words letters : nat) : res (dict str) :=
  do m <- sceneMapping odt_conv projectName projectPath n scId number words letters;
  Ok (dset (s "sceneTitle") (tr (s "Scene")) m).
(** odt_w_scenedesc.py 51-64 *)
Definition scenedesc_scene (n : novel) (scId : str) (number words letters : nat) : res (dict str) :=
  do m <- odt_scene n scId number words letters;
  Ok (dset (s "Manuscript") (tr (s "Manuscript")) m).
(** f' ("{aka}")', f'/{fullName}' *)
Definition in_quotes (t : str) : str := s " (""" ++ t ++ s """)".
Definition after_slash (t : str) : str := s "/" ++ t.
Definition put_given (k : str) (v : option str) (f : str -> str) (m : dict str) : dict str :=
  match v with Some (c :: t) => dset k (f (c :: t)) m | _ => m end.
(** odt_w_characters.py 46-60 *)
Definition odt_character (n : novel) (crId : str) : res (dict str) :=
  do m <- characterMapping odt_conv projectName projectPath n crId;
  do c <- dindex crId (nv_characters n);
  Ok (put_given (s "FullName") (cr_fullName c) after_slash (put_given (s "AKA") (cr_aka c) in_quotes m)).
(** odt_w_locations.py 31-43, odt_w_items.py 31-43 *)
Definition odt_world (n : novel) (d : dict world) (i : str) : res (dict str) :=
  do m <- worldMapping odt_conv projectName projectPath d i;
  do w <- dindex i d;
  Ok (put_given (s "AKA") (we_aka w) in_quotes m).
(** the classes; OdtWriter adds the conversion and the scene mapping to FileExport *)
Definition odt_mappings {A} (sceneM : novel -> str -> nat -> nat -> nat -> res (dict str)) (w : (novel -> res (dict str)) -> (novel -> str -> nat -> res (dict str)) -> (novel -> str -> nat -> nat -> nat -> res (dict str)) ->
    (novel -> str -> res (dict str)) -> (novel -> str -> res (dict str)) -> (novel -> str -> res (dict str)) -> (novel -> str -> res (dict str)) -> A) : A :=
  w (fileHeaderMapping odt_conv) (chapterMapping odt_conv projectName projectPath) sceneM odt_character (fun n => odt_world n (nv_locations n)) (fun n => odt_world n (nv_items n))
    (prjNoteMapping odt_conv projectName projectPath).
(** odt_w_scenedesc.py 12-64 *)
Definition OdtWSceneDesc : exporter := odt_mappings scenedesc_scene OdtWSceneDesc_with.
(** odt_w_chapterdesc.py 12-32 *)
Definition OdtWChapterDesc : exporter := odt_mappings odt_scene OdtWChapterDesc_with.
(** odt_w_partdesc.py 12-31 *)
Definition OdtWPartDesc : exporter := odt_mappings odt_scene OdtWPartDesc_with.
(** odt_w_characters.py 12-60; the mapping for locations and items is FileExport's there, but it is not used *)
Definition OdtWCharacters : exporter := odt_mappings odt_scene OdtWCharacters_with.
(** odt_w_locations.py 12-43 *)
Definition OdtWLocations : exporter := odt_mappings odt_scene OdtWLocations_with.
(** odt_w_items.py 12-43 *)
Definition OdtWItems : exporter := odt_mappings odt_scene OdtWItems_with.
End Exporters.
