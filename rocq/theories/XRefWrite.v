(** The cross reference document: src/pywriter/odt_w/odt_w_xref.py, content.xml (templates: here and in Templates.v).

    Not modelled: styles.xml, meta.xml and the other parts of the ODT archive. *)
From Coq Require Import String List NArith ZArith Bool Lia Arith.
From Verif Require Import PyStr PyDict NovelModel OdtText Template Export Templates Descriptions XRef.
Import ListNotations.

(** odt_w_xref.py 49-62: the templates of the headings *)
Definition xref_heading (text : str) : str := s "<text:h text:style-name=""Heading_20_2"" text:outline-level=""2"">" ++ text ++ s ":</text:h>
".
Definition scnPerChrTemplate : str := xref_heading (s "Scenes with Character $Title").
Definition scnPerLocTemplate : str := xref_heading (s "Scenes with Location $Title").
Definition scnPerItmTemplate : str := xref_heading (s "Scenes with Item $Title").
Definition chrPerTagTemplate : str := xref_heading (s "Characters tagged $Tag").
Definition locPerTagTemplate : str := xref_heading (s "Locations tagged $Tag").
Definition itmPerTagTemplate : str := xref_heading (s "Items tagged $Tag").
Definition scnPerTagTemplate : str := xref_heading (s "Scenes tagged $Tag").

(** list.index *)
Fixpoint index_in (x : str) (l : list str) : res nat :=
  match l with
  | [] => Err ValueError
  | y :: l => if str_eqb x y then Ok 0 else do k <- index_in x l; Ok (S k)
  end.

Section Xref.
(** the translation of the messages; the name and the path of the project; the novel *)
Variable tr : str -> str.
Variables projectName projectPath : option str.
Variable n : novel.

(** odt_w_xref.py 160-172 *)
Definition xref_sceneMapping (x : xref) (scId : str) : res (dict str) :=
  do k <- index_in scId (xrSrtScenes x);
  do m <- odt_scene tr projectName projectPath n scId (S k) 0 0;
  do ch <- dindex scId (chpPerScn x);
  do c <- index_in ch (nv_srtChapters n);
  Ok (dset (s "Chapter") (nat_str (S c)) m).
(** odt_w_xref.py 184-193: the loop body *)
Definition xref_scene_line (x : xref) (scId : str) : res str :=
  do sc <- dindex scId (nv_scenes n);
  fill (if is_type (sc_type sc) 1 then OdtWXref_notesScene else if is_type (sc_type sc) 2 then OdtWXref_todoScene
        else if is_type (sc_type sc) 3 then OdtWXref_unusedScene else OdtWXref_scene) (xref_sceneMapping x scId).
(** odt_w_xref.py 174-194 *)
Definition xref_scene_lines (x : xref) (ids : list str) : res (list str) := mapM (xref_scene_line x) ids.
(** The loops of odt_w_xref.py 73-85, 108-118, 131-143 (by element) and 87-100, 116-129, 145-158, 196-207 (by tag): a heading
    and the entries for every key with a list that is not empty *)
Definition xref_group (heading : str -> res str) (entries : list str -> res (list str)) (p : str * list str) : res (list str) :=
  match snd p with
  | [] => Ok []
  | l => do h <- heading (fst p); do ls <- entries l; Ok (h :: ls)
  end.
Definition xref_groups (heading : str -> res str) (entries : list str -> res (list str)) (d : dict (list str)) : res (list str) :=
  do ls <- mapM (xref_group heading entries) d; Ok (concat ls).
(** odt_w_xref.py 209-218 *)
Definition tagMapping (tag : str) : res (dict str) := Ok [(s "Tag", tag)].
Definition m_chr : str -> res (dict str) := characterMapping odt_conv projectName projectPath n.
Definition m_loc : str -> res (dict str) := worldMapping odt_conv projectName projectPath (nv_locations n).
Definition m_itm : str -> res (dict str) := worldMapping odt_conv projectName projectPath (nv_items n).
(** odt_w_xref.py 220-236 *)
Definition xref_text : res str :=
  do x <- generate_xref n;
  do h <- fill OdtWXref_fileHeader (fileHeaderMapping odt_conv n);
  do cs <- xref_groups (fun i => fill scnPerChrTemplate (m_chr i)) (xref_scene_lines x) (scnPerChr x);
  do ls <- xref_groups (fun i => fill scnPerLocTemplate (m_loc i)) (xref_scene_lines x) (scnPerLoc x);
  do is <- xref_groups (fun i => fill scnPerItmTemplate (m_itm i)) (xref_scene_lines x) (scnPerItm x);
  do st <- xref_groups (fun t => fill scnPerTagTemplate (tagMapping t)) (xref_scene_lines x) (scnPerTag x);
  do ct <- xref_groups (fun t => fill chrPerTagTemplate (tagMapping t)) (mapM (fun i => fill OdtWXref_character (m_chr i))) (chrPerTag x);
  do lt <- xref_groups (fun t => fill locPerTagTemplate (tagMapping t)) (mapM (fun i => fill OdtWXref_location (m_loc i))) (locPerTag x);
  do it <- xref_groups (fun t => fill itmPerTagTemplate (tagMapping t)) (mapM (fun i => fill OdtWXref_item (m_itm i))) (itmPerTag x);
  Ok (concat ([h] ++ cs ++ ls ++ is ++ st ++ ct ++ lt ++ it ++ [OdtWXref_fileFooter])).
End Xref.
