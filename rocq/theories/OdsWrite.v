(** Writing OpenDocument spreadsheets: src/pywriter/ods_w/ods_w_charlist.py, ods_w_loclist.py, ods_w_itemlist.py: classes that
    add nothing but templates (Templates.v) to OdsWriter (src/pywriter/ods_w/ods_writer.py), which adds the conversion of texts
    (OdtText.v ods_convert) to FileExport (Export.v). content.xml is the text of _get_text (src/pywriter/odf/odf_file.py 97-120,
    modelled in FsOdf.v; file_export.py 681-703). *)
From Coq Require Import String List NArith.
From Verif Require Import PyStr PyDict NovelModel OdtText Export Templates.
Import ListNotations.
Definition ods_conv (t : option str) (quick : bool) : res str := Ok (ods_convert t).
Section Exporters.
Variables projectName projectPath : option str.
Definition with_mappings {A} (w : (novel -> res (dict str)) -> (novel -> str -> nat -> res (dict str)) -> (novel -> str -> nat -> nat -> nat -> res (dict str)) ->
    (novel -> str -> res (dict str)) -> (novel -> str -> res (dict str)) -> (novel -> str -> res (dict str)) -> (novel -> str -> res (dict str)) -> A) : A :=
  w (fileHeaderMapping ods_conv) (chapterMapping ods_conv projectName projectPath) (sceneMapping ods_conv projectName projectPath)
    (characterMapping ods_conv projectName projectPath) (fun n => worldMapping ods_conv projectName projectPath (nv_locations n))
    (fun n => worldMapping ods_conv projectName projectPath (nv_items n)) (prjNoteMapping ods_conv projectName projectPath).
(** src/pywriter/ods_w/ods_w_charlist.py 12-98, ods_w_loclist.py 11-67, ods_w_itemlist.py 11-67 *)
Definition OdsWCharList : exporter := with_mappings OdsWCharList_with.
Definition OdsWLocList : exporter := with_mappings OdsWLocList_with.
Definition OdsWItemList : exporter := with_mappings OdsWItemList_with.
End Exporters.
