(** Writing the tagged manuscript for proof reading: src/pywriter/odt_w/odt_w_proof.py (templates: Templates.v): content.xml. *)
From Coq Require Import String List NArith ZArith Bool.
From Verif Require Import PyStr PyDict NovelModel NovelOps YwText WordCount OdtText Template Export Templates Manuscript.
Import ListNotations.

(** odt_w_proof.py 61-69, without the entities: line breaks, the end tags of italic and bold, comments *)
Definition proof_replacements (author : str) : list (str * str) :=
  ODT_BREAKS ++
  [(s "[/i]", s "</text:span>"); (s "[/b]", s "</text:span>");
   (s "/*", s "<office:annotation><dc:creator>" ++ author ++ s "</dc:creator><text:p>");
   (s "*/", s "</text:p></office:annotation>")].
(** odt_w_proof.py 70-78: T{i+1} and T{i+2} after the loop over the languages, where i is the number of languages *)
Definition ITALIC (languages : list str) : str := s "T" ++ str_of_N (N.of_nat (length languages) + 1).
Definition BOLD (languages : list str) : str := s "T" ++ str_of_N (N.of_nat (length languages) + 2).
Definition proof_emphasis (languages : list str) : list (str * str) :=
  [(s "[i]", s "<text:span text:style-name=""" ++ ITALIC languages ++ s """>"); (s "[b]", s "<text:span text:style-name=""" ++ BOLD languages ++ s """>")].
(** odt_w_proof.py 39-116 OdtWProof._convert_from_yw; the argument quick is not used.  None: a loop does not end *)
Definition proof_convert (author : str) (languages : list str) (text : option str) : option str :=
  match text with
  | Some (c :: t) =>
      let tags := [s "i"; s "b"] ++ map (fun l => s "lang=" ++ l) languages in
      match tags_lines (split [10%N] (c :: t)) (map (fun tag => (tag, false)) tags) with
      | Some newlines =>
          Some (re_sub m_hidden [] (apply_replacements (ODT_ENTITIES ++ proof_replacements author ++ language_replacements 1 languages ++ proof_emphasis languages)
                                      (rstrip (join [10%N] newlines))))
      | None => None
      end
  | _ => Some []
  end.
(** the method; a call that does not end is an error here *)
Definition proofing_convert (n : novel) (t : option str) (quick : bool) : res str :=
  match proof_convert (py_str (nv_authorName n)) (languages_in n) t with Some w => Ok w | None => Err ValueError end.

(** odt_w_proof.py 137-139 and 140-142, where the attributes are written out *)
Definition emphasis_entry (name property value : str) : str :=
  s "  <style:style style:name=""" ++ name ++ s """ style:family=""text"">" ++ [10%N] ++
  s "   <style:text-properties fo:font-" ++ property ++ s "=""" ++ value ++ s """ style:font-" ++ property ++ s "-asian=""" ++ value ++ s """ style:font-" ++ property ++ s "-complex=""" ++ value ++ s """/>" ++ [10%N] ++
  s "  </style:style>".
(** odt_w_proof.py 126-144 *)
Definition proof_styles (ls : list str) : str :=
  join [10%N] ([s "<office:automatic-styles>"] ++ language_entries 1 ls ++
    [emphasis_entry (ITALIC ls) (s "style") (s "italic"); emphasis_entry (BOLD ls) (s "weight") (s "bold"); s " </office:automatic-styles>"]).
(** odt_w_proof.py 118-148 _get_fileHeaderMapping; super(): odt_w_formatted.py 111-139, whose ContentHeader is replaced *)
Definition proof_header (n : novel) : res (dict str) :=
  do m <- fileHeaderMapping (proofing_convert n) n;
  Ok (dset (s "ContentHeader") (safe_substitute FORMATTED_HEADER [(s "automaticStyles", proof_styles (languages_in n))]) m).

Section Proof_reading.
Variable tr : str -> str.
Variables projectName projectPath : option str.
(** odt_writer.py 400-413 *)
Definition proof_scene (n : novel) (scId : str) (number words letters : nat) : res (dict str) :=
  do m <- sceneMapping (proofing_convert n) projectName projectPath n scId number words letters;
  Ok (dset (s "Summary") (tr (s "Summary")) (dset (s "sceneTitle") (tr (s "Scene")) m)).
(** odt_w_proof.py 11-37; the mapping of chapters: src/pywriter/file/file_export.py 137-159; the mappings for elements that do not occur in the document are left out *)
Definition OdtWProof : exporter :=
  OdtWProof_with proof_header (fun n => chapterMapping (proofing_convert n) projectName projectPath n) proof_scene
    (fun _ _ => Ok []) (fun _ _ => Ok []) (fun _ _ => Ok []) (fun _ _ => Ok []).
(** odt_w_proof.py 150-160 _get_text *)
Definition get_proof_text (e : exporter) (n : novel) : res str :=
  do h <- get_fileHeader e n;
  do c <- get_chapters e n;
  Ok (concat ([h] ++ c ++ [t_fileFooter e])).
(** content.xml of the tagged manuscript: odt_w_formatted.py 36-43 *)
Definition proof_text (n : novel) : res str := get_proof_text OdtWProof (with_languages n).
End Proof_reading.
