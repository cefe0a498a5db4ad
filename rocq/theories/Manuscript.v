(** Writing the editable manuscript: src/pywriter/odt_w/odt_w_manuscript.py (templates: Templates.v) with
    src/pywriter/odt_w/odt_w_formatted.py: content.xml.

    Not modelled: styles.xml, meta.xml and the other parts of the ODT archive (what the reader takes from them is a parameter there). *)
From Coq Require Import String List NArith ZArith Bool Lia Arith.
From Verif Require Import PyStr PyDict NovelModel NovelOps OdtText Template Export Templates.
Import ListNotations.

(** odt_w_formatted.py 21-34 _CONTENT_XML_HEADER *)
Definition FORMATTED_HEADER : str := (s "<?xml version=""1.0"" encoding=""UTF-8""?>

<office:document-content xmlns:office=""urn:oasis:names:tc:opendocument:xmlns:office:1.0"" xmlns:style=""urn:oasis:names:tc:opendocument:xmlns:style:1.0"" xmlns:text=""urn:oasis:names:tc:opendocument:xmlns:text:1.0"" xmlns:table=""urn:oasis:names:tc:opendocument:xmlns:table:1.0"" xmlns:draw=""urn:oasis:names:tc:opendocument:xmlns:drawing:1.0"" xmlns:fo=""urn:oasis:names:tc:opendocument:xmlns:xsl-fo-compatible:1.0"" xmlns:xlink=""http://www.w3.org/1999/xlink"" xmlns:dc=""http://purl.org/dc/elements/1.1/"" xmlns:meta=""urn:oasis:names:tc:opendocument:xmlns:meta:1.0"" xmlns:number=""urn:oasis:names:tc:opendocument:xmlns:datastyle:1.0"" xmlns:svg=""urn:oasis:names:tc:opendocument:xmlns:svg-compatible:1.0"" xmlns:chart=""urn:oasis:names:tc:opendocument:xmlns:chart:1.0"" xmlns:dr3d=""urn:oasis:names:tc:opendocument:xmlns:dr3d:1.0"" xmlns:math=""http://www.w3.org/1998/Math/MathML"" xmlns:form=""urn:oasis:names:tc:opendocument:xmlns:form:1.0"" xmlns:script=""urn:oasis:names:tc:opendocument:xmlns:script:1.0"" xmlns:ooo=""http://openoffice.org/2004/office"" xmlns:ooow=""http://openoffice.org/2004/writer"" xmlns:oooc=""http://openoffice.org/2004/calc"" xmlns:dom=""http://www.w3.org/2001/xml-events"" xmlns:xforms=""http://www.w3.org/2002/xforms"" xmlns:xsd=""http://www.w3.org/2001/XMLSchema"" xmlns:xsi=""http://www.w3.org/2001/XMLSchema-instance"" xmlns:rpt=""http://openoffice.org/2005/report"" xmlns:of=""urn:oasis:names:tc:opendocument:xmlns:of:1.2"" xmlns:xhtml=""http://www.w3.org/1999/xhtml"" xmlns:grddl=""http://www.w3.org/2003/g/data-view#"" xmlns:tableooo=""http://openoffice.org/2009/table"" xmlns:field=""urn:openoffice:names:experimental:ooo-ms-interop:xmlns:field:1.0"" office:version=""1.2"">
 <office:scripts/>
 <office:font-face-decls>
  <style:font-face style:name=""StarSymbol"" svg:font-family=""StarSymbol"" style:font-charset=""x-symbol""/>
  <style:font-face style:name=""Consolas"" svg:font-family=""Consolas"" style:font-adornments=""Standard"" style:font-family-generic=""modern"" style:font-pitch=""fixed""/>
  <style:font-face style:name=""Courier New"" svg:font-family=""&apos;Courier New&apos;"" style:font-adornments=""Standard"" style:font-family-generic=""modern"" style:font-pitch=""fixed""/>
 </office:font-face-decls>
 $automaticStyles
 <office:body>
  <office:text text:use-soft-page-breaks=""true"">

").

(** odt_w_formatted.py 41-42: the languages are determined before writing *)
Definition with_languages (n : novel) : novel := match nv_languages n with None => get_languages n | Some _ => n end.
(** self.novel.languages after that *)
Definition languages_in (n : novel) : list str := match nv_languages n with Some l => l | None => [] end.
(** odt_w_formatted.py 45-109 as a method; a call that does not end is an error here *)
Definition formatted_convert (n : novel) (t : option str) (quick : bool) : res str :=
  match odtf_convert (py_str (nv_authorName n)) (languages_in n) t quick with Some w => Ok w | None => Err ValueError end.

(** odt_w_formatted.py 122-126: language.split('-') in two parts, or the codes for an unknown language *)
Definition locale_codes (language : str) : str * str := match split (s "-") language with [a; b] => (a, b) | _ => (s "zxx", s "none") end.
(** odt_w_formatted.py 127-131 *)
Definition language_entry (i : N) (language : str) : str :=
  let '(l, c) := locale_codes language in
  s "  <style:style style:name=""T" ++ str_of_N i ++ s """ style:family=""text"">" ++ [10%N] ++
  s "   <style:text-properties fo:language=""" ++ l ++ s """ fo:country=""" ++ c ++ s """ " ++
  s "style:language-asian=""" ++ l ++ s """ style:country-asian=""" ++ c ++ s """ " ++
  s "style:language-complex=""" ++ l ++ s """ style:country-complex=""" ++ c ++ s """/>" ++ [10%N] ++
  s "  </style:style>".
(** odt_w_formatted.py 121: enumerate(languages, i) *)
Fixpoint language_entries (i : N) (ls : list str) : list str := match ls with [] => [] | l :: r => language_entry i l :: language_entries (N.succ i) r end.
(** odt_w_formatted.py 118-135 *)
Definition automatic_styles (ls : list str) : str :=
  match ls with
  | [] => s "<office:automatic-styles/>"
  | _ => join [10%N] ([s "<office:automatic-styles>"] ++ language_entries 1 ls ++ [s " </office:automatic-styles>"])
  end.
(** odt_w_formatted.py 111-139 _get_fileHeaderMapping *)
Definition formatted_header (n : novel) : res (dict str) :=
  do m <- fileHeaderMapping (formatted_convert n) n;
  Ok (dset (s "ContentHeader") (safe_substitute FORMATTED_HEADER [(s "automaticStyles", automatic_styles (languages_in n))]) m).

Section Manuscript.
(** the translation of the messages; the name and the path of the project *)
Variable tr : str -> str.
Variables projectName projectPath : option str.
(** odt_w_manuscript.py 50-63 *)
Definition manuscript_chapter (n : novel) (chId : str) (number : nat) : res (dict str) :=
  do m <- chapterMapping (formatted_convert n) projectName projectPath n chId number;
  do c <- dindex chId (nv_chapters n);
  Ok (if flag (ch_suppressTitle c) then dset (s "Title") [] m else m).
(** odt_w_manuscript.py 65-78, odt_writer.py 400-413 *)
Definition manuscript_scene (n : novel) (scId : str) (number words letters : nat) : res (dict str) :=
  do m <- sceneMapping (formatted_convert n) projectName projectPath n scId number words letters;
  Ok (dset (s "Summary") (tr (s "Summary")) (dset (s "sceneTitle") (tr (s "Scene")) m)).
(** the class; the mappings for elements that do not occur in the document are left out *)
Definition OdtWManuscript : exporter :=
  OdtWManuscript_with formatted_header manuscript_chapter manuscript_scene (fun _ _ => Ok []) (fun _ _ => Ok []) (fun _ _ => Ok []) (fun _ _ => Ok []).
End Manuscript.

(** odt_w_formatted.py 168-175: paragraphs that start with "> " become quotations *)
Definition QUOTE1 : str := s """First_20_line_20_indent"">&gt; ".
Definition QUOTE2 : str := s """Text_20_body"">&gt; ".
(** "Text_20_body"\>(\<office\:annotation\>.+?\<\/office\:annotation\>)\&gt\; at the beginning of t: the length of group 1; the dot does not match a line feed *)
Definition Q_BODY : str := s """Text_20_body"">".
Definition Q_OPEN : str := s "<office:annotation>".
Definition Q_CLOSE : str := s "</office:annotation>&gt; ".
(** .+? and what follows: the number of characters before Q_CLOSE, at least one *)
Fixpoint lazy_until (first : bool) (pat t : str) : option nat :=
  if negb first && prefixb pat t then Some 0
  else match t with
       | [] => None
       | c :: t' => if N.eqb c 10 then None else match lazy_until false pat t' with Some k => Some (S k) | None => None end
       end.
Definition quoted_note (t : str) : option (str * nat) :=
  if prefixb (Q_BODY ++ Q_OPEN) t then
    let r := skipn (length (Q_BODY ++ Q_OPEN)) t in
    match lazy_until true Q_CLOSE r with
    | Some k => Some (s """Quotations"">" ++ Q_OPEN ++ firstn k r ++ s "</office:annotation>", length (Q_BODY ++ Q_OPEN) + k + length Q_CLOSE)
    | None => None
    end
  else None.
Fixpoint quote_notes (skip : nat) (t : str) : str :=
  match t with
  | [] => []
  | c :: t' => match skip with
      | S k => quote_notes k t'
      | O => match quoted_note t with Some (w, n) => w ++ quote_notes (pred n) t' | None => c :: quote_notes 0 t' end
      end
  end.
(** odt_w_formatted.py 155-176 _get_text *)
Definition get_formatted_text (e : exporter) (n : novel) : res str :=
  do h <- get_fileHeader e n;
  do c <- get_chapters e n;
  let text := concat ([h] ++ c ++ [t_fileFooter e]) in
  Ok (if containsb (s "&gt; ") text
      then quote_notes 0 (replace QUOTE2 (s """Quotations"">") (replace QUOTE1 (s """Quotations"">") text))
      else text).
(** content.xml of the manuscript: odt_w_formatted.py 36-43, src/pywriter/file/file_export.py 681-703 *)
Definition manuscript_text (tr : str -> str) (projectName projectPath : option str) (n : novel) : res str :=
  get_formatted_text (OdtWManuscript tr projectName projectPath) (with_languages n).
