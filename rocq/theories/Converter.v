(** Converters: which file is read, which is written, what the user is asked and told.

    Models src/pywriter/converter/yw_cnv_ui.py, yw_cnv_ff.py, *_factory.py, yw7_converter.py, yw7_exporter.py,
    yw7_importer.py and src/pywriter/file/file.py 81-105.
    A file class is given by its description, suffix, extension, and by what read() and write() do.
    Messages are in English.  Not modelled: open_document and _open_newFile (yw_cnv_ui.py 156-159). *)
From Coq Require Import List NArith Bool.
From Verif Require Import PyStr PyDict NovelModel YwTree YwText FileOps FileWrite.
Import ListNotations.

(** ** Paths *)
(** os.path.splitext of posixpath: the extension starts at the last '.' of the file name, leading '.' of the name excepted *)
Fixpoint name_of (t : str) : str :=     (* what follows the last '/' *)
  match t with
  | [] => []
  | c :: t' => if existsb (N.eqb 47) t then (if N.eqb c 47 && negb (existsb (N.eqb 47) t') then t' else name_of t') else t
  end.
Fixpoint last_dot (t : str) : option (str * str) :=   (* around the last '.', which belongs to the second part *)
  match t with
  | [] => None
  | c :: t' => match last_dot t' with
               | Some (a, b) => Some (c :: a, b)
               | None => if N.eqb c 46 then Some ([], t) else None
               end
  end.
Definition splitext (path : str) : str * str :=
  let name := name_of path in
  match last_dot name with
  | Some (a, b) => if forallb (N.eqb 46) a then (path, [])
                   else (firstn (length path - length b) path, b)
  | None => (path, [])
  end.

(** ** Files *)
(** [memo]: the tree a project file object keeps after reading (yw7_file.py 161) *)
Definition memo := option (list elem).
Record fclass := mkClass {
  fc_desc : str;                 (* DESCRIPTION *)
  fc_suffix : option str;        (* SUFFIX *)
  fc_ext : str;                  (* EXTENSION *)
  (* read(): the novel after reading into the given novel; scenesSplit; the tree *)
  fc_read : str -> novel -> prog (novel * bool * memo);
  fc_write : str -> novel -> memo -> prog unit
}.
Definition suffix_of (c : fclass) : str := match fc_suffix c with Some x => x | None => [] end.

(** file.py 85-98: the setter of filePath; None if the path is not accepted.  lower() is modelled for ASCII: suffixes and
    extensions are ASCII without the letter k (U+212A is the only other character whose lower-case form is an ASCII letter). *)
Definition set_path (suffix ext path : str) : option str :=
  let path := replace (s "\") (s "/") path in
  if suffixb (lower (suffix ++ ext)) (lower path) then Some path else None.
(** file.py 99-105: the project name; [realpath], [quote]: os.path.realpath, urllib.parse.quote *)
Definition project_name (realpath quote : str -> str) (suffix ext path : str) : option str :=
  match set_path suffix ext path with
  | Some p => Some (quote (replace (suffix ++ ext) [] (name_of (realpath p))))
  | None => None
  end.

(** a File object: its class and filePath *)
Record fobj := mkObj { fo_class : fclass; fo_path : option str }.
(** File.__init__ (file.py 55-79) *)
Definition make (c : fclass) (path : str) : fobj := {| fo_class := c; fo_path := set_path (suffix_of c) (fc_ext c) path |}.

(** ** Converters *)
Record converter := mkConv {
  cv_np : str -> str;                      (* norm_path for a path that is not None *)
  cv_str : exn -> str;                     (* str(ex) of an exception that is not an Error *)
  cv_content : str -> option str;          (* content.xml in a zip file *)
  cv_export_source : list fclass;          (* EXPORT_SOURCE_CLASSES *)
  cv_export_target : list fclass;
  cv_import_source : list fclass;
  cv_import_target : list fclass;
  cv_new_project : option (list fclass);   (* CREATE_SOURCE_CLASSES; None if there is no newProjectFactory *)
  cv_yw7 : fclass;                         (* Yw7File, OdtROutline, OdtRImport: the classes used by NewProjectFactory *)
  cv_outline : fclass;
  cv_import : fclass
}.

Definition path_of (o : fobj) : str := match fo_path o with Some p => p | None => [] end.
(** norm_path(None) is '.' (pywriter_globals.py 44-47) *)
Definition shown (cv : converter) (p : option str) : str := match p with Some p => cv_np cv p | None => s "." end.
(** str(ex) *)
Definition str_of (cv : converter) (e : exn) : str := match e with UserError m => m | _ => cv_str cv e end.

Definition not_supported : exn := UserError (s "File type is not supported.").
Definition not_found (cv : converter) (p : str) : exn := UserError (s "File not found: " ++ quoted (cv_np cv p) ++ s ".").
Definition canceled : exn := UserError (s "Action canceled by user.").
Definition overwrite_question (cv : converter) (p : str) : str := s "Overwrite existing file " ++ quoted (cv_np cv p) ++ s "?".

(** yw_cnv_ui.py 161-178 YwCnvUi.check *)
Definition check (cv : converter) (source target : fobj) : prog unit :=
  match fo_path source with
  | None => Ret (Err not_supported)
  | Some sp => IsFile sp (fun there =>
      if negb there then Ret (Err (not_found cv sp)) else
      match fo_path target with
      | None => Ret (Err not_supported)
      | Some tp => IsFile tp (fun there =>
          if there then Ask (overwrite_question cv tp) (fun yes => if yes then Ret (Ok tt) else Ret (Err canceled))
          else Ret (Ok tt))
      end)
  end.

Definition written (cv : converter) (target : fobj) : str := s "File written: " ++ quoted (shown cv (fo_path target)) ++ s ".".
Definition input_output (cv : converter) (source target : fobj) : str :=
  s "Input: " ++ fc_desc (fo_class source) ++ s " " ++ quoted (shown cv (fo_path source)) ++ [10]%N ++
  s "Output: " ++ fc_desc (fo_class target) ++ s " " ++ quoted (shown cv (fo_path target)).

(** source.read(); target.write()  (yw_cnv_ui.py 57-60, 95-98) *)
Definition convert (source target : fobj) : prog unit :=
  run r <- fc_read (fo_class source) (path_of source) new_novel;
  fc_write (fo_class target) (path_of target) (fst (fst r)) None.

(** yw_cnv_ui.py 37-68 YwCnvUi.export_from_yw; the result is newFile *)
Definition export_from_yw (cv : converter) (source target : fobj) : prog (option str) :=
  What (input_output cv source target)
    (pcatch (run _ <- check cv source target; convert source target) (fun r => match r with
      | Err e => Tell (s "!" ++ str_of cv e) (Ret (Ok None))
      | Ok _ => Tell (written cv target) (Ret (Ok (fo_path target)))
      end)).

(** yw_cnv_ui.py 70-106 YwCnvUi.create_yw7; [newFile]: its value before *)
Definition create_yw7 (cv : converter) (newFile : option str) (source target : fobj) : prog (option str) :=
  What (s "Create a yWriter project file from " ++ fc_desc (fo_class source) ++ [10]%N ++ s "New project: " ++ quoted (shown cv (fo_path target)))
    (match fo_path target with
     | None => Ret (Err TypeError)           (* os.path.isfile(None) *)
     | Some tp => IsFile tp (fun there =>
         if there then Tell (s "!File already exists: " ++ quoted (cv_np cv tp) ++ s ".") (Ret (Ok newFile))
         else pcatch (run _ <- check cv source target; convert source target) (fun r => match r with
           | Err e => Tell (s "!" ++ str_of cv e) (Ret (Ok None))
           | Ok _ => Tell (written cv target) (Ret (Ok (fo_path target)))
           end))
     end).

(** yw_cnv_ui.py 108-144 YwCnvUi.import_to_yw *)
Definition import_to_yw (cv : converter) (source target : fobj) : prog (option str) :=
  What (input_output cv source target)
    (pcatch (run _ <- check cv source target;
             run t <- fc_read (fo_class target) (path_of target) new_novel;
             run r <- fc_read (fo_class source) (path_of source) (fst (fst t));
             run _ <- fc_write (fo_class target) (path_of target) (fst (fst r)) (snd t);
             Ret (Ok (snd (fst r))))
      (fun r => match r with
      | Err e => Tell (s "!" ++ str_of cv e) (Ret (Ok None))
      | Ok true => Warn (s "New scenes created during conversion.") (Tell (written cv target) (Ret (Ok (fo_path target))))
      | Ok false => Tell (written cv target) (Ret (Ok (fo_path target)))
      end)).

(** ** Factories *)
Fixpoint first {A} (f : A -> bool) (l : list A) : option A := match l with [] => None | x :: l => if f x then Some x else first f l end.

(** export_source_factory.py 20-38 *)
Definition export_source (cv : converter) (path : str) : res fobj :=
  match first (fun c => str_eqb (fc_ext c) (snd (splitext path))) (cv_export_source cv) with
  | Some c => Ok (make c path)
  | None => Err (UserError (s "File type is not supported: " ++ quoted (cv_np cv path) ++ s "."))
  end.
(** export_target_factory.py 20-44; [suffix]: the keyword argument, None if it is missing *)
Definition ostr_eqb (a b : option str) : bool := match a, b with Some a, Some b => str_eqb a b | None, None => true | _, _ => false end.
Definition export_target (cv : converter) (path : str) (suffix : option (option str)) : res fobj :=
  match suffix with
  | None => Err KeyError
  | Some sfx => match first (fun c => ostr_eqb (fc_suffix c) sfx) (cv_export_target cv) with
      | Some c => Ok (make c (fst (splitext path) ++ (match sfx with Some x => x | None => [] end) ++ fc_ext c))
      | None => Err (UserError (s "Export type is not supported: " ++ quoted (match sfx with Some x => x | None => s "None" end) ++ s "."))
      end
  end.
(** import_source_factory.py 19-37 *)
Definition ends_as (c : fclass) (path : str) : bool :=
  match fc_suffix c with Some x => suffixb (x ++ fc_ext c) path | None => false end.
Definition import_source (cv : converter) (path : str) : res fobj :=
  match first (fun c => ends_as c path) (cv_import_source cv) with
  | Some c => Ok (make c path)
  | None => Err (UserError (s "This document is not meant to be written back."))
  end.
(** import_target_factory.py 34-45: the path of the project without extension *)
Definition project_basis (suffix : str) (path : str) : str :=
  let fileName := fst (splitext path) in
  match suffix with
  | [] => fileName
  | _ => match split suffix fileName with
         | [x] => x
         | e => join [] (removelast e)
         end
  end.
(** import_target_factory.py 47-53 *)
Fixpoint first_existing (basis : str) (l : list fclass) (e : exn) : prog fobj :=
  match l with
  | [] => Ret (Err e)
  | c :: l => IsFile (basis ++ fc_ext c) (fun there => if there then Ret (Ok (make c (basis ++ fc_ext c))) else first_existing basis l e)
  end.
Definition import_target (cv : converter) (path suffix : str) : prog fobj :=
  first_existing (project_basis suffix path) (cv_import_target cv) (UserError (s "No yWriter project to write.")).
(** new_project_factory.py 26-82; the file is read by zipfile *)
Definition DO_NOT_IMPORT : list str := [s "_xref"; s "_brf_synopsis"].
Definition can_import (path : str) : bool := forallb (fun x => negb (suffixb x (fst (splitext path)))) DO_NOT_IMPORT.
Definition make_new_project (cv : converter) (classes : list fclass) (path : str) : prog (fobj * fobj) :=
  if negb (can_import path) then Ret (Err (UserError (s "This document is not meant to be written back."))) else
  let target := make (cv_yw7 cv) (fst (splitext path) ++ fc_ext (cv_yw7 cv)) in
  if suffixb (s ".odt") path then
    ReadFile path (fun r =>
      match (match r with Ok t => cv_content cv t | Err _ => None end) with
      | Some content => Ret (Ok (make (if containsb (s "Heading_20_3") content then cv_outline cv else cv_import cv) path, target))
      | None => Ret (Err (UserError (s "Cannot read file: " ++ quoted (cv_np cv path) ++ s ".")))
      end)
  else match first (fun c => ends_as c path) classes with
       | Some c => Ret (Ok (make c path, target))
       | None => Ret (Err (UserError (s "File type is not supported: " ++ quoted (cv_np cv path) ++ s ".")))
       end.

(** except Error as ex: set_info_how *)
Definition or_tell {A} (x : prog A) (f : A -> prog (option str)) : prog (option str) :=
  pcatch x (fun r => match r with
    | Ok a => f a
    | Err (UserError m) => Tell (s "!" ++ m) (Ret (Ok None))
    | Err e => Ret (Err e)
    end).

(** yw_cnv_ff.py 54-100 YwCnvFf.run; the result is newFile afterwards *)
Definition run_converter (cv : converter) (path : str) (suffix : option (option str)) : prog (option str) :=
  IsFile path (fun there =>
    if negb there then Tell (s "!File not found: " ++ quoted (cv_np cv path) ++ s ".") (Ret (Ok None)) else
    match export_source cv path with
    | Ok source => or_tell (Ret (export_target cv path suffix)) (fun target => export_from_yw cv source target)
    | Err _ =>
        match import_source cv path with
        | Ok source => or_tell (import_target cv path (suffix_of (fo_class source))) (fun target => import_to_yw cv source target)
        | Err _ =>
            match cv_new_project cv with
            | None => Ret (Err AttributeError)         (* None.make_file_objects *)
            | Some classes => or_tell (make_new_project cv classes path) (fun st => create_yw7 cv None (fst st) (snd st))
            end
        end
    end).

(** ** The file classes *)
(** Yw7File: read() and write() of FileWrite.v *)
Definition yw7_class (np ent : str -> str) (ext : str -> option (str * str)) (loc dloc : option str) : fclass := {|
  fc_desc := s "yWriter 7 project"; fc_suffix := None; fc_ext := s ".yw7";
  fc_read := fun p n => run r <- yw7_load ext p n; Ret (Ok (fst r, false, Some (snd r)));
  fc_write := fun p n old => run _ <- yw7_write np ent loc dloc p n old; Ret (Ok tt) |}.
(** a document class for reading: odf_reader.py / odt_parser.py 84-96, ods_parser.py 58-77: the zip file is read, the rest
    ([f]) is a function of its content *)
Definition reader_class (desc : str) (suffix : option str) (ext : str) (f : str -> novel -> res (novel * bool)) : fclass := {|
  fc_desc := desc; fc_suffix := suffix; fc_ext := ext;
  fc_read := fun p n => run t <- op_read p; run r <- Ret (f t n); Ret (Ok (fst r, snd r, None));
  fc_write := fun p n old => Ret (Err (UserError (s "not implemented"))) |}.
(** a document class for writing: OdfFile.write; [f]: the text of content.xml and the other parts *)
Definition writer_class (np : str -> str) (zip : str -> str -> str) (ending tmp : str) (desc : str) (suffix : option str) (ext : str)
  (names : list str) (parts : novel -> list (str * str)) (f : novel -> res str) : fclass := {|
  fc_desc := desc; fc_suffix := suffix; fc_ext := ext;
  fc_read := fun p n => Ret (Err (UserError (s "not implemented")));
  fc_write := fun p n old => odf_write np zip ending tmp (parts n) names (f n) p |}.

(** SUFFIX and EXTENSION of IMPORT_SOURCE_CLASSES (yw7_converter.py 75-89, yw7_importer.py; odt_r_*.py, ods_r_*.py) *)
Definition import_kinds : list (str * str) :=
  [(s "_proof", s ".odt"); (s "_manuscript", s ".odt"); (s "_scenes", s ".odt"); (s "_chapters", s ".odt"); (s "_parts", s ".odt");
   (s "_characters", s ".odt"); (s "_items", s ".odt"); (s "_locations", s ".odt"); (s "_notes", s ".odt"); (s "_todo", s ".odt");
   (s "_charlist", s ".ods"); (s "_loclist", s ".ods"); (s "_itemlist", s ".ods"); (s "_scenelist", s ".ods")].
(** SUFFIX and EXTENSION of EXPORT_TARGET_CLASSES (yw7_converter.py 57-74) *)
Definition export_kinds : list (str * str) :=
  [(s "", s ".odt"); (s "_proof", s ".odt"); (s "_manuscript", s ".odt"); (s "_brf_synopsis", s ".odt"); (s "_scenes", s ".odt");
   (s "_chapters", s ".odt"); (s "_parts", s ".odt"); (s "_characters", s ".odt"); (s "_items", s ".odt"); (s "_locations", s ".odt");
   (s "_charlist", s ".ods"); (s "_loclist", s ".ods"); (s "_itemlist", s ".ods"); (s "_scenelist", s ".ods");
   (s "_xref", s ".odt"); (s "_notes", s ".odt"); (s "_todo", s ".odt")].

(** What a converter needs from outside: how documents are interpreted and generated, the environment *)
Record environment := mkEnv {
  en_np : str -> str; en_str : exn -> str; en_content : str -> option str;
  en_ent : str -> str; en_ext : str -> option (str * str); en_loc : option str; en_dloc : option str;
  en_zip : str -> str -> str; en_ending : str; en_tmp : str;
  en_desc : str -> str;                                           (* descriptions by suffix *)
  en_read : str -> str -> novel -> res (novel * bool);            (* by suffix; ".outline", ".import" for the two others *)
  en_text : str -> novel -> res str;                              (* by suffix: _get_text() *)
  en_parts : str -> novel -> list (str * str); en_names : str -> list str
}.
Definition the_yw7 (en : environment) : fclass := yw7_class (en_np en) (en_ent en) (en_ext en) (en_loc en) (en_dloc en).
Definition the_reader (en : environment) (x : str * str) : fclass := reader_class (en_desc en (fst x)) (Some (fst x)) (snd x) (en_read en (fst x)).
Definition the_writer (en : environment) (x : str * str) : fclass :=
  writer_class (en_np en) (en_zip en) (en_ending en) (en_tmp en) (en_desc en (fst x)) (Some (fst x)) (snd x)
    (en_names en (fst x)) (en_parts en (fst x)) (en_text en (fst x)).
(** odt_r_outline.py, odt_r_import.py: SUFFIX = '' *)
Definition the_outline (en : environment) : fclass := reader_class (en_desc en (s ".outline")) (Some []) (s ".odt") (en_read en (s ".outline")).
Definition the_import (en : environment) : fclass := reader_class (en_desc en (s ".import")) (Some []) (s ".odt") (en_read en (s ".import")).

(** yw7_converter.py 43-99 *)
Definition yw7_converter (en : environment) : converter := {|
  cv_np := en_np en; cv_str := en_str en; cv_content := en_content en;
  cv_export_source := [the_yw7 en]; cv_export_target := map (the_writer en) export_kinds;
  cv_import_source := map (the_reader en) import_kinds; cv_import_target := [the_yw7 en];
  cv_new_project := Some []; cv_yw7 := the_yw7 en; cv_outline := the_outline en; cv_import := the_import en |}.
(** yw7_exporter.py 28-56 (the order of the export classes differs; their suffixes are distinct) *)
Definition yw7_exporter (en : environment) : converter := {|
  cv_np := en_np en; cv_str := en_str en; cv_content := en_content en;
  cv_export_source := [the_yw7 en]; cv_export_target := map (the_writer en) export_kinds;
  cv_import_source := []; cv_import_target := [];
  cv_new_project := None; cv_yw7 := the_yw7 en; cv_outline := the_outline en; cv_import := the_import en |}.
(** yw7_importer.py 27-66 *)
Definition yw7_importer (en : environment) : converter := {|
  cv_np := en_np en; cv_str := en_str en; cv_content := en_content en;
  cv_export_source := [the_yw7 en]; cv_export_target := [];
  cv_import_source := map (the_reader en) import_kinds; cv_import_target := [the_yw7 en];
  cv_new_project := Some []; cv_yw7 := the_yw7 en; cv_outline := the_outline en; cv_import := the_import en |}.
