(** The XML data files of characters, locations and items: src/pywriter/yw/data_files.py. *)
From Coq Require Import String List NArith ZArith Bool Lia Arith.
From Verif Require Import PyStr PyDict NovelModel YwTree Yw7Build Yw7Read YwText FileOps FileWrite Converter.
Import ListNotations.

(** data_files.py 33-38, 51-52, 60, 68: f'{path}_Characters.xml' and so on *)
Definition data_path (p kind : str) : str := fst (splitext p) ++ s "_" ++ kind ++ s ".xml".

(** the white space after the first sub-element t of the root, as set by indent (xml_indent.py 16-27) *)
Fixpoint tail_of (t : str) (r : list elem) : str :=
  match r with
  | [] => []
  | e :: r' => if str_eqb (e_tag e) t then match r' with [] => nl 0 | _ => nl 1 end else tail_of t r'
  end.
(** 53-56: ET.ElementTree(tree.find(t)).write(...): the sub-element with the white space after it.
    If there is none, the file is emptied and AttributeError is raised; _build_element_tree prevents this. *)
Definition section_text (t : str) (r : list elem) : option str := option_map (fun e => ser 1 e ++ tail_of t r) (find t r).

Definition write_protected (np : str -> str) (p : str) : exn := UserError (s "File is write protected: " ++ quoted (np p) ++ s ".").
(** 55-58: only PermissionError is turned into Error.  [denied p]: a failure to write p is a PermissionError *)
Definition put_section (np : str -> str) (denied : str -> bool) (p t : str) (r : list elem) : prog unit :=
  match section_text t r with
  | None => run _ <- op_open p; Ret (Err AttributeError)
  | Some x => or_raise (write_file p x) (if denied p then write_protected np p else OSError)
  end.

(** 41-74 _write_element_tree *)
Definition put_sections (np : str -> str) (denied : str -> bool) (p : str) (r : list elem) : prog unit :=
  run _ <- put_section np denied (data_path p (s "Characters")) (s "CHARACTERS") r;
  run _ <- put_section np denied (data_path p (s "Locations")) (s "LOCATIONS") r;
  put_section np denied (data_path p (s "Items")) (s "ITEMS") r.
(** 23-39 _postprocess_xml_file *)
Definition finish_sections (np ent : str -> str) (nochapters : bool) (p : str) : prog unit :=
  run _ <- postprocess_file np ent nochapters (data_path p (s "Characters"));
  run _ <- postprocess_file np ent nochapters (data_path p (s "Locations"));
  postprocess_file np ent nochapters (data_path p (s "Items")).
(** yw7_file.py 179-205 write with the two methods overridden *)
Definition data_write (np ent : str -> str) (denied : str -> bool) (loc dloc : option str) (p : str) (n : novel) (old : option (list elem))
  : prog (novel * list elem) :=
  IsFile (lock p) (fun locked => if locked then Ret (Err locked_error) else
    run nr <- Ret (write_tree loc dloc n old);
    run _ <- put_sections np denied p (snd nr);
    run _ <- finish_sections np ent (match nv_chapters n with [] => true | _ => false end) p;
    Ret (Ok nr)).
