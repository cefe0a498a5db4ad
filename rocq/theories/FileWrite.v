(** Reading and writing project files and documents on disk.

    Models src/pywriter/yw/yw7_file.py 121-205, 1121-1154, 1684-1702; src/pywriter/file/file_export.py 79-101;
    src/pywriter/odf/odf_file.py 45-169.
    [np] stands for norm_path (pywriter_globals.py 44-47), used in messages only; messages are in English.
    The content of a file is a text; encodings are not modelled: text that cannot be decoded makes reading fail. *)
From Coq Require Import List NArith ZArith Bool.
From Verif Require Import PyStr PyDict NovelModel YwTree Yw7Build Yw7Read YwText FileOps.
Import ListNotations.

(** f'{filePath}.bak', f'{filePath}.lock' *)
Definition bak (p : str) : str := p ++ s ".bak".
Definition lock (p : str) : str := p ++ s ".lock".

Definition quoted (p : str) : str := s """" ++ p ++ s """".
Definition cannot_overwrite (np : str -> str) (p : str) : exn := UserError (s "Cannot overwrite file: " ++ quoted (np p) ++ s ".").
Definition cannot_write (np : str -> str) (p : str) : exn := UserError (s "Cannot write file: " ++ quoted (np p) ++ s ".").
Definition cannot_create (np : str -> str) (p : str) : exn := UserError (s "Cannot create file: " ++ quoted (np p) ++ s ".").
Definition locked_error : exn := UserError (s "yWriter seems to be open. Please close first.").

(** try: op   except: raise e *)
Definition or_raise {A} (x : prog A) (e : exn) : prog A := pcatch x (fun r => match r with Ok a => Ret (Ok a) | Err _ => Ret (Err e) end).

(** with open(p, 'w') as f: f.write(t) *)
Definition write_file (p t : str) : prog unit := run _ <- op_open p; op_put p t.

(** if os.path.isfile(p): rename it to p.bak;  True if there was a file
    (file_export.py 87-94, yw7_file.py 1689-1696, odf_file.py 75-82) *)
Definition back_up (np : str -> str) (p : str) : prog bool :=
  IsFile p (fun there => if there then run _ <- or_raise (op_replace p (bak p)) (cannot_overwrite np p); Ret (Ok true) else Ret (Ok false)).

(** file_export.py 87-101 FileExport.write after _get_text; yw7_file.py 1689-1702 Yw7File._write_element_tree with the
    text ElementTree.write produces.  The exception of a failing os.replace in the handler is passed on. *)
Definition save_text (np : str -> str) (p t : str) : prog unit :=
  run backedUp <- back_up np p;
  pcatch (write_file p t) (fun r => match r with
    | Ok _ => Ret (Ok tt)
    | Err _ => run _ <- (if backedUp : bool then op_replace (bak p) p else Ret (Ok tt)); Ret (Err (cannot_write np p))
    end).

(** file_export.py 79-101; [text]: the result of _get_text *)
Definition export_write (np : str -> str) (text : res str) (p : str) : prog unit := run t <- Ret text; save_text np p t.

(** yw7_file.py 1121-1154 Yw7File._postprocess_xml_file *)
Definition postprocess_file (np : str -> str) (ent : str -> str) (nochapters : bool) (p : str) : prog unit :=
  run t <- op_read p;
  or_raise (write_file p (postprocess ent nochapters t)) (cannot_write np p).

(** yw7_file.py 179-205 Yw7File.write; [old]: the tree read before.  Returns the novel and the tree as they are afterwards. *)
Definition yw7_write (np : str -> str) (ent : str -> str) (loc dloc : option str) (p : str) (n : novel) (old : option (list elem))
  : prog (novel * list elem) :=
  IsFile (lock p) (fun locked => if locked then Ret (Err locked_error) else
    run nr <- Ret (write_tree loc dloc n old);
    run _ <- save_text np p (tree_text (snd nr));
    run _ <- postprocess_file np ent (match nv_chapters n with [] => true | _ => false end) p;
    Ret (Ok nr)).

(** yw7_file.py 129-177 Yw7File.read, the file operations; [f]: what is done with the text of the file.
    The failure to read the file as UTF-8 is followed by reading it as UTF-16: both are operations on the same file and can
    fail.  If both fail, ElementTree.parse reads the file once more; if that succeeds, xmlText is not bound. *)
Definition yw7_read_with {A} (f : str -> res A) (p : str) : prog A :=
  IsFile (lock p) (fun locked => if locked then Ret (Err locked_error) else
    ReadFile p (fun r => match r with
      | Ok t => Ret (f t)
      | Err _ => ReadFile p (fun r => match r with
          | Ok t => Ret (f t)
          | Err _ => ReadFile p (fun r => match r with
              | Ok t => match parse_xml t with Some _ => Ret (Err UnboundLocalError) | None => Ret (Err (UserError (s "Can not process file"))) end
              | Err _ => Ret (Err (UserError (s "Can not process file"))) end)
          end)
      end)).
(** the novel read *)
Definition yw7_read (ext : str -> option (str * str)) (p : str) (n : novel) : prog novel := yw7_read_with (fun t => read_text ext t n) p.
(** the novel read and the tree kept in the file object (yw7_file.py 161) *)
Definition yw7_load (ext : str -> option (str * str)) (p : str) (n : novel) : prog (novel * list elem) :=
  yw7_read_with (fun t => do n' <- read_text ext t n; Ok (n', match parse_xml (filter kept (unl t)) with Some root => e_kids root | None => [] end)) p.

(** ** OpenDocument files *)
(** write the given files one after another *)
Fixpoint write_files (l : list (str * str)) : prog unit :=
  match l with
  | [] => Ret (Ok tt)
  | (p, t) :: l => run _ <- or_raise (write_file p t) (UserError (s "Cannot write file: " ++ quoted p)); write_files l
  end.

(** odf_file.py 103-160 OdfFile._set_up; [parts]: names (below the temporary directory) and texts of mimetype,
    settings.xml, META-INF/manifest.xml, styles.xml, meta.xml.  check_locale() (novel.py) is pure and was done before. *)
Definition set_up (np : str -> str) (tmp : str) (parts : list (str * str)) : prog unit :=
  RmTree tmp
    (run _ <- or_raise (run _ <- op_other; op_other) (UserError (s "Cannot create directory: " ++ quoted (np tmp) ++ s "."));
     write_files (map (fun x => (tmp ++ s "/" ++ fst x, snd x)) parts)).

(** for file in self._ODF_COMPONENTS: odfTarget.write(file)  (odf_file.py 85-86); [zip]: the bytes added for a file;
    META-INF is a directory (odt_writer.py 19, ods_writer.py 15) *)
Fixpoint zip_files (zip : str -> str -> str) (tmp p : str) (names : list str) : prog unit :=
  match names with
  | [] => Ret (Ok tt)
  | x :: names =>
      run t <- (if str_eqb x (s "META-INF") then run _ <- op_other; Ret (Ok []) else op_read (tmp ++ s "/" ++ x));
      run _ <- op_put p (zip x t); zip_files zip tmp p names
  end.

(** odf_file.py 54-96 OdfFile.write.  [text]: the result of _get_text; [names]: _ODF_COMPONENTS; [ending]: the directory
    that zipfile writes when the file is closed, also in case of an exception *)
Definition odf_write (np : str -> str) (zip : str -> str -> str) (ending tmp : str) (parts : list (str * str)) (names : list str)
  (text : res str) (p : str) : prog unit :=
  run _ <- set_up np tmp parts;
  run _ <- export_write np text (tmp ++ s "/content.xml");
  run _ <- op_other;                                       (* os.getcwd() *)
  run backedUp <- back_up np p;
  pcatch
    (run _ <- op_open p;
     pcatch (run _ <- op_other; zip_files zip tmp p names) (fun r => run _ <- op_put p ending; Ret r))
    (fun r => match r with
     | Err _ =>
         run _ <- op_other;                                (* os.chdir(workdir) *)
         run _ <- (if backedUp : bool then op_replace (bak p) p else Ret (Ok tt));
         Ret (Err (cannot_create np p))
     | Ok _ =>
         run _ <- op_other;
         RmTree tmp (Ret (Ok tt))
     end).
