(** Model of working with a project file in several runs of the application: src/pywriter/yw/yw7_file.py
    (read 139-177, write 179-205) and src/pywriter/yw/xml_indent.py. *)
From Coq Require Import String List NArith ZArith Bool.
From Verif Require Import PyStr PyDict NovelModel YwTree Yw7Build Yw7Read YwText.
Import ListNotations.

(** xml_indent.py 16-19, 22-23: the texts of the elements after indent().  Simplification: the tails are not part of
    the elements; they are set again with every save. *)
Fixpoint indented (level : nat) (e : elem) : elem :=
  match e with
  | Elem t x [] => Elem t x []
  | Elem t x k => Elem t (if blank x then Some (nl (S level)) else x) (map (indented (S level)) k)
  end.

(** yw7_file.py 112, 158, 1093: self.tree (below its root), and the text of the file *)
Record project := { p_tree : option (list elem); p_file : option str }.
(** yw7_file.py 99-112: no tree, no file *)
Definition new_project : project := {| p_tree := None; p_file := None |}.

(** One action: the application stores the novel [n] as it is in memory, or it opens the file (again) with a new
    Yw7File.  [loc], [dloc]: the locale settings of the system. *)
Inductive action := Save (loc dloc : option str) (n : novel) | Open.

(** yw7_file.py 139-158 (Open) and 188-205, 1092-1093 (Save) *)
Definition act (ent : str -> str) (p : project) (a : action) : res project :=
  match a with
  | Save loc dloc n =>
      do q <- write_text ent loc dloc n (p_tree p);
      Ok {| p_tree := Some (map (indented 1) (snd (fst q))); p_file := Some (snd q) |}
  | Open =>
      match p_file p with
      | None => Err OSError
      | Some t => match parse_xml (filter kept (unl t)) with
                  | None => Err ParseError
                  | Some root => Ok {| p_tree := Some (e_kids root); p_file := Some t |}
                  end
      end
  end.
Fixpoint run (ent : str -> str) (p : project) (l : list action) : res project :=
  match l with
  | [] => Ok p
  | a :: l => do p <- act ent p a; run ent p l
  end.
