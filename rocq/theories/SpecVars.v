(** The project variables in a project file. *)
From Coq Require Import String List NArith ZArith Bool Lia Arith.
From Verif Require Import PyStr YwTree.
Import ListNotations.

(** the text of the first sub-element t of e *)
Definition text_at (t : str) (e : elem) : option str := match find t (e_kids e) with Some x => e_text x | None => None end.
(** the variables below the root: the elements PROJECTVAR of the first element PROJECTVARS *)
Definition variables (root : list elem) : list elem :=
  match find (s "PROJECTVARS") root with Some e => filter (fun v => str_eqb (e_tag v) (s "PROJECTVAR")) (e_kids e) | None => [] end.
(** IDs and titles *)
Definition variable_id (v : elem) : option str := text_at (s "ID") v.
Definition variable_title (v : elem) : option str := text_at (s "Title") v.
Definition described (v : elem) : option str * option str := (variable_id v, variable_title v).
(** the IDs that are there *)
Definition variable_ids (root : list elem) : list str := flat_map (fun v => match variable_id v with Some i => [i] | None => [] end) (variables root).
(** the titles of the variables that have to be there *)
Definition missing_titles (old : list (option str)) (languages : list str) : list str :=
  let there t := existsb (fun o => match o with Some u => str_eqb u t | None => false end) old in
  (if there (s "Language") then [] else [s "Language"]) ++ (if there (s "Country") then [] else [s "Country"]) ++
  flat_map (fun l => if there (s "lang=" ++ l) then [] else [s "lang=" ++ l; s "/lang=" ++ l]) languages.
