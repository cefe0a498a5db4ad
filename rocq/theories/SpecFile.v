(** Vocabulary for the properties of file operations (C14-C18). *)
From Coq Require Import List NArith Bool.
From Verif Require Import PyStr PyDict FileOps FileWrite.
Import ListNotations.

(** the text c is on disk under the name p or under the name p.bak *)
Definition on_disk (p c : str) (w : fsys) : Prop := files w p = Some c \/ files w (p ++ s ".bak") = Some c.
(** no file changed, except those listed *)
Definition only_at (l : list str) (w w' : fsys) : Prop := forall q, ~ In q l -> files w' q = files w q.
(** no file outside of the directory tmp changed, except those listed *)
Definition only_at_or_below (tmp : str) (l : list str) (w w' : fsys) : Prop :=
  forall q, ~ In q l -> below tmp q = false -> files w' q = files w q.
(** es: what happened between w and w' *)
Definition happened (w w' : fsys) (es : list event) : Prop := events w' = events w ++ es.
