(** Translations: what a file stands for. *)
From Coq Require Import String List NArith Bool Sorting.Permutation Sorting.Sorted.
From Verif Require Import PyStr PyDict YwText Translations.
Import ListNotations.
(** one line of text *)
Definition one_line (t : str) : Prop := ~ In 10%N t /\ ~ In 13%N t.
(** messages in a PO file: not empty, and quotation marks escaped, at least the first *)
Definition message_ok (m : str) : Prop := one_line m /\ m <> [] /\ (forall r, m <> 34%N :: r).
(** the beginning of a file: no message but the empty one *)
Definition header_ok (h : str) : Prop :=
  ~ In 13%N h /\ (exists h', h = h' ++ [10%N]) /\ forall l r, In l (file_lines h) -> l = MSGID ++ r -> exists r', r = 34%N :: r'.
(** every quotation mark with a backslash in front *)
Definition quoted (m : str) : str := flat_map (fun c => if N.eqb c 34 then [92%N; 34%N] else [c]) m.
(** a translation that is there *)
Definition present (t : option str) : option str := match t with Some (_ :: _) => t | _ => None end.
Definition before_or (a b : option str) : option str := match a with Some t => Some t | None => b end.
(** what a PO file with the messages ms, taken from the translations d, says about m *)
Definition po_says (ms : list str) (d : dict str) (m : str) : option str := if smem m ms then present (dget m d) else None.
(** strings in ascending order of their code points *)
Definition ascending (l : list str) : Prop := Sorted (fun a b => str_leb a b = true) l.
(** messages that can be extracted: one line, not empty *)
Definition source_message (m : str) : Prop := one_line m /\ m <> [].
(** a list of the messages ms, each once, in order, with quotation marks escaped *)
Definition catalogue (ms l : list str) : Prop := NoDup l /\ ascending l /\ forall q, In q l <-> exists m, In m ms /\ q = quoted m.
(** what the file of a translation table (JSON) says; no file says nothing *)
Definition json_says (json : option str) (m : str) : option str :=
  match json with Some t => match json_load (unl t) with Some d => dget m d | None => None end | None => None end.
(** what is read from a PO file into an empty object: the translation of m *)
Definition po_file_says (po : option str) (m : str) : option str := dget m (tr_msgDict (read_po [] [] [] po (new_translations []))).
(** what is known about m: the PO file first, then the table *)
Definition known (json po : option str) (m : str) : option str := present (before_or (po_file_says po m) (json_says json m)).
