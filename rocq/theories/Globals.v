(** Model of src/pywriter/pywriter_globals.py and src/pywriter/model/id_generator.py *)
From Coq Require Import List NArith Bool Lia Arith.
From Verif Require Import PyStr PyDict.
Import ListNotations.

(** pywriter_globals.py 66-69, the loop body: strip, then append if non-empty and not yet present *)
Definition s2l_step (elements : list str) (element : str) : list str :=
  let element := strip element in
  if truthy element && negb (smem element elements) then elements ++ [element] else elements.

(** pywriter_globals.py 49-73 string_to_list(text, divider).  [None] models a text that is not a string
    (AttributeError) ; an empty divider makes split raise ValueError; both are caught at 72-73. *)
Definition string_to_list (text : option str) (divider : str) : list str :=
  match text, divider with
  | None, _ => []
  | Some _, [] => []
  | Some t, _ => fold_left s2l_step (split divider t) []
  end.

(** pywriter_globals.py 76-96 list_to_string(elements, divider).  [None] models a value that
    cannot be joined (e.g. None): the exception is caught at 95-96. *)
Definition list_to_string (elements : option (list str)) (divider : str) : str :=
  match elements with
  | None => []
  | Some l => join divider l
  end.

(** the default divider ';' (pywriter_globals.py 49, 76) *)
Definition semicolon : str := s ";".

(** id_generator.py 9-18 create_id(elements): first i = 1,2,... with str(i) not in elements.
    The while loop becomes recursion on fuel; running out of fuel is [None] (proved impossible with
    the fuel used by [create_id]). *)
Fixpoint create_id_loop (fuel : nat) (i : N) (elements : list str) : option str :=
  match fuel with
  | O => None
  | S k => if smem (str_of_N i) elements then create_id_loop k (N.succ i) elements
           else Some (str_of_N i)
  end.
Definition create_id (elements : list str) : option str :=
  create_id_loop (S (length elements)) 1 elements.

(** create_id as the callers see it; the [None] case never happens (GlobalsProofs.create_id_total). *)
Definition new_id (elements : list str) : str :=
  match create_id elements with Some i => i | None => [] end.
