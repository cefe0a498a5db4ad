(** The part of xml.etree.ElementTree that src/pywriter/yw/yw7_file.py uses.

    Simplifications: an element has a tag, a text and sub-elements.  Attributes are not modelled (yw7 files
    have none) and the tail of an element (text behind its end tag) is taken to be white space, which
    xml_indent.py 9-27 overwrites anyway. *)
From Coq Require Import List NArith Bool Lia Arith.
From Verif Require Import PyStr PyDict.
Import ListNotations.

Inductive elem := Elem (tag : str) (text : option str) (kids : list elem).

Definition e_tag (e : elem) : str := let (t, _, _) := e in t.
Definition e_text (e : elem) : option str := let (_, x, _) := e in x.
Definition e_kids (e : elem) : list elem := let (_, _, k) := e in k.

(** ET.Element(tag) with text x *)
Definition leaf (t : str) (x : option str) : elem := Elem t x [].

(** parent.find(tag), with k the sub-elements of the parent *)
Fixpoint find (t : str) (k : list elem) : option elem :=
  match k with
  | [] => None
  | e :: k' => if str_eqb (e_tag e) t then Some e else find t k'
  end.

(** parent.find(tag) is not None *)
Definition has (t : str) (k : list elem) : bool := match find t k with Some _ => true | None => false end.

(** parent.findall(tag) *)
Definition findall (t : str) (k : list elem) : list elem := filter (fun e => str_eqb (e_tag e) t) k.

(** mutation of the element parent.find(tag), if there is one *)
Fixpoint upd (t : str) (f : elem -> elem) (k : list elem) : list elem :=
  match k with
  | [] => []
  | e :: k' => if str_eqb (e_tag e) t then f e :: k' else e :: upd t f k'
  end.

(** e.text = x *)
Definition with_text (x : option str) (e : elem) : elem := Elem (e_tag e) x (e_kids e).
Definition with_kids (k : list elem) (e : elem) : elem := Elem (e_tag e) (e_text e) k.
Definition on_kids (f : list elem -> list elem) (e : elem) : elem := with_kids (f (e_kids e)) e.

(** parent.find(tag).text = x *)
Definition set_text (t : str) (x : option str) (k : list elem) : list elem := upd t (with_text x) k.

(** parent.remove(parent.find(tag)); nothing happens if there is no such element: the callers test or
    catch the exception *)
Fixpoint remove (t : str) (k : list elem) : list elem :=
  match k with
  | [] => []
  | e :: k' => if str_eqb (e_tag e) t then k' else e :: remove t k'
  end.

(** ET.SubElement(parent, tag).text = x *)
Definition sub (t : str) (x : option str) (k : list elem) : list elem := k ++ [leaf t x].

(** parent.insert(i, x) *)
Definition insert_at (i : nat) (x : elem) (k : list elem) : list elem := firstn i k ++ x :: skipn i k.

(** e.iter(tag): e and all its descendants with that tag, in document order *)
Fixpoint iter (t : str) (e : elem) : list elem :=
  match e with
  | Elem u x k => (if str_eqb u t then [Elem u x k] else []) ++ flat_map (iter t) k
  end.

(** ** The recurring statement patterns of yw7_file.py *)

(** try: parent.find(tag).text = x; except(AttributeError): ET.SubElement(parent, tag).text = x
    (for example yw7_file.py 336-339) *)
Definition put (t : str) (x : option str) (k : list elem) : list elem :=
  if has t k then set_text t x k else sub t x k.

(** if x is not None: try: parent.find(tag).text = x;
    except(AttributeError): if x: ET.SubElement(parent, tag).text = x     (for example yw7_file.py 245-250) *)
Definition put_opt (t : str) (x : option str) (k : list elem) : list elem :=
  match x with
  | None => k
  | Some v => if has t k then set_text t (Some v) k else if truthy v then sub t (Some v) k else k
  end.

(** if x is not None: try: parent.find(tag).text = x; except: ET.SubElement(parent, tag).text = x
    (for example yw7_file.py 806-810) *)
Definition put_some (t : str) (x : option str) (k : list elem) : list elem :=
  match x with None => k | Some _ => put t x k end.

(** if x is not None: ET.SubElement(parent, tag).text = x     (for example yw7_file.py 655-656) *)
Definition sub_opt (t : str) (x : option str) (k : list elem) : list elem :=
  match x with None => k | Some _ => sub t x k end.

(** if b: (if parent.find(tag) is None: SubElement '-1'); elif there is one: remove it
    (for example yw7_file.py 383-387) *)
Definition put_flag (t : str) (b : bool) (k : list elem) : list elem :=
  if b then (if has t k then k else sub t (Some (s "-1")) k) else remove t k.

(** parent.find(tag).text of an existing element; None if there is no element *)
Definition find_text (t : str) (k : list elem) : option (option str) := option_map e_text (find t k).

(** if parent.find(tag) is not None: attribute = parent.find(tag).text; else the attribute stays None *)
Definition get_text (t : str) (k : list elem) : option str :=
  match find t k with Some e => e_text e | None => None end.

Definition is_true (b : option bool) : bool := match b with Some true => true | _ => false end.
