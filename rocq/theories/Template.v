(** string.Template.safe_substitute, as used in src/pywriter/file/file_export.py, odf/odf_file.py and the exporters
    in odt_w and ods_w.

    Trusted modelling layer: Python 3.11's string.Template with the default delimiter (the dollar sign) and the default
    identifier pattern: an ASCII letter or underscore, then any number of ASCII letters, digits and underscores. A
    dollar sign starts, in this order of preference, an escaped dollar sign, a named placeholder, a braced placeholder;
    otherwise it is invalid and, in safe_substitute, stands for itself. *)
From Coq Require Import List NArith Bool Lia Arith.
From Verif Require Import PyStr PyDict OdtText.
Import ListNotations.

Definition id_start (c : N) : bool := ((65 <=? c) && (c <=? 90))%N || ((97 <=? c) && (c <=? 122))%N || N.eqb c 95.
Definition id_char (c : N) : bool := id_start c || is_digit c.

(** an identifier at the start of t *)
Definition identifier (t : str) : option str :=
  match t with
  | c :: _ => if id_start c then Some (firstn (span id_char t) t) else None
  | [] => None
  end.
(** {identifier} at the start of t *)
Definition braced (t : str) : option str :=
  match t with
  | c :: t' => if N.eqb c 123 then
      match identifier t' with
      | Some n => match skipn (length n) t' with d :: _ => if N.eqb d 125 then Some n else None | [] => None end
      | None => None
      end
      else None
  | [] => None
  end.

(** the value of a placeholder, or the placeholder itself (KeyError is caught) *)
Definition value_or (m : dict str) (n own : str) : str := match dget n m with Some v => v | None => own end.

Fixpoint subst_go (m : dict str) (skip : nat) (t : str) : str :=
  match t with
  | [] => []
  | c :: t' =>
      match skip with
      | S k => subst_go m k t'
      | O =>
          if N.eqb c 36 then
            if prefixb (s "$") t' then 36%N :: subst_go m 1 t'
            else match identifier t' with
            | Some n => value_or m n (36%N :: n) ++ subst_go m (length n) t'
            | None => match braced t' with
                | Some n => value_or m n (s "${" ++ n ++ s "}") ++ subst_go m (length n + 2) t'
                | None => 36%N :: subst_go m 0 t'
                end
            end
          else c :: subst_go m 0 t'
      end
  end.
(** Template(t).safe_substitute(m); the values are str(x) *)
Definition safe_substitute (t : str) (m : dict str) : str := subst_go m 0 t.
