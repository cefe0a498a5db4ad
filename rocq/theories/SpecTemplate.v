(** Templates as the author of a template sees them: text with placeholders. *)
From Coq Require Import List NArith Bool.
From Verif Require Import PyStr PyDict.
Import ListNotations.

Inductive segment :=
| SChar (c : N)      (* a character other than $ *)
| SDollar            (* $$ *)
| SName (n : str)    (* $name *)
| SBraced (n : str)  (* ${name} *)
| SLone.             (* a $ that begins none of these *)

Definition letter (c : N) : bool := ((65 <=? c) && (c <=? 90) || (97 <=? c) && (c <=? 122) || (c =? 95))%N.
Definition letter_or_digit (c : N) : bool := (letter c || (48 <=? c) && (c <=? 57))%N.
Definition name (n : str) : Prop := match n with c :: r => letter c = true /\ forallb letter_or_digit r = true | [] => False end.

(** how it is written *)
Definition seg_text (x : segment) : str :=
  match x with SChar c => [c] | SDollar => s "$$" | SName n => s "$" ++ n | SBraced n => s "${" ++ n ++ s "}" | SLone => s "$" end.
Definition template_text (l : list segment) : str := flat_map seg_text l.
(** what it stands for *)
Definition seg_value (m : dict str) (x : segment) : str :=
  match x with
  | SChar c => [c]
  | SDollar | SLone => s "$"
  | SName n | SBraced n => match dget n m with Some v => v | None => seg_text x end
  end.

(** the segments are as long as possible *)
Fixpoint unambiguous (l : list segment) : Prop :=
  match l with
  | [] => True
  | x :: r =>
      unambiguous r /\
      match x with
      | SChar c => c <> 36%N
      | SDollar => True
      | SName n => name n /\ (forall c u, template_text r = c :: u -> letter_or_digit c = false)
      | SBraced n => name n
      | SLone => (forall u, template_text r <> 36%N :: u) /\ (forall c u, template_text r = c :: u -> letter c = false) /\
                 (forall n u, name n -> template_text r <> s "{" ++ n ++ s "}" ++ u)
      end
  end.
