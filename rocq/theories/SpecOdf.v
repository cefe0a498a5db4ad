(** What it means for a text to appear in an OpenDocument file. *)
From Coq Require Import String List NArith ZArith Bool Lia Arith.
From Verif Require Import PyStr YwText OdfXml.
Import ListNotations.

(** the text can appear in an XML document at all *)
Definition xml_text (t : str) : Prop := Forall (fun c => xml_char c = true) t.

(** the lines of a text *)
Definition lines (t : str) : list str := splitc 10 t.

Definition text_p : str := s "text:p".
(** the texts of a sequence of paragraphs: text:p elements without other elements inside, and blanks between them.
    [cur]: the text of the current paragraph so far *)
Fixpoint paragraphs_from (cur : option str) (es : list event) : option (list str) :=
  match es, cur with
  | [], None => Some []
  | [], Some _ => None
  | Start n _ :: r, None => if str_eqb n text_p then paragraphs_from (Some []) r else None
  | Start _ _ :: _, Some _ => None
  | End n :: r, Some t => if str_eqb n text_p then option_map (cons t) (paragraphs_from None r) else None
  | End _ :: _, None => None
  | Data d :: r, Some t => paragraphs_from (Some (t ++ d)) r
  | Data d :: r, None => if forallb xml_space d then paragraphs_from None r else None
  end.
Definition paragraphs (es : list event) : option (list str) := paragraphs_from None es.

(** a line break character in the text of a paragraph *)
Definition breaks (t : str) : str := map (fun c => if N.eqb c 13 then 10%N else c) t.
(** the characters data (t) of a text: nothing for the empty text *)
Definition data (t : str) : list event := match t with [] => [] | _ => [Data t] end.
(** attribute values: white space is a blank (XML attribute-value normalisation) *)
Definition blanks (t : str) : str := map (fun c => if xml_space c then 32%N else c) t.
