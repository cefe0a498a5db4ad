(** Small vocabulary used in the statements of the property theorems.  Nothing here refers to the model
    functions of PyWriter. *)
From Coq Require Import List NArith Bool Lia Arith.
From Verif Require Import PyStr.
Import ListNotations.

(** ** Scene texts as an author sees them: characters, tags, comments, dashes, hyphens, quotation marks *)
Inductive piece :=
| Char (c : N)           (* an ordinary character *)
| Tag (w : str)          (* [w] *)
| Comment (w : str)      (* /*w*/ *)
| Hyphen                 (* - *)
| DoubleHyphen           (* -- *)
| EmDash | EnDash
| Quote.                 (* > at the beginning of a line *)

Definition piece_text (p : piece) : str :=
  match p with
  | Char c => [c]
  | Tag w => s "[" ++ w ++ s "]"
  | Comment w => s "/*" ++ w ++ s "*/"
  | Hyphen => s "-"
  | DoubleHyphen => s "--"
  | EmDash => [8212%N]
  | EnDash => [8211%N]
  | Quote => s ">"
  end.
Definition pieces_text (l : list piece) : str := flat_map piece_text l.

(** [pieces_ok bol l]: l is the reading of its text, bol telling whether we are at the beginning of a line.
    Ordinary characters are not brackets, dashes or hyphens, '/' is not followed by '*', a '>' is not at the
    beginning of a line; tags and comments are non-empty, in one line and end where they seem to end;
    a hyphen is not followed by another one. *)
Definition first_char_is (c : N) (l : list piece) : bool :=
  match pieces_text l with x :: _ => N.eqb c x | [] => false end.
Fixpoint pieces_ok (bol : bool) (l : list piece) : Prop :=
  match l with
  | [] => True
  | Char c :: l' =>
      c <> 91%N /\ c <> 45%N /\ c <> 8212%N /\ c <> 8211%N /\ (c = 62%N -> bol = false) /\
      (c = 47%N -> first_char_is 42 l' = false) /\ pieces_ok (N.eqb c 10) l'
  | Tag w :: l' => w <> [] /\ ~ In 93%N w /\ ~ In 10%N w /\ pieces_ok false l'
  | Comment w :: l' => w <> [] /\ containsb (s "*/") w = false /\ ~ In 10%N w /\ pieces_ok false l'
  | Hyphen :: l' => first_char_is 45 l' = false /\ pieces_ok false l'
  | DoubleHyphen :: l' | EmDash :: l' | EnDash :: l' => pieces_ok false l'
  | Quote :: l' => bol = true /\ pieces_ok false l'
  end.

(** what counts as letters: everything but tags, comments and line breaks *)
Definition letters_of (p : piece) : str :=
  match p with
  | Char c => if ((c =? 10) || (c =? 13))%N then [] else [c]
  | Tag _ | Comment _ => []
  | _ => piece_text p
  end.

(** what counts for words: dashes separate, hyphens join, markup vanishes *)
Definition wordtext_of (p : piece) : str :=
  match p with
  | Char c => [c]
  | DoubleHyphen | EmDash | EnDash => s " "
  | Tag _ | Comment _ | Hyphen | Quote => []
  end.

(** number of words = number of starts of runs of non-space characters *)
Fixpoint count_words (afterSpace : bool) (t : str) : nat :=
  match t with
  | [] => 0
  | c :: t' => if is_space c then count_words true t'
               else (if afterSpace then 1 else 0) + count_words false t'
  end.

(** ** Language tags: [lang_tags t l] says that l is the list of the codes of the language tags
    [lang=code] found in t from left to right; a code ends at the first ']' and stays within one line;
    the search continues behind each tag found. *)
Inductive lang_tags : str -> list str -> Prop :=
| lt_none : forall t,
    (forall a c b, t = a ++ s "[lang=" ++ c ++ s "]" ++ b -> In 10%N c) -> lang_tags t []
| lt_first : forall a g r l,
    ~ In 93%N g -> ~ In 10%N g ->
    (forall a' c b, a ++ s "[lang=" ++ g ++ s "]" ++ r = a' ++ s "[lang=" ++ c ++ s "]" ++ b ->
                    ~ In 10%N c -> length a <= length a') ->
    lang_tags r l -> lang_tags (a ++ s "[lang=" ++ g ++ s "]" ++ r) (g :: l).

(** keep the first occurrence of each element that is not among [seen] *)
Fixpoint first_occ (seen l : list str) : list str :=
  match l with
  | [] => []
  | x :: l' => if in_dec str_eq_dec x seen then first_occ seen l' else x :: first_occ (seen ++ [x]) l'
  end.
