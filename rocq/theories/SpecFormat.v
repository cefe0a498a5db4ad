(** What formatting markup means, and what a formatted OpenDocument text shows. *)
From Coq Require Import String List NArith ZArith Bool Lia Arith.
From Verif Require Import PyStr YwText OdfXml OdtText SpecOdf.
Import ListNotations.

(** ** Texts with markup *)
Inductive token :=
| Chr (c : N)          (* a character *)
| Brk                  (* a line break *)
| Opn (tag : str)      (* [tag] *)
| Cls (tag : str)      (* [/tag] *)
| Box (w : str)        (* [w], anything else in brackets *)
| Com (t : str).       (* a comment *)

(** the text an author types *)
Definition typed1 (k : token) : str :=
  match k with
  | Chr c => [c]
  | Brk => [10%N]
  | Opn t => s "[" ++ t ++ s "]"
  | Cls t => s "[/" ++ t ++ s "]"
  | Box w => s "[" ++ w ++ s "]"
  | Com t => s "/*" ++ t ++ s "*/"
  end.
Definition typed (ks : list token) : str := flat_map typed1 ks.

(** the tags: italic, bold, and one for each language *)
Definition tags_of (languages : list str) : list str := s "i" :: s "b" :: map (fun l => s "lang=" ++ l) languages.

(** what can be seen: a character with the tags around it (the innermost first), a line break, a comment *)
Inductive atom := Glyph (c : N) (around : list str) | Feed | Note (creator : str) (t : list str).

(** tags for highlighting, alignment, strikethrough and underline are not shown: [h1], [/s], [c], [r], [u] *)
Fixpoint slashes (w : str) : str := match w with c :: w' => if N.eqb c 47 then slashes w' else w | [] => [] end.
Definition invisible (w : str) : bool :=
  match slashes w with c :: ds => in_chars (s "h|crsu") c && forallb udigit ds | [] => false end.

Definition drop (t : str) (open : list str) : list str := filter (fun u => negb (str_eqb u t)) open.
Definition glyphs (open : list str) (t : str) : list atom := map (fun c => Glyph c open) t.
(** the meaning of the markup *)
Fixpoint meaning (author : str) (open : list str) (ks : list token) : list atom :=
  match ks with
  | [] => []
  | Chr c :: r => Glyph c open :: meaning author open r
  | Brk :: r => Feed :: meaning author open r
  | Opn t :: r => meaning author (t :: open) r
  | Cls t :: r => meaning author (drop t open) r
  | Box w :: r => (if invisible w then [] else glyphs open (s "[" ++ w ++ s "]")) ++ meaning author open r
  | Com t :: r => Note author (lines t) :: meaning author open r
  end.

(** ** What a document shows *)
Definition text_span : str := s "text:span".
Definition annotation : str := s "office:annotation".
Definition dc_creator : str := s "dc:creator".
Definition style_name : str := s "text:style-name".
Definition style_in (a : attrs) : option str := match a with [(n, v)] => if str_eqb n style_name then Some v else None | _ => None end.

(** the place in the document: between paragraphs; in a paragraph; in a comment; in its creator; in a paragraph of it *)
Inductive place :=
| Between (first : bool)
| Within (spans : list str)
| Noting (spans : list str) (creator : str) (paras : list str)
| Creating (spans : list str) (creator : str) (paras : list str)
| Notes (spans : list str) (creator : str) (paras : list str) (cur : str).

(** the atoms of paragraphs with spans and comments; the tags of an atom are the style names of the spans around it *)
Fixpoint shown_from (p : place) (es : list event) : option (list atom) :=
  match es with
  | [] => match p with Between _ => Some [] | _ => None end
  | e :: r =>
      match p, e with
      | Between f, Start n _ => if str_eqb n text_p then option_map (app (if f then [] else [Feed])) (shown_from (Within []) r) else None
      | Between f, Data d => if forallb xml_space d then shown_from (Between f) r else None
      | Between _, End _ => None
      | Within sp, Data d => option_map (app (glyphs sp d)) (shown_from (Within sp) r)
      | Within sp, Start n a =>
          if str_eqb n text_span then match style_in a with Some v => shown_from (Within (v :: sp)) r | None => None end
          else if str_eqb n annotation then shown_from (Noting sp [] []) r else None
      | Within sp, End n =>
          if str_eqb n text_span then match sp with _ :: sp' => shown_from (Within sp') r | [] => None end
          else if str_eqb n text_p then match sp with [] => shown_from (Between false) r | _ => None end else None
      | Noting sp c ps, Start n _ =>
          if str_eqb n dc_creator then shown_from (Creating sp c ps) r else if str_eqb n text_p then shown_from (Notes sp c ps []) r else None
      | Noting sp c ps, Data d => if forallb xml_space d then shown_from p r else None
      | Noting sp c ps, End n => if str_eqb n annotation then option_map (cons (Note c ps)) (shown_from (Within sp) r) else None
      | Creating sp c ps, Data d => shown_from (Creating sp (c ++ d) ps) r
      | Creating sp c ps, End n => if str_eqb n dc_creator then shown_from (Noting sp c ps) r else None
      | Creating _ _ _, Start _ _ => None
      | Notes sp c ps cur, Data d => shown_from (Notes sp c ps (cur ++ d)) r
      | Notes sp c ps cur, End n => if str_eqb n text_p then shown_from (Noting sp c (ps ++ [cur])) r else None
      | Notes _ _ _ _, Start _ _ => None
      end
  end.
Definition shown (es : list event) : option (list atom) := shown_from (Between true) es.

(** the style that stands for a tag *)
Fixpoint language_style (i : N) (languages : list str) (t : str) : option str :=
  match languages with
  | [] => None
  | l :: ls => if str_eqb t (s "lang=" ++ l) then Some (s "T" ++ str_of_N i) else language_style (N.succ i) ls t
  end.
Definition style_of (languages : list str) (t : str) : str :=
  if str_eqb t (s "i") then s "Emphasis" else if str_eqb t (s "b") then s "Strong_20_Emphasis"
  else match language_style 1 languages t with Some v => v | None => [] end.
Definition dress (languages : list str) (a : atom) : atom :=
  match a with Glyph c around => Glyph c (map (style_of languages) around) | a => a end.
(** ... regardless of the styles *)
Definition undress (a : atom) : atom := match a with Glyph c _ => Glyph c [] | a => a end.
(** trailing white space is not shown *)
Definition blank_atom (a : atom) : Prop := match a with Glyph c _ => is_space c = true | Feed => True | Note _ _ => False end.

(** ** Texts this is about *)
(** characters: XML characters; the brackets are there for tags *)
Definition char_ok (c : N) : bool := xml_char c && negb (N.eqb c 91 || N.eqb c 10 || N.eqb c 13).
Definition plain_char (c : N) : bool := xml_char c && negb (in_chars (s "[]&<>*'""" ++ [10; 13]%N) c).
Definition box_char (c : N) : bool := xml_char c && negb (in_chars (s "[]*" ++ [10; 13]%N) c).
Definition note_char (c : N) : bool := xml_char c && negb (N.eqb c 91 || N.eqb c 13).
Definition note_ok (t : str) : bool :=
  forallb note_char t && negb (containsb (s "/*") t) && negb (containsb (s "*/") t) && negb (suffixb (s "/") t).
Definition token_ok (languages : list str) (k : token) : bool :=
  match k with
  | Chr c => char_ok c
  | Brk => true
  | Opn t | Cls t => smem t (tags_of languages)
  | Box w => forallb box_char w && negb (smem w (tags_of languages)) && negb (smem w (map (app (s "/")) (tags_of languages)))
  | Com t => note_ok t
  end.
(** everything but the tags *)
Definition untagged (ks : list token) : list token := filter (fun k => match k with Opn _ | Cls _ => false | _ => true end) ks.
(** comment marks occur around comments only *)
Definition collide (a b : token) : bool :=
  match a, b with
  | Chr x, Chr y => (N.eqb x 47 && N.eqb y 42) || (N.eqb x 42 && N.eqb y 47)
  | Com _, Chr y => N.eqb y 42
  | _, _ => false
  end.
Fixpoint no_collision (ks : list token) : bool :=
  match ks with a :: ((b :: _) as r) => negb (collide a b) && no_collision r | _ => true end.
(** each tag is opened before it is closed, and not twice; no tag is open around a comment of several lines *)
Fixpoint tidy (open : list str) (ks : list token) : bool :=
  match ks with
  | [] => true
  | Opn t :: r => negb (smem t open) && tidy (t :: open) r
  | Cls t :: r => smem t open && tidy (drop t open) r
  | Com t :: r => (negb (containsb [10%N] t) || match open with [] => true | _ => false end) && tidy open r
  | _ :: r => tidy open r
  end.
(** the tags are nested, and so are the tags that stay open at a line break: italic inside bold inside languages *)
Definition in_order (tags open : list str) : Prop := open = filter (fun t => smem t open) tags.
Fixpoint nested (tags open : list str) (ks : list token) : Prop :=
  match ks with
  | [] => in_order tags open
  | Opn t :: r => nested tags (t :: open) r
  | Cls t :: r => match open with u :: open' => u = t /\ nested tags open' r | [] => False end
  | Brk :: r => in_order tags open /\ nested tags open r
  | _ :: r => nested tags open r
  end.
Definition names_ok (author : str) (languages : list str) : Prop :=
  Forall (fun c => plain_char c = true) author /\ Forall (Forall (fun c => plain_char c = true)) languages /\ NoDup languages.
Definition marked_up (languages : list str) (ks : list token) : Prop :=
  forallb (token_ok languages) ks = true /\ no_collision (untagged ks) = true /\ containsb (s "&gt; ") (typed (untagged ks)) = false /\ tidy [] ks = true.
