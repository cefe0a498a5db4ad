(** Vocabulary for the purge properties (C36): refers to the data model only. *)
From Coq Require Import List NArith ZArith Bool.
From Verif Require Import PyStr PyDict NovelModel.
Import ListNotations.

(** field f of a set of keyword variables holds information *)
Definition is_set (f : str) (kw : dict (option str)) : Prop := exists c v, dget f kw = Some (Some (c :: v)).
(** kw' is kw with exactly the listed variables that hold information emptied *)
Definition cleared (fields : list str) (kw kw' : dict (option str)) : Prop :=
  dkeys kw' = dkeys kw /\
  forall f, (In f fields /\ is_set f kw -> dget f kw' = Some (Some [])) /\
            (~ (In f fields /\ is_set f kw) -> dget f kw' = dget f kw).
(** element by element: the same IDs in the same order; each element is the old one with other keyword variables, which are the cleared ones *)
Definition all_cleared {A} (get : A -> dict (option str)) (set : dict (option str) -> A -> A) (fields : list str) (es es' : dict A) : Prop :=
  Forall2 (fun p q => fst q = fst p /\ exists kw', snd q = set kw' (snd p) /\ cleared fields (get (snd p)) kw') es es'.
(** something listed is set in some element *)
Definition some_set {A} (get : A -> dict (option str)) (fields : list str) (es : dict A) : Prop :=
  exists id e f, In (id, e) es /\ In f fields /\ is_set f (get e).

(** [untagged t r]: r is t without its language tags, i.e. without "[", any number of "/", "lang=", a code, "]" (in one line), found from
    left to right, without looking at text again. *)
Definition lang_tag (k : nat) (c : str) : str := s "[" ++ repeat 47%N k ++ s "lang=" ++ c ++ s "]".
Definition is_tag_at (t rest : str) : Prop := exists k c, t = lang_tag k c ++ rest /\ ~ In 10%N c /\ ~ In 93%N c.
Inductive untagged : str -> str -> Prop :=
| ut_nil : untagged [] []
| ut_tag : forall t rest r, is_tag_at t rest -> untagged rest r -> untagged t r
| ut_char : forall x t r, (forall rest, ~ is_tag_at (x :: t) rest) -> untagged t r -> untagged (x :: t) (x :: r).

(** every bracket is closed in the same line, brackets are not nested *)
Inductive brackets_closed : str -> Prop :=
| bc_nil : brackets_closed []
| bc_char : forall x t, x <> 91%N -> brackets_closed t -> brackets_closed (x :: t)
| bc_group : forall w t, ~ In 91%N w -> ~ In 93%N w -> ~ In 10%N w -> brackets_closed t -> brackets_closed (s "[" ++ w ++ s "]" ++ t).
