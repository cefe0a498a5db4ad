(** What the data files should contain. *)
From Coq Require Import String List NArith ZArith Bool.
From Verif Require Import PyStr PyDict NovelModel YwTree Yw7Build Yw7Read YwText SpecYw7.
Import ListNotations.

(** the text is a file with one element, whose entries are read as the given list of elements *)
Definition holds {A} (tag : str) (read : list elem -> A) (P : A -> A -> Prop) (ids : list str) (d : dict A) (text : str) : Prop :=
  exists root ids' d', parse_xml (filter kept (unl text)) = Some root /\ e_tag root = tag /\
    read_list tag read [root] [] = Ok (ids', d') /\ same_listing P ids d ids' d'.
Definition holds_characters (n : novel) : str -> Prop := holds (s "CHARACTERS") read_character (same_character character_fields) (nv_srtCharacters n) (nv_characters n).
Definition holds_locations (n : novel) : str -> Prop := holds (s "LOCATIONS") (read_world LOC_KWVAR) (same_world link) (nv_srtLocations n) (nv_locations n).
Definition holds_items (n : novel) : str -> Prop := holds (s "ITEMS") (read_world ITM_KWVAR) (same_world link) (nv_srtItems n) (nv_items n).
