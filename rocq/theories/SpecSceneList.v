(** Scenes that a scene list keeps. *)
From Coq Require Import String List NArith ZArith Bool.
From Verif Require Import PyStr PyDict NovelModel YwText OdfXml OdsRead SpecOds.
Import ListNotations.

(** URL-coded text: letters, digits and a few signs *)
Definition url_char (c : N) : bool :=
  ((48 <=? c)%N && (c <=? 57)%N) || ((65 <=? c)%N && (c <=? 90)%N) || ((97 <=? c)%N && (c <=? 122)%N) || existsb (N.eqb c) (s "_.-~%/:").
Definition url_text (t : option str) : Prop := forall x, t = Some x -> forallb url_char x = true.
(** a title that is inserted as it is: no markup *)
Definition plain_title (t : option str) : Prop := forall x, t = Some x -> Forall (fun c => xml_char c = true /\ ~ In c (13%N :: s "<>&")) x.
(** a rating from 1 to 10 *)
Definition rating_fits (f : option str) : Prop := exists k, (1 <= k <= 10)%N /\ f = Some (str_of_N k).
(** the title and the description are given; the scene is marked as action or reaction; the ratings are ratings;
    the titles of its characters, locations and items contain no markup *)
Definition scene_fits (n : novel) (x : scene) : Prop :=
  cell_field (sc_title x) /\ sc_title x <> None /\ cell_field (sc_desc x) /\ sc_desc x <> None /\
  cell_field (sc_notes x) /\ cell_field (sc_goal x) /\ cell_field (sc_conflict x) /\ cell_field (sc_outcome x) /\ tags_fit (sc_tags x) /\
  sc_isReactionScene x <> None /\
  rating_fits (sc_field1 x) /\ rating_fits (sc_field2 x) /\ rating_fits (sc_field3 x) /\ rating_fits (sc_field4 x) /\
  (exists z, (0 <= z <= 5)%Z /\ sc_status x = Some z) /\
  (forall l i c, sc_characters x = Some l -> In i l -> dget i (nv_characters n) = Some c -> plain_title (cr_title c)) /\
  (forall l i w, sc_locations x = Some l -> In i l -> dget i (nv_locations n) = Some w -> plain_title (we_title w)) /\
  (forall l i w, sc_items x = Some l -> In i l -> dget i (nv_items n) = Some w -> plain_title (we_title w)).
(** the field titles are the column headings *)
Definition titles_fit (n : novel) : Prop := cell_field (nv_fieldTitle1 n) /\ cell_field (nv_fieldTitle2 n) /\ cell_field (nv_fieldTitle3 n) /\ cell_field (nv_fieldTitle4 n).
