(** Vocabulary for C31: names and values that an INI file can hold. *)
From Coq Require Import List NArith Bool.
From Verif Require Import PyStr PyDict.
Import ListNotations.

(** a name: not empty, no surrounding white space, no line break, '=' or ':', not starting with '#', ';' or '[' *)
Definition plain_key (k : str) : Prop :=
  k <> [] /\ stripped k /\ (~ In 10%N k /\ ~ In 13%N k) /\ ~ In 61%N k /\ ~ In 58%N k /\
  match k with c :: _ => c <> 35%N /\ c <> 59%N /\ c <> 91%N | [] => True end.
(** a value: no surrounding white space in its lines nor at its end, no '%', no line but the first starts with '#' or ';' *)
Definition plain_value (v : str) : Prop :=
  (forall l, In l (splitc 10 v) -> stripped l) /\
  (forall l, In l (tl (splitc 10 v)) -> prefixb (s "#") l || prefixb (s ";") l = false) /\
  rstrip v = v /\ ~ In 37%N v /\ ~ In 13%N v.
