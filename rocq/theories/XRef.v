(** Model of src/pywriter/model/cross_references.py CrossReferences *)
From Coq Require Import List NArith ZArith Bool Lia Arith.
From Verif Require Import PyStr PyDict NovelModel.
Import ListNotations.

(** cross_references.py 27-65: the instance variables *)
Record xref := mkXref {
  scnPerChr : dict (list str); scnPerLoc : dict (list str); scnPerItm : dict (list str);
  scnPerTag : dict (list str); chrPerTag : dict (list str); locPerTag : dict (list str);
  itmPerTag : dict (list str); chpPerScn : dict str; xrSrtScenes : list str }.

(** d[key].append(v); KeyError if the key is missing *)
Definition dappend (k v : str) (d : dict (list str)) : res (dict (list str)) :=
  do l <- dindex k d; Ok (dset k (l ++ [v]) d).

(** if not tag in d: d[tag] = [] ; d[tag].append(v)     (e.g. cross_references.py 88-90) *)
Definition dadd (v : str) (d : dict (list str)) (k : str) : dict (list str) :=
  match dget k d with Some l => dset k (l ++ [v]) d | None => dset k [v] d end.

(** truth value and elements of an attribute that is None or a list *)
Definition olist (x : option (list str)) : list str := match x with Some l => l | None => [] end.

(** cross_references.py 84-90 / 93-99 / 102-108: one loop per kind of element.
    [scn] is scnPerChr (scnPerLoc, scnPerItm), [tg] is chrPerTag (locPerTag, itmPerTag). *)
Definition xref_elem {A} (tags : A -> option (list str)) (elems : dict A)
    (acc : dict (list str) * dict (list str)) (id : str) : res (dict (list str) * dict (list str)) :=
  let '(scn, tg) := acc in
  do e <- dindex id elems;
  Ok (dset id [] scn, fold_left (dadd id) (olist (tags e)) tg).

(** cross_references.py 113-137: the loop body for one scene *)
Definition xref_scene (n : novel) (chId : str) (x : xref) (scId : str) : res xref :=
  do sc <- dindex scId (nv_scenes n);
  do pc <- foldM (fun d crId => dappend crId scId d) (olist (sc_characters sc)) (scnPerChr x);
  do pl <- foldM (fun d lcId => dappend lcId scId d) (olist (sc_locations sc)) (scnPerLoc x);
  do pi <- foldM (fun d itId => dappend itId scId d) (olist (sc_items sc)) (scnPerItm x);
  Ok (mkXref pc pl pi (fold_left (dadd scId) (olist (sc_tags sc)) (scnPerTag x))
        (chrPerTag x) (locPerTag x) (itmPerTag x) (dset scId chId (chpPerScn x)) (xrSrtScenes x ++ [scId])).

(** cross_references.py 111-113: the loop body for one chapter *)
Definition xref_chapter (n : novel) (x : xref) (chId : str) : res xref :=
  do ch <- dindex chId (nv_chapters n);
  foldM (xref_scene n chId) (ch_srtScenes ch) x.

(** cross_references.py 67-137 generate_xref *)
Definition generate_xref (n : novel) : res xref :=
  do '(pc, ct) <- foldM (xref_elem cr_tags (nv_characters n)) (nv_srtCharacters n) ([], []);
  do '(pl, lt) <- foldM (xref_elem we_tags (nv_locations n)) (nv_srtLocations n) ([], []);
  do '(pi, it) <- foldM (xref_elem we_tags (nv_items n)) (nv_srtItems n) ([], []);
  foldM (xref_chapter n) (nv_srtChapters n) (mkXref pc pl pi [] ct lt it [] []).
