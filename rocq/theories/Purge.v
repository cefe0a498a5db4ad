(** Model of src/pywriter/yw/yw7_purge.py *)
From Coq Require Import List NArith ZArith Bool Lia Arith.
From Verif Require Import PyStr PyDict NovelModel WordCount NovelOps Yw7Build.
Import ListNotations.

(** The class attributes of a project file object: file/file.py 46-52, yw7_file.py 80-98 *)
Record kwvars := { PRJ : list str; CHP : list str; SCN : list str; CRT : list str; LOC : list str; ITM : list str; PNT : list str }.
Definition yw7_kwvars : kwvars :=
  {| PRJ := PRJ_KWVAR; CHP := CHP_KWVAR; SCN := SCN_KWVAR; CRT := CRT_KWVAR; LOC := LOC_KWVAR; ITM := ITM_KWVAR; PNT := PNT_KWVAR |}.

(** yw7_purge.py 24-26 (and 30-32, 35-37, 40-42, 45-47, 50-52): if kwVar.get(field, None): kwVar[field] = ''; hasChanged = True *)
Definition clear_field (st : dict (option str) * bool) (field : str) : dict (option str) * bool :=
  if otruthy (get_kw field (fst st)) then (dset field (@Some str []) (fst st), true) else st.
(** the inner loops: for field in X_KWVAR *)
Definition clear_fields (fields : list str) (kw : dict (option str)) (changed : bool) : dict (option str) * bool :=
  fold_left clear_field fields (kw, changed).

(** the outer loops: for id in elements.  [get] and [set] access the element's kwVar. *)
Fixpoint clear_all {A} (get : A -> dict (option str)) (set : dict (option str) -> A -> A) (fields : list str)
  (es : dict A) (changed : bool) : dict A * bool :=
  match es with
  | [] => ([], changed)
  | (id, e) :: es' =>
      let (kw, c1) := clear_fields fields (get e) changed in
      let (r, c2) := clear_all get set fields es' c1 in
      ((id, set kw e) :: r, c2)
  end.

(** yw7_purge.py 12-58 reset_custom_variables.  The loop 53-57 refers to an attribute Novel does not have (projectnotes): it raises
    AttributeError if there is a project note and PNT_KWVAR is not empty. *)
Definition reset_custom_variables (kv : kwvars) (n : novel) : res (novel * bool) :=
  let (kw, c1) := clear_fields (PRJ kv) (nv_kw n) false in
  let (chs, c2) := clear_all ch_kw set_ch_kw (CHP kv) (nv_chapters n) c1 in
  let (scs, c3) := clear_all sc_kw set_sc_kw (SCN kv) (nv_scenes n) c2 in
  let (crs, c4) := clear_all cr_kw set_cr_kw (CRT kv) (nv_characters n) c3 in
  let (lcs, c5) := clear_all we_kw set_we_kw (LOC kv) (nv_locations n) c4 in
  let (its, c6) := clear_all we_kw set_we_kw (ITM kv) (nv_items n) c5 in
  match nv_projectNotes n, PNT kv with
  | _ :: _, _ :: _ => Err AttributeError
  | _, _ => Ok (set_nv_kw kw (set_nv_chapters chs (set_nv_scenes scs (set_nv_characters crs (set_nv_locations lcs (set_nv_items its n))))), c6)
  end.

(** yw7_purge.py 70: \[\/*?lang=.*?\] at the start of t: '[', any number of '/', 'lang=', anything up to the first ']' in the same line *)
Fixpoint leading_slashes (t : str) : nat :=
  match t with c :: t' => if N.eqb c 47 then S (leading_slashes t') else 0 | [] => 0 end.
Definition m_languageTag (bol : bool) (t : str) : nat :=
  match t with
  | c :: t' =>
      if N.eqb c 91 then
        let k := leading_slashes t' in
        if prefixb (s "lang=") (skipn k t') then
          match lazy_to (s "]") (skipn 5 (skipn k t')) with Some j => S (k + (5 + j)) | None => 0 end
        else 0
      else 0
  | [] => 0
  end.

(** yw7_purge.py 72-81: loop body for one scene; a content of None makes re.sub raise TypeError, which is swallowed *)
Definition untag_scene (sc : scene) : scene * bool :=
  match sc_content sc with
  | None => (sc, false)
  | Some t => let t' := re_sub m_languageTag [] t in
              if str_eqb t t' then (sc, false) else (set_sceneContent t' sc, true)
  end.
Fixpoint untag_scenes (es : dict scene) (changed : bool) : dict scene * bool :=
  match es with
  | [] => ([], changed)
  | (id, sc) :: es' =>
      let (sc', c) := untag_scene sc in
      let (r, c2) := untag_scenes es' (changed || c) in
      ((id, sc') :: r, c2)
  end.
(** yw7_purge.py 61-82 remove_language_tags *)
Definition remove_language_tags (n : novel) : novel * bool :=
  let (scs, c) := untag_scenes (nv_scenes n) false in (set_nv_scenes scs n, c).
