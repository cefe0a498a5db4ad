(** Property theorem C39 (project variables).  Only statements, [exact], assumptions and instances. *)
From Coq Require Import String List NArith ZArith Bool Lia Arith.
From Verif Require Import PyStr PyDict NovelModel NovelOps YwTree Yw7Build SpecVars VarsProofs VarsAgain.
Import ListNotations.

(** * C39 *)
(** Saving a project to a new file (old = None) or to an existing one keeps all project variables, with their IDs and titles, and adds exactly the missing ones,
    each with an ID that is not in use; if there is no language at all, none.  ls: the languages of the novel.
    Not covered: language codes that contain an equal sign (see the refutation), or occur twice in the list *)
Theorem C39_variables : forall loc dloc n old n1 r1 ls, write_tree loc dloc n old = Ok (n1, r1) ->
  nv_languages (prepare n) = Some ls -> NoDup ls /\ Forall (fun c => ~ In 61%N c) ls ->
  let r0 := match old with Some r => r | None => [] end in
  exists new, map described (variables r1) = map described (variables r0) ++ new /\
    map snd new = map Some (if has_language (prepare n) then missing_titles (map variable_title (variables r0)) ls else []) /\ Forall (fun p => fst p <> None) new /\
    (NoDup (variable_ids r0) -> NoDup (variable_ids r1)).
Proof. exact vars_saved. Qed.
Print Assumptions C39_variables.

(** Saving again, the same novel or another one that uses no other languages, adds none *)
Theorem C39_again : forall loc dloc n old n1 r1 ls loc2 dloc2 m m1 r2 ls2, write_tree loc dloc n old = Ok (n1, r1) ->
  nv_languages (prepare n) = Some ls -> NoDup ls /\ Forall (fun c => ~ In 61%N c) ls ->
  write_tree loc2 dloc2 m (Some r1) = Ok (m1, r2) -> nv_languages (prepare m) = Some ls2 -> NoDup ls2 -> incl ls2 ls ->
  (has_language (prepare m) = true -> has_language (prepare n) = true) ->
  map described (variables r2) = map described (variables r1).
Proof. exact vars_again. Qed.
Print Assumptions C39_again.

Definition V_var (i t d : string) : elem := Elem (s "PROJECTVAR") None [leaf (s "ID") (Some (s i)); leaf (s "Title") (Some (s t)); leaf (s "Desc") (Some (s d))].
Definition V_old : list elem := new_root ++ [Elem (s "PROJECTVARS") None [V_var "1" "mine" "x"; V_var "3" "Language" "en"; V_var "4" "lang=fr-FR" "f"; V_var "5" "/lang=fr-FR" "g"]].
Definition V_scene (t : string) : scene := set_sceneContent (s t) new_scene.
Definition V_novel (texts : list string) : novel :=
  set_nv_languageCode (Some (s "en")) (set_nv_countryCode (Some (s "US")) (set_nv_scenes (combine (map (fun i => str_of_N (N.of_nat i)) (seq 1 (length texts))) (map V_scene texts)) new_novel)).
Example C39_instance : let n := V_novel ["[lang=de-DE]ja[/lang=de-DE] and [lang=fr-FR]oui[/lang=fr-FR]"]%string in
  nv_languages (prepare n) = Some [s "de-DE"; s "fr-FR"] /\ exists n1 r1, write_tree None None n (Some V_old) = Ok (n1, r1) /\
  map described (variables r1) = [(Some (s "1"), Some (s "mine")); (Some (s "3"), Some (s "Language")); (Some (s "4"), Some (s "lang=fr-FR")); (Some (s "5"), Some (s "/lang=fr-FR"));
    (Some (s "2"), Some (s "Country")); (Some (s "6"), Some (s "lang=de-DE")); (Some (s "7"), Some (s "/lang=de-DE"))].
Proof. cbv zeta. split; [vm_compute; reflexivity|]. do 2 eexists. split; vm_compute; reflexivity. Qed.

Example C39_again_instance : let n := V_novel ["[lang=de-DE]ja[/lang=de-DE]"]%string in nv_languages (prepare n) = Some [s "de-DE"] /\
  exists n1 r1 n2 r2, write_tree None None n (Some V_old) = Ok (n1, r1) /\ write_tree None None n (Some r1) = Ok (n2, r2) /\ length (variables r2) = 7.
Proof. cbv zeta. split; [vm_compute; reflexivity|]. do 4 eexists. split; [vm_compute; reflexivity|]. split; vm_compute; reflexivity. Qed.

(** with an equal sign in a language code, each save adds the variables again *)
Theorem C39_equal_sign_refuted : exists n n1 r1 n2 r2, write_tree None None n None = Ok (n1, r1) /\ write_tree None None n (Some r1) = Ok (n2, r2) /\
  map variable_title (variables r1) = map Some [s "Language"; s "Country"; s "lang=a=b"; s "/lang=a=b"] /\
  map variable_title (variables r2) = map Some [s "Language"; s "Country"; s "lang=a=b"; s "/lang=a=b"; s "lang=a=b"; s "/lang=a=b"].
Proof. exists (V_novel ["[lang=a=b]x[/lang=a=b]"]%string). do 4 eexists. split; [vm_compute; reflexivity|]. split; [vm_compute; reflexivity|]. split; vm_compute; reflexivity. Qed.
Print Assumptions C39_equal_sign_refuted.
