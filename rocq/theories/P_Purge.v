(** Property theorems about purging PyWriter's own data from a project: C36 *)
From Coq Require Import List NArith ZArith Bool.
From Verif Require Import PyStr PyDict NovelModel NovelOps Yw7Build YwTree Purge SpecPurge PurgeProofs Spec.
Import ListNotations.

(** Exactly the listed keyword variables that hold information are emptied, in the project and in every chapter, scene, character,
    location and item; everything else is unchanged; the result is True exactly if one of them held information *)
Theorem C36_exact : forall kv n n' c, reset_custom_variables kv n = Ok (n', c) -> exists kw chs scs crs lcs its,
  n' = set_nv_kw kw (set_nv_chapters chs (set_nv_scenes scs (set_nv_characters crs (set_nv_locations lcs (set_nv_items its n))))) /\
  cleared (PRJ kv) (nv_kw n) kw /\
  all_cleared ch_kw set_ch_kw (CHP kv) (nv_chapters n) chs /\ all_cleared sc_kw set_sc_kw (SCN kv) (nv_scenes n) scs /\
  all_cleared cr_kw set_cr_kw (CRT kv) (nv_characters n) crs /\ all_cleared we_kw set_we_kw (LOC kv) (nv_locations n) lcs /\
  all_cleared we_kw set_we_kw (ITM kv) (nv_items n) its /\
  (nv_projectNotes n = [] \/ PNT kv = []) /\
  (c = true <-> (exists f, In f (PRJ kv) /\ is_set f (nv_kw n)) \/ some_set ch_kw (CHP kv) (nv_chapters n) \/ some_set sc_kw (SCN kv) (nv_scenes n) \/
     some_set cr_kw (CRT kv) (nv_characters n) \/ some_set we_kw (LOC kv) (nv_locations n) \/ some_set we_kw (ITM kv) (nv_items n)).
Proof. exact reset_eq. Qed.
Print Assumptions C36_exact.
(** Repeating it changes nothing and reports no change *)
Theorem C36_repeat : forall kv n n' c, reset_custom_variables kv n = Ok (n', c) -> reset_custom_variables kv n' = Ok (n', false).
Proof. exact reset_repeat. Qed.
Print Assumptions C36_repeat.
(** It succeeds for every yWriter project *)
Theorem C36_succeeds : forall n, exists n' c, reset_custom_variables yw7_kwvars n = Ok (n', c).
Proof.
  intro n. unfold reset_custom_variables.
  destruct (clear_fields _ _ _), (clear_all _ _ _ (nv_chapters n) _), (clear_all _ _ _ (nv_scenes n) _), (clear_all _ _ _ (nv_characters n) _), (clear_all _ _ _ (nv_locations n) _), (clear_all _ _ _ (nv_items n) _).
  destruct (nv_projectNotes n); eexists; eexists; reflexivity.
Qed.
Print Assumptions C36_succeeds.
(** A file type that defines keyword variables for project notes cannot be purged: the loop refers to an attribute that does not exist *)
Theorem C36_notes_refuted : forall kv n, PNT kv <> [] -> nv_projectNotes n <> [] -> reset_custom_variables kv n = Err AttributeError.
Proof.
  intros kv n H1 H2. unfold reset_custom_variables.
  destruct (clear_fields _ _ _), (clear_all _ _ _ (nv_chapters n) _), (clear_all _ _ _ (nv_scenes n) _), (clear_all _ _ _ (nv_characters n) _), (clear_all _ _ _ (nv_locations n) _), (clear_all _ _ _ (nv_items n) _).
  destruct (nv_projectNotes n); [contradiction|]. destruct (PNT kv); [contradiction | reflexivity].
Qed.
Print Assumptions C36_notes_refuted.
(** When a purged element is written over an existing XML element, the elements of the listed variables are removed from its <Fields>
    (k: the sub-elements of the XML element; each field name occurs at most once there) *)
Theorem C36_saving_removes_fields : forall mk names kw k, (forall f, In f names -> ~ is_set f kw) ->
  (forall F f, find (s "Fields") k = Some F -> In f names -> length (findall f (e_kids F)) <= 1) ->
  forall F f, find (s "Fields") (put_kws mk names kw k) = Some F -> In f names -> find f (e_kids F) = None.
Proof. exact put_kws_cleared. Qed.
Print Assumptions C36_saving_removes_fields.

(** Language tags: each scene's content loses exactly its language tags (found from left to right) and nothing else changes; the result
    is True exactly if some content changed *)
Theorem C36_language_tags : forall n, exists scs,
  fst (remove_language_tags n) = set_nv_scenes scs n /\
  Forall2 (fun p q => fst q = fst p /\
     match sc_content (snd p) with
     | None => snd q = snd p
     | Some t => exists r, untagged t r /\ snd q = (if str_eq_dec r t then snd p else set_sceneContent r (snd p))
     end) (nv_scenes n) scs /\
  (snd (remove_language_tags n) = true <-> exists id sc t, In (id, sc) (nv_scenes n) /\ sc_content sc = Some t /\ ~ untagged t t).
Proof.
  intro n. unfold remove_language_tags. destruct (untag_scenes_spec (nv_scenes n) false) as [F C]. destruct (untag_scenes (nv_scenes n) false) as [scs c].
  exists scs. cbn [fst snd] in *. split; [reflexivity|]. split; [exact F|]. rewrite C. split; [intros [X|X]; [discriminate | exact X] | intro X; right; exact X].
Qed.
Print Assumptions C36_language_tags.
Theorem C36_untagged_unique : forall t r1 r2, untagged t r1 -> untagged t r2 -> r1 = r2.
Proof. exact untagged_fun. Qed.
Print Assumptions C36_untagged_unique.
(** If the brackets in the texts are closed and not nested, no language is used afterwards *)
Theorem C36_no_language_left : forall n, (forall id sc t, In (id, sc) (nv_scenes n) -> sc_content sc = Some t -> brackets_closed t) ->
  nv_languages (get_languages (fst (remove_language_tags n))) = Some [].
Proof. exact untag_languages. Qed.
Print Assumptions C36_no_language_left.
(** without that guard, removing one tag may leave a new one *)
Definition G_nested : novel := Eval vm_compute in set_nv_scenes [(s "1", set_sceneContent (s "[la[lang=de]ng=fr]x") new_scene)] new_novel.
Theorem C36_no_language_left_refuted : nv_languages (get_languages (fst (remove_language_tags G_nested))) = Some [s "fr"].
Proof. vm_compute. reflexivity. Qed.
Print Assumptions C36_no_language_left_refuted.

(** instances *)
Definition G_purge : novel := Eval vm_compute in
  set_nv_kw [(s "Field_LanguageCode", Some (s "de")); (s "other", Some (s "kept"))]
   (set_nv_scenes [(s "1", set_sc_kw [(s "Field_SceneArcs", Some (s "A;B"))] (set_sceneContent (s "Das [lang=en]word[/lang=en] [i]hier[/i].") new_scene)); (s "2", new_scene)] new_novel).
Example C36_instance : exists n', reset_custom_variables yw7_kwvars G_purge = Ok (n', true) /\
  nv_kw n' = [(s "Field_LanguageCode", Some []); (s "other", Some (s "kept"))] /\
  (forall id sc t, In (id, sc) (nv_scenes G_purge) -> sc_content sc = Some t -> brackets_closed t) /\
  option_map sc_content (dget (s "1") (nv_scenes (fst (remove_language_tags G_purge)))) = Some (Some (s "Das word [i]hier[/i].")).
Proof.
  eexists. split; [vm_compute; reflexivity|]. split; [vm_compute; reflexivity|]. split.
  - intros id sc t H E. cbn [G_purge nv_scenes] in H. destruct H as [H | [H | []]]; injection H as <- <-; cbn in E; [|discriminate]. injection E as <-.
    repeat (apply bc_char; [discriminate|]).
    refine (bc_group (s "lang=en") _ _ _ _ _); try (intro X; cbv in X; intuition discriminate). repeat (apply bc_char; [discriminate|]).
    refine (bc_group (s "/lang=en") _ _ _ _ _); try (intro X; cbv in X; intuition discriminate). repeat (apply bc_char; [discriminate|]).
    refine (bc_group (s "i") _ _ _ _ _); try (intro X; cbv in X; intuition discriminate). repeat (apply bc_char; [discriminate|]).
    refine (bc_group (s "/i") _ _ _ _ _); try (intro X; cbv in X; intuition discriminate). repeat (apply bc_char; [discriminate|]). apply bc_nil.
  - vm_compute. reflexivity.
Qed.
