(** Writing a scene into the tree and reading it back. *)
From Coq Require Import String List NArith ZArith Bool Lia Arith.
From Verif Require Import PyStr PyDict Globals GlobalsProofs NovelModel NovelOps YwTree IsoDate Yw7Build Yw7Read YwTreeProofs.
From Verif Require YwText.
Import ListNotations.

(** ** The tree that comes back from the file *)
(** [out t x] is what the text x of an element without sub-elements becomes when it is written to the file
    and parsed again.  The text of other elements is white space nobody looks at, unless it is kept as well. *)
Definition white (y : option str) : Prop := match y with None => True | Some v => v <> [] /\ forall c, In c v -> (c = 10 \/ c = 32)%N end.
Definition node_text (out : str -> option str -> option str) (t : str) (x y : option str) : Prop :=
  (YwText.blank x = true /\ white y) \/ (YwText.blank x = false /\ y = out t x).
Inductive settled (out : str -> option str -> option str) : elem -> elem -> Prop :=
| SLeaf : forall t x, settled out (Elem t x []) (Elem t (out t x) [])
| SNode : forall t x y a k a' k', Forall2 (settled out) (a :: k) (a' :: k') -> node_text out t x y ->
    settled out (Elem t x (a :: k)) (Elem t y (a' :: k')).

Section S.
Variable out : str -> option str -> option str.
Hypothesis out_None : forall t, out t None = None.
Hypothesis out_nil : forall t, out t (Some []) = None.
Notation R := (Forall2 (settled out)).

Lemma settled_tag : forall e e', settled out e e' -> e_tag e' = e_tag e.
Proof. intros e e' H. destruct H; reflexivity. Qed.

Lemma settled_kids : forall e e', settled out e e' -> R (e_kids e) (e_kids e').
Proof. intros e e' H. destruct H; [constructor | assumption]. Qed.

Lemma R_filt : forall P k k', R k k' -> R (filt P k) (filt P k').
Proof.
  intros P k k' H. induction H as [|e e' k k' He H IH]; [constructor|].
  unfold filt in *. cbn [filter]. rewrite (settled_tag _ _ He). destruct (P (e_tag e)); [constructor; assumption | assumption].
Qed.

Lemma R_findall : forall t k k', R k k' -> R (findall t k) (findall t k').
Proof. intros t k k' H. rewrite !findall_filt. apply R_filt. assumption. Qed.

Lemma R_has : forall t k k', R k k' -> has t k' = has t k.
Proof.
  intros t k k' H. rewrite !has_findall. apply (R_findall t) in H. destruct H; reflexivity.
Qed.

(** at most one element with tag t, and it has no sub-elements *)
Definition leaf1 (t : str) (k : list elem) : Prop := findall t k = [] \/ exists x, findall t k = [leaf t x].
(** at most one element with tag t *)
Definition uniq (t : str) (k : list elem) : Prop := findall t k = [] \/ exists e, findall t k = [e].

Lemma leaf1_uniq : forall t k, leaf1 t k -> uniq t k.
Proof. intros t k [H | [x H]]; [left | right; exists (leaf t x)]; exact H. Qed.

(** text read back for tag t *)
Definition G (t : str) (k : list elem) : option str :=
  match findall t k with e :: _ => out t (e_text e) | [] => None end.

Lemma get_text_G : forall t k k', R k k' -> leaf1 t k -> get_text t k' = G t k.
Proof.
  intros t k k' H L. unfold get_text, G. rewrite find_findall.
  apply (R_findall t) in H. destruct L as [L | [x L]]; rewrite L in *.
  - inversion H. reflexivity.
  - inversion H as [|? e' ? ? He]; subst. inversion He. reflexivity.
Qed.

Lemma G_congr : forall t k1 k2, findall t k1 = findall t k2 -> G t k1 = G t k2.
Proof. intros t k1 k2 H. unfold G. rewrite H. reflexivity. Qed.

(** the new value of an attribute: what was assigned, or the old value if the attribute is None *)
Definition keep (t : str) (v old : option str) : option str := match v with None => old | Some _ => out t v end.

Definition eff_opt (t : str) (v : option str) (l : list elem) : list elem :=
  match v with
  | None => l
  | Some w => match l with [] => if truthy w then [leaf t v] else [] | e :: l' => with_text v e :: l' end
  end.

Lemma findall_put_opt' : forall t v k, findall t (put_opt t v k) = eff_opt t v (findall t k).
Proof. intros t [v|] k; [apply findall_put_opt | reflexivity]. Qed.

Lemma eff_opt_leaf : forall t v k k1, leaf1 t k -> findall t k1 = eff_opt t v (findall t k) -> leaf1 t k1 /\ G t k1 = keep t v (G t k).
Proof.
  intros t v k k1 L E. unfold leaf1, G. rewrite E. unfold leaf1 in L. destruct v as [v|]; cbn [eff_opt keep].
  - destruct L as [L | [x L]]; rewrite L.
    + destruct v; cbn [truthy]; [split; [left; reflexivity | symmetry; apply out_nil] | split; [right; eexists; reflexivity | reflexivity]].
    + split; [right; exists (Some v); reflexivity | reflexivity].
  - split; [exact L | reflexivity].
Qed.

Definition eff_some (t : str) (v : option str) (l : list elem) : list elem :=
  match v with
  | None => l
  | Some w => match l with [] => [leaf t v] | e :: l' => with_text v e :: l' end
  end.

Lemma eff_some_leaf : forall t v k k1, leaf1 t k -> findall t k1 = eff_some t v (findall t k) -> leaf1 t k1 /\ G t k1 = keep t v (G t k).
Proof.
  intros t v k k1 L E. unfold leaf1, G. rewrite E. unfold leaf1 in L. destruct v as [v|]; cbn [eff_some keep].
  - destruct L as [L | [x L]]; rewrite L.
    + split; [right; eexists; reflexivity | reflexivity].
    + split; [right; exists (Some v); reflexivity | reflexivity].
  - split; [exact L | reflexivity].
Qed.

Lemma findall_put_some : forall t v k, findall t (put_some t v k) = eff_some t v (findall t k).
Proof. intros t [v|] k; [apply findall_put | reflexivity]. Qed.

Lemma findall_set_element' : forall t v k i, findall t (fst (set_element t v (k, i))) = eff_some t v (findall t k).
Proof.
  intros t [v|] k i; [apply findall_set_element|]. unfold set_element. destruct (has t k); reflexivity.
Qed.

(** text to be stored for the tags of a scene *)
Definition tags_text (tags : option (list str)) : option str := option_map (fun l => join semicolon l) tags.

Lemma findall_put_tags : forall x k, findall (s "Tags") (put_tags x k) =
  match x with None => findall (s "Tags") k
  | Some l => match findall (s "Tags") k with
              | [] => match l with [] => [] | _ => [leaf (s "Tags") (tags_text x)] end
              | e :: l' => with_text (tags_text x) e :: l'
              end
  end.
Proof.
  intros x k. unfold put_tags. destruct x as [l|]; [|reflexivity].
  rewrite has_findall. destruct (findall _ k) eqn:E.
  - destruct l; [exact E | rewrite findall_sub, E; reflexivity].
  - rewrite findall_set_text, E. reflexivity.
Qed.

Lemma put_tags_leaf : forall x k k1, leaf1 (s "Tags") k -> findall (s "Tags") k1 = findall (s "Tags") (put_tags x k) ->
  leaf1 (s "Tags") k1 /\ G (s "Tags") k1 = keep (s "Tags") (tags_text x) (G (s "Tags") k).
Proof.
  intros x k k1 L E. unfold leaf1, G. rewrite E, findall_put_tags. unfold leaf1 in L. destruct x as [l|]; cbn [tags_text option_map keep].
  - destruct L as [L | [y L]]; rewrite L.
    + destruct l; [split; [left; reflexivity | symmetry; apply out_nil] | split; [right; eexists; reflexivity | reflexivity]].
    + split; [right; eexists; reflexivity | reflexivity].
  - split; [exact L | reflexivity].
Qed.

(** flags: an element that exists or not *)
Lemma has_uniq_flag : forall t (b : bool) k k1, uniq t k ->
  findall t k1 = (if b then match findall t k with [] => [leaf t (Some (s "-1"))] | l => l end else tl (findall t k)) ->
  uniq t k1 /\ has t k1 = b.
Proof.
  intros t b k k1 U E. unfold uniq. rewrite has_findall, E.
  destruct U as [U | [e U]]; rewrite U; destruct b; cbn [tl]; split; try reflexivity; eauto.
Qed.
End S.

(** the frame lemmas, for single tags *)
Ltac tagneq := vm_compute; reflexivity.
Ltac peel1 :=
  match goal with
  | |- filt _ (put_opt _ _ _) = _ => refine (eq_trans (filt_put_opt _ _ _ _ _) _); [tagneq|]
  | |- filt _ (build_refs _ _ _ _) = _ => refine (eq_trans (filt_refs _ _ _ _ _ _) _); [tagneq|]
  | |- filt _ (put_flag _ _ _) = _ => refine (eq_trans (filt_put_flag _ _ _ _ _) _); [tagneq|]
  | |- filt _ (put_some _ _ _) = _ => refine (eq_trans (filt_put_some _ _ _ _ _) _); [tagneq|]
  | |- filt _ (put_tags _ _) = _ => refine (eq_trans (filt_put_tags _ _ _ _) _); [tagneq|]
  | |- filt _ (put_kws mk_fields _ _ _) = _ => refine (eq_trans (filt_put_kws_sub _ _ _ _ _) _); [tagneq|]
  | |- filt _ (put_kws _ CHP_KWVAR _ _) = _ => refine (eq_trans (filt_chapter_kws _ _ _ _) _)
  | |- filt _ (build_scene_export _ _) = _ => refine (eq_trans (filt_scene_export _ _ _ _ _) _); [tagneq|tagneq|]
  | |- filt _ (build_scene_type _ _ _) = _ => refine (eq_trans (filt_scene_type _ _ _ _ _ _) _); [tagneq|tagneq|]
  | |- filt _ (sub_new _ _ _) = _ => refine (eq_trans (filt_sub_new _ _ _ _ _) _); [tagneq|]
  | |- filt _ (put _ _ _) = _ => refine (eq_trans (filt_put _ _ _ _ _) _); [tagneq|]
  | |- filt _ (remove _ _) = _ => refine (eq_trans (filt_remove _ _ _ _) _); [tagneq|]
  | |- filt _ (sub_opt _ _ _) = _ => refine (eq_trans (filt_sub_opt _ _ _ _ _) _); [tagneq|]
  | |- filt _ (sub_tags _ _) = _ => refine (eq_trans (filt_sub_tags _ _ _ _) _); [tagneq|]
  | |- filt _ (sub _ _ _) = _ => refine (eq_trans (filt_sub _ _ _ _ _) _); [tagneq|]
  | |- filt _ (set_text _ _ _) = _ => refine (eq_trans (filt_set_text _ _ _ _ _) _); [tagneq|]
  | |- filt _ (insert_flag _ _ _ _) = _ => refine (eq_trans (filt_insert_flag _ _ _ _ _ _) _); [tagneq|]
  | |- filt _ (put_chapter_field _ _ _ _) = _ => refine (eq_trans (filt_chapter_field _ _ _ _ _ _) _); [tagneq|]
  | |- filt _ (put_trash _ _ _) = _ => refine (eq_trans (filt_trash _ _ _ _ _) _); [tagneq|]
  | |- filt _ (put_section_start _ _ _) = _ => refine (eq_trans (filt_section_start _ _ _ _ _) _); [tagneq|]
  | |- filt _ (fst (set_element _ _ _)) = _ => refine (eq_trans (filt_set_element _ _ _ _ _) _); [tagneq|cbn [fst]]
  | H : build_scene_start _ _ _ ?ka = Ok ?kb |- filt _ ?kb = _ =>
      refine (eq_trans (filt_scene_start _ _ _ _ _ _ _ _ _ _ _ H) _); [tagneq|tagneq|tagneq|tagneq|tagneq|]
  end.
Ltac peel := repeat peel1.
(** prove findall t (chain of operations) = f (findall t k) *)
Ltac own L := match goal with |- filt ?P ?k = _ => change (filt P k) with (findall _ k); rewrite L; f_equal; rewrite ?findall_filt end.

(** ** What build_scene does to each tag *)
Lemma build_scene_inv : forall x k k1, build_scene x k = Ok k1 ->
  exists p ka kb, scene_type_code (type_or_0 (sc_type x)) = Ok p /\
  ka = put_flag (s "AppendToPrev") (is_true (sc_appendToPrev x))
    (put_opt (s "Field4") (sc_field4 x) (put_opt (s "Field3") (sc_field3 x)
    (put_opt (s "Field2") (sc_field2 x) (put_opt (s "Field1") (sc_field1 x)
    (put_tags (sc_tags x) (put_opt (s "Notes") (sc_notes x)
    (put_some (s "Status") (option_map str_of_Z (sc_status x))
    (put_kws mk_fields SCN_KWVAR (sc_kw x) (build_scene_export (sc_doNotExport x)
    (build_scene_type (fst p) (snd p)
    (sub_new (s "LetterCount") (Some (str_of_N (N.of_nat (sc_letterCount x))))
    (sub_new (s "WordCount") (Some (str_of_N (N.of_nat (sc_wordCount x))))
    (sub_new (s "SceneContent") (sc_content x) (put_opt (s "Desc") (sc_desc x)
    (fst (set_element (s "Title") (sc_title x) (k, 1))))))))))))))))) /\
  build_scene_start (sc_date x) (sc_time x) (sc_day x) ka = Ok kb /\
  k1 = build_refs (s "Items") (s "ItmID") (sc_items x) (build_refs (s "Locations") (s "LocID") (sc_locations x)
    (build_refs (s "Characters") (s "CharID") (sc_characters x) (put_opt (s "ImageFile") (sc_image x)
    (put_opt (s "Outcome") (sc_outcome x) (put_opt (s "Conflict") (sc_conflict x) (put_opt (s "Goal") (sc_goal x)
    (put_flag (s "SubPlot") (is_true (sc_isSubPlot x)) (put_flag (s "ReactionScene") (is_true (sc_isReactionScene x))
    (put_opt (s "LastsMinutes") (sc_lastsMinutes x) (put_opt (s "LastsHours") (sc_lastsHours x)
    (put_opt (s "LastsDays") (sc_lastsDays x) kb))))))))))).
Proof.
  intros x k k1 H. unfold build_scene in H. cbv zeta in H. apply bind_ok in H. destruct H as [p [Hp H]].
  apply bind_ok in H. destruct H as [kb [Hs H]]. injection H as <-.
  exists p. eexists. exists kb. split; [exact Hp|]. split; [reflexivity|]. split; [exact Hs | reflexivity].
Qed.

(** the tags whose text is a scene attribute, written by the given value *)
Definition scene_texts (x : scene) : list (str * option str) :=
  [(s "Desc", sc_desc x); (s "Notes", sc_notes x); (s "Field1", sc_field1 x); (s "Field2", sc_field2 x);
   (s "Field3", sc_field3 x); (s "Field4", sc_field4 x); (s "LastsDays", sc_lastsDays x);
   (s "LastsHours", sc_lastsHours x); (s "LastsMinutes", sc_lastsMinutes x); (s "Goal", sc_goal x);
   (s "Conflict", sc_conflict x); (s "Outcome", sc_outcome x); (s "ImageFile", sc_image x)].

Lemma build_scene_texts : forall x k k1, build_scene x k = Ok k1 ->
  forall t v, In (t, v) (scene_texts x) -> findall t k1 = eff_opt t v (findall t k).
Proof.
  intros x k k1 H t v Hin. apply build_scene_inv in H. destruct H as (p & ka & kb & _ & Ha & Hs & ->). subst ka.
  unfold scene_texts in Hin. cbn [In] in Hin.
  repeat match type of Hin with _ \/ _ => destruct Hin as [Hin | Hin] | False => destruct Hin end;
  injection Hin as <- <-; rewrite !findall_filt; peel;
  rewrite <- !findall_filt, findall_put_opt'; f_equal; rewrite !findall_filt; peel; reflexivity.
Qed.

Lemma build_scene_title : forall x k k1, build_scene x k = Ok k1 ->
  findall (s "Title") k1 = eff_some (s "Title") (sc_title x) (findall (s "Title") k).
Proof.
  intros x k k1 H. apply build_scene_inv in H. destruct H as (p & ka & kb & _ & Ha & Hs & ->). subst ka.
  rewrite !findall_filt; peel. rewrite <- !findall_filt, findall_set_element'. reflexivity.
Qed.

Lemma build_scene_content : forall x k k1, build_scene x k = Ok k1 ->
  findall (s "SceneContent") k1 = match findall (s "SceneContent") k with [] => [leaf (s "SceneContent") (sc_content x)] | l => l end.
Proof.
  intros x k k1 H. apply build_scene_inv in H. destruct H as (p & ka & kb & _ & Ha & Hs & ->). subst ka.
  rewrite !findall_filt; peel. rewrite <- !findall_filt, findall_sub_new.
  replace (findall (s "SceneContent") (put_opt _ _ _)) with (findall (s "SceneContent") k); [reflexivity|].
  symmetry. rewrite !findall_filt; peel. reflexivity.
Qed.

Lemma build_scene_tags : forall x k k1, build_scene x k = Ok k1 ->
  exists k0, findall (s "Tags") k0 = findall (s "Tags") k /\ findall (s "Tags") k1 = findall (s "Tags") (put_tags (sc_tags x) k0).
Proof.
  intros x k k1 H. apply build_scene_inv in H. destruct H as (p & ka & kb & _ & Ha & Hs & ->). subst ka.
  eexists. split; [|rewrite !findall_filt; peel; reflexivity].
  rewrite !findall_filt; peel. reflexivity.
Qed.

Lemma build_scene_status : forall x k k1, build_scene x k = Ok k1 ->
  findall (s "Status") k1 = eff_some (s "Status") (option_map str_of_Z (sc_status x)) (findall (s "Status") k).
Proof.
  intros x k k1 H. apply build_scene_inv in H. destruct H as (p & ka & kb & _ & Ha & Hs & ->). subst ka.
  rewrite !findall_filt; peel. rewrite <- !findall_filt, findall_put_some. f_equal. rewrite !findall_filt; peel. reflexivity.
Qed.

Lemma findall_scene_type_unused : forall u y k, findall (s "Unused") (build_scene_type u y k) =
  if u then match findall (s "Unused") k with [] => [leaf (s "Unused") (Some (s "-1"))] | l => l end
  else tl (findall (s "Unused") k).
Proof.
  intros u y k. unfold build_scene_type. cbv zeta. rewrite <- findall_put_flag.
  destruct y; [destruct (has _ _)|]; rewrite !findall_filt; rewrite ?filt_on_kids, ?filt_snoc by tagneq; reflexivity.
Qed.

(** flags that are a single element *)
Definition scene_flags (x : scene) (unused : bool) : list (str * bool) :=
  [(s "Unused", unused); (s "AppendToPrev", is_true (sc_appendToPrev x));
   (s "ReactionScene", is_true (sc_isReactionScene x)); (s "SubPlot", is_true (sc_isSubPlot x))].

Lemma build_scene_flags : forall x k k1 p, build_scene x k = Ok k1 -> scene_type_code (type_or_0 (sc_type x)) = Ok p ->
  forall t b, In (t, b) (scene_flags x (fst p)) ->
  findall t k1 = if b then match findall t k with [] => [leaf t (Some (s "-1"))] | l => l end else tl (findall t k).
Proof.
  intros x k k1 p H Hp t b Hin. apply build_scene_inv in H. destruct H as (p' & ka & kb & Hp' & Ha & Hs & ->). subst ka.
  assert (p' = p) by congruence. subst p'.
  unfold scene_flags in Hin. cbn [In] in Hin.
  destruct Hin as [Hin | Hin].
  - injection Hin as <- <-. rewrite !findall_filt; peel. rewrite <- !findall_filt, findall_scene_type_unused.
    replace (findall (s "Unused") (sub_new _ _ _)) with (findall (s "Unused") k); [reflexivity|].
    symmetry. rewrite !findall_filt; peel. reflexivity.
  - repeat match type of Hin with _ \/ _ => destruct Hin as [Hin | Hin] | False => destruct Hin end;
    injection Hin as <- <-; rewrite !findall_filt; peel; rewrite <- !findall_filt, findall_put_flag;
    match goal with |- (if _ then match findall ?t ?a with _ => _ end else _) = _ =>
      replace (findall t a) with (findall t k); [reflexivity | symmetry; rewrite !findall_filt; peel; reflexivity] end.
Qed.

Lemma build_scene_refs : forall x k k1, build_scene x k = Ok k1 ->
  (findall (s "Characters") k1 = tl (findall (s "Characters") k) ++
     match sc_characters x with Some ((_ :: _) as l) => [Elem (s "Characters") None (map (fun a => leaf (s "CharID") (Some a)) l)] | _ => [] end) /\
  (findall (s "Locations") k1 = tl (findall (s "Locations") k) ++
     match sc_locations x with Some ((_ :: _) as l) => [Elem (s "Locations") None (map (fun a => leaf (s "LocID") (Some a)) l)] | _ => [] end) /\
  (findall (s "Items") k1 = tl (findall (s "Items") k) ++
     match sc_items x with Some ((_ :: _) as l) => [Elem (s "Items") None (map (fun a => leaf (s "ItmID") (Some a)) l)] | _ => [] end).
Proof.
  intros x k k1 H. apply build_scene_inv in H. destruct H as (p & ka & kb & _ & Ha & Hs & ->). subst ka.
  split; [|split]; rewrite !findall_filt; peel; rewrite <- !findall_filt, findall_refs; f_equal; f_equal;
    rewrite !findall_filt; peel; reflexivity.
Qed.

(** ** Fields *)
(** the elements with tag f inside the <Fields> element *)
Definition fget (f : str) (k : list elem) : list elem :=
  match findall (s "Fields") k with F :: _ => findall f (e_kids F) | [] => [] end.
Definition fields_ok (k : list elem) : Prop := uniq (s "Fields") k.

Definition eff_kw (f : str) (kw : dict (option str)) (l : list elem) : list elem :=
  match get_kw f kw with
  | Some ((_ :: _) as v) => match l with [] => [leaf f (Some (convert_from_yw v))] | e :: l' => with_text (Some (convert_from_yw v)) e :: l' end
  | _ => tl l
  end.

(** a way to create the <Fields> element *)
Definition makes_fields (mk : list elem -> list elem) : Prop :=
  forall k, findall (s "Fields") k = [] -> findall (s "Fields") (mk k) = [Elem (s "Fields") None []].

Lemma mk_fields_makes : makes_fields mk_fields.
Proof. intros k H. unfold mk_fields. rewrite findall_sub, H. reflexivity. Qed.

Lemma insert_makes : forall i, makes_fields (fun k => insert_at i (Elem (s "Fields") None []) k).
Proof. intros i k H. apply findall_insert. exact H. Qed.

Lemma put_kw_fields : forall mk kw k f, makes_fields mk -> uniq (s "Fields") k ->
  uniq (s "Fields") (put_kw mk kw k f) /\
  forall g, fget g (put_kw mk kw k f) = if str_eqb g f then eff_kw f kw (fget f k) else fget g k.
Proof.
  intros mk kw k f Hmk U.
  assert (He : forall h, forall k', uniq (s "Fields") k' ->
     uniq (s "Fields") (upd (s "Fields") (on_kids h) k') /\
     forall g, fget g (upd (s "Fields") (on_kids h) k') = match findall (s "Fields") k' with F :: _ => findall g (h (e_kids F)) | [] => [] end).
  { intros h k' U'. unfold uniq, fget. rewrite findall_on_kids. destruct U' as [U' | [F U']]; rewrite U'.
    - split; [left; reflexivity | reflexivity].
    - split; [right; eexists; reflexivity | reflexivity]. }
  unfold put_kw, eff_kw. destruct (get_kw f kw) as [[|c v]|] eqn:E.
  - destruct (He (remove f) k U) as [H1 H2]. split; [exact H1|]. intro g. rewrite H2. unfold fget.
    destruct (findall (s "Fields") k); [destruct (str_eqb g f); reflexivity|]. destruct (str_eqb g f) eqn:Eg.
    + apply str_eqb_eq in Eg. subst. apply findall_remove.
    + rewrite !findall_filt. apply filt_remove. rewrite str_eqb_sym. exact Eg.
  - cbv zeta.
    assert (Hk : exists k', uniq (s "Fields") k' /\ (if has (s "Fields") k then k else mk k) = k' /\
       (exists F, findall (s "Fields") k' = [F] /\ forall g, findall g (e_kids F) = fget g k)).
    { rewrite has_findall. unfold fget. destruct U as [U | [F U]]; rewrite U.
      - exists (mk k). rewrite (Hmk k U). split; [right; unfold uniq; rewrite (Hmk k U); eauto|].
        split; [reflexivity|]. eexists. split; reflexivity.
      - exists k. split; [right; eauto|]. split; [reflexivity|]. exists F. split; [exact U | reflexivity]. }
    destruct Hk as (k' & U' & -> & F & HF & Hg).
    destruct (He (put f (Some (convert_from_yw (c :: v)))) k' U') as [H1 H2]. split; [exact H1|].
    intro g. rewrite H2, HF. destruct (str_eqb g f) eqn:Eg.
    + apply str_eqb_eq in Eg. subst g. rewrite findall_put, Hg. reflexivity.
    + rewrite <- Hg. rewrite !findall_filt. apply filt_put. rewrite str_eqb_sym. exact Eg.
  - destruct (He (remove f) k U) as [H1 H2]. split; [exact H1|]. intro g. rewrite H2. unfold fget.
    destruct (findall (s "Fields") k); [destruct (str_eqb g f); reflexivity|]. destruct (str_eqb g f) eqn:Eg.
    + apply str_eqb_eq in Eg. subst. apply findall_remove.
    + rewrite !findall_filt. apply filt_remove. rewrite str_eqb_sym. exact Eg.
Qed.

Lemma put_kws_fields : forall mk names kw k, makes_fields mk -> NoDup names -> uniq (s "Fields") k ->
  uniq (s "Fields") (put_kws mk names kw k) /\
  forall g, fget g (put_kws mk names kw k) = if smem g names then eff_kw g kw (fget g k) else fget g k.
Proof.
  intros mk names kw k Hmk Hn U. unfold put_kws. revert k U.
  induction names as [|f names IH]; intros k U; [split; [exact U | reflexivity]|].
  cbn [fold_left]. inversion Hn as [|? ? Hf Hn']; subst.
  destruct (put_kw_fields mk kw k f Hmk U) as [U1 H1].
  destruct (IH Hn' _ U1) as [U2 H2]. split; [exact U2|]. intro g. rewrite H2, H1.
  unfold smem. cbn [existsb]. fold (smem g names). destruct (str_eqb g f) eqn:E; cbn [orb].
  - apply str_eqb_eq in E. subst g. apply smem_false in Hf. rewrite Hf. reflexivity.
  - reflexivity.
Qed.

Lemma scene_type_fields : forall u y k, uniq (s "Fields") k ->
  uniq (s "Fields") (build_scene_type u y k) /\
  forall g, fget g (build_scene_type u y k) =
    if str_eqb g (s "Field_SceneType") then
      match y with None => tl (fget g k) | Some _ => match fget g k with [] => [leaf g y] | e :: l => with_text y e :: l end end
    else fget g k.
Proof.
  intros u y k U. unfold build_scene_type. cbv zeta.
  assert (E0 : findall (s "Fields") (put_flag (s "Unused") u k) = findall (s "Fields") k).
  { rewrite !findall_filt. apply filt_put_flag. reflexivity. }
  set (k0 := put_flag (s "Unused") u k) in *. clearbody k0.
  unfold uniq, fget in *. rewrite has_findall, E0.
  destruct y as [y|].
  - destruct U as [U | [F U]]; rewrite U in *.
    + rewrite findall_app, E0. split; [right; eexists; reflexivity|]. intro g.
      change (findall (s "Fields") [Elem (s "Fields") None [leaf (s "Field_SceneType") (Some y)]])
        with [Elem (s "Fields") None [leaf (s "Field_SceneType") (Some y)]]. cbn [app e_kids].
      destruct (str_eqb g (s "Field_SceneType")) eqn:E.
      * apply str_eqb_eq in E. subst g. reflexivity.
      * unfold findall. cbn [filter e_tag leaf]. rewrite str_eqb_sym, E. reflexivity.
    + rewrite findall_on_kids, E0. split; [right; eexists; reflexivity|]. intro g. cbn [on_kids with_kids e_kids].
      destruct (str_eqb g (s "Field_SceneType")) eqn:E.
      * apply str_eqb_eq in E. subst g. rewrite findall_put. reflexivity.
      * rewrite !findall_filt. apply filt_put. rewrite str_eqb_sym. exact E.
  - rewrite findall_on_kids, E0. destruct U as [U | [F U]]; rewrite U in *.
    + split; [left; reflexivity|]. intro g. destruct (str_eqb _ _); reflexivity.
    + split; [right; eexists; reflexivity|]. intro g. cbn [on_kids with_kids e_kids].
      destruct (str_eqb g (s "Field_SceneType")) eqn:E.
      * apply str_eqb_eq in E. subst g. apply findall_remove.
      * rewrite !findall_filt. apply filt_remove. rewrite str_eqb_sym. exact E.
Qed.

Lemma uniq_congr : forall t k k', findall t k' = findall t k -> uniq t k -> uniq t k'.
Proof. intros t k k' E U. unfold uniq in *. rewrite E. exact U. Qed.

Lemma fget_congr : forall f k k', findall (s "Fields") k' = findall (s "Fields") k -> fget f k' = fget f k.
Proof. intros f k k' E. unfold fget. rewrite E. reflexivity. Qed.

Lemma build_scene_fields : forall x k k1 p, build_scene x k = Ok k1 -> scene_type_code (type_or_0 (sc_type x)) = Ok p ->
  uniq (s "Fields") k ->
  uniq (s "Fields") k1 /\
  fget (s "Field_SceneType") k1 =
     (match snd p with None => tl (fget (s "Field_SceneType") k)
      | Some _ => match fget (s "Field_SceneType") k with [] => [leaf (s "Field_SceneType") (snd p)] | e :: l => with_text (snd p) e :: l end end) /\
  forall f, In f SCN_KWVAR -> fget f k1 = eff_kw f (sc_kw x) (fget f k).
Proof.
  intros x k k1 p H Hp U. apply build_scene_inv in H. destruct H as (p' & ka & kb & Hp' & Ha & Hs & ->). subst ka.
  assert (p' = p) by congruence. subst p'.
  match type of Hs with context [build_scene_type (fst p) (snd p) ?a] => set (k2 := a) in * end.
  assert (E2 : findall (s "Fields") k2 = findall (s "Fields") k).
  { unfold k2. rewrite !findall_filt; peel. reflexivity. }
  clearbody k2.
  pose proof (uniq_congr _ _ _ E2 U) as U2.
  destruct (scene_type_fields (fst p) (snd p) k2 U2) as [U3 H3].
  match type of Hs with context [put_kws mk_fields SCN_KWVAR (sc_kw x) ?a] => set (k3 := a) in * end.
  assert (E3 : findall (s "Fields") k3 = findall (s "Fields") (build_scene_type (fst p) (snd p) k2)).
  { unfold k3. rewrite !findall_filt; peel. reflexivity. }
  clearbody k3.
  assert (Hn : NoDup SCN_KWVAR) by (repeat constructor; cbn; intuition discriminate).
  destruct (put_kws_fields mk_fields SCN_KWVAR (sc_kw x) k3 mk_fields_makes Hn (uniq_congr _ _ _ E3 U3)) as [U4 H4].
  match goal with |- uniq _ ?a /\ _ =>
    assert (E4 : findall (s "Fields") a = findall (s "Fields") (put_kws mk_fields SCN_KWVAR (sc_kw x) k3)) end.
  { rewrite !findall_filt; peel. reflexivity. }
  split; [exact (uniq_congr _ _ _ E4 U4)|]. split.
  - rewrite (fget_congr _ _ _ E4), H4. cbn -[fget s]. rewrite (fget_congr _ _ _ E3), H3.
    rewrite (fget_congr _ _ _ E2). reflexivity.
  - intros f Hf. rewrite (fget_congr _ _ _ E4), H4. rewrite (proj2 (smem_In f SCN_KWVAR) Hf).
    rewrite (fget_congr _ _ _ E3), H3, (fget_congr _ _ _ E2).
    assert (Hne : str_eqb f (s "Field_SceneType") = false).
    { destruct Hf as [<- | [<- | []]]; reflexivity. }
    rewrite Hne. reflexivity.
Qed.
