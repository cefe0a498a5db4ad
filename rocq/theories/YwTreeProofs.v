(** Lemmas about the element tree operations: what they do to the sub-elements with a given tag, and that
    they leave all the others alone. *)
From Coq Require Import String List NArith ZArith Bool Lia Arith.
From Verif Require Import PyStr PyDict Globals NovelModel YwTree Yw7Build.
Import ListNotations.

(** the sub-elements whose tag satisfies P, in order *)
Definition filt (P : str -> bool) (k : list elem) : list elem := filter (fun e => P (e_tag e)) k.

Lemma filt_app : forall P a b, filt P (a ++ b) = filt P a ++ filt P b.
Proof. intros. apply filter_app. Qed.

Lemma findall_filt : forall t k, findall t k = filt (fun u => str_eqb u t) k.
Proof. reflexivity. Qed.

Lemma find_findall : forall t k, find t k = hd_error (findall t k).
Proof.
  intros t k. induction k as [|e k IH]; [reflexivity|]. unfold findall in *. cbn [find filter].
  destruct (str_eqb (e_tag e) t); [reflexivity | exact IH].
Qed.

Lemma has_findall : forall t k, has t k = match findall t k with [] => false | _ => true end.
Proof. intros. unfold has. rewrite find_findall. destruct (findall t k); reflexivity. Qed.

Lemma findall_app : forall t a b, findall t (a ++ b) = findall t a ++ findall t b.
Proof. intros. apply filter_app. Qed.

(** ** Frame: an operation on tag t does not change the sub-elements selected by P if P t = false *)
Section Frame.
  Variable P : str -> bool.

  Lemma filt_upd : forall t f k, (forall e, e_tag (f e) = e_tag e) -> P t = false -> filt P (upd t f k) = filt P k.
  Proof.
    intros t f k Hf Ht. induction k as [|e k IH]; [reflexivity|].
    cbn [upd]. destruct (str_eqb (e_tag e) t) eqn:E.
    - apply str_eqb_eq in E. unfold filt. cbn [filter]. rewrite Hf, E, Ht. reflexivity.
    - unfold filt in *. cbn [filter]. rewrite IH. reflexivity.
  Qed.

  Lemma filt_set_text : forall t x k, P t = false -> filt P (set_text t x k) = filt P k.
  Proof. intros. apply filt_upd; [reflexivity | assumption]. Qed.

  Lemma filt_on_kids : forall t f k, P t = false -> filt P (upd t (on_kids f) k) = filt P k.
  Proof. intros. apply filt_upd; [reflexivity | assumption]. Qed.

  Lemma filt_remove : forall t k, P t = false -> filt P (remove t k) = filt P k.
  Proof.
    intros t k Ht. induction k as [|e k IH]; [reflexivity|].
    cbn [remove]. destruct (str_eqb (e_tag e) t) eqn:E.
    - apply str_eqb_eq in E. unfold filt. cbn [filter]. rewrite E, Ht. reflexivity.
    - unfold filt in *. cbn [filter]. rewrite IH. reflexivity.
  Qed.

  Lemma filt_snoc : forall e k, P (e_tag e) = false -> filt P (k ++ [e]) = filt P k.
  Proof. intros e k H. rewrite filt_app. unfold filt at 2. cbn [filter]. rewrite H. apply app_nil_r. Qed.

  Lemma filt_sub : forall t x k, P t = false -> filt P (sub t x k) = filt P k.
  Proof. intros. apply filt_snoc. assumption. Qed.

  Lemma filt_insert : forall i e k, P (e_tag e) = false -> filt P (insert_at i e k) = filt P k.
  Proof.
    intros i e k H. unfold insert_at. change (firstn i k ++ e :: skipn i k) with (firstn i k ++ [e] ++ skipn i k).
    rewrite !filt_app. unfold filt at 2. cbn [filter]. rewrite H. cbn [app].
    rewrite <- filt_app, firstn_skipn. reflexivity.
  Qed.

  Lemma filt_put : forall t x k, P t = false -> filt P (put t x k) = filt P k.
  Proof. intros. unfold put. destruct (has t k); [apply filt_set_text | apply filt_sub]; assumption. Qed.

  Lemma filt_put_opt : forall t x k, P t = false -> filt P (put_opt t x k) = filt P k.
  Proof.
    intros. unfold put_opt. destruct x as [v|]; [|reflexivity].
    destruct (has t k); [apply filt_set_text; assumption | destruct (truthy v); [apply filt_sub; assumption | reflexivity]].
  Qed.

  Lemma filt_put_some : forall t x k, P t = false -> filt P (put_some t x k) = filt P k.
  Proof. intros. unfold put_some. destruct x; [apply filt_put; assumption | reflexivity]. Qed.

  Lemma filt_sub_opt : forall t x k, P t = false -> filt P (sub_opt t x k) = filt P k.
  Proof. intros. unfold sub_opt. destruct x; [apply filt_sub; assumption | reflexivity]. Qed.

  Lemma filt_sub_new : forall t x k, P t = false -> filt P (sub_new t x k) = filt P k.
  Proof. intros. unfold sub_new. destruct (has t k); [reflexivity | apply filt_sub; assumption]. Qed.

  Lemma filt_sub_tags : forall x k, P (s "Tags") = false -> filt P (sub_tags x k) = filt P k.
  Proof. intros. unfold sub_tags. destruct x; [apply filt_sub; assumption | reflexivity]. Qed.

  Lemma filt_put_tags : forall x k, P (s "Tags") = false -> filt P (put_tags x k) = filt P k.
  Proof.
    intros. unfold put_tags. destruct x as [v|]; [|reflexivity].
    destruct (has _ k); [apply filt_set_text; assumption | destruct v; [reflexivity | apply filt_sub; assumption]].
  Qed.

  Lemma filt_put_flag : forall t b k, P t = false -> filt P (put_flag t b k) = filt P k.
  Proof.
    intros. unfold put_flag. destruct b; [destruct (has t k); [reflexivity | apply filt_sub; assumption] | apply filt_remove; assumption].
  Qed.

  Lemma filt_insert_flag : forall i t b k, P t = false -> filt P (insert_flag i t b k) = filt P k.
  Proof.
    intros. unfold insert_flag. destruct b; [destruct (has t k); [reflexivity | apply filt_insert; assumption] | apply filt_remove; assumption].
  Qed.

  Lemma filt_set_element : forall t x ki, P t = false -> filt P (fst (set_element t x ki)) = filt P (fst ki).
  Proof.
    intros t x [k i] H. unfold set_element. cbn [fst].
    destruct (has t k), x; cbn [fst]; try reflexivity; [apply filt_set_text | apply filt_insert]; assumption.
  Qed.

  Lemma filt_put_kw : forall mk kw k field, P (s "Fields") = false -> (forall k, filt P (mk k) = filt P k) ->
    filt P (put_kw mk kw k field) = filt P k.
  Proof.
    intros mk kw k field H Hm. unfold put_kw.
    destruct (get_kw field kw) as [[|c v]|]; rewrite filt_on_kids by assumption; try reflexivity.
    destruct (has _ k); [reflexivity | apply Hm].
  Qed.

  Lemma filt_put_kws : forall mk names kw k, P (s "Fields") = false -> (forall k, filt P (mk k) = filt P k) ->
    filt P (put_kws mk names kw k) = filt P k.
  Proof.
    intros mk names kw k H Hm. unfold put_kws. revert k. induction names as [|f names IH]; intro k; [reflexivity|].
    cbn [fold_left]. rewrite IH. apply filt_put_kw; assumption.
  Qed.

  Lemma filt_put_kws_sub : forall names kw k, P (s "Fields") = false ->
    filt P (put_kws mk_fields names kw k) = filt P k.
  Proof. intros. apply filt_put_kws; [assumption|]. intro. apply filt_sub. assumption. Qed.

  Lemma filt_scene_type : forall u y k, P (s "Unused") = false -> P (s "Fields") = false ->
    filt P (build_scene_type u y k) = filt P k.
  Proof.
    intros u y k H1 H2. unfold build_scene_type. cbv zeta.
    destruct y; [destruct (has _ _)|];
      rewrite ?filt_on_kids, ?filt_snoc by assumption; apply filt_put_flag; assumption.
  Qed.

  Lemma filt_scene_export : forall d k, P (s "ExportCondSpecific") = false -> P (s "ExportWhenRTF") = false ->
    filt P (build_scene_export d k) = filt P k.
  Proof.
    intros d k H1 H2. unfold build_scene_export. destruct d as [[|]|]; [..|reflexivity].
    - rewrite filt_remove by assumption. destruct (has _ k); [reflexivity | apply filt_sub; assumption].
    - destruct (_ && _); [apply filt_sub; assumption | reflexivity].
  Qed.

  Lemma filt_scene_start : forall d t y k k', P (s "SpecificDateTime") = false -> P (s "SpecificDateMode") = false ->
    P (s "Day") = false -> P (s "Hour") = false -> P (s "Minute") = false ->
    build_scene_start d t y k = Ok k' -> filt P k' = filt P k.
  Proof.
    intros d t y k k' H1 H2 H3 H4 H5 E. unfold build_scene_start, remove_date_time in E.
    repeat match type of E with context [match ?x with _ => _ end] => destruct x; try discriminate E end;
      injection E as <-; repeat first [rewrite filt_remove by assumption | rewrite filt_put by assumption
        | rewrite filt_sub by assumption | rewrite filt_set_text by assumption]; reflexivity.
  Qed.

  Lemma filt_refs : forall t i ids k, P t = false -> filt P (build_refs t i ids k) = filt P k.
  Proof.
    intros t i ids k H. unfold build_refs. destruct ids as [[|a l]|]; cbv zeta;
      rewrite ?filt_snoc by assumption; apply filt_remove; assumption.
  Qed.

  Lemma filt_chapter_field : forall i f b k, P (s "Fields") = false -> filt P (put_chapter_field i f b k) = filt P k.
  Proof.
    intros i f b k H. unfold put_chapter_field. destruct b; cbv zeta; rewrite filt_on_kids by assumption; [|reflexivity].
    destruct (has _ k); [reflexivity | apply filt_insert; assumption].
  Qed.

  Lemma filt_trash : forall i b k, P (s "Fields") = false -> filt P (put_trash i b k) = filt P k.
  Proof.
    intros i b k H. unfold put_trash. destruct b; [apply filt_chapter_field; assumption | apply filt_on_kids; assumption].
  Qed.

  Lemma filt_section_start : forall i l k, P (s "SectionStart") = false -> filt P (put_section_start i l k) = filt P k.
  Proof.
    intros i l k H. unfold put_section_start. destruct (has _ k).
    - destruct l as [[|p]|]; try reflexivity. apply filt_remove. assumption.
    - destruct l as [[|[p|p|]]|]; try reflexivity. apply filt_insert. assumption.
  Qed.

  Lemma filt_chapter_kws : forall i kw k, filt P (put_kws (fun k => insert_at i (Elem (s "Fields") None []) k) CHP_KWVAR kw k) = filt P k.
  Proof. reflexivity. Qed.
End Frame.

(** ** Effect on the own tag, in terms of [findall] *)
Lemma findall_upd : forall t f k, (forall e, e_tag (f e) = e_tag e) ->
  findall t (upd t f k) = match findall t k with [] => [] | e :: l => f e :: l end.
Proof.
  intros t f k Hf. induction k as [|e k IH]; [reflexivity|]. unfold findall in *. cbn [upd].
  cbn [filter]. destruct (str_eqb (e_tag e) t) eqn:E; cbn [filter]; rewrite ?Hf, E; [reflexivity | exact IH].
Qed.

Lemma findall_set_text : forall t x k,
  findall t (set_text t x k) = match findall t k with [] => [] | e :: l => with_text x e :: l end.
Proof. intros. apply findall_upd. reflexivity. Qed.

Lemma findall_on_kids : forall t f k,
  findall t (upd t (on_kids f) k) = match findall t k with [] => [] | e :: l => on_kids f e :: l end.
Proof. intros. apply findall_upd. reflexivity. Qed.

Lemma findall_remove : forall t k, findall t (remove t k) = tl (findall t k).
Proof.
  intros t k. induction k as [|e k IH]; [reflexivity|]. unfold findall in *. cbn [remove filter].
  destruct (str_eqb (e_tag e) t) eqn:E; cbn [filter]; rewrite ?E; [reflexivity | exact IH].
Qed.

Lemma findall_one : forall t x k, findall t (Elem t x k :: []) = [Elem t x k].
Proof. intros. unfold findall. cbn [filter e_tag]. rewrite str_eqb_refl. reflexivity. Qed.

Lemma findall_sub : forall t x k, findall t (sub t x k) = findall t k ++ [leaf t x].
Proof. intros. unfold sub, leaf. rewrite findall_app, findall_one. reflexivity. Qed.

Lemma findall_insert : forall t i x y k, findall t k = [] -> findall t (insert_at i (Elem t x y) k) = [Elem t x y].
Proof.
  intros t i x y k H. unfold insert_at. rewrite <- (firstn_skipn i k), findall_app in H.
  apply app_eq_nil in H. destruct H as [H1 H2].
  change (Elem t x y :: skipn i k) with ([Elem t x y] ++ skipn i k).
  rewrite !findall_app, H1, H2, findall_one. reflexivity.
Qed.

Lemma findall_put : forall t x k,
  findall t (put t x k) = match findall t k with [] => [leaf t x] | e :: l => with_text x e :: l end.
Proof.
  intros. unfold put. rewrite has_findall. destruct (findall t k) eqn:E.
  - rewrite findall_sub, E. reflexivity.
  - rewrite findall_set_text, E. reflexivity.
Qed.

Lemma findall_put_opt : forall t v k,
  findall t (put_opt t (Some v) k) =
  match findall t k with [] => if truthy v then [leaf t (Some v)] else [] | e :: l => with_text (Some v) e :: l end.
Proof.
  intros. unfold put_opt. rewrite has_findall. destruct (findall t k) eqn:E.
  - destruct (truthy v); [rewrite findall_sub, E; reflexivity | exact E].
  - rewrite findall_set_text, E. reflexivity.
Qed.

Lemma findall_sub_new : forall t x k,
  findall t (sub_new t x k) = match findall t k with [] => [leaf t x] | l => l end.
Proof.
  intros. unfold sub_new. rewrite has_findall. destruct (findall t k) eqn:E; [|exact E].
  rewrite findall_sub, E. reflexivity.
Qed.

Lemma findall_put_flag : forall t b k,
  findall t (put_flag t b k) = if b then match findall t k with [] => [leaf t (Some (s "-1"))] | l => l end
                               else tl (findall t k).
Proof.
  intros. unfold put_flag. destruct b; [|apply findall_remove].
  rewrite has_findall. destruct (findall t k) eqn:E; [rewrite findall_sub, E; reflexivity | exact E].
Qed.

Lemma findall_insert_flag : forall i t b k,
  findall t (insert_flag i t b k) = if b then match findall t k with [] => [leaf t (Some (s "-1"))] | l => l end
                               else tl (findall t k).
Proof.
  intros. unfold insert_flag. destruct b; [|apply findall_remove].
  rewrite has_findall. destruct (findall t k) eqn:E; [apply findall_insert; exact E | exact E].
Qed.

Lemma findall_set_element : forall t v k i,
  findall t (fst (set_element t (Some v) (k, i))) =
  match findall t k with [] => [leaf t (Some v)] | e :: l => with_text (Some v) e :: l end.
Proof.
  intros. unfold set_element. rewrite has_findall. destruct (findall t k) eqn:E; cbn [fst].
  - apply findall_insert. exact E.
  - rewrite findall_set_text, E. reflexivity.
Qed.

Lemma findall_refs : forall t i ids k,
  findall t (build_refs t i ids k) =
  tl (findall t k) ++ match ids with Some ((_ :: _) as l) => [Elem t None (map (fun a => leaf i (Some a)) l)] | _ => [] end.
Proof.
  intros. unfold build_refs. destruct ids as [[|a l]|]; cbv zeta.
  - rewrite findall_remove, app_nil_r. reflexivity.
  - rewrite findall_app, findall_one, findall_remove. reflexivity.
  - rewrite findall_remove, app_nil_r. reflexivity.
Qed.
