(** The chapter round trip through the element tree. *)
From Coq Require Import String List NArith ZArith Bool Lia Arith.
From Verif Require Import PyStr PyDict Globals GlobalsProofs WordCount NovelModel NovelOps YwTree IsoDate Yw7Build Yw7Read YwTreeProofs Yw7SceneProofs Yw7StartProofs Yw7SceneRT.
Import ListNotations.

Lemma build_chapter_inv : forall c k k1, build_chapter c k = Ok k1 ->
  exists u ty ct i1 i2 i3 i4, chapter_type_code (type_or_0 (ch_type c)) = Ok (u, (ty, ct)) /\
  k1 = build_refs (s "Scenes") (s "ScID") (Some (ch_srtScenes c))
    (fst (set_element (s "ChapterType") (Some ct) (set_element (s "Type") (Some ty)
    (put_section_start i1 (ch_level c)
    (put_kws (fun k => insert_at i2 (Elem (s "Fields") None []) k) CHP_KWVAR (ch_kw c)
    (put_trash i2 (is_true (ch_isTrash c))
    (put_chapter_field i2 (s "Field_SuppressChapterBreak") (is_true (ch_suppressBreak c))
    (put_chapter_field i2 (s "Field_SuppressChapterTitle") (is_true (ch_suppressTitle c))
    (remove (s "SortOrder") (insert_flag i3 (s "Unused") u
    (fst (set_element (s "Desc") (ch_desc c) (set_element (s "Title") (ch_title c) (k, 1)))))))))), i4)))).
Proof.
  intros c k k1 H. unfold build_chapter in H. apply bind_ok in H. destruct H as [[u [ty ct]] [Hp H]].
  destruct (set_element (s "Desc") (ch_desc c) (set_element (s "Title") (ch_title c) (k, 1))) as [ka ia] eqn:Ea.
  match type of H with context [set_element (s "ChapterType") (Some ct) (set_element (s "Type") (Some ty) (?a, ?b))] =>
    destruct (set_element (s "ChapterType") (Some ct) (set_element (s "Type") (Some ty) (a, b))) as [kb ib] eqn:Eb end.
  injection H as <-. exists u, ty, ct. do 4 eexists. split; [exact Hp|].
  f_equal. cbn [fst]. rewrite Eb. reflexivity.
Qed.

(** one of the chapter fields that are '1' or not *)
Definition eff_one (f : str) (b : bool) (l : list elem) : list elem :=
  if b then match l with [] => [leaf f (Some (s "1"))] | e :: l' => with_text (Some (s "1")) e :: l' end
  else match l with [] => [] | e :: l' => with_text (Some (s "0")) e :: l' end.

Lemma upd_fields : forall h k, uniq (s "Fields") k ->
  uniq (s "Fields") (upd (s "Fields") (on_kids h) k) /\ has (s "Fields") (upd (s "Fields") (on_kids h) k) = has (s "Fields") k /\
  forall g, fget g (upd (s "Fields") (on_kids h) k) = match findall (s "Fields") k with F :: _ => findall g (h (e_kids F)) | [] => [] end.
Proof.
  intros h k U. unfold uniq, fget. rewrite !has_findall, findall_on_kids. destruct U as [U | [F U]]; rewrite U.
  - split; [left; reflexivity | split; reflexivity].
  - split; [right; eexists; reflexivity | split; reflexivity].
Qed.

Lemma put_chapter_field_fields : forall i f b k, uniq (s "Fields") k ->
  uniq (s "Fields") (put_chapter_field i f b k) /\ has (s "Fields") (put_chapter_field i f b k) = has (s "Fields") k || b /\
  forall g, fget g (put_chapter_field i f b k) = if str_eqb g f then eff_one f b (fget f k) else fget g k.
Proof.
  intros i f b k U. unfold put_chapter_field. destruct b; cbv zeta.
  - set (k' := if has (s "Fields") k then k else insert_at i (Elem (s "Fields") None []) k).
    assert (Hk : exists F, findall (s "Fields") k' = [F] /\ forall g, findall g (e_kids F) = fget g k).
    { unfold k', fget. rewrite has_findall. destruct U as [U | [F U]]; rewrite U.
      - rewrite findall_insert by exact U. eexists. split; reflexivity.
      - exists F. split; [exact U | reflexivity]. }
    destruct Hk as (F & HF & Hg). destruct (upd_fields (put f (Some (s "1"))) k') as (A & B & C); [right; eauto|].
    split; [exact A|]. split; [rewrite B, has_findall, HF; symmetry; apply orb_true_r|].
    intro g. rewrite C, HF. unfold eff_one. destruct (str_eqb g f) eqn:E.
    + apply str_eqb_eq in E. subst g. rewrite findall_put, Hg. reflexivity.
    + rewrite <- Hg. rewrite !findall_filt. apply filt_put. rewrite str_eqb_sym. exact E.
  - destruct (upd_fields (set_text f (Some (s "0"))) k U) as (A & B & C). split; [exact A|]. split; [rewrite B; symmetry; apply orb_false_r|].
    intro g. rewrite C. unfold eff_one, fget. destruct (str_eqb g f) eqn:E.
    + apply str_eqb_eq in E. subst g. destruct (findall (s "Fields") k); [reflexivity | apply findall_set_text].
    + destruct (findall (s "Fields") k); [reflexivity|]. rewrite !findall_filt. apply filt_set_text. rewrite str_eqb_sym. exact E.
Qed.

Lemma put_trash_fields : forall i b k, uniq (s "Fields") k ->
  uniq (s "Fields") (put_trash i b k) /\ has (s "Fields") (put_trash i b k) = has (s "Fields") k || b /\
  forall g, fget g (put_trash i b k) = if str_eqb g (s "Field_IsTrash") then
     (if b then eff_one (s "Field_IsTrash") true (fget (s "Field_IsTrash") k) else tl (fget (s "Field_IsTrash") k)) else fget g k.
Proof.
  intros i b k U. unfold put_trash. destruct b; [apply (put_chapter_field_fields i (s "Field_IsTrash") true k U)|].
  destruct (upd_fields (remove (s "Field_IsTrash")) k U) as (A & B & C). split; [exact A|]. split; [rewrite B; symmetry; apply orb_false_r|].
  intro g. rewrite C. unfold fget. destruct (str_eqb g (s "Field_IsTrash")) eqn:E.
  - apply str_eqb_eq in E. subst g. destruct (findall (s "Fields") k); [reflexivity | apply findall_remove].
  - destruct (findall (s "Fields") k); [reflexivity|]. rewrite !findall_filt. apply filt_remove. rewrite str_eqb_sym. exact E.
Qed.

Section S.
Variable out : str -> option str -> option str.
Hypothesis out_None : forall t, out t None = None.
Hypothesis out_nil : forall t, out t (Some []) = None.
Hypothesis out_safe : forall t v, safe v -> out t (Some v) = Some v.
Notation R := (Forall2 (settled out)).

Definition chapter_leaf_tags : list str := [s "Title"; s "Desc"; s "Type"; s "ChapterType"].
Definition chapter_uniq_tags : list str := [s "Unused"; s "SectionStart"; s "Scenes"].
Definition chapter_field_names : list str := [s "Field_SuppressChapterTitle"; s "Field_SuppressChapterBreak"; s "Field_IsTrash"].
Definition chapter_wf (k : list elem) : Prop :=
  (forall t, In t chapter_leaf_tags -> leaf1 t k) /\ (forall t, In t chapter_uniq_tags -> uniq t k) /\
  fields_wf chapter_field_names k.

Definition at_sign (t : option str) : bool := match t with Some v => prefixb (s "@") v | None => false end.
Definition is_some {A} (x : option A) : bool := match x with Some _ => true | None => false end.

(** The chapter read back after c has been written over an element that was read as [old].
    The flags that live in <Fields> are None as long as there is no such element. *)
Definition merged_chapter (scs : dict scene) (c old : chapter) : chapter :=
  let title := keep out (s "Title") (ch_title c) (ch_title old) in
  let fields := is_some (ch_isTrash old) || is_true (ch_suppressTitle c) || is_true (ch_suppressBreak c) || is_true (ch_isTrash c) in
  {| ch_title := title;
     ch_desc := keep out (s "Desc") (ch_desc c) (ch_desc old);
     ch_kw := [];
     ch_level := match ch_level c with Some 0%N => Some 0%N | Some 1%N => Some 1%N | _ => ch_level old end;
     ch_type := Some (type_or_0 (ch_type c));
     ch_suppressTitle := Some (at_sign title || is_true (ch_suppressTitle c));
     ch_isTrash := if fields then Some (is_true (ch_isTrash c)) else None;
     ch_suppressBreak := if fields then Some (is_true (ch_suppressBreak c)) else None;
     ch_srtScenes := filter (fun a => dmem a scs) (ch_srtScenes c) |}.

Theorem chapter_roundtrip : forall scs scs0 c k0 k0' k1 k1',
  chapter_wf k0 -> R k0 k0' -> build_chapter c k0 = Ok k1 -> R k1 k1' ->
  (forall a, In a (ch_srtScenes c) -> out (s "ScID") (Some a) = Some a) ->
  read_chapter scs k1' = merged_chapter scs c (read_chapter scs0 k0') /\ chapter_wf k1.
Proof.
  intros scs scs0 c k0 k0' k1 k1' (WL & WU & WF) R0 Hb R1 Hsc.
  destruct (build_chapter_inv c k0 k1 Hb) as (u & ty & ct & i1 & i2 & i3 & i4 & Hp & E1).
  assert (Hti : leaf1 (s "Title") k1 /\ get_text (s "Title") k1' = keep out (s "Title") (ch_title c) (get_text (s "Title") k0')).
  { apply (G_keep_some out (s "Title") (ch_title c) k0 k1); try assumption; [apply WL; cbn; tauto|].
    subst k1. rewrite !findall_filt. peel. rewrite <- !findall_filt. apply findall_set_element'. }
  assert (Hde : leaf1 (s "Desc") k1 /\ get_text (s "Desc") k1' = keep out (s "Desc") (ch_desc c) (get_text (s "Desc") k0')).
  { apply (G_keep_some out (s "Desc") (ch_desc c) k0 k1); try assumption; [apply WL; cbn; tauto|].
    subst k1. rewrite !findall_filt. peel. rewrite <- !findall_filt.
    destruct (set_element (s "Title") (ch_title c) (k0, 1)) as [kk ii] eqn:EE.
    rewrite findall_set_element'. f_equal. change kk with (fst (kk, ii)). rewrite <- EE. rewrite !findall_filt. peel. reflexivity. }
  assert (Hty : leaf1 (s "Type") k1).
  { assert (L0 : leaf1 (s "Type") k0) by (apply WL; cbn; tauto).
    assert (E : findall (s "Type") k1 = eff_some (s "Type") (Some ty) (findall (s "Type") k0)).
    { subst k1. rewrite !findall_filt. peel. rewrite <- !findall_filt. rewrite findall_set_element'. f_equal. rewrite !findall_filt. peel. reflexivity. }
    exact (proj1 (eff_some_leaf out _ _ _ _ L0 E)). }
  assert (Hct : leaf1 (s "ChapterType") k1 /\ findall (s "ChapterType") k1 = [leaf (s "ChapterType") (Some ct)]).
  { assert (L0 : leaf1 (s "ChapterType") k0) by (apply WL; cbn; tauto).
    assert (E : findall (s "ChapterType") k1 = eff_some (s "ChapterType") (Some ct) (findall (s "ChapterType") k0)).
    { subst k1. rewrite !findall_filt. peel. rewrite <- !findall_filt.
      match goal with |- context [set_element (s "Type") (Some ty) ?a] => destruct (set_element (s "Type") (Some ty) a) as [kk ii] eqn:EE end.
      rewrite findall_set_element'. f_equal. change kk with (fst (kk, ii)). rewrite <- EE. rewrite !findall_filt. peel. reflexivity. }
    split; [exact (proj1 (eff_some_leaf out _ _ _ _ L0 E))|]. rewrite E. destruct L0 as [L0 | [y L0]]; rewrite L0; reflexivity. }
  assert (Hun : uniq (s "Unused") k1 /\ has (s "Unused") k1 = u).
  { apply (has_uniq_flag (s "Unused") u k0 k1); [apply WU; cbn; tauto|]. subst k1. rewrite !findall_filt. peel.
    rewrite <- !findall_filt, findall_insert_flag.
    match goal with |- (if _ then match findall ?t ?a with _ => _ end else _) = _ => replace (findall t a) with (findall t k0); [reflexivity|] end.
    symmetry. rewrite !findall_filt. peel. reflexivity. }
  assert (Hse : uniq (s "SectionStart") k1 /\ has (s "SectionStart") k1 =
            match ch_level c with Some 0%N => false | Some 1%N => true | _ => has (s "SectionStart") k0 end).
  { assert (U0 : uniq (s "SectionStart") k0) by (apply WU; cbn; tauto).
    assert (E : findall (s "SectionStart") k1 = match ch_level c with Some 0%N => [] | Some 1%N => match findall (s "SectionStart") k0 with [] => [leaf (s "SectionStart") (Some (s "-1"))] | l => l end
                 | _ => findall (s "SectionStart") k0 end).
    { subst k1. rewrite !findall_filt. peel. rewrite <- !findall_filt.
      match goal with |- findall _ (put_section_start _ _ ?a) = _ => assert (Ea : findall (s "SectionStart") a = findall (s "SectionStart") k0) by (rewrite !findall_filt; peel; reflexivity); set (kk := a) in * end.
      clearbody kk. unfold put_section_start. rewrite has_findall.
      destruct (ch_level c) as [[|[q|q|]]|]; destruct U0 as [U0 | [e U0]]; rewrite U0 in *; rewrite Ea; try exact Ea;
        rewrite ?findall_remove, ?Ea; try reflexivity; apply findall_insert; exact Ea. }
    unfold uniq. rewrite (has_findall _ k1), E, has_findall. destruct U0 as [U0 | [e U0]]; rewrite U0; destruct (ch_level c) as [[|[q|q|]]|]; eauto. }
  assert (Hsn : uniq (s "Scenes") k1 /\ findall (s "Scenes") k1 = match ch_srtScenes c with [] => [] | l => [Elem (s "Scenes") None (map (fun a => leaf (s "ScID") (Some a)) l)] end).
  { assert (U0 : uniq (s "Scenes") k0) by (apply WU; cbn; tauto).
    assert (E : findall (s "Scenes") k1 = match ch_srtScenes c with [] => [] | l => [Elem (s "Scenes") None (map (fun a => leaf (s "ScID") (Some a)) l)] end).
    { subst k1. rewrite findall_refs.
      match goal with |- tl (findall ?t ?a) ++ _ = _ => replace (findall t a) with (findall t k0) end.
      2:{ symmetry. rewrite !findall_filt. peel. reflexivity. }
      destruct U0 as [U0 | [e U0]]; rewrite U0; destruct (ch_srtScenes c); reflexivity. }
    split; [|exact E]. unfold uniq. rewrite E. destruct (ch_srtScenes c); eauto. }
  (* fields *)
  assert (Hfi : uniq (s "Fields") k1 /\
     has (s "Fields") k1 = has (s "Fields") k0 || is_true (ch_suppressTitle c) || is_true (ch_suppressBreak c) || is_true (ch_isTrash c) /\
     fget (s "Field_SuppressChapterTitle") k1 = eff_one (s "Field_SuppressChapterTitle") (is_true (ch_suppressTitle c)) (fget (s "Field_SuppressChapterTitle") k0) /\
     fget (s "Field_SuppressChapterBreak") k1 = eff_one (s "Field_SuppressChapterBreak") (is_true (ch_suppressBreak c)) (fget (s "Field_SuppressChapterBreak") k0) /\
     fget (s "Field_IsTrash") k1 = (if is_true (ch_isTrash c) then eff_one (s "Field_IsTrash") true (fget (s "Field_IsTrash") k0) else tl (fget (s "Field_IsTrash") k0))).
  { match type of E1 with context [put_chapter_field i2 (s "Field_SuppressChapterTitle") _ ?a] =>
      assert (Ea : findall (s "Fields") a = findall (s "Fields") k0) by (rewrite !findall_filt; peel; reflexivity); set (kk := a) in * end.
    clearbody kk. destruct WF as [U0 _].
    pose proof (uniq_congr _ _ _ Ea U0) as Uk.
    destruct (put_chapter_field_fields i2 (s "Field_SuppressChapterTitle") (is_true (ch_suppressTitle c)) kk Uk) as (A1 & B1 & C1).
    set (ka := put_chapter_field i2 (s "Field_SuppressChapterTitle") (is_true (ch_suppressTitle c)) kk) in *.
    destruct (put_chapter_field_fields i2 (s "Field_SuppressChapterBreak") (is_true (ch_suppressBreak c)) ka A1) as (A2 & B2 & C2).
    set (kb := put_chapter_field i2 (s "Field_SuppressChapterBreak") (is_true (ch_suppressBreak c)) ka) in *.
    destruct (put_trash_fields i2 (is_true (ch_isTrash c)) kb A2) as (A3 & B3 & C3).
    set (kc := put_trash i2 (is_true (ch_isTrash c)) kb) in *.
    assert (E3 : findall (s "Fields") k1 = findall (s "Fields") kc).
    { subst k1. rewrite !findall_filt. peel. reflexivity. }
    split; [exact (uniq_congr _ _ _ E3 A3)|].
    split; [rewrite (has_findall _ k1), E3, <- has_findall, B3, B2, B1; rewrite (has_findall _ kk), Ea, <- has_findall; reflexivity|].
    rewrite !(fget_congr _ _ _ E3), !C3, !C2, !C1, !(fget_congr _ _ _ Ea).
    split; [reflexivity | split; reflexivity]. }
  destruct Hfi as (UF & HFh & F1 & F2 & F3).
  assert (L0 : forall f, In f chapter_field_names -> fget f k0 = [] \/ exists y, fget f k0 = [leaf f y]).
  { intros f Hf. unfold fget. destruct WF as [U0 HW]. destruct U0 as [U0 | [F0 U0]]; rewrite U0 in *; [left; reflexivity|]. apply (HW F0 eq_refl f Hf). }
  pose proof (L0 _ (or_introl eq_refl)) as La. pose proof (L0 _ (or_intror (or_introl eq_refl))) as Lb. pose proof (L0 _ (or_intror (or_intror (or_introl eq_refl)))) as Lc.
  assert (WF1 : fields_wf chapter_field_names k1).
  { split; [exact UF|]. intros F HFF f Hf.
    assert (Hg : fget f k1 = findall f (e_kids F)) by (unfold fget; rewrite HFF; reflexivity).
    unfold leaf1. rewrite <- Hg.
    destruct Hf as [<- | [<- | [<- | []]]]; [rewrite F1; destruct La as [L | [y L]] | rewrite F2; destruct Lb as [L | [y L]] | rewrite F3; destruct Lc as [L | [y L]]]; rewrite L; unfold eff_one;
      match goal with |- context [if ?b then _ else _] => destruct b end; first [left; reflexivity | right; eexists; reflexivity]. }
  (* a field is 1 *)
  assert (Hone : forall f, In f chapter_field_names -> forall F F', findall (s "Fields") k1 = [F] -> settled out F F' ->
     field_is_1 f F' = match fget f k1 with e :: _ => match out f (e_text e) with Some y => str_eqb y (s "1") | None => false end | [] => false end).
  { intros f Hf F F' HFF HS. unfold field_is_1. rewrite (find_text_FT out f (e_kids F) (e_kids F')); [|apply settled_kids; exact HS | apply (proj2 WF1 F HFF f Hf)].
    unfold fget. rewrite HFF. unfold FT. destruct (findall f (e_kids F)); [reflexivity|]. reflexivity. }
  assert (Oone : forall f, out f (Some (s "1")) = Some (s "1")) by (intro f; apply out_safe; split; [discriminate | reflexivity]).
  assert (Ozero : forall f, out f (Some (s "0")) = Some (s "0")) by (intro f; apply out_safe; split; [discriminate | reflexivity]).
  assert (Heff : forall f b, (fget f k0 = [] \/ exists y, fget f k0 = [leaf f y]) -> 
     match eff_one f b (fget f k0) with e :: _ => match out f (e_text e) with Some y => str_eqb y (s "1") | None => false end | [] => false end = b).
  { intros f b [L | [y L]]; rewrite L; destruct b; cbn [eff_one with_text leaf e_text]; rewrite ?Oone, ?Ozero; reflexivity. }
  assert (V1 : forall F F', findall (s "Fields") k1 = [F] -> settled out F F' -> field_is_1 (s "Field_SuppressChapterTitle") F' = is_true (ch_suppressTitle c)).
  { intros F F' HFF HS. rewrite (Hone _ (or_introl eq_refl) F F' HFF HS), F1. apply Heff. exact La. }
  assert (V2 : forall F F', findall (s "Fields") k1 = [F] -> settled out F F' -> field_is_1 (s "Field_SuppressChapterBreak") F' = is_true (ch_suppressBreak c)).
  { intros F F' HFF HS. rewrite (Hone _ (or_intror (or_introl eq_refl)) F F' HFF HS), F2. apply Heff. exact Lb. }
  assert (V3 : forall F F', findall (s "Fields") k1 = [F] -> settled out F F' -> field_is_1 (s "Field_IsTrash") F' = is_true (ch_isTrash c)).
  { intros F F' HFF HS. rewrite (Hone _ (or_intror (or_intror (or_introl eq_refl))) F F' HFF HS), F3.
    destruct (is_true (ch_isTrash c)); [apply Heff; exact Lc|]. destruct Lc as [L | [y L]]; rewrite L; reflexivity. }
  pose proof (R_findall out (s "Fields") _ _ R1) as HRF. pose proof (R_findall out (s "Fields") _ _ R0) as HRF0.
  rewrite (has_findall _ k1), (has_findall _ k0) in HFh.
  assert (Hold : is_some (ch_isTrash (read_chapter scs0 k0')) = match findall (s "Fields") k0 with [] => false | _ => true end).
  { unfold read_chapter. cbn [ch_isTrash]. destruct (proj1 WF) as [U0 | [F0 U0]]; rewrite U0 in *.
    - inversion HRF0. reflexivity.
    - inversion HRF0 as [|? F0' ? ? He Hnil]; subst. inversion Hnil; subst. reflexivity. }
  assert (Hall : existsb (field_is_1 (s "Field_SuppressChapterTitle")) (findall (s "Fields") k1') = is_true (ch_suppressTitle c) /\
     fold_left (fun _ f => Some (field_is_1 (s "Field_IsTrash") f)) (findall (s "Fields") k1') None =
       (if is_some (ch_isTrash (read_chapter scs0 k0')) || is_true (ch_suppressTitle c) || is_true (ch_suppressBreak c) || is_true (ch_isTrash c) then Some (is_true (ch_isTrash c)) else None) /\
     fold_left (fun _ f => Some (field_is_1 (s "Field_SuppressChapterBreak") f)) (findall (s "Fields") k1') None =
       (if is_some (ch_isTrash (read_chapter scs0 k0')) || is_true (ch_suppressTitle c) || is_true (ch_suppressBreak c) || is_true (ch_isTrash c) then Some (is_true (ch_suppressBreak c)) else None)).
  { rewrite Hold, <- HFh. destruct UF as [UF | [F UF]]; rewrite UF in *.
    - inversion HRF. cbn [existsb fold_left]. symmetry in HFh. rewrite !orb_false_iff in HFh. destruct HFh as [[[_ H1] _] _]; rewrite H1; auto.
    - inversion HRF as [|? F' ? ? He Hnil]; subst. inversion Hnil; subst. cbn [existsb fold_left].
      rewrite (V1 F F' eq_refl He), (V2 F F' eq_refl He), (V3 F F' eq_refl He). rewrite orb_false_r. auto. }
  destruct Hall as (X1 & X2 & X3).
  split.
  - unfold read_chapter at 1. rewrite (proj2 Hti), (proj2 Hde), X1, X2, X3. unfold merged_chapter.
    cbn [ch_title ch_desc read_chapter].
    rewrite !(R_has out (s "SectionStart") _ _ R1), (proj2 Hse).
    assert (T : read_chapter_type k1' = type_or_0 (ch_type c)).
    { unfold read_chapter_type. rewrite (R_has out (s "Unused") _ _ R1), (proj2 Hun).
      pose proof (R_findall out (s "ChapterType") _ _ R1) as HC. rewrite (proj2 Hct) in HC.
      rewrite find_findall. inversion HC as [|? y ? ? He Hnil]; subst. cbn [hd_error].
      inversion He; subst. cbn [e_text].
      clear -Hp out_safe. unfold chapter_type_code in Hp. set (z := type_or_0 (ch_type c)) in *. clearbody z.
      destruct (N.eqb z 0) eqn:E0; [injection Hp as <- <- <-; apply N.eqb_eq in E0; subst; rewrite out_safe by (split; [discriminate | reflexivity]); reflexivity|].
      destruct (N.eqb z 1) eqn:E1; [injection Hp as <- <- <-; apply N.eqb_eq in E1; subst; rewrite out_safe by (split; [discriminate | reflexivity]); reflexivity|].
      destruct (N.eqb z 2) eqn:E2; [injection Hp as <- <- <-; apply N.eqb_eq in E2; subst; rewrite out_safe by (split; [discriminate | reflexivity]); reflexivity|].
      destruct (N.eqb z 3) eqn:E3; [injection Hp as <- <- <-; apply N.eqb_eq in E3; subst; rewrite out_safe by (split; [discriminate | reflexivity]); reflexivity | discriminate Hp]. }
    rewrite T.
    assert (LV : Some (if match ch_level c with Some 0%N => false | Some 1%N => true | _ => has (s "SectionStart") k0 end then 1%N else 0%N) =
                 match ch_level c with Some 0%N => Some 0%N | Some 1%N => Some 1%N | _ => Some (if has (s "SectionStart") k0' then 1%N else 0%N) end).
    { rewrite (R_has out (s "SectionStart") _ _ R0). destruct (ch_level c) as [[|[q|q|]]|]; reflexivity. }
    assert (SC : match find (s "Scenes") k1' with None => [] | Some e => flat_map (fun x => match e_text x with Some i => if dmem i scs then [i] else [] | None => [] end)
                   (findall (s "ScID") (e_kids e)) end = filter (fun a => dmem a scs) (ch_srtScenes c)).
    { rewrite find_findall. pose proof (R_findall out (s "Scenes") _ _ R1) as HC. rewrite (proj2 Hsn) in HC.
      destruct (ch_srtScenes c) as [|a l]; [inversion HC; reflexivity|].
      inversion HC as [|e0 y l0 l0' He Hnil]; subst. cbn [hd_error]. apply settled_kids in He.
      rewrite (R_leaves out (s "ScID") (a :: l) _ He Hsc).
      generalize (a :: l) as M. induction M as [|b M IH]; [reflexivity|]. cbn [map filter]. unfold findall in *. cbn [filter e_tag leaf]. rewrite str_eqb_refl. cbn [flat_map e_text leaf].
      rewrite IH. destruct (dmem b scs); reflexivity. }
    assert (KW : read_kws CHP_KWVAR k1' [] = []).
    { unfold read_kws, CHP_KWVAR. cbn [fold_left]. clear. induction (findall (s "Fields") k1') as [|z l IH]; [reflexivity | exact IH]. }
    rewrite LV, SC, KW. reflexivity.
  - split; [|split; [|exact WF1]].
    + intros t [<- | [<- | [<- | [<- | []]]]]; [exact (proj1 Hti) | exact (proj1 Hde) | exact Hty | exact (proj1 Hct)].
    + intros t [<- | [<- | [<- | []]]]; [exact (proj1 Hun) | exact (proj1 Hse) | exact (proj1 Hsn)].
Qed.
End S.
