(** Saving to an existing project file keeps what PyWriter does not understand. *)
From Coq Require Import String List NArith ZArith Bool Lia Arith.
From Verif Require Import PyStr PyDict Spec Globals GlobalsProofs NovelModel NovelOps NovelOpsProofs YwTree IsoDate Yw7Build Yw7Read YwTreeProofs Yw7SceneProofs
  Yw7StartProofs Yw7SceneRT Yw7ChapterRT Yw7ElemRT Yw7ListRT Yw7TreeInv Yw7ProjRT Yw7SecRT Yw7TreeRT YwText SpecFrame Yw7Repr3.
Import ListNotations.

Definition id_out (t : str) (x : option str) : option str := x.

Lemma scene_other_fields : forall x k k1 g, build_scene x k = Ok k1 -> uniq (s "Fields") k -> ~ In g known_scene_fields -> fget g k1 = fget g k.
Proof.
  intros x k k1 g H U Hg. apply build_scene_inv in H. destruct H as (p & ka & kb & Hp' & Ha & Hs & ->). subst ka.
  assert (G1 : str_eqb g (s "Field_SceneType") = false) by (apply str_eqb_neq; intros ->; apply Hg; cbn; tauto).
  assert (G2 : smem g SCN_KWVAR = false) by (apply smem_false; intro E; apply Hg; right; exact E).
  match type of Hs with context [build_scene_type (fst p) (snd p) ?a] => set (k2 := a) in * end.
  assert (E2 : findall (s "Fields") k2 = findall (s "Fields") k).
  { unfold k2. rewrite !findall_filt; peel. reflexivity. }
  clearbody k2.
  pose proof (uniq_congr _ _ _ E2 U) as U2.
  destruct (scene_type_fields (fst p) (snd p) k2 U2) as [U3 H3].
  match type of Hs with context [put_kws mk_fields SCN_KWVAR (sc_kw x) ?a] => set (k3 := a) in * end.
  assert (E3 : findall (s "Fields") k3 = findall (s "Fields") (build_scene_type (fst p) (snd p) k2)).
  { unfold k3. rewrite !findall_filt; peel. reflexivity. }
  clearbody k3.
  assert (Hn : NoDup SCN_KWVAR) by (repeat constructor; cbn; intuition discriminate).
  destruct (put_kws_fields mk_fields SCN_KWVAR (sc_kw x) k3 mk_fields_makes Hn (uniq_congr _ _ _ E3 U3)) as [U4 H4].
  match goal with |- fget _ ?a = _ =>
    assert (E4 : findall (s "Fields") a = findall (s "Fields") (put_kws mk_fields SCN_KWVAR (sc_kw x) k3)) end.
  { rewrite !findall_filt; peel. reflexivity. }
  rewrite (fget_congr _ _ _ E4), H4, G2, (fget_congr _ _ _ E3), H3, G1, (fget_congr _ _ _ E2). reflexivity.
Qed.

Lemma chapter_other_fields : forall c k0 k1 g, build_chapter c k0 = Ok k1 -> uniq (s "Fields") k0 -> ~ In g known_chapter_fields -> fget g k1 = fget g k0.
Proof.
  intros c k0 k1 g H U Hg. destruct (build_chapter_inv c k0 k1 H) as (u & ty & ct & i1 & i2 & i3 & i4 & Hp & E1).
  assert (G : forall f, In f known_chapter_fields -> str_eqb g f = false) by (intros f Hf; apply str_eqb_neq; intros ->; exact (Hg Hf)).
  match type of E1 with context [put_chapter_field i2 (s "Field_SuppressChapterTitle") _ ?a] =>
    assert (Ea : findall (s "Fields") a = findall (s "Fields") k0) by (rewrite !findall_filt; peel; reflexivity); set (kk := a) in * end.
  clearbody kk. pose proof (uniq_congr _ _ _ Ea U) as Uk.
  destruct (put_chapter_field_fields i2 (s "Field_SuppressChapterTitle") (is_true (ch_suppressTitle c)) kk Uk) as (A1 & B1 & C1).
  set (ka := put_chapter_field i2 (s "Field_SuppressChapterTitle") (is_true (ch_suppressTitle c)) kk) in *.
  destruct (put_chapter_field_fields i2 (s "Field_SuppressChapterBreak") (is_true (ch_suppressBreak c)) ka A1) as (A2 & B2 & C2).
  set (kb := put_chapter_field i2 (s "Field_SuppressChapterBreak") (is_true (ch_suppressBreak c)) ka) in *.
  destruct (put_trash_fields i2 (is_true (ch_isTrash c)) kb A2) as (A3 & B3 & C3).
  set (kc := put_trash i2 (is_true (ch_isTrash c)) kb) in *.
  assert (E3 : findall (s "Fields") k1 = findall (s "Fields") kc).
  { subst k1. rewrite !findall_filt. peel. reflexivity. }
  rewrite (fget_congr _ _ _ E3), C3, (G (s "Field_IsTrash")) by (cbn; tauto). rewrite C2, (G (s "Field_SuppressChapterBreak")) by (cbn; tauto). rewrite C1, (G (s "Field_SuppressChapterTitle")) by (cbn; tauto). apply fget_congr. exact Ea.
Qed.

Lemma numbered_section : forall t k l, numbered t k l -> NoDup (map fst l) -> section_ids id_out t k l.
Proof.
  intros t k l [H1 H2] Hn. split; [exact H1|]. split; [exact Hn|]. rewrite Forall_forall in *. intros p Hp. destruct (H2 p Hp) as [A B]. split; [exact A|]. split; [exact B | reflexivity].
Qed.
Lemma section_sec : forall t r, section t r = sec t r.
Proof. intros t r. unfold section, sec. rewrite find_findall. unfold findall. destruct (filter _ r); reflexivity. Qed.
Lemma one_fields_uniq : forall e, one_fields e -> uniq (s "Fields") (e_kids e).
Proof. intros e H. unfold one_fields, uniq in *. change (filter (fun x => str_eqb (e_tag x) (s "Fields")) (e_kids e)) with (findall (s "Fields") (e_kids e)) in H. destruct (findall (s "Fields") (e_kids e)) as [|a [|b l]]; [left; reflexivity | right; eauto | cbn in H; lia]. Qed.

(** the result of saving: elements by ID in the given order *)
Lemma build_chapters_elems : forall n k l k1, section_ids id_out (s "CHAPTER") k l -> build_chapters n k = Ok k1 ->
  Forall2 (fun i e => exists c kb, dget i (nv_chapters n) = Some c /\ build_chapter c (e_kids (orig (s "CHAPTER") i l)) = Ok kb /\ e = with_kids kb (orig (s "CHAPTER") i l)) (nv_srtChapters n) k1.
Proof.
  intros n k l k1 HS Hb. unfold build_chapters in Hb. rewrite (save_elems_ok id_out _ _ _ HS) in Hb. cbn [bind] in Hb.
  apply bind_ok in Hb. destruct Hb as (new & Hm & Hb). injection Hb as <-. rewrite (only_filter _ _ (section_only id_out _ _ _ HS)). cbn [app].
  apply mapM_Forall2 in Hm. induction Hm as [|i e ids es Hi Hm IH]; constructor; [|exact IH].
  apply bind_ok in Hi. destruct Hi as (c & Hc & Hi). unfold dindex in Hc. destruct (dget i (nv_chapters n)) as [c'|]; [|discriminate]. injection Hc as ->.
  unfold renew in Hi. fold (orig (s "CHAPTER") i l) in Hi. apply bind_ok in Hi. destruct Hi as (kb & Hb & Hi). injection Hi as <-. exists c, kb. split; [reflexivity|]. split; [exact Hb | reflexivity].
Qed.

Lemma build_chapter_id : forall c k k1, build_chapter c k = Ok k1 -> findall (s "ID") k1 = findall (s "ID") k.
Proof. intros c k k1 H. apply build_chapter_inv in H. destruct H as (u & ty & ct & i1 & i2 & i3 & i4 & _ & ->). rewrite !findall_filt. peel. reflexivity. Qed.

Lemma orig_id : forall t i k l, section_ids id_out t k l -> has_id i (e_kids (orig t i l)) /\ e_tag (orig t i l) = t.
Proof.
  intros t i k l (_ & _ & HF). unfold orig. destruct (dget i l) as [e|] eqn:E; [|split; reflexivity]. apply dget_In in E. rewrite Forall_forall in HF. destruct (HF _ E) as (A & B & _). split; assumption.
Qed.

Lemma combine_elems : forall (ids : list str) (es : list elem), length ids = length es -> map fst (combine ids es) = ids /\ map snd (combine ids es) = es.
Proof.
  induction ids as [|i ids IH]; intros [|e es] H; try discriminate; [split; reflexivity|]. injection H as H. destruct (IH es H) as [A B]. cbn. rewrite A, B. split; reflexivity.
Qed.
Lemma F2_combine : forall {A B} (P : A -> B -> Prop) a b, Forall2 P a b -> Forall (fun p => P (fst p) (snd p)) (combine a b).
Proof. intros A B P a b H. induction H; constructor; assumption. Qed.

Theorem save_frame : forall loc dloc n r0 n1 r1 kS kH lS lH,
  section (s "SCENES") r0 = Some kS -> numbered (s "SCENE") kS lS -> NoDup (map fst lS) ->
  section (s "CHAPTERS") r0 = Some kH -> numbered (s "CHAPTER") kH lH -> NoDup (map fst lH) ->
  (forall e, In e kS \/ In e kH -> one_fields e) -> NoDup (dkeys (nv_scenes n)) ->
  write_tree loc dloc n (Some r0) = Ok (n1, r1) ->
  unknown known_sections r1 = unknown known_sections r0 /\
  exists kS1 kH1 lS1 lH1,
    section (s "SCENES") r1 = Some kS1 /\ numbered (s "SCENE") kS1 lS1 /\ map fst lS1 = dkeys (nv_scenes n) /\
    section (s "CHAPTERS") r1 = Some kH1 /\ numbered (s "CHAPTER") kH1 lH1 /\ map fst lH1 = nv_srtChapters n /\
    (forall i e e', dget i lS = Some e -> In (i, e') lS1 -> preserved known_in_scene known_scene_fields e e') /\
    (forall i e e', dget i lH = Some e -> In (i, e') lH1 -> preserved known_in_chapter known_chapter_fields e e').
Proof.
  intros loc dloc n r0 n1 r1 kS kH lS lH S0 NS DS H0 NH DH One ND Hw. unfold write_tree in Hw. rewrite section_sec in S0, H0.
  destruct (build_tree_inv loc dloc (prepare n) r0 n1 r1 Hw) as (Hloc & HFr & _ & _ & _ & _ & _ & _ & _ & (kS' & k1 & k2 & S0' & S1 & S2 & S3) & (kH' & kh1 & H0' & H1 & H2)).
  rewrite S0 in S0'. injection S0' as <-. rewrite H0 in H0'. injection H0' as <-.
  destruct (prepare_shape n) as (ls & sc & kw & Epr & Esc & _).
  assert (Nsc : dkeys (nv_scenes n1) = dkeys (nv_scenes n)) by (rewrite Hloc, Epr; cbn [nv_scenes set_nv_countryCode set_nv_languageCode set_nv_kw set_nv_scenes]; rewrite Esc; unfold dkeys; rewrite map_map; reflexivity).
  assert (Nsr : nv_srtChapters n1 = nv_srtChapters n) by (rewrite Hloc, Epr; reflexivity).
  pose proof (numbered_section _ _ _ NS DS) as IS. pose proof (numbered_section _ _ _ NH DH) as IH.
  assert (ND1 : NoDup (dkeys (nv_scenes n1))) by (rewrite Nsc; exact ND).
  pose proof (build_scenes_elems id_out n1 kS lS k1 k2 IS ND1 S1 S2) as FS.
  pose proof (build_chapters_elems n1 kH lH kh1 IH H1) as FH. rewrite Nsr in FH.
  split; [apply (HFr (fun t => negb (smem t known_sections))); reflexivity|].
  assert (LS : length (dkeys (nv_scenes n1)) = length k2) by (unfold dkeys; rewrite map_length; apply (Forall2_len _ _ _ FS)).
  assert (LH : length (nv_srtChapters n) = length kh1) by (apply (Forall2_len _ _ _ FH)).
  exists k2, kh1, (combine (dkeys (nv_scenes n1)) k2), (combine (nv_srtChapters n) kh1).
  destruct (combine_elems _ _ LS) as [CS1 CS2]. destruct (combine_elems _ _ LH) as [CH1 CH2].
  assert (FS' : Forall (fun p => exists x kb, build_scene x (e_kids (orig (s "SCENE") (fst p) lS)) = Ok kb /\ snd p = with_kids (finish_kids (sc_content x) kb) (orig (s "SCENE") (fst p) lS)) (combine (dkeys (nv_scenes n1)) k2)).
  { clear -FS. unfold dkeys. induction FS as [|[i x] e l es He FS IH]; cbn [map combine]; constructor; [|exact IH]. cbn [fst snd] in *. destruct He as (kb & Hb & He).
    unfold build_scene_all in Hb. apply bind_ok in Hb. destruct Hb as (kc & Hc & E). injection E as <-. exists x, kc. split; assumption. }
  pose proof (F2_combine _ _ _ FH) as FH'. cbn beta in FH'.
  assert (US : forall i, uniq (s "Fields") (e_kids (orig (s "SCENE") i lS))).
  { intro i. unfold orig. destruct (dget i lS) as [e|] eqn:E; [|left; reflexivity]. apply one_fields_uniq. apply One. left. destruct NS as [<- _]. apply dget_In in E. apply (in_map snd) in E. exact E. }
  assert (UH : forall i, uniq (s "Fields") (e_kids (orig (s "CHAPTER") i lH))).
  { intro i. unfold orig. destruct (dget i lH) as [e|] eqn:E; [|left; reflexivity]. apply one_fields_uniq. apply One. right. destruct NH as [<- _]. apply dget_In in E. apply (in_map snd) in E. exact E. }
  rewrite Forall_forall in FS', FH'.
  split; [rewrite section_sec; exact S3|]. split; [|split; [rewrite CS1; exact Nsc|]].
  { split; [exact CS2|]. rewrite Forall_forall. intros p Hp. destruct (FS' p Hp) as (x & kb & Hb & ->). destruct (orig_id (s "SCENE") (fst p) kS lS IS) as [O1 O2].
    split; [exact O2|]. cbn [with_kids e_kids]. destruct (build_scene_id x _ kb (sc_content x) Hb) as [E _]. etransitivity; [exact E | exact O1]. }
  split; [rewrite section_sec; exact H2|]. split; [|split; [exact CH1|]].
  { split; [exact CH2|]. rewrite Forall_forall. intros p Hp. destruct (FH' p Hp) as (c & kb & _ & Hb & ->). destruct (orig_id (s "CHAPTER") (fst p) kH lH IH) as [O1 O2].
    split; [exact O2|]. cbn [with_kids e_kids]. etransitivity; [exact (build_chapter_id c _ kb Hb) | exact O1]. }
  split.
  - intros i e e' Hi He. destruct (FS' (i, e') He) as (x & kb & Hb & E). cbn [fst snd] in *. specialize (US i). unfold orig in *. rewrite Hi in *. subst e'. cbn [with_kids].
    split; [reflexivity|]. split; [reflexivity|]. cbn [e_kids]. split; [exact (build_scene_frame x _ kb (sc_content x) Hb)|].
    intros f Hf. change (fget f (finish_kids (sc_content x) kb) = fget f (e_kids e)). rewrite <- (scene_other_fields x _ kb f Hb US Hf). apply fget_congr. rewrite findall_finish by reflexivity. reflexivity.
  - intros i e e' Hi He. destruct (FH' (i, e') He) as (c & kb & _ & Hb & E). cbn [fst snd] in *. specialize (UH i). unfold orig in *. rewrite Hi in *. subst e'. cbn [with_kids].
    split; [reflexivity|]. split; [reflexivity|]. cbn [e_kids]. split; [exact (build_chapter_frame c _ kb Hb)|].
    intros f Hf. exact (chapter_other_fields c _ kb f Hb UH Hf).
Qed.
