(** Splitting yields exactly the outline the separator lines ask for. *)
From Coq Require Import List NArith ZArith Bool Lia Arith.
From Verif Require Import PyStr PyDict Spec Globals GlobalsProofs NovelModel WordCount NovelOps Splitter SpecNovel SpecSplit SpecOutline SplitterProofs SplitMarks.
Import ListNotations.

(** * Separator lines *)
Lemma drop_marks_lstrip : forall t, drop_marks t = lstrip_by (in_chars (s "# ")) t.
Proof.
  induction t as [|c t IH]; [reflexivity|]. cbn [drop_marks lstrip_by]. rewrite IH.
  replace (in_chars (s "# ") c) with ((c =? 35) || (c =? 32))%N; [reflexivity|]. unfold in_chars. change (s "# ") with [35; 32]%N. cbn [existsb]. now rewrite orb_false_r.
Qed.
Lemma bars : forall t, match splitc 124 t with
  | a :: b :: _ => a = before_bar t /\ b = before_bar (behind_bar t) | [a] => a = before_bar t /\ before_bar (behind_bar t) = [] | [] => False end.
Proof.
  assert (H : forall t, match splitc 124 t with a :: r => a = before_bar t | [] => False end).
  { induction t as [|c t IH]; [reflexivity|]. cbn [splitc before_bar]. rewrite (N.eqb_sym 124 c). destruct (N.eqb c 124); [reflexivity|]. destruct (splitc 124 t); [destruct IH|now rewrite IH]. }
  induction t as [|c t IH]; [split; reflexivity|]. cbn [splitc before_bar behind_bar]. rewrite (N.eqb_sym 124 c). destruct (N.eqb c 124).
  - pose proof (H t) as G. destruct (splitc 124 t); [destruct G|]. now split.
  - destruct (splitc 124 t) as [|a [|b r]]; [destruct IH| |]; destruct IH as [-> IH]; now split.
Qed.
Lemma heading_given : forall l, heading l = (given_title l, given_desc l).
Proof.
  intro l. unfold heading, given_title, given_desc, bare_line. rewrite !drop_marks_lstrip. change (s "|") with [124%N]. rewrite split_splitc. unfold strip_by, rstrip_by.
  set (t := rev _). pose proof (bars t) as H. destruct (splitc 124 t) as [|a [|b r]]; [destruct H| |]; destruct H as [-> H]; [now rewrite H|now rewrite <- H].
Qed.

Section Outline.
Variables (tr : str -> str) (n0 : novel).
Hypothesis SO : structure_ok n0.
Notation CE := (chapter_entry n0).
Notation SE := (scene_entry n0).

(** * Scenes *)
Definition TI (n : novel) : Prop := forall k x, dget k (nv_scenes n0) = Some x -> exists y, dget k (nv_scenes n) = Some y /\ sc_title y = sc_title x.
Definition CT (k : str) (n : novel) : option (option str) := option_map sc_content (dget k (nv_scenes n)).
(** n' has the same chapters as n and the same outline data for the scenes of n; the texts may differ in the scene k only *)
Definition keep (k : str) (n n' : novel) : Prop :=
  nv_chapters n' = nv_chapters n /\ incl (dkeys (nv_scenes n)) (dkeys (nv_scenes n')) /\
  (forall j, In j (dkeys (nv_scenes n)) -> SE n' j = SE n j) /\ (TI n -> TI n') /\ (forall j, j <> k -> CT j n' = CT j n).
Lemma put_keep : forall k ls n n', put_content k ls n = Ok n' -> keep k n n'.
Proof.
  intros k ls n n' E. unfold put_content in E. apply bind_ok in E as [x [Hx E]]. injection E as <-. apply dindex_ok in Hx. repeat split; cbn [nv_scenes set_nv_scenes].
  - intros j Hj. apply dkeys_dset. now right.
  - intros j _. unfold scene_entry. destruct (dmem j (nv_scenes n0)); [reflexivity|]. cbn [nv_scenes set_nv_scenes]. rewrite dget_dset. destruct (str_eqb j k) eqn:E; [|reflexivity].
    apply str_eqb_eq in E. subst j. rewrite Hx. reflexivity.
  - intros T j y Hj. cbn [nv_scenes set_nv_scenes]. destruct (T j y Hj) as [z [Hz Tz]]. rewrite dget_dset. destruct (str_eqb j k) eqn:E; [|eauto].
    apply str_eqb_eq in E. subst j. rewrite Hx in Hz. injection Hz as <-. eexists. split; [reflexivity|exact Tz].
  - intros j Hj. unfold CT. cbn [nv_scenes set_nv_scenes]. now rewrite dget_dset_other by assumption.
Qed.
Lemma split_title_eq : forall title p k, split_title tr title p k = or_else title (automatic_title tr p k).
Proof.
  intros [|c t] p k; [|reflexivity]. unfold split_title, automatic_title, or_else, clipped, CLIP_TITLE. cbn [truthy]. destruct p as [[|c t]|]; reflexivity.
Qed.
Lemma create_keep : forall par x cnt ti de n n', dget par (nv_scenes n0) = Some x -> TI n -> create_scene tr (new_id (dkeys (nv_scenes n))) par cnt ti de n = Ok n' ->
  keep (new_id (dkeys (nv_scenes n))) n n' /\ In (new_id (dkeys (nv_scenes n))) (dkeys (nv_scenes n')) /\
  SE n' (new_id (dkeys (nv_scenes n))) = new_scene_entry tr ti de (sc_title x) cnt.
Proof.
  intros par x cnt ti de n n' Hx T E. unfold create_scene in E. apply bind_ok in E as [p [Hp E]]. apply bind_ok in E as [p' [Hp' E]]. apply dindex_ok in Hp.
  set (k := new_id (dkeys (nv_scenes n))) in *. assert (Fr : ~ In k (dkeys (nv_scenes n))) by apply new_id_fresh.
  assert (Fr0 : dmem k (nv_scenes n0) = false).
  { apply PyDict.dmem_false. destruct (dget k (nv_scenes n0)) as [y|] eqn:Ek; [|reflexivity]. elim Fr. destruct (T k y Ek) as [z [Hz _]]. apply dget_Some_key. now exists z. }
  assert (Hpk : par <> k) by (intros ->; apply Fr, dget_Some_key; now exists p).
  pose proof (mark_parent_core p p' Hp') as [Core [Con _]].
  assert (Tp : sc_title p' = sc_title p) by (rewrite <- (eq_refl : sc_title (scene_core p') = sc_title p'), Core; reflexivity).
  injection E as <-. split; [|split].
  - repeat split; cbn [nv_scenes set_nv_scenes].
    + intros j Hj. apply dkeys_dset. right. apply dkeys_dset. now right.
    + intros j Hj. unfold scene_entry. destruct (dmem j (nv_scenes n0)) eqn:Dj; [reflexivity|]. cbn [nv_scenes set_nv_scenes].
      rewrite dget_dset_other by (intros ->; contradiction). rewrite dget_dset_other; [reflexivity|]. intros ->. apply PyDict.dmem_false in Dj. congruence.
    + intros _ j y Hj. cbn [nv_scenes set_nv_scenes]. destruct (T j y Hj) as [z [Hz Tz]]. assert (j <> k) by (intros ->; apply Fr, dget_Some_key; now exists z).
      rewrite dget_dset_other by assumption. rewrite dget_dset. destruct (str_eqb j par) eqn:E; [|eauto]. apply str_eqb_eq in E. subst j.
      rewrite Hp in Hz. injection Hz as <-. exists p'. split; [reflexivity|congruence].
    + intros j Hj. unfold CT. cbn [nv_scenes set_nv_scenes]. rewrite dget_dset_other by assumption. rewrite dget_dset. destruct (str_eqb j par) eqn:E; [|reflexivity].
      apply str_eqb_eq in E. subst j. rewrite Hp. cbn [option_map]. now rewrite Con.
  - cbn [nv_scenes set_nv_scenes]. apply dkeys_dset. now left.
  - unfold scene_entry. rewrite Fr0. cbn [nv_scenes set_nv_scenes]. rewrite dget_dset_same. unfold new_scene_entry. cbn [child_scene sc_title sc_desc set_sc_lastsMinutes set_sc_lastsHours set_sc_lastsDays set_sc_day set_sc_time set_sc_date set_sc_type set_sc_status set_sc_desc set_sc_title].
    destruct (T par x Hx) as [y [Hy Ty]]. rewrite Hp in Hy. injection Hy as <-. rewrite Tp, Ty, split_title_eq. f_equal. now destruct de.
Qed.

(** * The state *)
Definition chunk (n : novel) (ch : str) : list entry := CE n ch :: map (SE n) (chapter_scenes n ch).
Record OI (F G D : list str) (E : list entry) (st : sp) : Prop := {
  o_srt : sp_srtCh st = D ++ [sp_chId st];
  o_nd : NoDup (D ++ [sp_chId st]);
  o_G : forall c, In c G -> ~ In c (D ++ [sp_chId st]) /\ dget c (nv_chapters (sp_n st)) = dget c (nv_chapters n0);
  o_ck : incl (D ++ [sp_chId st]) (dkeys (nv_chapters (sp_n st)));
  o_sk : incl (flat_map (chapter_scenes (sp_n st)) D ++ sp_srtSc st) (dkeys (nv_scenes (sp_n st)));
  o_c0 : incl (dkeys (nv_chapters n0)) (dkeys (nv_chapters (sp_n st)));
  o_ti : TI (sp_n st);
  o_F : forall k, In k F -> CT k (sp_n st) = CT k n0;
  o_E : flat_map (chunk (sp_n st)) D ++ CE (sp_n st) (sp_chId st) :: map (SE (sp_n st)) (sp_srtSc st) = E }.

Lemma CE_ext : forall n n' c, dget c (nv_chapters n') = dget c (nv_chapters n) -> CE n' c = CE n c.
Proof. intros n n' c E. unfold chapter_entry. now rewrite E. Qed.
Lemma chunks_keep : forall D n n', (forall c, In c D -> dget c (nv_chapters n') = dget c (nv_chapters n)) -> (forall j, In j (flat_map (chapter_scenes n) D) -> SE n' j = SE n j) ->
  flat_map (chunk n') D = flat_map (chunk n) D.
Proof.
  intros D n n' Hc Hs. apply flat_map_ext_in. intros c Hi. unfold chunk. rewrite (CE_ext n n' c (Hc c Hi)). f_equal.
  rewrite <- (chapter_scenes_ext n n' c (eq_sym (Hc c Hi))). apply map_ext_in. intros j Hj. apply Hs. apply in_flat_map. now exists c.
Qed.
Lemma OI_keep : forall F G D E st n' k a b c d fl, OI F G D E st -> keep k (sp_n st) n' -> ~ In k F ->
  OI F G D E (mkSp n' (sp_srtCh st) (sp_chId st) (sp_srtSc st) a b c d fl).
Proof.
  intros F G D E st n' k a b c d fl [o1 o2 o3 o4 o5 o6 o7 o8 o9] (K1 & K2 & K3 & K4 & K5) HF. split; cbn [sp_srtCh sp_chId sp_n sp_srtSc]; try assumption; try (rewrite K1; assumption).
  - intros j Hj. apply K2, o5. rewrite (VV_chapters D _ _ K1) in Hj. exact Hj.
  - now apply K4.
  - intros j Hj. rewrite K5; [now apply o8|]. intros ->. contradiction.
  - rewrite <- o9. rewrite (CE_ext (sp_n st) n') by (now rewrite K1). f_equal; [|f_equal].
    + apply chunks_keep; [intros ? _; now rewrite K1|]. intros j Hj. apply K3, o5. apply in_app_iff. now left.
    + apply map_ext_in. intros j Hj. apply K3, o5. apply in_app_iff. now right.
Qed.
Lemma OI_scene : forall F G D E st n' k e a b c d fl, OI F G D E st -> keep k (sp_n st) n' -> ~ In k F -> In k (dkeys (nv_scenes n')) -> SE n' k = e ->
  OI F G D (E ++ [e]) (mkSp n' (sp_srtCh st) (sp_chId st) (sp_srtSc st ++ [k]) a b c d fl).
Proof.
  intros F G D E st n' k e a b c d fl H K HF Hk He. pose proof (OI_keep F G D E st n' k a b c d fl H K HF) as [o1 o2 o3 o4 o5 o6 o7 o8 o9]. cbn [sp_srtCh sp_chId sp_n sp_srtSc] in *.
  split; cbn [sp_srtCh sp_chId sp_n sp_srtSc]; try assumption.
  - rewrite app_assoc. intros j Hj. apply in_app_iff in Hj as [Hj|[<-|[]]]; [now apply o5|exact Hk].
  - rewrite map_app. cbn [map]. rewrite He. rewrite app_comm_cons, app_assoc. now rewrite o9.
Qed.
Lemma map_keys : forall n k x, dget k (nv_scenes n0) = Some x -> TI n -> In k (dkeys (nv_scenes n)).
Proof. intros n k x H T. destruct (T k x H) as [y [Hy _]]. apply dget_Some_key. now exists y. Qed.

Lemma OI_chapter : forall F G D E st c0 ti de lvl, OI F G D E st -> incl G (dkeys (nv_chapters n0)) -> dget (sp_chId st) (nv_chapters (sp_n st)) = Some c0 ->
  let n1 := set_nv_chapters (dset (sp_chId st) (set_ch_srtScenes (sp_srtSc st) c0) (nv_chapters (sp_n st))) (sp_n st) in
  let k := new_id (dkeys (nv_chapters n1)) in
  forall a b c d fl, OI F G (D ++ [sp_chId st]) (E ++ [NewChapter (set_ch_type (Some 0%N) (set_ch_level (Some lvl) (set_ch_desc (Some de) (set_ch_title (Some ti) new_chapter))))])
    (mkSp (create_chapter k ti de lvl n1) (sp_srtCh st ++ [k]) k [] a b c d fl).
Proof.
  intros F G D E st c0 ti de lvl [o1 o2 o3 o4 o5 o6 o7 o8 o9] HG Hc n1 k a b c d fl. set (q := sp_chId st) in *. set (n := sp_n st) in *. set (sr := sp_srtSc st) in *.
  assert (Kn : dkeys (nv_chapters n1) = dkeys (nv_chapters n)) by (apply PyDict.dkeys_dset_in, dget_Some_key; now exists c0).
  assert (Fr : ~ In k (dkeys (nv_chapters n))) by (rewrite <- Kn; apply new_id_fresh).
  set (n2 := create_chapter k ti de lvl n1).
  assert (G1 : forall j, j <> k -> j <> q -> dget j (nv_chapters n2) = dget j (nv_chapters n)).
  { intros j J1 J2. unfold n2, n1. cbn [create_chapter nv_chapters set_nv_chapters]. rewrite dget_dset_other by assumption. now rewrite dget_dset_other by assumption. }
  assert (Kq : q <> k) by (intro X; apply Fr; rewrite <- X; apply o4, in_app_iff; right; now left).
  assert (G2 : dget q (nv_chapters n2) = Some (set_ch_srtScenes sr c0)).
  { unfold n2, n1. cbn [create_chapter nv_chapters set_nv_chapters]. rewrite dget_dset_other by assumption. apply dget_dset_same. }
  assert (Dk : forall j, In j D -> j <> k /\ j <> q).
  { intros j Hj. split; [intros ->; apply Fr, o4, in_app_iff; now left|]. intros ->. apply NoDup_remove_2 in o2. apply o2. now rewrite app_nil_r. }
  assert (Dc : forall j, In j D -> dget j (nv_chapters n2) = dget j (nv_chapters n)) by (intros j Hj; destruct (Dk j Hj); now apply G1).
  assert (K0 : dmem k (nv_chapters n0) = false).
  { apply PyDict.dmem_false, dget_None. intro X. apply Fr, o6, X. }
  assert (SEs : forall j, SE n2 j = SE n j) by reflexivity.
  split; cbn [sp_srtCh sp_chId sp_n sp_srtSc]; fold n2.
  - now rewrite o1.
  - apply NoDup_snoc; [exact o2|]. intro X. apply Fr, o4, X.
  - intros j Hj. destruct (o3 j Hj) as [A B]. assert (j <> k) by (intros ->; apply Fr, o6, HG, Hj). split.
    + intro X. apply in_app_iff in X as [X|[<-|[]]]; [contradiction|congruence].
    + rewrite <- B. apply G1; [assumption|]. intros ->. apply A, in_app_iff. right. now left.
  - intros j Hj. unfold n2. cbn [create_chapter nv_chapters set_nv_chapters]. apply dkeys_dset. apply in_app_iff in Hj as [Hj|[<-|[]]]; [right; rewrite Kn; now apply o4|now left].
  - intros j Hj. change (nv_scenes n2) with (nv_scenes n). rewrite app_nil_r in Hj. rewrite flat_map_app in Hj. apply o5. apply in_app_iff in Hj. apply in_app_iff. destruct Hj as [Hj|Hj].
    + left. apply in_flat_map in Hj as [ch [H1 H2]]. apply in_flat_map. exists ch. split; [exact H1|]. rewrite (chapter_scenes_ext n n2) by (symmetry; now apply Dc). exact H2.
    + right. cbn [flat_map] in Hj. rewrite app_nil_r in Hj. unfold chapter_scenes in Hj. rewrite G2 in Hj. exact Hj.
  - intros j Hj. unfold n2. cbn [create_chapter nv_chapters set_nv_chapters]. apply dkeys_dset. right. rewrite Kn. now apply o6.
  - exact o7.
  - exact o8.
  - cbn [map]. rewrite <- o9. rewrite flat_map_app. cbn [flat_map]. rewrite app_nil_r.
    rewrite (chunks_keep D n n2 Dc) by (intros; apply SEs). rewrite <- !app_assoc. f_equal. unfold chunk. cbn [app]. f_equal.
    + unfold chapter_entry. rewrite G2, Hc. destruct (dmem q (nv_chapters n0)); reflexivity.
    + unfold chapter_scenes at 1. rewrite G2. f_equal.
      unfold chapter_entry. rewrite K0. unfold n2. cbn [create_chapter nv_chapters set_nv_chapters]. rewrite dget_dset_same. reflexivity.
Qed.

(** * Lines *)
Definition LI (F G : list str) (E : list entry) (st : sp) : Prop :=
  (exists D, OI F G D E st) /\ ~ In (sp_scId st) F /\ (sp_in st = false -> sp_cnt st = 0%N).
Section Lines.
Variables (F G : list str) (scId : str) (x : scene).
Hypothesis HF : incl F (dkeys (nv_scenes n0)).
Hypothesis HG : incl G (dkeys (nv_chapters n0)).
Hypothesis Hx : dget scId (nv_scenes n0) = Some x.

Lemma fresh_F : forall n, TI n -> ~ In (new_id (dkeys (nv_scenes n))) F.
Proof.
  intros n T X. apply HF in X. apply dget_Some_key in X as [y Hy]. apply (new_id_fresh (dkeys (nv_scenes n))). now apply (map_keys n _ y).
Qed.
Lemma start_LI : forall E st ti de lvl df fl st', LI F G E st -> start_chapter tr ti de lvl df fl st = Ok st' ->
  LI F G (E ++ [NewChapter (set_ch_type (Some 0%N) (set_ch_level (Some lvl) (set_ch_desc (Some de) (set_ch_title (Some (or_else ti (tr df))) new_chapter))))]) st' /\
  sp_in st' = false /\ sp_cnt st' = 0%N.
Proof.
  intros E st ti de lvl df fl st' ([D H] & Hs & Hc) X. unfold start_chapter in X. apply bind_ok in X as [[[n new] cnt] [E1 X]]. apply bind_ok in X as [n1 [E2 X]]. injection X as <-.
  assert (H' : OI F G D E (mkSp n (sp_srtCh st) (sp_chId st) (sp_srtSc st) (sp_scId st) new false cnt fl) /\ cnt = 0%N).
  { destruct (sp_in st).
    - apply bind_ok in E1 as [n2 [E3 E1]]. injection E1 as <- <- <-. split; [|reflexivity]. apply put_keep in E3. now apply (OI_keep F G D E st n2 (sp_scId st)).
    - injection E1 as <- <- <-. split; [|now apply Hc]. destruct H as [o1 o2 o3 o4 o5 o6 o7 o8 o9]. split; assumption. }
  destruct H' as [H' Ec]. unfold put_srtScenes in E2. apply bind_ok in E2 as [c [Hch E2]]. injection E2 as <-. apply dindex_ok in Hch.
  assert (Ti : (if truthy ti then ti else tr df) = or_else ti (tr df)) by now destruct ti. rewrite Ti.
  split; [|split; [reflexivity|exact Ec]]. split; [|split; [exact Hs|intros _; exact Ec]].
  eexists. exact (OI_chapter F G D E _ c (or_else ti (tr df)) de lvl H' HG Hch (sp_scId st) new false cnt fl).
Qed.
Lemma new_LI : forall E st ti de n n' ls, (exists D, OI F G D E st) -> keep (sp_scId st) (sp_n st) n -> ~ In (sp_scId st) F ->
  create_scene tr (new_id (dkeys (nv_scenes n))) scId (N.succ (sp_cnt st)) ti de n = Ok n' ->
  LI F G (E ++ [new_scene_entry tr ti de (sc_title x) (sp_cnt st + 1)])
    (mkSp n' (sp_srtCh st) (sp_chId st) (sp_srtSc st ++ [new_id (dkeys (nv_scenes n))]) (new_id (dkeys (nv_scenes n))) ls true (N.succ (sp_cnt st)) true).
Proof.
  intros E st ti de n n' ls [D H] K Hs X. assert (T : TI n) by (apply K, (o_ti _ _ _ _ _ H)).
  destruct (create_keep scId x _ ti de n n' Hx T X) as [K2 [Hk He]]. rewrite N.add_1_r. split; [|split; [now apply fresh_F|discriminate]]. exists D.
  pose proof (OI_keep F G D E st n (sp_scId st) (sp_scId st) (sp_new st) (sp_in st) (sp_cnt st) (sp_split st) H K Hs) as H1.
  exact (OI_scene F G D E _ n' _ _ _ _ _ _ _ H1 K2 (fresh_F n T) Hk He).
Qed.
Lemma keep_refl : forall k n, keep k n n.
Proof. intros k n. split; [reflexivity|]. split; [intros j Hj; exact Hj|]. split; [reflexivity|]. split; [exact (fun t => t)|reflexivity]. Qed.
Lemma line_LI : forall E st line rest st', LI F G E st -> split_line tr scId st line = Ok st' ->
  exists one, LI F G (E ++ one) st' /\ entries tr (sc_title x) (sp_in st) (sp_cnt st) (line :: rest) = one ++ entries tr (sc_title x) (sp_in st') (sp_cnt st') rest.
Proof.
  intros E st line rest st' H X. unfold split_line in X. rewrite heading_given in X. cbn [entries]. change SCENE_SEPARATOR with (s "###") in X. change CHAPTER_SEPARATOR with (s "##") in X. change PART_SEPARATOR with (s "#") in X.
  destruct (prefixb (s "###") line).
  { apply bind_ok in X as [n1 [E1 X]]. apply bind_ok in X as [n2 [E2 X]]. injection X as <-. eexists. split.
    - apply (new_LI E st (given_title line) (given_desc line) n1 n2 [] (proj1 H)); [now apply put_keep in E1|apply H|exact E2].
    - cbn [sp_in sp_cnt app]. now rewrite N.add_1_r. }
  destruct (prefixb (s "##") line).
  { apply (start_LI E) in X as [A [B C]]; [|exact H]. eexists. split; [exact A|]. rewrite B, C. reflexivity. }
  destruct (prefixb (s "#") line).
  { apply (start_LI E) in X as [A [B C]]; [|exact H]. eexists. split; [exact A|]. rewrite B, C. reflexivity. }
  destruct (sp_in st) eqn:Ein; cbn [negb] in X.
  - injection X as <-. exists []. split; [|reflexivity]. rewrite app_nil_r. destruct H as [[D [o1 o2 o3 o4 o5 o6 o7 o8 o9]] [H2 H3]]. split; [|split; [exact H2|intro Z; cbn in Z; discriminate Z]].
    exists D. split; assumption.
  - apply bind_ok in X as [n2 [E2 X]]. injection X as <-. eexists. split.
    + apply (new_LI E st [] [] (sp_n st) n2 (sp_new st ++ [line]) (proj1 H)); [apply keep_refl|apply H|exact E2].
    + cbn [sp_in sp_cnt app]. now rewrite N.add_1_r.
Qed.
Lemma lines_LI : forall lines E st st', LI F G E st -> foldM (split_line tr scId) lines st = Ok st' ->
  LI F G (E ++ entries tr (sc_title x) (sp_in st) (sp_cnt st) lines) st'.
Proof.
  induction lines as [|l lines IH]; intros E st st' H X.
  - injection X as <-. cbn [entries]. now rewrite app_nil_r.
  - cbn [foldM] in X. apply bind_ok in X as [st1 [X1 X]]. destruct (line_LI E st l lines st1 H X1) as [one [H1 ->]]. rewrite app_assoc. now apply (IH _ st1).
Qed.
End Lines.

Lemma scene_LI : forall F G scId E st st', incl (scId :: F) (dkeys (nv_scenes n0)) -> incl G (dkeys (nv_chapters n0)) -> ~ In scId F ->
  (exists D, OI (scId :: F) G D E st) -> split_scene tr st scId = Ok st' -> exists D, OI F G D (E ++ scene_entries tr n0 scId) st'.
Proof.
  intros F G scId E st st' HF HG Nf [D H] X. unfold split_scene in X. cbn [sp_n sp_srtCh sp_chId sp_srtSc sp_scId sp_new sp_in sp_cnt sp_split] in X.
  apply bind_ok in X as [y [Hy X]]. apply dindex_ok in Hy.
  assert (Hk : In scId (dkeys (nv_scenes n0))) by (apply HF; now left). pose proof Hk as Hk'. apply dget_Some_key in Hk' as [x Hx].
  assert (Cy : sc_content y = sc_content x).
  { pose proof (o_F _ _ _ _ _ H scId (or_introl eq_refl)) as C. unfold CT in C. rewrite Hy, Hx in C. cbn in C. now injection C. }
  assert (Se : SE (sp_n st) scId = OldScene scId) by (unfold scene_entry; apply PyDict.dmem_key in Hk; now rewrite Hk).
  assert (H1 : forall a b c d fl, OI F G D (E ++ [OldScene scId]) (mkSp (sp_n st) (sp_srtCh st) (sp_chId st) (sp_srtSc st ++ [scId]) a b c d fl)).
  { intros a b c d fl. destruct H as [o1 o2 o3 o4 o5 o6 o7 o8 o9].
    split; cbn [sp_srtCh sp_chId sp_n sp_srtSc]; try assumption.
    - rewrite app_assoc. intros j Hj. apply in_app_iff in Hj as [Hj|[<-|[]]]; [now apply o5|]. now apply (map_keys _ _ x).
    - intros j Hj. apply o8. now right.
    - rewrite map_app. cbn [map]. rewrite Se. rewrite app_comm_cons, app_assoc. now rewrite o9. }
  unfold scene_entries. rewrite Hx, <- Cy. destruct (sc_content y) as [[|ch t]|].
  - injection X as <-. exists D. apply H1.
  - apply bind_ok in X as [st1 [X1 X]]. change (split [10%N] (ch :: t)) with (text_lines (ch :: t)) in X1 || (rewrite split_splitc in X1; change (splitc 10 (ch :: t)) with (text_lines (ch :: t)) in X1).
    apply (lines_LI F G scId x (fun j Hj => HF j (or_intror Hj)) HG Hx (text_lines (ch :: t)) (E ++ [OldScene scId])) in X1.
    2:{ split; [exists D; apply H1|split; [exact Nf|discriminate]]. }
    cbn [sp_in sp_cnt] in X1. replace (E ++ OldScene scId :: entries tr (sc_title x) true 0 (text_lines (ch :: t))) with ((E ++ [OldScene scId]) ++ entries tr (sc_title x) true 0 (text_lines (ch :: t))) by (now rewrite <- app_assoc).
    destruct X1 as [[D1 L1] [L2 L3]]. destruct (sp_in st1).
    + apply bind_ok in X as [n2 [X2 X]]. injection X as <-. exists D1. apply put_keep in X2. now apply (OI_keep F G D1 _ st1 n2 (sp_scId st1)).
    + injection X as <-. now exists D1.
  - injection X as <-. exists D. apply H1.
Qed.
Lemma scenes_LI : forall G F F' E st st', incl (F ++ F') (dkeys (nv_scenes n0)) -> incl G (dkeys (nv_chapters n0)) -> NoDup (F ++ F') ->
  (exists D, OI (F ++ F') G D E st) -> foldM (split_scene tr) F st = Ok st' -> exists D, OI F' G D (E ++ flat_map (scene_entries tr n0) F) st'.
Proof.
  intros G F F'. induction F as [|k F IH]; intros E st st' HF HG ND H X.
  - injection X as <-. cbn [flat_map]. now rewrite app_nil_r.
  - cbn [foldM] in X. apply bind_ok in X as [st1 [X1 X]]. inversion ND as [|? ? N1 N2]; subst.
    apply (scene_LI (F ++ F') G k E) in X1; [|exact HF|exact HG|exact N1|exact H].
    cbn [flat_map]. rewrite app_assoc. apply (IH (E ++ scene_entries tr n0 k) st1); [intros j Hj; apply HF; now right|exact HG|exact N2|exact X1|exact X].
Qed.

(** * Chapters *)
Record OB (F G : list str) (E : list entry) (st : sp) : Prop := {
  b_nd : NoDup (sp_srtCh st);
  b_G : forall c, In c G -> ~ In c (sp_srtCh st) /\ dget c (nv_chapters (sp_n st)) = dget c (nv_chapters n0);
  b_ck : incl (sp_srtCh st) (dkeys (nv_chapters (sp_n st)));
  b_sk : incl (flat_map (chapter_scenes (sp_n st)) (sp_srtCh st)) (dkeys (nv_scenes (sp_n st)));
  b_c0 : incl (dkeys (nv_chapters n0)) (dkeys (nv_chapters (sp_n st)));
  b_ti : TI (sp_n st);
  b_F : forall k, In k F -> CT k (sp_n st) = CT k n0;
  b_E : flat_map (chunk (sp_n st)) (sp_srtCh st) = E }.
Lemma chapter_OB : forall c F G E st st', incl (c :: G) (dkeys (nv_chapters n0)) -> NoDup (c :: G) -> incl (chapter_scenes n0 c ++ F) (dkeys (nv_scenes n0)) -> NoDup (chapter_scenes n0 c ++ F) ->
  OB (chapter_scenes n0 c ++ F) (c :: G) E st -> split_chapter tr st c = Ok st' -> OB F G (E ++ OldChapter c :: flat_map (scene_entries tr n0) (chapter_scenes n0 c)) st'.
Proof.
  intros c F G E st st' HG NG HF NF [b1 b2 b3 b4 b5 b6 b7 b8] X. unfold split_chapter in X. cbn [sp_n sp_srtCh sp_chId sp_srtSc sp_scId sp_new sp_in sp_cnt sp_split] in X.
  apply bind_ok in X as [ch [Hch X]]. apply bind_ok in X as [st2 [X2 X]]. apply bind_ok in X as [n2 [X3 X]]. injection X as <-. apply dindex_ok in Hch.
  destruct (b2 c (or_introl eq_refl)) as [B1 B2]. apply NoDup_cons_iff in NG as [N1 N2].
  assert (Ec : ch_srtScenes ch = chapter_scenes n0 c) by (unfold chapter_scenes; now rewrite <- B2, Hch). rewrite Ec in X2.
  assert (Hc0 : In c (dkeys (nv_chapters n0))) by (apply HG; now left).
  apply (scenes_LI G (chapter_scenes n0 c) F (E ++ [OldChapter c])) in X2; [|exact HF|intros j Hj; apply HG; now right|exact NF|].
  - destruct X2 as [D [o1 o2 o3 o4 o5 o6 o7 o8 o9]]. unfold put_srtScenes in X3. apply bind_ok in X3 as [d [Hd X3]]. injection X3 as <-. apply dindex_ok in Hd.
    set (q := sp_chId st2) in *. set (n := sp_n st2) in *.
    assert (Kn : dkeys (dset q (set_ch_srtScenes (sp_srtSc st2) d) (nv_chapters n)) = dkeys (nv_chapters n)) by (apply PyDict.dkeys_dset_in, dget_Some_key; now exists d).
    set (n2 := set_nv_chapters (dset q (set_ch_srtScenes (sp_srtSc st2) d) (nv_chapters n)) n).
    assert (Dq : forall j, In j D -> j <> q) by (intros j Hj ->; apply NoDup_remove_2 in o2; apply o2; now rewrite app_nil_r).
    assert (Dc : forall j, In j D -> dget j (nv_chapters n2) = dget j (nv_chapters n)) by (intros j Hj; unfold n2; cbn [nv_chapters set_nv_chapters]; rewrite dget_dset_other; [reflexivity|now apply Dq]).
    assert (Q : chapter_scenes n2 q = sp_srtSc st2) by (unfold chapter_scenes, n2; cbn [nv_chapters set_nv_chapters]; now rewrite dget_dset_same).
    split; cbn [sp_n sp_srtCh]; fold n2; try rewrite o1.
    + exact o2.
    + intros j Hj. destruct (o3 j Hj) as [A B]. split; [exact A|]. rewrite <- B. unfold n2. cbn [nv_chapters set_nv_chapters]. apply dget_dset_other. intros ->. apply A, in_app_iff. right. now left.
    + intros j Hj. unfold n2. cbn [nv_chapters set_nv_chapters]. rewrite Kn. now apply o4.
    + rewrite flat_map_app. cbn [flat_map]. rewrite app_nil_r, Q. change (nv_scenes n2) with (nv_scenes n). intros j Hj. apply o5. apply in_app_iff in Hj. apply in_app_iff. destruct Hj as [Hj|Hj]; [left|now right].
      apply in_flat_map in Hj as [z [H1 H2]]. apply in_flat_map. exists z. split; [exact H1|]. now rewrite (chapter_scenes_ext n n2) by (symmetry; now apply Dc).
    + intros j Hj. unfold n2. cbn [nv_chapters set_nv_chapters]. rewrite Kn. now apply o6.
    + exact o7.
    + exact o8.
    + rewrite flat_map_app. cbn [flat_map]. rewrite app_nil_r. rewrite (chunks_keep D n n2 Dc) by reflexivity.
      replace (E ++ OldChapter c :: flat_map (scene_entries tr n0) (chapter_scenes n0 c)) with ((E ++ [OldChapter c]) ++ flat_map (scene_entries tr n0) (chapter_scenes n0 c)) by (now rewrite <- app_assoc).
      rewrite <- o9. f_equal. unfold chunk. rewrite Q. f_equal. unfold chapter_entry, n2. cbn [nv_chapters set_nv_chapters]. rewrite dget_dset_same, Hd. destruct (dmem q (nv_chapters n0)); reflexivity.
  - exists (sp_srtCh st). split; cbn [sp_n sp_srtCh sp_chId sp_srtSc].
    + reflexivity.
    + now apply NoDup_snoc.
    + intros j Hj. destruct (b2 j (or_intror Hj)) as [A B]. split; [|exact B]. intro Z. apply in_app_iff in Z as [Z|[<-|[]]]; contradiction.
    + intros j Hj. apply in_app_iff in Hj as [Hj|[<-|[]]]; [now apply b3|now apply b5].
    + rewrite app_nil_r. exact b4.
    + exact b5.
    + exact b6.
    + exact b7.
    + cbn [map]. rewrite b8. unfold chapter_entry. apply PyDict.dmem_key in Hc0. now rewrite Hc0.
Qed.
Lemma chapters_OB : forall G E st st', incl G (dkeys (nv_chapters n0)) -> NoDup G -> incl (flat_map (chapter_scenes n0) G) (dkeys (nv_scenes n0)) -> NoDup (flat_map (chapter_scenes n0) G) ->
  OB (flat_map (chapter_scenes n0) G) G E st -> foldM (split_chapter tr) G st = Ok st' ->
  OB [] [] (E ++ flat_map (fun ch => OldChapter ch :: flat_map (scene_entries tr n0) (chapter_scenes n0 ch)) G) st'.
Proof.
  induction G as [|c G IH]; intros E st st' HG NG HF NF H X.
  - injection X as <-. cbn [flat_map]. rewrite app_nil_r. exact H.
  - cbn [foldM] in X. apply bind_ok in X as [st1 [X1 X]]. cbn [flat_map] in *. apply (chapter_OB c (flat_map (chapter_scenes n0) G) G E) in X1; [|assumption..].
    rewrite app_assoc. inversion NG as [|? ? N1 N2]; subst. apply (IH _ st1); [intros j Hj; apply HG; now right|exact N2|intros j Hj; apply HF, in_app_iff; now right| |exact X1|exact X].
    clear -NF. induction (chapter_scenes n0 c) as [|a l IHl]; [exact NF|]. apply IHl. now inversion NF.
Qed.
End Outline.

Theorem outline_split : forall tr n n' flag, structure_ok n -> split_scenes tr n = Ok (n', flag) -> outline n n' = split_outline tr n.
Proof.
  intros tr n n' flag SO E. unfold split_scenes in E. apply bind_ok in E as [st [E1 E]]. injection E as <- _. destruct SO as (S1 & S2 & S3 & S4).
  apply (chapters_OB tr n (nv_srtChapters n) []) in E1; [|exact S2|exact S1|exact S4|exact S3|].
  - exact (b_E n _ _ _ _ E1).
  - split; cbn [sp_n sp_srtCh flat_map].
    + constructor.
    + intros c _. split; [intros []|reflexivity].
    + intros j [].
    + intros j [].
    + intros j Hj. exact Hj.
    + intros k x Hx. now exists x.
    + reflexivity.
    + reflexivity.
Qed.
