From Coq Require Import String List NArith ZArith Bool Lia Arith.
From Verif Require Import PyStr PyDict NovelModel NovelOps WordCount Splitter SpecNovel SpecSplit OdfXml OdtRead SpecRead ReadFrame2 SplitterProofs SpecImport ImportProofs ImportProofs2 ImportProofs3 ImportProofs4.
Import ListNotations.

(** ** blank space *)
Lemma lstrip_keep : forall a b, blank a = false -> lstrip (a ++ b) = lstrip a ++ b.
Proof. unfold blank, lstrip. induction a as [|c a IH]; intros b H; [discriminate|]. cbn [app lstrip_by forallb] in *. destruct (is_space c); [now apply IH | reflexivity]. Qed.
Lemma lstrip_drop : forall a b, blank a = true -> lstrip (a ++ b) = lstrip b.
Proof. unfold blank, lstrip. induction a as [|c a IH]; intros b H; [reflexivity|]. cbn [app lstrip_by forallb] in *. destruct (is_space c); [now apply IH | discriminate]. Qed.
Lemma blank_rev : forall a, blank (rev a) = blank a.
Proof. intro a. unfold blank. induction a as [|c a IH]; [reflexivity|]. cbn [rev forallb]. rewrite forallb_app, IH. cbn [forallb]. destruct (is_space c), (forallb is_space a); reflexivity. Qed.
Lemma rstrip_keep : forall a b, blank b = false -> rstrip (a ++ b) = a ++ rstrip b.
Proof. intros a b H. unfold rstrip, rstrip_by. rewrite rev_app_distr. fold lstrip. change (lstrip_by is_space) with lstrip. rewrite lstrip_keep by now rewrite blank_rev. rewrite rev_app_distr, rev_involutive. reflexivity. Qed.
Lemma rstrip_drop : forall a b, blank b = true -> rstrip (a ++ b) = rstrip a.
Proof. intros a b H. unfold rstrip, rstrip_by. change (lstrip_by is_space) with lstrip. rewrite rev_app_distr, lstrip_drop by now rewrite blank_rev. reflexivity. Qed.
Lemma lstrip_blank : forall a, blank a = true -> lstrip a = [].
Proof. intros a H. rewrite <- (app_nil_r a), lstrip_drop by exact H. reflexivity. Qed.
Lemma rstrip_blank : forall a, blank a = true -> rstrip a = [].
Proof. intros a H. change a with ([] ++ a). now rewrite rstrip_drop. Qed.
Lemma blank_lstrip : forall a, blank (lstrip a) = blank a.
Proof. unfold blank, lstrip. induction a as [|c a IH]; [reflexivity|]. cbn [lstrip_by forallb]. destruct (is_space c) eqn:E; [rewrite IH; reflexivity | cbn [forallb]; now rewrite E]. Qed.
Lemma blank_rstrip : forall a, blank (rstrip a) = blank a.
Proof. intro a. unfold rstrip, rstrip_by. rewrite blank_rev. change (lstrip_by is_space) with lstrip. rewrite blank_lstrip. apply blank_rev. Qed.
Lemma rstrip_twice : forall a, rstrip (rstrip a) = rstrip a.
Proof. intro a. unfold rstrip, rstrip_by. rewrite rev_involutive. f_equal. apply lstrip_by_id. pose proof (lstrip_by_head is_space (rev a)) as H. exact H. Qed.
Lemma blank_app : forall a b, blank (a ++ b) = blank a && blank b.
Proof. intros a b. apply forallb_app. Qed.
Lemma strip_unfold : forall a, strip a = rstrip (lstrip a).
Proof. reflexivity. Qed.
(** ** descriptions are read paragraph by paragraph *)
Definition ostep (acc t : str) : str := strip (acc ++ t) ++ [10%N].
Definition solid (ts : list str) : str := join [10%N] (map rstrip (filter (fun t => negb (blank t)) ts)).
Lemma solid_snoc : forall ts t, solid (ts ++ [t]) = if blank t then solid ts else match filter (fun t => negb (blank t)) ts with [] => rstrip t | _ => solid ts ++ [10%N] ++ rstrip t end.
Proof.
  intros ts t. unfold solid. rewrite filter_app. cbn [filter]. destruct (blank t); cbn [negb]; [now rewrite app_nil_r|]. rewrite map_app. cbn [map]. generalize (filter (fun t => negb (blank t)) ts) as l. intro l.
  induction l as [|x l IH]; [reflexivity|]. cbn [map app]. destruct l as [|y l]; [reflexivity|]. cbn [map app join] in *. rewrite IH. rewrite <- !app_assoc. reflexivity.
Qed.
Lemma solid_end : forall ts, filter (fun t => negb (blank t)) ts <> [] -> blank (solid ts) = false /\ rstrip (solid ts) = solid ts.
Proof.
  intros ts. induction ts as [|t ts IH] using rev_ind; [intro H; now contradiction H|]. rewrite filter_app, solid_snoc. cbn [filter]. destruct (blank t) eqn:B; cbn [negb]; [rewrite app_nil_r; exact IH|]. intros _. destruct (filter (fun t => negb (blank t)) ts) as [|x l] eqn:F.
  - rewrite blank_rstrip, rstrip_twice. now split.
  - rewrite !blank_app, blank_rstrip, B, !andb_false_r. split; [reflexivity|]. rewrite app_assoc, rstrip_keep by now rewrite blank_rstrip. now rewrite rstrip_twice.
Qed.
Lemma osteps : forall ts, ts <> [] -> fold_left ostep ts [] = strip (solid ts) ++ [10%N].
Proof.
  intro ts. induction ts as [|t ts IH] using rev_ind; [intro H; now contradiction H|]. intros _. rewrite fold_left_app. cbn [fold_left]. unfold ostep at 1. f_equal. rewrite solid_snoc.
  destruct ts as [|t0 ts0] eqn:Ets; [cbn [fold_left filter app]; change (solid []) with (@nil N); destruct (blank t) eqn:B; rewrite !strip_unfold; [rewrite (lstrip_blank t B); reflexivity|]|].
  - destruct (lstrip_by_suffix is_space t) as (p & Ep & Bp). change (lstrip_by is_space t) with (lstrip t) in Ep. assert (Bl : blank (lstrip t) = false) by now rewrite blank_lstrip.
    rewrite Ep at 2. rewrite rstrip_keep by exact Bl. rewrite lstrip_drop by exact Bp. symmetry.
    assert (X : lstrip (rstrip (lstrip t)) = rstrip (lstrip t)). { pose proof (lstrip_by_head is_space t) as H. change (lstrip_by is_space t) with (lstrip t) in H. destruct (lstrip t) as [|c u] eqn:E; [reflexivity|]. assert (Y : exists v, rstrip (c :: u) = c :: v). { change (c :: u) with ([c] ++ u). destruct (blank u) eqn:Bu; [rewrite rstrip_drop by exact Bu | rewrite rstrip_keep by exact Bu]; [|eexists; reflexivity]. exists []. change [c] with ([] ++ [c]). rewrite rstrip_keep; unfold rstrip, rstrip_by; cbn; rewrite H; reflexivity. }
      destruct Y as [v Y]. rewrite Y. apply lstrip_by_id. exact H. }
    rewrite X. apply rstrip_twice.
  - rewrite IH by discriminate. rewrite <- Ets in *. clear Ets t0 ts0 IH. destruct (blank t) eqn:B.
    + rewrite <- app_assoc, !strip_unfold. assert (Bt : blank ([10%N] ++ t) = true) by (rewrite blank_app, B; reflexivity). destruct (blank (solid ts)) eqn:Bs.
      * rewrite (lstrip_blank _ Bs). change (rstrip []) with (@nil N). cbn [app]. now rewrite lstrip_blank.
      * assert (Bx : blank (rstrip (lstrip (solid ts))) = false) by now rewrite blank_rstrip, blank_lstrip. rewrite lstrip_keep by exact Bx. rewrite rstrip_drop by exact Bt. rewrite <- strip_unfold. set (w := solid ts). change (rstrip (lstrip (strip w)) = strip w). change (strip (strip w) = strip w). apply strip_by_id, strip_by_stripped.
    + destruct (filter (fun t => negb (blank t)) ts) as [|x l] eqn:F.
      * assert (E : solid ts = []) by (unfold solid; now rewrite F). rewrite E. change (strip [] ++ [10%N]) with [10%N]. rewrite !strip_unfold. rewrite lstrip_drop by reflexivity.
        destruct (lstrip_by_suffix is_space t) as (p & Ep & Bp). change (lstrip_by is_space t) with (lstrip t) in Ep. assert (Bl : blank (lstrip t) = false) by now rewrite blank_lstrip. rewrite Ep at 2. rewrite rstrip_keep by exact Bl. rewrite lstrip_drop by exact Bp. change (rstrip (lstrip t)) with (strip t). symmetry. change (strip (strip t) = strip t). apply strip_by_id, strip_by_stripped.
      * destruct (solid_end ts) as [B1 B2]; [rewrite F; discriminate|]. rewrite !strip_unfold. assert (Q : rstrip (lstrip (solid ts)) = lstrip (solid ts)). { destruct (lstrip_by_suffix is_space (solid ts)) as (p & Ep & Bp). change (lstrip_by is_space (solid ts)) with (lstrip (solid ts)) in Ep. rewrite Ep in B2 at 1. rewrite rstrip_keep in B2 by now rewrite blank_lstrip. exact (app_inv_head p _ _ (eq_trans B2 Ep)). }
        rewrite Q. rewrite <- app_assoc. rewrite (lstrip_keep (solid ts)) by exact B1. rewrite (lstrip_keep (lstrip (solid ts))) by now rewrite blank_lstrip.
        assert (LL : lstrip (lstrip (solid ts)) = lstrip (solid ts)) by (apply lstrip_by_id; apply (lstrip_by_head is_space (solid ts))). rewrite LL. rewrite !app_assoc. rewrite !rstrip_keep by (rewrite ?blank_rstrip; exact B). now rewrite rstrip_twice.
Qed.

(** ** reading an outline *)
Record So (n0 : novel) (b : book) (sc : option str) (ch : option str) (acc : str) (st : rs) : Prop := mkSo {
  o_j : J n0 b st; o_scid : r_scId st = sc; o_chid : r_chId st = ch; o_acc : concat (r_lines st) = acc }.
Lemma So_lines : forall n0 b sc ch acc st M, So n0 b sc ch acc st -> So n0 b sc ch (concat M) (set_r_lines M st).
Proof. intros n0 b sc ch acc st M [H1 H2 H3 H4]. constructor; try assumption; [|reflexivity]. eapply J_same; try exact H1; try reflexivity; now left. Qed.
Lemma So_put : forall n0 b sc ch acc st t, So n0 b sc ch acc st -> So n0 b sc ch (acc ++ t) (put_line t st).
Proof. intros n0 b sc ch acc st t H. unfold put_line. rewrite <- (o_acc _ _ _ _ _ _ H). replace (concat (r_lines st) ++ t) with (concat (r_lines st ++ [t])) by (rewrite concat_app; cbn; now rewrite app_nil_r). eapply So_lines, H. Qed.
Notation HO := (handle outline_reader).
Lemma ol_p : forall st, HO st (CStart (s "p") [None]) = Ok st.
Proof. reflexivity. Qed.
Lemma oinline_run : forall n0 b sc ch acc st e, So n0 b sc ch acc st -> exists st', foldM HO (inline_calls e) st = Ok st' /\ So n0 b sc ch (acc ++ outline_text (match sc with Some _ => true | None => false end) e) st'.
Proof.
  intros n0 b sc ch acc st e H. destruct e as [t| |bold t|a t]; cbn [inline_calls outline_text].
  - eexists. split; [reflexivity|]. now apply So_put.
  - eexists. split; [reflexivity|]. now apply So_put.
  - exists (put_line t st). split; [destruct bold; reflexivity|]. now apply So_put.
  - cbn [foldM handle outline_reader h_comment]. unfold base_comment. rewrite (o_scid _ _ _ _ _ _ H). cbn [bind]. eexists. split; [reflexivity|]. destruct sc as [i|]; [now apply So_put|]. rewrite app_nil_r. exact H.
Qed.
Lemma oinlines_run : forall n0 p b sc ch acc st, So n0 b sc ch acc st -> exists st', foldM HO (flat_map inline_calls p) st = Ok st' /\ So n0 b sc ch (acc ++ outline_para (match sc with Some _ => true | None => false end) p) st'.
Proof.
  intros n0. induction p as [|e p IH]; intros b sc ch acc st H; [exists st; split; [reflexivity|]; unfold outline_para; cbn; rewrite app_nil_r; exact H|]. destruct (oinline_run n0 b sc ch acc st e H) as (st1 & E1 & H1). destruct (IH _ _ _ _ _ H1) as (st2 & E2 & H2). exists st2. split; [cbn [flat_map]; apply foldM_app_ok; eauto|]. unfold outline_para in *. cbn [map concat]. rewrite app_assoc. exact H2.
Qed.
Definition chapter_desc (acc : str) (ts : list str) (c : chapter) : chapter := match ts with [] => c | _ => set_ch_desc (Some (fold_left ostep ts acc)) c end.
Definition scene_desc (acc : str) (ts : list str) (x : scene) : scene := match ts with [] => x | _ => set_sc_desc (Some (fold_left ostep ts acc)) x end.
Lemma chapter_para_run : forall n0 p b c scs k acc st, So n0 (b ++ [(c, scs)]) None (Some k) acc st ->
  exists st', foldM HO (para_calls p) st = Ok st' /\ So n0 (b ++ [(set_ch_desc (Some (ostep acc (outline_para false p))) c, scs)]) None (Some k) (ostep acc (outline_para false p)) st'.
Proof.
  intros n0 p b c scs k acc st H. destruct (oinlines_run n0 p _ _ _ _ _ H) as (st1 & E1 & H1). cbn iota in H1. unfold para_calls. set (t := ostep acc (outline_para false p)).
  assert (H2 : So n0 (b ++ [(c, scs)]) None (Some k) t (set_r_lines [t] st1)) by (replace t with (concat [t]) at 1 by (cbn; apply app_nil_r); eapply So_lines, H1).
  destruct (J_on_chapter n0 b c scs (set_r_lines [t] st1) k (set_ch_desc (Some t)) (o_j _ _ _ _ _ _ H2) (o_chid _ _ _ _ _ _ H2)) as (st2 & E2 & J2 & L1 & L2 & L3 & _); [reflexivity|].
  exists st2. split.
  - cbn [foldM]. rewrite ol_p. cbn [bind]. apply foldM_app_ok. exists st1. split; [exact E1|]. cbn [foldM handle outline_reader h_end]. unfold ol_end. replace (tag_is (Some (s "p")) (s "p")) with true by reflexivity. cbv zeta. rewrite (o_acc _ _ _ _ _ _ H1). fold (ostep acc (outline_para false p)). fold t. cbn [r_scId r_chId set_r_lines]. rewrite (o_scid _ _ _ _ _ _ H1), (o_chid _ _ _ _ _ _ H1). exact (f_equal (fun r => do b' <- r; Ok b') E2).
  - destruct H2 as [I1 I2 I3 I4]. constructor; [exact J2 | exact (eq_trans L3 I2) | exact (eq_trans L2 I3) | rewrite L1; exact I4].
Qed.
Lemma scene_para_run : forall n0 p b c scs x i k acc st, So n0 (b ++ [(c, scs ++ [x])]) (Some i) (Some k) acc st ->
  exists st', foldM HO (para_calls p) st = Ok st' /\ So n0 (b ++ [(c, scs ++ [set_sc_desc (Some (ostep acc (outline_para true p))) x])]) (Some i) (Some k) (ostep acc (outline_para true p)) st'.
Proof.
  intros n0 p b c scs x i k acc st H. destruct (oinlines_run n0 p _ _ _ _ _ H) as (st1 & E1 & H1). cbn iota in H1. unfold para_calls. set (t := ostep acc (outline_para true p)).
  assert (H2 : So n0 (b ++ [(c, scs ++ [x])]) (Some i) (Some k) t (set_r_lines [t] st1)) by (replace t with (concat [t]) at 1 by (cbn; apply app_nil_r); eapply So_lines, H1).
  destruct (J_on_scene n0 b c scs x (set_r_lines [t] st1) i (set_sc_desc (Some t)) (o_j _ _ _ _ _ _ H2) (o_scid _ _ _ _ _ _ H2)) as (st2 & E2 & J2 & L1 & L2 & L3 & _).
  exists st2. split.
  - cbn [foldM]. rewrite ol_p. cbn [bind]. apply foldM_app_ok. exists st1. split; [exact E1|]. cbn [foldM handle outline_reader h_end]. unfold ol_end. replace (tag_is (Some (s "p")) (s "p")) with true by reflexivity. cbv zeta. rewrite (o_acc _ _ _ _ _ _ H1). fold (ostep acc (outline_para true p)). fold t. cbn [r_scId r_chId set_r_lines]. rewrite (o_scid _ _ _ _ _ _ H1). exact (f_equal (fun r => do b' <- r; Ok b') E2).
  - destruct H2 as [I1 I2 I3 I4]. constructor; [exact J2 | exact (eq_trans L3 I2) | exact (eq_trans L2 I3) | rewrite L1; exact I4].
Qed.
Lemma chapter_paras_run : forall n0 ps b c scs k acc st, So n0 (b ++ [(c, scs)]) None (Some k) acc st ->
  exists st' acc', foldM HO (flat_map para_calls ps) st = Ok st' /\ So n0 (b ++ [(chapter_desc acc (map (outline_para false) ps) c, scs)]) None (Some k) acc' st'.
Proof.
  intros n0 ps. induction ps as [|p ps IH]; intros b c scs k acc st H; [exists st, acc; split; [reflexivity | exact H]|]. destruct (chapter_para_run n0 p b c scs k acc st H) as (st1 & E1 & H1). destruct (IH _ _ _ _ _ _ H1) as (st2 & acc' & E2 & H2). exists st2, acc'. split; [cbn [flat_map]; apply foldM_app_ok; eauto|]. cbn [map]. destruct ps as [|q ps]; exact H2.
Qed.
Lemma scene_paras_run : forall n0 ps b c scs x i k acc st, So n0 (b ++ [(c, scs ++ [x])]) (Some i) (Some k) acc st ->
  exists st' acc', foldM HO (flat_map para_calls ps) st = Ok st' /\ So n0 (b ++ [(c, scs ++ [scene_desc acc (map (outline_para true) ps) x])]) (Some i) (Some k) acc' st'.
Proof.
  intros n0 ps. induction ps as [|p ps IH]; intros b c scs x i k acc st H; [exists st, acc; split; [reflexivity | exact H]|]. destruct (scene_para_run n0 p b c scs x i k acc st H) as (st1 & E1 & H1). destruct (IH _ _ _ _ _ _ _ _ H1) as (st2 & acc' & E2 & H2). exists st2, acc'. split; [cbn [flat_map]; apply foldM_app_ok; eauto|]. cbn [map]. destruct ps as [|q ps]; exact H2.
Qed.
Lemma odata_run : forall n0 ts b sc ch acc st, So n0 b sc ch acc st -> exists st', foldM HO (map CData ts) st = Ok st' /\ So n0 b sc ch (acc ++ concat ts) st'.
Proof.
  intros n0. induction ts as [|t ts IH]; intros b sc ch acc st H; [exists st; split; [reflexivity|]; cbn; rewrite app_nil_r; exact H|]. destruct (IH _ _ _ _ _ (So_put _ _ _ _ _ _ t H)) as (st1 & E1 & H1). exists st1. split; [exact E1|]. cbn [concat]. rewrite app_assoc. exact H1.
Qed.
Definition oscene_calls (x : oscene) : list call := heading_calls (s "3") (fst x) ++ flat_map para_calls (snd x).
Definition ochapter_calls (x : ochapter) : list call := let '(part, ts, ps, scs) := x in heading_calls (if part then s "1" else s "2") ts ++ flat_map para_calls ps ++ flat_map oscene_calls scs.
Lemma desc_scene : forall ps x, scene_desc [] (map (outline_para true) ps) x = match outline_desc true ps with None => x | Some t => set_sc_desc (Some t) x end.
Proof. intros [|p ps] x; [reflexivity|]. unfold scene_desc, outline_desc. cbn [map]. rewrite osteps by discriminate. reflexivity. Qed.
Lemma desc_chapter : forall ps c, chapter_desc [] (map (outline_para false) ps) c = match outline_desc false ps with None => c | Some t => set_ch_desc (Some t) c end.
Proof. intros [|p ps] x; [reflexivity|]. unfold chapter_desc, outline_desc. cbn [map]. rewrite osteps by discriminate. reflexivity. Qed.
Lemma oscene_run : forall n0 x b c scs sc k acc st, So n0 (b ++ [(c, scs)]) sc (Some k) acc st ->
  exists st' sc' acc', foldM HO (oscene_calls x) st = Ok st' /\ So n0 (b ++ [(c, scs ++ [outline_scene x])]) sc' (Some k) acc' st'.
Proof.
  intros n0 [ts ps] b c scs sc k acc st H. unfold oscene_calls, heading_calls. cbn [fst snd].
  destruct (J_new_scene n0 b c scs st k (o_j _ _ _ _ _ _ H) (o_chid _ _ _ _ _ _ H)) as (st1 & E1 & J1 & L1 & L2 & L3 & L4 & L5 & L6). set (T := S (total (b ++ [(c, scs)]))) in *.
  destruct (on_chapter (Some k) (list_scene (id_of T)) _) as [y|] eqn:Ey; [|discriminate]. cbn [bind] in E1. apply ok_eq in E1. subst y.
  destruct (J_on_scene n0 b c scs new_scene st1 (id_of T) (fun x => set_sc_type (Some 0%N) (set_sc_status (Some 1%Z) (set_sceneContent [] x))) J1 L1) as (st2 & E2 & J2 & M1 & M2 & M3 & _).
  set (x0 := set_sc_type _ _) in J2.
  assert (A : HO st (CStart (s "h" ++ s "3") [None]) = Ok st2).
  { cbn [handle outline_reader h_start]. unfold ol_start. replace (smem (s "h" ++ s "3") [s "h1"; s "h2"]) with false by reflexivity. replace (str_eqb (s "h" ++ s "3") (s "h3")) with true by reflexivity. cbv zeta. rewrite (j_scCount _ _ _ (o_j _ _ _ _ _ _ H)) in *. rewrite succ_id. fold T. cbn [r_chId set_r_scId set_r_scCount set_r_lines]. rewrite (o_chid _ _ _ _ _ _ H). rewrite Ey. cbn [bind]. exact E2. }
  assert (H2 : So n0 (b ++ [(c, scs ++ [x0])]) (Some (id_of T)) (Some k) [] st2) by (constructor; [exact J2 | exact (eq_trans M3 L1) | exact (eq_trans M2 L2) | rewrite M1, L3; reflexivity]).
  destruct (odata_run n0 ts _ _ _ _ _ H2) as (st3 & E3 & H3). cbn [app] in H3. destruct (J_on_scene n0 b c scs x0 st3 (id_of T) (set_sc_title (Some (strip (concat ts)))) (o_j _ _ _ _ _ _ H3) (o_scid _ _ _ _ _ _ H3)) as (st4 & E4 & J4 & N1 & N2 & N3 & _).
  assert (B : HO st3 (CEnd (Some (s "h" ++ s "3"))) = Ok (set_r_lines [] st4)).
  { cbn [handle outline_reader h_end]. unfold ol_end. cbv zeta. replace (tag_is (Some (s "h" ++ s "3")) (s "p")) with false by reflexivity. replace (tag_in (Some (s "h" ++ s "3")) [s "h1"; s "h2"]) with false by reflexivity. replace (tag_is (Some (s "h" ++ s "3")) (s "h3")) with true by reflexivity. rewrite (o_acc _ _ _ _ _ _ H3), (o_scid _ _ _ _ _ _ H3). rewrite E4. reflexivity. }
  assert (H4 : So n0 (b ++ [(c, scs ++ [set_sc_title (Some (strip (concat ts))) x0])]) (Some (id_of T)) (Some k) [] (set_r_lines [] st4)).
  { eapply (So_lines n0 _ _ _ (concat ts) st4 []). destruct H3 as [I1 I2 I3 I4]. constructor; [exact J4 | exact (eq_trans N3 I2) | exact (eq_trans N2 I3) | rewrite N1; exact I4]. }
  destruct (scene_paras_run n0 ps _ _ _ _ _ _ _ _ H4) as (st5 & acc5 & E5 & H5). exists st5, (Some (id_of T)), acc5. split.
  - apply foldM_app_ok. exists (set_r_lines [] st4). split; [|exact E5]. cbn [foldM]. rewrite A. cbn [bind]. apply foldM_app_ok. exists st3. split; [exact E3|]. cbn [foldM]. rewrite B. reflexivity.
  - rewrite desc_scene in H5. unfold outline_scene. cbn [fst snd]. destruct (outline_desc true ps) as [u|]; exact H5.
Qed.
Lemma oscenes_run : forall n0 xs b c scs sc k acc st, So n0 (b ++ [(c, scs)]) sc (Some k) acc st ->
  exists st' sc' acc', foldM HO (flat_map oscene_calls xs) st = Ok st' /\ So n0 (b ++ [(c, scs ++ map outline_scene xs)]) sc' (Some k) acc' st'.
Proof.
  intros n0 xs. induction xs as [|x xs IH]; intros b c scs sc k acc st H; [exists st, sc, acc; split; [reflexivity | cbn [map]; rewrite app_nil_r; exact H]|]. destruct (oscene_run n0 x _ _ _ _ _ _ _ H) as (st1 & sc1 & acc1 & E1 & H1). destruct (IH _ _ _ _ _ _ _ H1) as (st2 & sc2 & acc2 & E2 & H2). exists st2, sc2, acc2. split; [cbn [flat_map]; apply foldM_app_ok; eauto|]. cbn [map]. rewrite <- app_assoc in H2. exact H2.
Qed.
Lemma ochapter_run : forall n0 x b sc k acc st, So n0 b sc k acc st -> exists st' sc' k' acc', foldM HO (ochapter_calls x) st = Ok st' /\ So n0 (b ++ [outline_chapter x]) sc' k' acc' st'.
Proof.
  intros n0 [[[part ts] ps] xs] b sc k acc st H. cbn [ochapter_calls outline_chapter]. set (level := if part then s "1" else s "2").
  destruct (J_new_heading n0 b st (s "h" ++ level) (o_j _ _ _ _ _ _ H)) as (st1 & E1 & J1 & M1 & M2 & M3 & _). set (c0 := set_ch_level _ _) in J1. assert (T : smem (s "h" ++ level) [s "h1"; s "h2"] = true) by (destruct part; reflexivity).
  assert (A : HO st (CStart (s "h" ++ level) [None]) = Ok st1) by (cbn [handle outline_reader h_start]; unfold ol_start; rewrite T; exact E1).
  assert (H1 : So n0 (b ++ [(c0, [])]) None (Some (id_of (S (length b)))) [] st1) by (constructor; [exact J1 | exact M1 | exact M2 | rewrite M3; reflexivity]).
  destruct (odata_run n0 ts _ _ _ _ _ H1) as (st2 & E2 & H2). cbn [app] in H2. destruct (J_on_chapter n0 b c0 [] st2 _ (set_ch_title (Some (strip (concat ts)))) (o_j _ _ _ _ _ _ H2) (o_chid _ _ _ _ _ _ H2)) as (st3 & E3 & J3 & P1 & P2 & P3 & _); [reflexivity|].
  assert (B : HO st2 (CEnd (Some (s "h" ++ level))) = Ok (set_r_lines [] st3)).
  { cbn [handle outline_reader h_end]. unfold ol_end. cbv zeta. replace (tag_is (Some (s "h" ++ level)) (s "p")) with false by (destruct part; reflexivity). cbn [tag_in]. rewrite T. rewrite (o_acc _ _ _ _ _ _ H2), (o_chid _ _ _ _ _ _ H2). rewrite E3. reflexivity. }
  assert (H3 : So n0 (b ++ [(set_ch_title (Some (strip (concat ts))) c0, [])]) None (Some (id_of (S (length b)))) [] (set_r_lines [] st3)).
  { eapply (So_lines n0 _ _ _ (concat ts) st3 []). destruct H2 as [I1 I2 I3 I4]. constructor; [exact J3 | exact (eq_trans P3 I2) | exact (eq_trans P2 I3) | rewrite P1; exact I4]. }
  destruct (chapter_paras_run n0 ps _ _ _ _ _ _ H3) as (st4 & acc4 & E4 & H4). destruct (oscenes_run n0 xs _ _ _ _ _ _ _ H4) as (st5 & sc5 & acc5 & E5 & H5). exists st5, sc5, (Some (id_of (S (length b)))), acc5. split.
  - apply foldM_app_ok. exists (set_r_lines [] st3). split; [unfold heading_calls; cbn [foldM]; rewrite A; cbn [bind]; apply foldM_app_ok; exists st2; split; [exact E2|]; cbn [foldM]; rewrite B; reflexivity|]. apply foldM_app_ok. exists st4. split; [exact E4 | exact E5].
  - cbn [app] in H5. rewrite desc_chapter in H5. destruct (outline_desc false ps) as [u|]; unfold c0 in H5; destruct part; exact H5.
Qed.
Lemma ochapters_run : forall n0 doc b sc k acc st, So n0 b sc k acc st -> exists st' sc' k' acc', foldM HO (flat_map ochapter_calls doc) st = Ok st' /\ So n0 (b ++ map outline_chapter doc) sc' k' acc' st'.
Proof.
  intros n0. induction doc as [|x doc IH]; intros b sc k acc st H; [exists st, sc, k, acc; split; [reflexivity | cbn [map]; rewrite app_nil_r; exact H]|]. destruct (ochapter_run n0 x _ _ _ _ _ H) as (st1 & sc1 & k1 & acc1 & E1 & H1). destruct (IH _ _ _ _ _ H1) as (st2 & sc2 & k2 & acc2 & E2 & H2). exists st2, sc2, k2, acc2. split; [cbn [flat_map]; apply foldM_app_ok; eauto|]. cbn [map]. rewrite <- app_assoc in H2. exact H2.
Qed.
Lemma oscene_parse : forall x p, idle p -> exists p', idle p' /\ prun p (oscene_events x) = Ok (p', oscene_calls x).
Proof. intros [ts ps] p H. destruct (heading_parse (s "3") ts p H) as (p1 & H1 & E1). destruct (many_parse para_events para_calls para_parse ps p1 H1) as (p2 & H2 & E2). exists p2. split; [exact H2|]. unfold oscene_events, oscene_calls. cbn [fst snd]. eapply prun_app; eassumption. Qed.
Lemma ochapter_parse : forall x p, idle p -> exists p', idle p' /\ prun p (ochapter_events x) = Ok (p', ochapter_calls x).
Proof.
  intros [[[part ts] ps] xs] p H. destruct (heading_parse (if part then s "1" else s "2") ts p H) as (p1 & H1 & E1). destruct (many_parse para_events para_calls para_parse ps p1 H1) as (p2 & H2 & E2). destruct (many_parse oscene_events oscene_calls oscene_parse xs p2 H2) as (p3 & H3 & E3). exists p3. split; [exact H3|]. cbn [ochapter_events ochapter_calls]. eapply prun_app; [eassumption|]. eapply prun_app; eassumption.
Qed.
Lemma outline_read : forall styles title author desc doc n0, nv_srtChapters n0 = [] -> nv_chapters n0 = [] -> nv_scenes n0 = [] ->
  exists n', feed outline_reader (opening_calls styles title author desc) (outline_document doc) n0 = Ok n' /\ is_book (map outline_chapter doc) n' /\ import_rest n' = import_rest n0 /\ described strip styles title author desc n0 n'.
Proof.
  intros styles title author desc doc n0 A B C. destruct (opening_run _ _ styles title author desc n0 op_outline) as (st0 & E0 & O0 & _).
  assert (S0 : So n0 [] None None (concat (r_lines st0)) st0). { pose proof (conj (eq_trans (o_srt _ _ O0) A) (conj (eq_trans (o_chs _ _ O0) B) (eq_trans (o_scs _ _ O0) C))) as X. destruct O0. constructor; try assumption; try reflexivity. constructor; try assumption; try (now left). }
  destruct (ochapters_run n0 doc [] None None _ st0 S0) as (st1 & sc & k & L & E1 & S1).
  assert (F : feed outline_reader (opening_calls styles title author desc) (outline_document doc) n0 = Ok (r_novel st1)).
  { eapply feed_of_report; [apply wrapped_report; intros p Hp; apply (many_parse ochapter_events ochapter_calls ochapter_parse doc p Hp)|]. apply foldM_app_ok. eauto. }
  exists (r_novel st1). split; [exact F|]. split; [apply (j_book _ _ _ (o_j _ _ _ _ _ _ S1))|]. split; [exact (j_rest _ _ _ (o_j _ _ _ _ _ _ S1))|].
  destruct (structure_meta _ _ n0 op_outline (outline_step n0) outline_meta_step A B C styles title author desc _ _ F) as (? & ? & _ & _ & _ & _ & _ & D). exact D.
Qed.

(** ** import as a whole *)
Lemma scenes_paragraphs : forall bs cur, concat (scenes_of cur bs) = match cur with Some ps => ps | None => [] end ++ paragraphs bs.
Proof.
  induction bs as [|x bs IH]; intro cur; cbn [scenes_of paragraphs flat_map]; [destruct cur; cbn; now rewrite ?app_nil_r|]. destruct x as [p|t]; fold (paragraphs bs).
  - rewrite IH. destruct cur; [rewrite <- app_assoc|]; reflexivity.
  - cbn [concat app]. now rewrite IH.
Qed.
Lemma merge_plain : forall t, Forall (fun p => containsb p t = false) [s "[/i][i]"; s "[/i]" ++ [10%N] ++ s "[i]"; s "[/i]" ++ [10%N] ++ s "> [i]"; s "[/b][b]"; s "[/b]" ++ [10%N] ++ s "[b]"; s "[/b]" ++ [10%N] ++ s "> [b]"] -> merge_runs t = t.
Proof.
  intros t H. assert (G : forall l : list (str * str), Forall (fun p => containsb p t = false) (map fst l) -> fold_left (fun t p => replace (fst p) (snd p) t) l t = t).
  { induction l as [|[p q] l IH]; intro Hl; [reflexivity|]. inversion Hl; subst. cbn [fold_left fst snd]. rewrite replace_absent by assumption. now apply IH. }
  apply G. exact H.
Qed.
Lemma numbered_get : forall {A} (l : list A) i x, nth_error l i = Some x -> dget (id_of (S i)) (numbered l) = Some x.
Proof.
  intros A l. induction l as [|y l IH] using rev_ind; intros i x H; [destruct i; discriminate|]. destruct (Nat.eq_dec i (length l)) as [->|N].
  - rewrite nth_error_app2 in H by lia. rewrite Nat.sub_diag in H. cbn in H. injection H as ->. apply numbered_last_get.
  - assert (L : i < length l) by (assert (nth_error (l ++ [y]) i <> None) by congruence; apply nth_error_Some in H0; rewrite app_length in H0; cbn in H0; lia). rewrite nth_error_app1 in H by exact L. specialize (IH i x H). rewrite numbered_snoc. apply dget_In in IH. clear H.
    assert (ND : NoDup (dkeys (numbered l ++ [(id_of (S (length l)), y)]))) by (rewrite <- numbered_snoc, numbered_keys; apply ids_nodup). apply In_dget; [exact ND | apply in_or_app; now left].
Qed.
Lemma book_contents : forall b n, is_book b n -> map (content_at n) (all_scenes n) = map sc_content (flat_map snd b).
Proof.
  intros b n H. destruct (book_scenes b n H) as (E & _). destruct H as (_ & _ & B3). unfold content_at. rewrite E, B3, numbered_keys. unfold ids. rewrite map_map. set (l := flat_map snd b). clearbody l. clear.
  assert (G : forall k, k <= length l -> map (fun i => match dget (id_of i) (numbered l) with Some x => sc_content x | None => None end) (seq 1 k) = map sc_content (firstn k l)).
  { induction k as [|k IH]; intro L; [reflexivity|]. rewrite seq_S, map_app, IH by lia. cbn [map]. destruct (nth_error l k) as [x|] eqn:E; [|apply nth_error_None in E; lia]. change (1 + k) with (S k). rewrite (numbered_get l k x E). assert (F : firstn (S k) l = firstn k l ++ [x]). { clear - E. revert k E. induction l as [|y l IH]; intros [|k] E; try discriminate; cbn in *; [now injection E as ->|]. now rewrite (IH k E). } rewrite F, map_app. reflexivity. }
  rewrite (G (length l)) by lia. now rewrite firstn_all.
Qed.
Lemma book_structure : forall b n, is_book b n -> structure_ok n.
Proof. intros b n H. destruct (book_scenes b n H) as (E1 & E2 & E3 & E4). unfold structure_ok. rewrite <- E4, <- E1. repeat split; try assumption; intros x Hx; exact Hx. Qed.
Lemma book_status : forall b n, is_book b n -> scenes_ok b -> forall k x, dget k (nv_scenes n) = Some x -> sc_status x <> None.
Proof.
  intros b n (_ & _ & B3) Hs k x H. rewrite B3 in H. apply dget_In in H. unfold numbered in H. apply in_combine_r in H. apply in_flat_map in H as ([c scs] & I1 & I2). unfold scenes_ok in Hs. rewrite Forall_forall in Hs. specialize (Hs _ I1). cbn [snd] in *. rewrite Forall_forall in Hs. destruct (Hs _ I2) as [_ [E|E]]; rewrite E; discriminate.
Qed.
Lemma import_read : forall tr styles title author desc es n0 n', nv_srtChapters n0 = [] -> nv_chapters n0 = [] -> nv_scenes n0 = [] ->
  feed (import_reader tr) (opening_calls styles title author desc) es (set_nv_languages (Some []) n0) = Ok n' ->
  exists n2 flag, read_formatted tr (import_reader tr) (opening_calls styles title author desc) es n0 = Ok (n2, flag) /\ structure_ok n2 /\ novel_rest n2 = novel_rest n' /\
    (splittable n' -> map (content_at n2) (all_scenes n2) = flat_map (fun k => parts_of (content_at n' k)) (all_scenes n')).
Proof.
  intros tr styles title author desc es n0 n' A B C F. destruct (structure_meta _ _ (set_nv_languages (Some []) n0) (op_import tr) (import_step tr _) (import_meta_step tr) A B C styles title author desc _ _ F) as (calls & b & _ & Q2 & _ & Q4 & _).
  assert (SO := book_structure b n' Q2). destruct (split_scenes_total tr n' SO (book_status b n' Q2 Q4)) as (n2 & flag & E). exists n2, flag. split; [unfold read_formatted; rewrite F; cbn [bind]; exact E|]. destruct (split_structure tr n' n2 flag SO E) as (S1 & S2 & _). split; [exact S1|]. split; [exact S2|]. intro G. exact (proj2 (proj2 (split_scenes_main tr n' n2 flag SO E)) G).
Qed.
