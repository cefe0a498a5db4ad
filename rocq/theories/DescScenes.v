(** Scene descriptions: exported and read back. *)
From Coq Require Import String List NArith ZArith Bool Lia Arith.
From Verif Require Import SpecExport SpecRedesc Redesc Written.
From Verif Require Import PyStr PyDict YwText YwTextProofs NovelModel NovelOps OdfXml OdfXmlProofs OdfLex OdtText OdtTextProofs OdtTextProofs2 SpecOdf SpecManuscript SpecDesc
  OdsTree OdsRoundTrip OdsRoundTrip2 OdsRoundTrip3 Template Templates OdtRead XmlTags FormatXml4 DescEngine DescBlocks Export Descriptions ManuExport DescDoc ReadFrame ReadFrame2.
From Verif Require ExportProofs.
From Verif Require ManuDoc ManuBlocks ManuRead ManuWalk ManuClean ConfigProofs.
Import ListNotations.
Notation number_style := ManuBlocks.number_style.

(** ** Export: the chapters one after the other *)
Section Loops.
Variable P : str -> Prop.
Variable h : reader.
Variable other : (str -> Prop) -> novel -> novel -> Prop.
Hypothesis O_weaken : forall (A B : str -> Prop) n m, (forall i, A i -> B i) -> other A n m -> other B n m.
Variable f : novel -> rs.
Notation good n w js := (restores P h other n f f w js).
(** Q i j: the element j is in the part of the document for the chapter i *)
Lemma chapters_loop : forall (Q : str -> str -> Prop) e n,
  (forall lines k t i lines' k' t', In i (nv_srtChapters n) -> chapter_step e n (lines, k, t) i = Ok (lines', k', t') -> exists w js, concat lines' = concat lines ++ w /\ good n w js /\ forall j, Q i j -> In j js) ->
  forall c, get_chapters e n = Ok c -> exists js, good n (concat c) js /\ forall i j, In i (nv_srtChapters n) -> Q i j -> In j js.
Proof.
  intros Q e n Hs c Hc. unfold get_chapters in Hc. assert (G : forall ids lines k t lines' k' t', incl ids (nv_srtChapters n) -> foldM (chapter_step e n) ids (lines, k, t) = Ok (lines', k', t') ->
    exists w js, concat lines' = concat lines ++ w /\ good n w js /\ forall i j, In i ids -> Q i j -> In j js).
  { induction ids as [|i ids IH]; intros lines k t lines' k' t' Hi E; cbn [foldM] in E.
    - injection E as <- <- <-. exists [], []. split; [now rewrite app_nil_r|]. split; [now apply restores_nil | intros i j []].
    - destruct (chapter_step e n (lines, k, t) i) as [[[l1 k1] t1]|] eqn:E1; [|discriminate]. cbn [bind] in E. destruct (Hs lines k t i l1 k1 t1 (Hi i (or_introl eq_refl)) E1) as [w1 [j1 [C1 [B1 Q1]]]].
      destruct (IH l1 k1 t1 lines' k' t') as [w2 [j2 [C2 [B2 Q2]]]]; [intros j Hj; apply Hi; now right | exact E|]. exists (w1 ++ w2), (j1 ++ j2). split; [now rewrite C2, C1, app_assoc|].
      split; [exact (restores_app P h other n f f f w1 w2 j1 j2 B1 B2)|]. intros a b [<- | Ha] Hq; apply in_or_app; [left; now apply Q1 | right; now apply (Q2 a)]. }
  destruct (foldM (chapter_step e n) (nv_srtChapters n) ([], 0, mkTotals 0 0 0)) as [[[ls k] t]|] eqn:E; [|discriminate]. cbn [bind] in Hc. injection Hc as <-.
  destruct (G _ _ _ _ _ _ _ (incl_refl _) E) as [w [js [C [B Hq]]]]. cbn [concat app] in C. rewrite C. now exists js.
Qed.
Lemma scenes_loop : forall (Q : str -> Prop) e n c dne,
  (forall lines first t i lines' f' t', In i (ch_srtScenes c) -> scene_step e n c dne (lines, first, t) i = Ok (lines', f', t') -> exists w js, concat lines' = concat lines ++ w /\ good n w js /\ (Q i -> In i js)) ->
  forall t scs t', get_scenes e n c dne t = Ok (scs, t') -> exists js, good n (concat scs) js /\ forall i, In i (ch_srtScenes c) -> Q i -> In i js.
Proof.
  intros Q e n c dne Hs t0 scs t0' Hc. unfold get_scenes in Hc.
  assert (G : forall ids lines k t lines' k' t', incl ids (ch_srtScenes c) -> foldM (scene_step e n c dne) ids (lines, k, t) = Ok (lines', k', t') -> exists w js, concat lines' = concat lines ++ w /\ good n w js /\ forall i, In i ids -> Q i -> In i js).
  { induction ids as [|i ids IH]; intros lines k t lines' k' t' Hi E; cbn [foldM] in E.
    - injection E as <- <- <-. exists [], []. split; [now rewrite app_nil_r|]. split; [now apply restores_nil | intros i []].
    - destruct (scene_step e n c dne (lines, k, t) i) as [[[l1 k1] t1]|] eqn:E1; [|discriminate]. cbn [bind] in E. destruct (Hs lines k t i l1 k1 t1 (Hi i (or_introl eq_refl)) E1) as [w1 [j1 [C1 [B1 Q1]]]].
      destruct (IH l1 k1 t1 lines' k' t') as [w2 [j2 [C2 [B2 Q2]]]]; [intros j Hj; apply Hi; now right | exact E|]. exists (w1 ++ w2), (j1 ++ j2). split; [now rewrite C2, C1, app_assoc|].
      split; [exact (restores_app P h other n f f f w1 w2 j1 j2 B1 B2)|]. intros a [<- | Ha] Hq; apply in_or_app; [left; now apply Q1 | right; now apply Q2]. }
  destruct (foldM (scene_step e n c dne) (ch_srtScenes c) ([], true, t0)) as [[[ls k] t]|] eqn:E; [|discriminate]. cbn [bind] in Hc. injection Hc as <- <-.
  destruct (G _ _ _ _ _ _ _ (incl_refl _) E) as [w [js [C [B Hq]]]]. cbn [concat app] in C. rewrite C. now exists js.
Qed.
End Loops.

(** what a chapter contributes to the document *)
Definition emitted (t : option str) (m : dict str) : list str := match t with Some tp => [safe_substitute tp m] | None => [] end.
Lemma not_exported_known : forall n c d, not_exported n (ch_srtScenes c) = Ok d -> d = hidden_chapter n c.
Proof.
  intros n c d E. assert (K : forall i, In i (ch_srtScenes c) -> exists x, dget i (nv_scenes n) = Some x).
  { unfold not_exported in E. okstep E. clear E. rename E0 into E. revert y E. generalize (0, 0). induction (ch_srtScenes c) as [|i ids IH]; intros st y E j Hj; [destruct Hj|]. cbn [foldM] in E. unfold dindex in E at 1.
    destruct (dget i (nv_scenes n)) as [x|] eqn:Hx; [|discriminate]. cbn [bind] in E. destruct Hj as [<- | Hj]; [now exists x | exact (IH _ _ E j Hj)]. }
  rewrite (ExportProofs.not_exported_eq n _ K) in E. injection E as <-. unfold hidden_chapter. now destruct (ch_srtScenes c).
Qed.
Lemma step_emits : forall e n lines k t i lines' k' t', f_chapter e i = true -> chapter_step e n (lines, k, t) i = Ok (lines', k', t') ->
  exists c dne m scs hd tl d, (dget i (nv_chapters n) = Some c /\ dne = hidden_chapter n c) /\ (fst (chapter_template e c dne) <> None -> m_chapter e n i d = Ok m) /\ get_scenes e n c dne t = Ok (scs, t') /\ lines' = lines ++ hd ++ scs ++ tl /\
    hd = emitted (fst (chapter_template e c dne)) m /\ (fst (chapter_template e c dne) = None -> chapter_end_template e c dne = None -> tl = []) /\ (fst (chapter_template e c dne) <> None -> tl = emitted (chapter_end_template e c dne) m).
Proof.
  intros e n lines k t i lines' k' t' Hf E. unfold chapter_step in E. rewrite Hf in E. cbn [negb] in E. unfold dindex in E. destruct (dget i (nv_chapters n)) as [c|] eqn:Hc; [|discriminate]. cbn [bind] in E. okstep E. rename y into dne. apply not_exported_known in E0.
  cbv zeta in E. match type of E with context [m_chapter e n i ?x] => set (d := x) in E; clearbody d end. match type of E with context [Ok (_, ?x, _)] => set (k1 := x) in E; clearbody k1 end. okstep E. okstep E. destruct y0 as [scs t1]. okstep E. injection E as <- <- <-.
  exists c, dne. destruct (chapter_template e c dne) as [tp b]. cbn [fst] in *. destruct tp as [tp|].
  - unfold fill in E1. destruct (m_chapter e n i d) as [m|] eqn:Em; [|discriminate]. cbn [bind] in E1. apply ok_eq in E1. subst y. exists m, scs, [safe_substitute tp m], y0, d. split; [split; [reflexivity | exact E0]|]. split; [intros _; exact Em|]. split; [assumption|]. split; [reflexivity|]. split; [reflexivity|]. split; [discriminate|]. intros _.
    destruct (chapter_end_template e c dne); cbn [emitted]; unfold fill in E3; cbn [bind] in E3; now apply ok_eq in E3.
  - apply ok_eq in E1. subst y. exists [], scs, [], y0, d. split; [split; [reflexivity | exact E0]|]. split; [contradiction|]. split; [assumption|]. split; [reflexivity|]. split; [reflexivity|]. split; [|contradiction]. intros _ Hn. rewrite Hn in E3. now apply ok_eq in E3.
Qed.

(** ** Templates *)
#[local] Notation HEADING l := (s "<text:h text:style-name=""Heading_20_" ++ l ++ s """ text:outline-level=""" ++ l ++ s """>").
Lemma scene_template_text : forall m, safe_substitute OdtWSceneDesc_scene m =
  s "<text:h text:style-name=""Invisible_20_Heading_20_3"" text:outline-level=""3"">" ++ V m (s "Title") ++ s "</text:h>" ++ [10%N] ++
  s "<text:section text:style-name=""Sect1"" text:name=""ScID:" ++ V m (s "ID") ++ s """>" ++ [10%N] ++ s "<text:p text:style-name=""Text_20_body"">" ++ V m (s "Desc") ++ s "</text:p>" ++ [10%N] ++ s "</text:section>" ++ [10%N].
Proof. intro m. unfold V. cbv -[value_or]. reflexivity. Qed.
Lemma appended_template_text : forall m, safe_substitute OdtWSceneDesc_appendedScene m =
  s "<text:h text:style-name=""Invisible_20_Heading_20_3"" text:outline-level=""3"">" ++ V m (s "Title") ++ s "</text:h>" ++ [10%N] ++
  s "<text:section text:style-name=""Sect1"" text:name=""ScID:" ++ V m (s "ID") ++ s """>" ++ [10%N] ++ s "<text:p text:style-name=""First_20_line_20_indent"">" ++ V m (s "Desc") ++ s "</text:p>" ++ [10%N] ++ s "</text:section>" ++ [10%N].
Proof. intro m. unfold V. cbv -[value_or]. reflexivity. Qed.
Lemma part_template_text : forall m, safe_substitute OdtWSceneDesc_part m =
  s "<text:section text:style-name=""Sect1"" text:name=""ChID:" ++ V m (s "ID") ++ s """>" ++ [10%N] ++ s "<text:h text:style-name=""Heading_20_1"" text:outline-level=""1"">" ++ V m (s "Title") ++ s "</text:h>" ++ [10%N].
Proof. intro m. unfold V. cbv -[value_or]. reflexivity. Qed.
Definition VB (m : dict str) (k : str) : str := value_or m k (s "${" ++ k ++ s "}").
Lemma chapter_template_text : forall m, safe_substitute OdtWSceneDesc_chapter m =
  s "<text:section text:style-name=""Sect1"" text:name=""ChID:" ++ V m (s "ID") ++ s """>" ++ [10%N] ++ s "<text:h text:style-name=""Heading_20_2"" text:outline-level=""2"">" ++
  (s "<text:a xlink:href=""" ++ (s "../" ++ VB m (s "ProjectName") ++ s "_manuscript.odt#ChID:" ++ V m (s "ID") ++ s "%7Cregion") ++ s """>") ++ V m (s "Title") ++ s "</text:a>" ++ s "</text:h>" ++ [10%N].
Proof.
  intro m. rewrite <- !app_assoc. unfold V, VB. cbv -[value_or]. reflexivity.
Qed.
Lemma end_template_text : forall m, safe_substitute OdtWSceneDesc_chapterEnd m = s "</text:section>" ++ [10%N].
Proof. reflexivity. Qed.

(** the address of the chapter in the manuscript *)
Definition address (pn i : str) : str := s "../" ++ pn ++ s "_manuscript.odt#ChID:" ++ i ++ s "%7Cregion".
Lemma esc_plain : forall a, Forall (fun c => esc5 c = [c]) a -> xesc a = a.
Proof. intros a H. unfold ManuBlocks.xesc. induction H as [|c a E _ IH]; [reflexivity|]. cbn [flat_map]. now rewrite E, IH. Qed.
Lemma digit_plain : forall i, number_id i = true -> Forall (fun c => esc5 c = [c]) i /\ writable i.
Proof.
  intros i H. destruct i as [|c0 i0]; [discriminate|]. cbn [number_id] in H. set (i := c0 :: i0) in *. clearbody i. rewrite forallb_forall in H.
  assert (K : forall c, In c i -> In c (s "0123456789")).
  { intros c Hc. specialize (H c Hc). unfold is_digit in H. apply andb_true_iff in H as [A B]. apply N.leb_le in A, B. assert (X : (c = 48 \/ c = 49 \/ c = 50 \/ c = 51 \/ c = 52 \/ c = 53 \/ c = 54 \/ c = 55 \/ c = 56 \/ c = 57)%N) by lia.
    cbn. intuition. }
  assert (K2 : forall c, In c i -> esc5 c = [c] /\ xml_char c = true /\ c <> 13%N).
  { intros c Hc. specialize (K c Hc). cbn in K. repeat (destruct K as [<- | K]; [repeat split; discriminate|]). destruct K. }
  split; [apply Forall_forall; intros c Hc; now apply K2 | split; [apply Forall_forall; intros c Hc; now apply K2 | intro I; now destruct (K2 _ I) as [_ [_ X]]]].
Qed.
Lemma address_esc : forall pn i, number_id i = true -> s "../" ++ xesc pn ++ s "_manuscript.odt#ChID:" ++ i ++ s "%7Cregion" = xesc (address pn i).
Proof.
  intros pn i Hi. unfold address, ManuBlocks.xesc. rewrite !flat_map_app. change (flat_map esc5 (s "../")) with (s "../"). change (flat_map esc5 (s "_manuscript.odt#ChID:")) with (s "_manuscript.odt#ChID:"). change (flat_map esc5 (s "%7Cregion")) with (s "%7Cregion").
  pose proof (esc_plain i (proj1 (digit_plain i Hi))) as E. unfold ManuBlocks.xesc in E. now rewrite E.
Qed.
Lemma writable_app : forall a b, writable a -> writable b -> writable (a ++ b).
Proof. intros a b [A1 A2] [B1 B2]. split; [now apply Forall_app | rewrite in_app_iff; tauto]. Qed.
Lemma writable_lit : forall a, forallb xml_char a && negb (existsb (N.eqb 13) a) = true -> writable a.
Proof.
  intros a H. apply andb_true_iff in H as [H1 H2]. apply negb_true_iff in H2. split; [apply Forall_forall; now apply forallb_forall|]. intro I. assert (E : existsb (N.eqb 13) a = true) by (apply existsb_exists; exists 13%N; split; [exact I | reflexivity]). congruence.
Qed.
Lemma address_ok : forall pn i, writable pn -> number_id i = true -> writable (address pn i).
Proof. intros pn i Hp Hi. unfold address. repeat (apply writable_app); try (apply writable_lit; reflexivity); [exact Hp | now apply digit_plain]. Qed.
(** the heading of a chapter with a link *)
Lemma frag_linked : forall pn i t, writable pn -> number_id i = true -> writable t -> exists es,
  frag ((s "<text:a xlink:href=""" ++ (s "../" ++ xesc pn ++ s "_manuscript.odt#ChID:" ++ i ++ s "%7Cregion") ++ s """>") ++ xesc t ++ s "</text:a>") es /\ forallb dull es = true.
Proof.
  intros pn i t Hp Hi Ht. rewrite address_esc by exact Hi. eexists. split; [apply (frag_link (address pn i) (xesc t)); [now apply address_ok | now apply frag_xesc]|]. cbn [forallb]. rewrite forallb_app, dull_chars. reflexivity.
Qed.

Section Reader.
Variable n : novel.
Notation H := scenedesc_reader.
Definition RC (ch : option str) : rs := set_r_chId ch (new_rs n).
Definition titled (ch : option str) : Prop := match ch with None => True | Some i => exists c t, dget i (nv_chapters n) = Some c /\ ch_title c = Some t /\ t <> [] end.
Lemma quiet : forall ch tag, titled ch -> In tag [s "p"; s "h1"; s "h2"; s "h3"; s "h4"] -> heading H tag (same (RC ch)) (RC ch) (RC ch).
Proof.
  intros ch tag Ht Hg. apply quiet_heading.
  - destruct Hg as [<- | [<- | [<- | [<- | [<- | []]]]]]; reflexivity.
  - intro t. cbn [h_data H scenedesc_reader]. unfold sd_data. change (r_scId (RC ch)) with (@None str). change (r_chId (RC ch)) with ch. cbv iota. destruct ch as [i|]; [|reflexivity].
    destruct Ht as [c [t0 [H1 [H2 H3]]]]. apply (ManuRead.same_chapter (RC (Some i)) i c); [exact H1|]. rewrite H2. destruct t0; [contradiction | reflexivity].
  - destruct ch; destruct Hg as [<- | [<- | [<- | [<- | [<- | []]]]]]; reflexivity.
Qed.
(** ** A scene *)
Definition RSc (ch : option str) (j : str) : rs := set_r_scId (Some j) (RC ch).
Lemma collect : forall ch j, collects H (fun t => t) (RSc ch j).
Proof. intros ch j. constructor; intros; reflexivity. Qed.
Lemma set_type_same : forall x, sc_type x = Some 0%N -> set_sc_type (Some 0%N) x = x.
Proof. intros x E. destruct x. cbn in *. now subst. Qed.
Lemma scene_start : forall ch j x, number_id j = true -> dget j (nv_scenes n) = Some x -> sc_type x = Some 0%N ->
  h_start H (s "div") (div_attr (s "ScID:" ++ j)) (RC ch) = Ok (set_r_lines [] (RSc ch j)).
Proof.
  intros ch j x Hj Hx Ht. cbn [h_start H scenedesc_reader]. unfold base_start. change (str_eqb (s "div") (s "div")) with true. cbv iota. cbn [first_attr bind ManuWalk.div_attr]. change (str_eqb (s "id") (s "id")) with true. cbv iota.
  change (prefixb (s "ScID") (s "ScID:" ++ j)) with true. cbv iota. rewrite (proj2 (ManuWalk.number_of j Hj)). cbn [bind].
  change (set_r_scId (Some j) (RC ch)) with (RSc ch j). change (r_novel (RSc ch j)) with n. assert (M : dmem j (nv_scenes n) = true) by (exact (ReadFrame.dget_dmem _ _ _ Hx)). rewrite M. cbn [bind].
  rewrite (ManuWalk.same_scene (RSc ch j) j x); [reflexivity | exact Hx | now apply set_type_same].
Qed.
Lemma chapter_start : forall i c, number_id i = true -> dget i (nv_chapters n) = Some c -> ch_type c = Some 0%N -> h_start H (s "div") (div_attr (s "ChID:" ++ i)) (RC None) = Ok (RC (Some i)).
Proof.
  intros i c Hi Hc Ht. cbn [h_start H scenedesc_reader]. unfold base_start. change (str_eqb (s "div") (s "div")) with true. cbv iota. cbn [first_attr bind ManuWalk.div_attr]. change (str_eqb (s "id") (s "id")) with true. cbv iota.
  change (prefixb (s "ScID") (s "ChID:" ++ i)) with false. change (prefixb (s "ChID") (s "ChID:" ++ i)) with true. cbv iota. rewrite (proj1 (ManuWalk.number_of i Hi)). cbn [bind].
  change (set_r_chId (Some i) (RC None)) with (RC (Some i)). change (r_novel (RC (Some i))) with n. assert (M : dmem i (nv_chapters n) = true) by (exact (ReadFrame.dget_dmem _ _ _ Hc)). rewrite M.
  rewrite (ManuRead.same_chapter (RC (Some i)) i c); [reflexivity | exact Hc |]. destruct c. cbn in *. now subst.
Qed.
End Reader.
(** ** The scenes that a document restores *)
Lemma other_weaken : forall (A B : str -> Prop) n m, (forall i, A i -> B i) -> other_scenes A n m -> other_scenes B n m.
Proof. exact (others_weaken redescribed_scene nv_scenes set_nv_scenes). Qed.
Lemma other_end : forall n m, other_scenes (fun i => In i []) n m -> m = n.
Proof. exact (others_end redescribed_scene nv_scenes set_nv_scenes (proj2 (proj2 scenes_laws))). Qed.
Lemma other_same : forall P n m, other_scenes P n m -> nv_chapters m = nv_chapters n.
Proof. intros P n m [d [-> _]]. now destruct n. Qed.
Lemma other_titled : forall P n m ch, other_scenes P n m -> titled n ch -> titled m ch.
Proof. intros P n m ch O H. destruct ch as [i|]; [|exact I]. unfold titled in *. now rewrite (other_same P n m O). Qed.
Lemma other_scene : forall P n m j x, other_scenes P n m -> dget j (nv_scenes n) = Some x -> exists y, dget j (nv_scenes m) = Some y /\ sc_type y = sc_type x /\ forall t, sc_desc x = Some t -> set_sc_desc (Some t) y = x.
Proof.
  intros P n m j x O Hx. destruct (others_get (A:=scene) (R:=redescribed_scene) (get:=nv_scenes) (put:=set_nv_scenes) (proj1 scenes_laws) O Hx) as [y [Hy K]].
  exists y. split; [exact Hy|]. destruct K as [-> | [u ->]]; (split; [now destruct x|]; intros t E; destruct x; cbn in *; now subst).
Qed.
Lemma other_set : forall j x todo n m, NoDup (map fst (nv_scenes n)) -> dget j (nv_scenes n) = Some x -> other_scenes (fun i => In i (j :: todo)) n m -> other_scenes (fun i => In i todo) n (set_nv_scenes (dset j x (nv_scenes m)) m).
Proof. intros j x todo n m. exact (others_set (R:=redescribed_scene) (get:=nv_scenes) (put:=set_nv_scenes) (proj1 scenes_laws) (proj1 (proj2 scenes_laws))). Qed.
Section Scenes.
Variables (tr : str -> str) (pn pp : option str) (n : novel).
Hypothesis Hname : headline pn.
Hypothesis Hkeys : NoDup (map fst (nv_scenes n)).
Notation X := (OdtWSceneDesc tr pn pp).
Notation H := scenedesc_reader.
Notation R ch := (fun m0 : novel => RC m0 ch).
Notation good ch w js := (restores anyhow H other_scenes n (R ch) (R ch) w js).
Lemma quiet_good : forall ch w, (forall m, other_scenes (fun _ => True) n m -> block anyhow H (RC m ch) w) -> good ch w [].
Proof. intros ch w Hw. apply (restores_quiet anyhow H other_scenes other_weaken n (R ch) w). exact Hw. Qed.
Lemma scene_end : forall m ch j x y t L, dget j (nv_scenes m) = Some y -> set_sc_desc (Some t) y = x -> rstrip t = t -> prefixb (s "/*") t = false -> concat L = t ++ [10%N] ->
  h_end H (Some (s "div")) (set_r_lines L (RSc m ch j)) = Ok (RC (set_nv_scenes (dset j x (nv_scenes m)) m) ch).
Proof.
  intros m ch j x y t L Hy Hd Hr Hp E. cbn [h_end H scenedesc_reader]. unfold sd_end. change (r_scId (set_r_lines L (RSc m ch j))) with (Some j). cbv iota. change (tag_is (Some (s "div")) (s "div")) with true. cbv iota.
  change (r_lines (set_r_lines L (RSc m ch j))) with L. cbv zeta. rewrite E.
  assert (Pf : prefixb COMMENT_START (t ++ [10%N]) = false).
  { unfold COMMENT_START. destruct t as [|a [|b t]]; [reflexivity | | ].
    - cbn [prefixb app]. change (prefixb (s "/*") [a; 10%N]) with (N.eqb 47 a && false)%bool. apply andb_false_r.
    - exact Hp. }
  rewrite Pf. unfold on_scene. cbn [key bind]. unfold dindex. change (r_novel (set_r_lines L (RSc m ch j))) with m. rewrite Hy. cbn [bind]. rewrite ManuClean.rstrip_feed, Hr, Hd. reflexivity.
Qed.
Definition scene_texts (j st t d : str) : str := (head_text (s "Invisible_20_Heading_20_3") (s "3") (xesc t) ++ [10%N]) ++ (section_text (s "ScID:" ++ j) ([10%N] ++ [] ++ para_text st (br d) ++ [10%N]) ++ [10%N]).
Lemma scene_joined : forall j st t w, 
  s "<text:h text:style-name=""Invisible_20_Heading_20_3"" text:outline-level=""3"">" ++ xesc t ++ s "</text:h>" ++ [10%N] ++
  s "<text:section text:style-name=""Sect1"" text:name=""ScID:" ++ j ++ s """>" ++ [10%N] ++ (s "<text:p text:style-name=""" ++ st ++ s """>") ++ br w ++ s "</text:p>" ++ [10%N] ++ s "</text:section>" ++ [10%N] = scene_texts j st t w.
Proof.
  intros. unfold scene_texts, head_text, ManuBlocks.section_text, ManuBlocks.para_text, tag_text, attr_text, ManuWalk.heading_attrs, ManuWalk.section_attrs, ManuWalk.para_attrs, closing_text. cbn [flat_map fst snd]. rewrite <- !app_assoc. cbn [app]. rewrite <- ?app_assoc. reflexivity.
Qed.
Lemma scene_block : forall ch j x st, titled n ch -> number_id j = true -> dget j (nv_scenes n) = Some x -> scene_describable n x -> sc_type x = Some 0%N -> body_style st ->
  good ch (scene_texts j st (otext (sc_title x)) (otext (sc_desc x))) [j].
Proof.
  intros ch j x st Hc Hj Hx [_ Ht Hd] T0 Hs. destruct (Hd T0) as [d [Ed [[Wd Rd] Pd]]]. rewrite Ed. cbn [otext]. unfold scene_texts. apply (restores_app anyhow H other_scenes n (R ch) (R ch) (R ch) _ _ [] [j]).
  - apply quiet_good. intros m O. eapply block_head; [reflexivity | reflexivity | apply frag_xesc; now apply headline_text | apply dull_chars | apply quiet; [exact (other_titled _ n m ch O Hc) | right; right; right; now left]].
  - intros todo m O. destruct (other_scene _ n m j x O Hx) as [y [Hy [Ty Sy]]]. specialize (Sy d Ed). exists (set_nv_scenes (dset j x (nv_scenes m)) m). split; [now apply other_set|].
    apply (moves_desc anyhow H (fun t => t) (fun t _ => eq_refl) eq_refl (s "ScID:" ++ j) (RC m ch) _ (RSc m ch j)); [now apply number_style | now apply (scene_start m ch j y); [| | rewrite Ty] | apply block_nil | apply collect | exact Hs | exact Wd | apply Forall_forall; reflexivity |].
    intros L E. now apply (scene_end m ch j x y d).
Qed.
Lemma scene_map : forall j x k a b m, dget j (nv_scenes n) = Some x -> scenedesc_scene tr pn pp n j k a b = Ok m ->
  V m (s "ID") = j /\ V m (s "Title") = xesc (otext (sc_title x)) /\ V m (s "Desc") = br (otext (sc_desc x)).
Proof.
  intros j x k a b m Hx E. unfold scenedesc_scene, odt_scene in E. okstep E. okstep E0. apply ok_eq in E0. apply ok_eq in E. subst y m. unfold sceneMapping in E1. unfold dindex in E1. rewrite Hx in E1. cbn [bind] in E1. okstep E1. okstep E1.
  destruct (mapping_get _ _ E1 (s "ID") _ eq_refl) as [v1 [A1 G1]]. destruct (mapping_get _ _ E1 (s "Title") _ eq_refl) as [v2 [A2 G2]]. destruct (mapping_get _ _ E1 (s "Desc") _ eq_refl) as [v3 [A3 G3]].
  unfold odt_conv in A2, A3. apply ok_eq in A1, A2, A3. rewrite conv_quick in A2. rewrite conv_long in A3. rewrite A1, A2, A3.
  repeat split; apply value_get; rewrite !dget_dset_other by discriminate; assumption.
Qed.
Lemma divider_text : OdtWSceneDesc_divider = para_text (s "Heading_20_4") (s "* * *") ++ [10%N].
Proof. reflexivity. Qed.
Lemma step_block : forall c dne ch lines first t j lines' f' t', titled n ch -> (forall x, dget j (nv_scenes n) = Some x -> number_id j = true /\ scene_describable n x) ->
  scene_step X n c dne (lines, first, t) j = Ok (lines', f', t') -> exists w js, concat lines' = concat lines ++ w /\ good ch w js /\ (written c dne (scene_of n j) -> In j js).
Proof.
  intros c dne ch lines first t j lines' f' t' Hc Hj E.
  assert (None_ : ~ written c dne (scene_of n j) -> forall f0 t0, Ok (lines, f0, t0) = Ok (lines', f', t') -> exists w js, concat lines' = concat lines ++ w /\ good ch w js /\ (written c dne (scene_of n j) -> In j js)).
  { intros X1 f0 t0 X0. injection X0 as <- <- <-. exists [], []. split; [now rewrite app_nil_r|]. split; [apply restores_nil; exact other_weaken | contradiction]. }
  unfold scene_step in E. change (f_scene X j) with true in E. cbn [negb] in E. unfold dindex in E. destruct (dget j (nv_scenes n)) as [x|] eqn:Hx; [|discriminate]. cbn [bind] in E. destruct (Hj x eq_refl) as [Hi Hs]. assert (Es : scene_of n j = x) by (unfold scene_of; now rewrite Hx). rewrite Es in *. unfold written, raw_code in None_ |- *. unfold scene_template in E.
  destruct (is_type (sc_type x) 2) eqn:T2; [refine (None_ _ _ _ E); intuition discriminate|]. destruct (is_type (sc_type x) 1) eqn:T1; [refine (None_ _ _ _ E); intuition discriminate|]. destruct (is_type (sc_type x) 3) eqn:T3; [refine (None_ _ _ _ E); intuition discriminate|]. cbn [orb] in E.
  destruct (is_type (ch_type c) 3); [refine (None_ _ _ _ E); intuition discriminate|]. destruct (flag (sc_doNotExport x) || dne)%bool; [refine (None_ _ _ _ E); intuition discriminate|].
  destruct (prefixb (s "<HTML>") _) eqn:P1; [refine (None_ _ _ _ E); intros [_ [_ [_ [_ [_ Rw]]]]]; (destruct (sc_content x); [|discriminate P1]); rewrite P1 in Rw; discriminate Rw|]. destruct (prefixb (s "<TEX>") _) eqn:P2; [refine (None_ _ _ _ E); intros [_ [_ [_ [_ [_ Rw]]]]]; (destruct (sc_content x); [|discriminate P2]); rewrite P2 in Rw; now rewrite orb_true_r in Rw|]. clear None_.
  pose proof (type_cases _ (sd_type _ _ Hs) T2 T1 T3) as T0. cbv iota zeta in E. change (truthy (t_firstScene X)) with false in E. rewrite andb_false_r in E. change (m_scene X) with (scenedesc_scene tr pn pp) in E.
  match type of E with context [fill ?tp _] => set (tpl := tp) in E end.
  assert (Htpl : tpl = OdtWSceneDesc_scene \/ tpl = OdtWSceneDesc_appendedScene) by (unfold tpl; destruct (_ && _)%bool; [right | left]; reflexivity). clearbody tpl.
  unfold fill in E. okstep E. okstep E0. apply ok_eq in E0. destruct (scene_map _ _ _ _ _ _ Hx E1) as [M1 [M2 M3]].
  assert (B : good ch y [j]).
  { subst y. destruct Htpl as [-> | ->]; [rewrite scene_template_text | rewrite appended_template_text]; rewrite M1, M2, M3.
    - change (s "<text:p text:style-name=""Text_20_body"">") with (s "<text:p text:style-name=""" ++ s "Text_20_body" ++ s """>"). rewrite scene_joined. apply scene_block; try assumption. now left.
    - change (s "<text:p text:style-name=""First_20_line_20_indent"">") with (s "<text:p text:style-name=""" ++ s "First_20_line_20_indent" ++ s """>"). rewrite scene_joined. apply scene_block; try assumption. right. now left. }
  change (t_divider X) with OdtWSceneDesc_divider in E. clear E1 M1 M2 M3. destruct (negb (first || flag (sc_appendToPrev x))); injection E as <- <- <-.
  - exists (OdtWSceneDesc_divider ++ y), [j]. split; [rewrite !concat_app; cbn [concat]; now rewrite !app_nil_r, <- app_assoc|]. split; [|intros _; now left]. apply (restores_app anyhow H other_scenes n (R ch) (R ch) (R ch) _ _ [] [j]); [|exact B].
    apply quiet_good. intros m O. rewrite divider_text. eapply block_divider.
    + apply (frag_xesc (s "* * *")). apply writable_lit. reflexivity.
    + apply dull_chars.
    + apply quiet; [exact (other_titled _ n m ch O Hc) | do 4 right; now left].
  - exists y, [j]. split; [rewrite concat_app; cbn [concat]; now rewrite app_nil_r|]. split; [exact B | intros _; now left].
Qed.
(** ** A chapter *)
Lemma chapter_map : forall i c k m, dget i (nv_chapters n) = Some c -> chapterMapping odt_conv pn pp n i k = Ok m ->
  V m (s "ID") = i /\ V m (s "Title") = xesc (otext (ch_title c)) /\ V m (s "Desc") = br (otext (ch_desc c)) /\ VB m (s "ProjectName") = xesc (otext pn).
Proof.
  intros i c k m Hc E. unfold chapterMapping in E. unfold dindex in E. rewrite Hc in E. cbn [bind] in E.
  destruct (mapping_get _ _ E (s "ID") _ eq_refl) as [v1 [A1 G1]]. destruct (mapping_get _ _ E (s "Title") _ eq_refl) as [v2 [A2 G2]]. destruct (mapping_get _ _ E (s "Desc") _ eq_refl) as [v3 [A3 G3]]. destruct (mapping_get _ _ E (s "ProjectName") _ eq_refl) as [v4 [A4 G4]].
  unfold odt_conv in A2, A3, A4. apply ok_eq in A1, A2, A3, A4. rewrite conv_quick in A2, A4. rewrite conv_long in A3. rewrite A1, A2, A3, A4. repeat split; apply value_get; assumption.
Qed.
Lemma chapter_joined : forall i l w1 w2, 
  (s "<text:section text:style-name=""Sect1"" text:name=""ChID:" ++ i ++ s """>" ++ [10%N] ++ HEADING l ++ w1 ++ s "</text:h>" ++ [10%N]) ++ w2 ++ (s "</text:section>" ++ [10%N]) =
  section_text (s "ChID:" ++ i) ([10%N] ++ (head_text (s "Heading_20_" ++ l) l w1 ++ [10%N]) ++ w2) ++ [10%N].
Proof.
  intros. unfold head_text, ManuBlocks.section_text, tag_text, attr_text, ManuWalk.heading_attrs, ManuWalk.section_attrs, closing_text. cbn [flat_map fst snd]. rewrite <- !app_assoc. cbn [app]. rewrite <- ?app_assoc. reflexivity.
Qed.
Lemma chapter_block : forall i c l w1 es w2 js, number_id i = true -> dget i (nv_chapters n) = Some c -> ch_type c = Some 0%N -> titled n (Some i) -> In l [s "1"; s "2"] -> frag w1 es -> forallb dull es = true -> good (Some i) w2 js ->
  good None (section_text (s "ChID:" ++ i) ([10%N] ++ (head_text (s "Heading_20_" ++ l) l w1 ++ [10%N]) ++ w2) ++ [10%N]) js.
Proof.
  intros i c l w1 es w2 js Hi Hc Ht Hd Hl F D B.
  apply (restores_section anyhow H other_scenes other_weaken n (s "ChID:" ++ i) (R None) (R (Some i)) (R (Some i)) (R None)); [now apply number_style | | | reflexivity].
  - intros m O. apply (chapter_start m i c Hi); [now rewrite (other_same _ n m O) | exact Ht].
  - apply (restores_app anyhow H other_scenes n (R (Some i)) (R (Some i)) (R (Some i)) _ _ [] js); [|exact B]. apply quiet_good. intros m O.
    eapply block_head; [destruct Hl as [<- | [<- | []]]; reflexivity | destruct Hl as [<- | [<- | []]]; reflexivity | exact F | exact D |]. apply quiet; [exact (other_titled _ n m (Some i) O Hd)|]. destruct Hl as [<- | [<- | []]]; [right; now left | right; right; now left].
Qed.
Lemma chapter_step_block : scenes_ok pn n -> forall lines k t i lines' k' t', In i (nv_srtChapters n) -> chapter_step X n (lines, k, t) i = Ok (lines', k', t') -> exists w js, concat lines' = concat lines ++ w /\ good None w js /\ forall j, in_chapter n i j -> In j js.
Proof.
  intros [_ Hch] lines k t i lines' k' t' Hin E. destruct (step_emits X n lines k t i lines' k' t' eq_refl E) as [c [dne [m [scs [hd [tl [k0 [[Hc Ed] [Hm [Hg [-> [Hhd [Htl0 Htl]]]]]]]]]]]]].
  destruct (Hch i c Hin Hc) as [Hi [Hty [[ti [Hti [Wt Nt]]] Hsc]]]. assert (Hd : titled n (Some i)) by (exists c, ti; repeat split; assumption).
  assert (Scs : forall ch, titled n ch -> exists js, good ch (concat scs) js /\ forall j, in_chapter n i j -> In j js).
  { intros ch Hch2. destruct (scenes_loop anyhow H other_scenes other_weaken (R ch) (fun j => written c dne (scene_of n j)) X n c dne) with (2 := Hg) as [js [B Q]].
    - intros ls fi tt j ls' fi' tt' Hj G2. apply (step_block c dne ch ls fi tt j ls' fi' tt' Hch2); [|exact G2]. intros x Hx. now apply (Hsc j x).
    - exists js. split; [exact B|]. intros j Hj. destruct (in_written n i j c Hc Hj) as [J1 J2]. apply Q; [exact J1|]. rewrite Ed. exact J2. }
  assert (Plain : hd = [] -> tl = [] -> exists w js, concat (lines ++ hd ++ scs ++ tl) = concat lines ++ w /\ good None w js /\ forall j, in_chapter n i j -> In j js).
  { intros -> ->. destruct (Scs None I) as [js [B Q]]. exists (concat scs), js. split; [cbn [app]; now rewrite !concat_app, app_nil_r | now split]. }
  unfold chapter_template in Hhd, Htl0, Htl, Hm. unfold chapter_end_template in Htl0, Htl.
  destruct (is_type (ch_type c) 2) eqn:T2; [destruct (is_type (ch_level c) 1); exact (Plain Hhd (Htl0 eq_refl eq_refl))|]. destruct (is_type (ch_type c) 1) eqn:T1; [destruct (is_type (ch_level c) 1); exact (Plain Hhd (Htl0 eq_refl eq_refl))|]. destruct (is_type (ch_type c) 3) eqn:T3; [exact (Plain Hhd (Htl0 eq_refl eq_refl))|].
  destruct dne; [exact (Plain Hhd (Htl0 eq_refl eq_refl))|]. pose proof (type_cases _ Hty T2 T1 T3) as T0. change (truthy (t_part X)) with true in Hhd, Hm, Htl. rewrite andb_true_r in Hhd, Hm, Htl. change (m_chapter X) with (chapterMapping odt_conv pn pp) in Hm.
  change (t_part X) with OdtWSceneDesc_part in Hhd. change (t_chapter X) with OdtWSceneDesc_chapter in Hhd. change (if_given (t_chapterEnd X)) with (Some OdtWSceneDesc_chapterEnd) in Htl.
  assert (Em : chapterMapping odt_conv pn pp n i k0 = Ok m) by (apply Hm; destruct (is_type (ch_level c) 1); discriminate). destruct (chapter_map i c _ _ Hc Em) as [M1 [M2 [_ M4]]].
  assert (Etl : tl = [safe_substitute OdtWSceneDesc_chapterEnd m]) by (apply Htl; destruct (is_type (ch_level c) 1); discriminate). clear Htl Htl0 Hm Plain. destruct (Scs (Some i) Hd) as [js [B Q]]. rewrite Hti in M2. cbn [otext] in M2.
  exists (concat hd ++ concat scs ++ concat tl), js. split; [now rewrite !concat_app|]. split; [|exact Q]. rewrite Hhd, Etl. destruct (is_type (ch_level c) 1); cbn [fst emitted concat]; rewrite !app_nil_r, end_template_text.
  - rewrite part_template_text, M1, M2. change (s "<text:h text:style-name=""Heading_20_1"" text:outline-level=""1"">") with (s "<text:h text:style-name=""Heading_20_" ++ s "1" ++ s """ text:outline-level=""" ++ s "1" ++ s """>"). rewrite chapter_joined.
    eapply (chapter_block i c); [assumption..| now left | now apply frag_xesc | apply dull_chars | exact B].
  - rewrite chapter_template_text, M1, M2, M4. change (s "<text:h text:style-name=""Heading_20_2"" text:outline-level=""2"">") with (s "<text:h text:style-name=""Heading_20_" ++ s "2" ++ s """ text:outline-level=""" ++ s "2" ++ s """>").
    destruct (frag_linked (otext pn) i ti (headline_text pn Hname) Hi Wt) as [es [F D]].
    match goal with |- restores _ _ _ _ _ _ ?w _ => replace w with (section_text (s "ChID:" ++ i) ([10%N] ++ (head_text (s "Heading_20_" ++ s "2") (s "2") ((s "<text:a xlink:href=""" ++ (s "../" ++ xesc (otext pn) ++ s "_manuscript.odt#ChID:" ++ i ++ s "%7Cregion") ++ s """>") ++ xesc ti ++ s "</text:a>") ++ [10%N]) ++ concat scs) ++ [10%N]) end.
    + eapply (chapter_block i c); [assumption..| right; now left | exact F | exact D | exact B].
    + rewrite <- chapter_joined. rewrite <- !app_assoc. reflexivity.
Qed.
End Scenes.
