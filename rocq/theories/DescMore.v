(** Documents with descriptions: from the parts to the whole. *)
From Coq Require Import String List NArith ZArith Bool Lia Arith.
From Verif Require Import SpecExport SpecRetext SpecRedesc Redesc Written.
From Verif Require Import PyStr PyDict YwText YwTextProofs NovelModel NovelOps OdfXml OdfXmlProofs OdfLex OdtText OdtTextProofs OdtTextProofs2 SpecOdf SpecManuscript SpecDesc
  OdsTree OdsRoundTrip OdsRoundTrip2 OdsRoundTrip3 Template Templates OdtRead XmlTags FormatXml4 DescEngine DescBlocks Export Descriptions ManuExport DescDoc DescScenes ReadFrame ReadFrame2.
From Verif Require ManuDoc ManuBlocks ManuRead ManuWalk ManuClean ConfigProofs.
Import ListNotations.

Lemma scenes_empty : forall e n c d t r, (forall x f, empty_or_none (fst (scene_template e c x d f))) -> t_firstScene e = [] -> t_divider e = [] -> get_scenes e n c d t = Ok r -> concat (fst r) = [].
Proof.
  intros e n c d t r B1 B2 B3 H. unfold get_scenes in H.
  assert (G : forall ids lines first t st, concat lines = [] -> foldM (scene_step e n c d) ids (lines, first, t) = Ok st -> concat (fst (fst st)) = []).
  { clear H t r. induction ids as [|i ids IH]; intros lines first t st L H; cbn [foldM] in H; [injection H as <-; exact L|].
    destruct (scene_step e n c d (lines, first, t) i) as [[[l1 f1] t1]|] eqn:E; cbn [bind] in H; [|discriminate].
    apply (IH l1 f1 t1 st); [|exact H]. unfold scene_step in E. destruct (negb (f_scene e i)); [now injection E as <- _ _|].
    destruct (dindex i (nv_scenes n)) as [x|]; cbn [bind] in E; [|discriminate]. pose proof (B1 x first) as S.
    destruct (scene_template e c x d first) as [[tpl|] num]; [|now injection E as <- _ _]. cbn [fst] in S. destruct S as [S|S]; [discriminate|]. injection S as ->.
    rewrite B2 in E. cbn [truthy] in E. rewrite andb_false_r in E. cbv zeta in E. rewrite B3 in E.
    destruct (fill [] _) as [b|] eqn:F; cbn [bind] in E; [|discriminate]. apply fill_nil in F. subst b. injection E as <- _ _. apply concat_empty_app; [|reflexivity].
    destruct (negb (first || flag (sc_appendToPrev x))); [apply concat_empty_app; [exact L | reflexivity] | exact L]. }
  destruct (foldM (scene_step e n c d) (ch_srtScenes c) ([], true, t)) as [[[l f] t']|] eqn:E; cbn [bind] in H; [|discriminate]. injection H as <-. cbn [fst].
  exact (G (ch_srtScenes c) [] true t _ eq_refl E).
Qed.
Lemma block_empty : forall P h r (l : list str), concat l = [] -> block P h r (concat l).
Proof. intros P h r l ->. apply block_nil. Qed.
(** Q: the elements the document restores *)
Lemma desc_document : forall P h (other : (str -> Prop) -> novel -> novel -> Prop) (Q : str -> Prop) e n name doc,
  (forall (A B : str -> Prop) n m, (forall i, A i -> B i) -> other A n m -> other B n m) -> (forall n m, other (fun i => In i []) n m -> m = n) ->
  get_text e n = Ok doc -> t_fileHeader e = OdtWSceneDesc_fileHeader -> m_fileHeader e = fileHeaderMapping odt_conv -> t_fileFooter e = ManuDoc.FOOT ->
  header_ok name n -> (forall m, other (fun _ => True) n m -> heading h (s "p") (same (new_rs m)) (new_rs m) (new_rs m)) ->
  (forall c p l i, get_chapters e n = Ok c -> get_characters e n = Ok p -> get_locations e n = Ok l -> get_items e n = Ok i ->
     exists g js, (forall m, r_novel (g m) = m) /\ restores P h other n (fun m => new_rs m) g (concat c ++ concat p ++ concat l ++ concat i) js /\ forall j, Q j -> In j js) -> t_projectNote e = [] ->
  forall m, other Q n m ->
  exists es, sax doc = Some es /\ forall opening es', foldM (handle h) opening (new_rs m) = Ok (new_rs m) -> deliver_by P es es' -> read_plain h opening es' m = Ok n.
Proof.
  intros P h other Q e n name doc Ow Oe H Hh Hm Hf [Ht [Ha _]] Hp B Hn m O. destruct (text_parts _ _ _ H) as [hd [c [p [l [i [o [E1 [E2 [E3 [E4 [E5 [E6 ->]]]]]]]]]]]].
  destruct (B c p l i E2 E3 E4 E5) as [g [js [Hg [R HQ]]]].
  unfold get_fileHeader, fill in E1. rewrite Hh, Hm in E1. okstep E1. apply ok_eq in E1. subst hd. destruct (header_block P h n y E Ht Ha) as [w [Ew Bw]]. rewrite Ew, Hf, (empty_notes e n o Hn E6). cbn [app].
  replace ((DECL ++ HEADD ++ w) ++ concat c ++ concat p ++ concat l ++ concat i ++ ManuDoc.FOOT) with (DECL ++ HEADD ++ (w ++ (concat c ++ concat p ++ concat l ++ concat i)) ++ ManuDoc.FOOT) by (now rewrite <- !app_assoc).
  apply (document_restored P h other Oe n g _ js); [|exact Hg | now apply (Ow Q)].
  apply (restores_app P h other n (fun m => new_rs m) (fun m => new_rs m) g w _ [] js); [|exact R]. apply (restores_quiet P h other Ow). intros m1 O1. apply Bw. now apply Hp.
Qed.
Lemma only : forall (c p l i : list str), concat p = [] -> concat l = [] -> concat i = [] -> concat c ++ concat p ++ concat l ++ concat i = concat c.
Proof. intros c p l i -> -> ->. now rewrite !app_nil_r. Qed.
Lemma opening_parts : forall h n (styles : option (option str * option str)) (title author desc : option str),
  (forall a b, styles = Some (a, b) -> h_start h (s "body") [Some (s "language", a); Some (s "country", b)] (new_rs n) = Ok (new_rs n)) ->
  h_start h (s "title") [None] (new_rs n) = Ok (new_rs n) -> (forall t, h_data h t (new_rs n) = Ok (new_rs n)) -> h_end h (Some (s "title")) (new_rs n) = Ok (new_rs n) ->
  (forall a, h_start h (s "meta") a (new_rs n) = Ok (new_rs n)) ->
  foldM (handle h) (opening_calls styles title author desc) (new_rs n) = Ok (new_rs n).
Proof.
  intros h n styles title author desc H1 H2 H3 H4 H5. unfold opening_calls.
  assert (A : forall cs r, foldM (handle h) cs r = Ok r -> forall ds, foldM (handle h) (cs ++ ds) r = foldM (handle h) ds r) by (intros cs r E ds; rewrite ConfigProofs.foldM_app, E; reflexivity).
  rewrite A. rewrite A. rewrite A.
  - destruct desc as [[|]|]; try reflexivity. cbn [foldM handle]. now rewrite H5.
  - destruct author as [[|]|]; try reflexivity. cbn [foldM handle]. now rewrite H5.
  - destruct title as [[|]|]; try reflexivity. cbn [foldM handle bind]. rewrite H2. cbn [bind]. rewrite H3. cbn [bind]. now rewrite H4.
  - destruct styles as [[a b]|]; [|reflexivity]. cbn [foldM handle]. now rewrite (H1 a b eq_refl).
Qed.
Lemma base_opening : forall e d n styles title author desc, (forall t, d t (new_rs n) = Ok (new_rs n)) -> e (Some (s "title")) (new_rs n) = Ok (new_rs n) ->
  foldM (handle (mkReader (base_start 0) e d base_comment)) (opening_calls styles title author desc) (new_rs n) = Ok (new_rs n).
Proof.
  intros e d n styles title author desc Hd He. apply opening_parts; try assumption; reflexivity.
Qed.

(** ** Scene descriptions *)
Theorem scenes_back : forall tr pn pp n doc, NoDup (map fst (nv_scenes n)) -> scenes_ok pn n -> get_text (OdtWSceneDesc tr pn pp) n = Ok doc ->
  forall m, other_scenes (in_document n) n m ->
  exists es, sax doc = Some es /\ forall es' styles title author desc, deliver_by anyhow es es' ->
    read_plain scenedesc_reader (opening_calls styles title author desc) es' m = Ok n.
Proof.
  intros tr pn pp n doc ND Hok H m O.
  destruct (desc_document anyhow scenedesc_reader other_scenes (in_document n) (OdtWSceneDesc tr pn pp) n pn doc DescScenes.other_weaken DescScenes.other_end H) with (m := m) as [es [E K]]; try reflexivity; try apply (dso_header _ _ Hok); try exact O.
  - intros m1 _. exact (quiet m1 None (s "p") I (or_introl eq_refl)).
  - intros c p l i Hc Hp Hl Hi. apply empty_elements in Hp. apply empty_elements in Hl. apply empty_elements in Hi. rewrite (only c p l i Hp Hl Hi).
    destruct (chapters_loop anyhow scenedesc_reader other_scenes DescScenes.other_weaken (fun m => RC m None) (in_chapter n) (OdtWSceneDesc tr pn pp) n) with (2 := Hc) as [js [B HQ]].
    + intros lines k t x lines' k' t' Hin Hs. exact (chapter_step_block tr pn pp n (proj2 (proj2 (dso_header _ _ Hok))) ND Hok lines k t x lines' k' t' Hin Hs).
    + exists (fun m => RC m None), js. split; [reflexivity|]. split; [exact B|]. intros j [ch [H1 [H2 H3]]]. apply (HQ ch j H1). now split.
  - exists es. split; [exact E|]. intros es' styles title author desc D. apply K; [|exact D]. apply base_opening; reflexivity.
Qed.

(** ** Chapter and part descriptions *)
Notation trim := strip.
Lemma trimmed_strip : forall t, trimmed t -> strip t = t.
Proof. intros t H. exact H. Qed.
(** the chapters that a document restores *)
Lemma cother_weaken : forall (A B : str -> Prop) n m, (forall i, A i -> B i) -> other_chapters A n m -> other_chapters B n m.
Proof. exact (others_weaken redescribed_chapter nv_chapters set_nv_chapters). Qed.
Lemma cother_end : forall n m, other_chapters (fun i => In i []) n m -> m = n.
Proof. exact (others_end redescribed_chapter nv_chapters set_nv_chapters (proj2 (proj2 chapters_laws))). Qed.
Lemma cother_get : forall P n m i c, other_chapters P n m -> dget i (nv_chapters n) = Some c ->
  exists y, dget i (nv_chapters m) = Some y /\ ch_type y = ch_type c /\ ch_title y = ch_title c /\ forall t, ch_desc c = Some t -> set_ch_desc (Some t) y = c.
Proof.
  intros P n m i c O Hx. destruct (others_get (A:=chapter) (R:=redescribed_chapter) (get:=nv_chapters) (put:=set_nv_chapters) (proj1 chapters_laws) O Hx) as [y [Hy K]].
  exists y. split; [exact Hy|]. destruct K as [-> | [u ->]]; (split; [now destruct c|]); (split; [now destruct c|]); intros t E; destruct c; cbn in *; now subst.
Qed.
Lemma cother_set : forall j x todo n m, NoDup (map fst (nv_chapters n)) -> dget j (nv_chapters n) = Some x -> other_chapters (fun i => In i (j :: todo)) n m -> other_chapters (fun i => In i todo) n (set_nv_chapters (dset j x (nv_chapters m)) m).
Proof. intros j x todo n m. exact (others_set (R:=redescribed_chapter) (get:=nv_chapters) (put:=set_nv_chapters) (proj1 chapters_laws) (proj1 (proj2 chapters_laws))). Qed.
Section ChapterReader.
Variable n : novel.
Notation H := chapterdesc_reader.
Lemma quiet_outside : forall tag, In tag [s "p"; s "h1"; s "h2"] -> heading H tag (same (RC n None)) (RC n None) (RC n None).
Proof.
  intros tag Hg. apply quiet_heading; [destruct Hg as [<- | [<- | [<- | []]]]; reflexivity | reflexivity | destruct Hg as [<- | [<- | [<- | []]]]; reflexivity].
Qed.
Lemma collect_chapter : forall i, collects H strip (RC n (Some i)).
Proof. intro i. constructor; intros; reflexivity. Qed.
Lemma desc_start : forall i c, number_id i = true -> dget i (nv_chapters n) = Some c -> ch_type c = Some 0%N -> h_start H (s "div") (ManuWalk.div_attr (s "ChID:" ++ i)) (RC n None) = Ok (set_r_lines [] (RC n (Some i))).
Proof. intros i c Hi Hc Ht. exact (chapter_start n i c Hi Hc Ht). Qed.
Lemma inner_heading : forall i c l, dget i (nv_chapters n) = Some c -> given (fun t => writable t /\ not_empty t) (ch_title c) -> In l [s "1"; s "2"] ->
  heading H (s "h" ++ l) (fun r => exists L, r = set_r_lines L (RC n (Some i))) (set_r_lines [] (RC n (Some i))) (set_r_lines [] (RC n (Some i))).
Proof.
  intros i c l Hc [t [Ht [_ Nt]]] Hl. constructor.
  - exists (set_r_lines [] (RC n (Some i))). split; [destruct Hl as [<- | [<- | []]]; reflexivity | now exists []].
  - intros u r1 [L ->]. eexists. split; [reflexivity|]. now exists (L ++ [strip u]).
  - intros r1 [L ->].
    assert (E : h_end H (Some (s "h" ++ l)) (set_r_lines L (RC n (Some i))) = do st <- on_chapter (Some i) (fun c => if otruthy (ch_title c) then c else set_ch_title (Some (concat L)) c) (set_r_lines L (RC n (Some i))); Ok (set_r_lines [] st)) by (destruct Hl as [<- | [<- | []]]; reflexivity).
    refine (eq_trans E _). rewrite (ManuRead.same_chapter (set_r_lines L (RC n (Some i))) i c); [reflexivity | exact Hc|]. rewrite Ht. destruct t; [contradiction | reflexivity].
Qed.
End ChapterReader.
Lemma desc_end : forall m i x y t L, dget i (nv_chapters m) = Some y -> set_ch_desc (Some t) y = x -> rstrip t = t -> concat L = t ++ [10%N] ->
  h_end chapterdesc_reader (Some (s "div")) (set_r_lines L (RC m (Some i))) = Ok (RC (set_nv_chapters (dset i x (nv_chapters m)) m) None).
Proof.
  intros m i x y t L Hy Hd Hr E. cbn [h_end chapterdesc_reader]. unfold cd_end. change (r_chId (set_r_lines L (RC m (Some i)))) with (Some i). cbv iota. change (tag_is (Some (s "div")) (s "div")) with true. cbv iota.
  change (r_lines (set_r_lines L (RC m (Some i)))) with L. rewrite E. unfold on_chapter. cbn [key bind]. unfold dindex. change (r_novel (set_r_lines L (RC m (Some i)))) with m. rewrite Hy. cbn [bind]. rewrite ManuClean.rstrip_feed, Hr, Hd. reflexivity.
Qed.
Section Chapters.
Variable n : novel.
Hypothesis Hkeys : NoDup (map fst (nv_chapters n)).
Notation H := chapterdesc_reader.
Notation R ch := (fun m0 : novel => RC m0 ch).
Notation good ch w js := (restores trimmed H other_chapters n (R ch) (R ch) w js).
Definition chapter_texts (i l w d : str) : str := section_text (s "ChID:" ++ i) ([10%N] ++ (head_text (s "Heading_20_" ++ l) l w ++ [10%N]) ++ para_text (s "Text_20_body") (br d) ++ [10%N]) ++ [10%N].
Lemma desc_block : forall i c l w es, number_id i = true -> dget i (nv_chapters n) = Some c -> ch_type c = Some 0%N -> given (fun t => writable t /\ not_empty t) (ch_title c) -> given listable (ch_desc c) -> In l [s "1"; s "2"] ->
  frag w es -> forallb dull es = true -> good None (chapter_texts i l w (otext (ch_desc c))) [i].
Proof.
  intros i c l w es Hi Hc Ht Hti [d [Hd [[Wd Rd] Ld]]] Hl F D. rewrite Hd. cbn [otext]. unfold chapter_texts. intros todo m O.
  destruct (cother_get _ n m i c O Hc) as [y [Hy [Ty [Iy Sy]]]]. specialize (Sy d Hd). exists (set_nv_chapters (dset i c (nv_chapters m)) m). split; [now apply cother_set|].
  apply (moves_desc trimmed H strip trimmed_strip eq_refl (s "ChID:" ++ i) (RC m None) _ (RC m (Some i))); [now apply number_style | apply (desc_start m i y Hi Hy); now rewrite Ty | | apply collect_chapter | now left | exact Wd | exact Ld |].
  - eapply block_head; [destruct Hl as [<- | [<- | []]]; reflexivity | destruct Hl as [<- | [<- | []]]; reflexivity | exact F | exact D |]. apply (inner_heading m i y l Hy); [now rewrite Iy | exact Hl].
  - intros L E. now apply (desc_end m i c y d).
Qed.
Lemma desc_joined : forall i l pn t d, 
  s "<text:section text:style-name=""Sect1"" text:name=""ChID:" ++ i ++ s """>" ++ [10%N] ++ (s "<text:h text:style-name=""Heading_20_" ++ l ++ s """ text:outline-level=""" ++ l ++ s """>") ++
  (s "<text:a xlink:href=""" ++ (s "../" ++ xesc pn ++ s "_manuscript.odt#ChID:" ++ i ++ s "%7Cregion") ++ s """>") ++ xesc t ++ s "</text:a>" ++ s "</text:h>" ++ [10%N] ++ s "<text:p text:style-name=""Text_20_body"">" ++ br d ++ s "</text:p>" ++ [10%N] ++ s "</text:section>" ++ [10%N] =
  chapter_texts i l ((s "<text:a xlink:href=""" ++ (s "../" ++ xesc pn ++ s "_manuscript.odt#ChID:" ++ i ++ s "%7Cregion") ++ s """>") ++ xesc t ++ s "</text:a>") d.
Proof.
  intros. unfold chapter_texts, head_text, ManuBlocks.section_text, ManuBlocks.para_text, tag_text, attr_text, ManuWalk.heading_attrs, ManuWalk.section_attrs, ManuWalk.para_attrs, closing_text. cbn [flat_map fst snd]. rewrite <- !app_assoc. cbn [app]. rewrite <- ?app_assoc. reflexivity.
Qed.
Definition desc_template (l : str) (m : dict str) : str :=
  s "<text:section text:style-name=""Sect1"" text:name=""ChID:" ++ V m (s "ID") ++ s """>" ++ [10%N] ++ (s "<text:h text:style-name=""Heading_20_" ++ l ++ s """ text:outline-level=""" ++ l ++ s """>") ++
  (s "<text:a xlink:href=""" ++ (s "../" ++ VB m (s "ProjectName") ++ s "_manuscript.odt#ChID:" ++ V m (s "ID") ++ s "%7Cregion") ++ s """>") ++ V m (s "Title") ++ s "</text:a>" ++ s "</text:h>" ++ [10%N] ++
  s "<text:p text:style-name=""Text_20_body"">" ++ V m (s "Desc") ++ s "</text:p>" ++ [10%N] ++ s "</text:section>" ++ [10%N].
Lemma chapterdesc_text : forall m, safe_substitute OdtWChapterDesc_chapter m = desc_template (s "2") m.
Proof. intro m. unfold desc_template. rewrite <- !app_assoc. unfold V, VB. cbv -[value_or]. reflexivity. Qed.
Lemma partdesc_text : forall m, safe_substitute OdtWPartDesc_part m = desc_template (s "1") m.
Proof. intro m. unfold desc_template. rewrite <- !app_assoc. unfold V, VB. cbv -[value_or]. reflexivity. Qed.
Lemma plain_part_text : forall m, safe_substitute OdtWChapterDesc_part m = s "<text:h text:style-name=""Heading_20_1"" text:outline-level=""1"">" ++ V m (s "Title") ++ s "</text:h>" ++ [10%N].
Proof. intro m. unfold V. cbv -[value_or]. reflexivity. Qed.
Lemma template_block : forall pn pp i c k m l, chapterMapping odt_conv pn pp n i k = Ok m -> headline pn -> number_id i = true -> dget i (nv_chapters n) = Some c -> ch_type c = Some 0%N ->
  given (fun t => writable t /\ not_empty t) (ch_title c) -> given listable (ch_desc c) -> In l [s "1"; s "2"] -> good None (desc_template l m) [i].
Proof.
  intros pn pp i c k m l E Hp Hi Hc Ht Hti Hd Hl. destruct (chapter_map pn pp n i c k m Hc E) as [M1 [M2 [M3 M4]]]. unfold desc_template. rewrite M1, M2, M3, M4, desc_joined.
  pose proof Hti as [t [Et [Wt _]]]. rewrite Et. cbn [otext]. destruct (frag_linked (otext pn) i t (headline_text pn Hp) Hi Wt) as [es [F D]]. now apply (desc_block i c l _ es).
Qed.
End Chapters.
Ltac no_scenes := intros; unfold scene_template; cbn; repeat match goal with |- context[if ?b then _ else _] => destruct b end; cbn; (left; reflexivity) || (right; reflexivity).
Lemma level_one : forall c, is_type (ch_level c) 1 = true -> ch_level c = Some 1%N.
Proof. intros c H. unfold is_type in H. destruct (ch_level c); [|discriminate]. apply N.eqb_eq in H. now subst. Qed.
Lemma part_level : forall c, is_part c = is_type (ch_level c) 1.
Proof. intro c. unfold is_part, is_type. destruct (ch_level c) as [[|[p|p|]]|]; reflexivity. Qed.
Lemma kind_ifs : forall n i c, dget i (nv_chapters n) = Some c -> chapter_kind n i =
  if is_type (ch_type c) 2 then (if is_type (ch_level c) 1 then TodoPart else Todo) else if is_type (ch_type c) 1 then (if is_type (ch_level c) 1 then NotesPart else Notes) else
  if is_type (ch_type c) 3 then Unused else if hidden_chapter n c then Hidden else if is_type (ch_level c) 1 then Part else Normal.
Proof.
  intros n i c H. unfold chapter_kind, chapter_of. rewrite H. rewrite part_level. destruct (ch_type c) as [[|[[p|p|]|[p|p|]|]]|]; reflexivity.
Qed.
Ltac kinds Ek := rewrite Ek; repeat match goal with H : is_type _ _ = _ |- _ => rewrite H; clear H end; repeat match goal with |- context [if ?b then _ else _] => destruct b end; discriminate.
Theorem chapters_back : forall tr pn pp n doc, NoDup (map fst (nv_chapters n)) -> chapters_ok false pn n -> get_text (OdtWChapterDesc tr pn pp) n = Ok doc ->
  forall nm, other_chapters (chapters_of_kind Normal n) n nm ->
  exists es, sax doc = Some es /\ forall es' styles title author desc, deliver_by trimmed es es' -> read_plain chapterdesc_reader (opening_calls styles title author desc) es' nm = Ok n.
Proof.
  intros tr pn pp n doc ND Hok H nm O. destruct (desc_document trimmed chapterdesc_reader other_chapters (chapters_of_kind Normal n) (OdtWChapterDesc tr pn pp) n pn doc cother_weaken cother_end H) with (m := nm) as [es [E K]]; try reflexivity; try apply (dco_header _ _ _ Hok); try exact O.
  - intros m1 _. exact (quiet_outside m1 (s "p") (or_introl eq_refl)).
  - intros cs p0 l0 i0 Hcs Hp0 Hl0 Hi0. apply empty_elements in Hp0. apply empty_elements in Hl0. apply empty_elements in Hi0. rewrite (only cs p0 l0 i0 Hp0 Hl0 Hi0). clear p0 l0 i0 Hp0 Hl0 Hi0.
    destruct (chapters_loop trimmed chapterdesc_reader other_chapters cother_weaken (fun m => RC m None) (fun i j => j = i /\ chapter_kind n i = Normal) (OdtWChapterDesc tr pn pp) n) with (2 := Hcs) as [js [B HQ]].
    2:{ exists (fun m => RC m None), js. split; [reflexivity|]. split; [exact B|]. intros j [J1 J2]. now apply (HQ j j J1). }
    clear cs Hcs. intros lines k t i lines' k' t' Hin Es.
    destruct (step_emits (OdtWChapterDesc tr pn pp) n lines k t i lines' k' t' eq_refl Es) as [c [dne [m [scs [hd [tl [k0 [[Hc Ed] [Hm [Hg [-> [Hhd [Htl0 Htl]]]]]]]]]]]]].
    apply (scenes_empty (OdtWChapterDesc tr pn pp) n c dne t (scs, t')) in Hg; [|no_scenes | reflexivity | reflexivity]. cbn [fst] in Hg. destruct (dco_chapters _ _ _ Hok i c Hin Hc) as [Hi [Hty [Hti Hk]]]. pose proof (proj2 (proj2 (dco_header _ _ _ Hok))) as Hp.
    pose proof (kind_ifs n i c Hc) as Ek. rewrite <- Ed in Ek.
    assert (Plain : hd = [] -> tl = [] -> chapter_kind n i <> Normal -> exists w js, concat (lines ++ hd ++ scs ++ tl) = concat lines ++ w /\ restores trimmed chapterdesc_reader other_chapters n (fun m0 => RC m0 None) (fun m0 => RC m0 None) w js /\ (forall j, j = i /\ chapter_kind n i = Normal -> In j js)).
    { intros -> -> Nk. exists [], []. split; [cbn [app]; now rewrite !concat_app, Hg|]. split; [apply restores_nil; exact cother_weaken | intros j [_ J]; contradiction]. }
    unfold chapter_template in Hhd, Htl0, Htl, Hm. unfold chapter_end_template in Htl0, Htl.
    destruct (is_type (ch_type c) 2) eqn:T2; [destruct (is_type (ch_level c) 1); exact (Plain Hhd (Htl0 eq_refl eq_refl) ltac:(kinds Ek))|]. destruct (is_type (ch_type c) 1) eqn:T1; [destruct (is_type (ch_level c) 1); exact (Plain Hhd (Htl0 eq_refl eq_refl) ltac:(kinds Ek))|].
    destruct (is_type (ch_type c) 3) eqn:T3; [exact (Plain Hhd (Htl0 eq_refl eq_refl) ltac:(kinds Ek))|]. destruct dne; [exact (Plain Hhd (Htl0 eq_refl eq_refl) ltac:(kinds Ek))|]. pose proof (type_cases _ Hty T2 T1 T3) as T0.
    change (truthy (t_part (OdtWChapterDesc tr pn pp))) with true in Hhd, Hm, Htl. rewrite andb_true_r in Hhd, Hm, Htl.
    change (m_chapter (OdtWChapterDesc tr pn pp)) with (chapterMapping odt_conv pn pp) in Hm.
    assert (Em : chapterMapping odt_conv pn pp n i k0 = Ok m) by (apply Hm; destruct (is_type (ch_level c) 1); discriminate).
    assert (Etl : tl = []) by (apply Htl; destruct (is_type (ch_level c) 1); discriminate). subst tl. exists (concat hd), (if is_type (ch_level c) 1 then [] else [i]). split; [now rewrite !concat_app, Hg, !app_nil_r|]. rewrite Hhd.
    destruct (is_type (ch_level c) 1) eqn:L1; (split; [|intros j [-> J]; rewrite Ek in J; first [discriminate J | now left]]); cbn [fst emitted concat]; rewrite app_nil_r.
    + change (t_part (OdtWChapterDesc tr pn pp)) with OdtWChapterDesc_part. rewrite plain_part_text. destruct (chapter_map pn pp n i c _ _ Hc Em) as [_ [M2 _]]. rewrite M2.
      apply (restores_quiet trimmed chapterdesc_reader other_chapters cother_weaken n (fun m0 => RC m0 None)). intros m0 _. match goal with |- block _ _ _ ?w => replace w with (head_text (s "Heading_20_1") (s "1") (xesc (otext (ch_title c))) ++ [10%N]) end.
      2:{ unfold head_text, tag_text, attr_text, ManuWalk.heading_attrs. cbn [flat_map fst snd]. rewrite <- !app_assoc. reflexivity. }
      eapply block_head; [reflexivity | reflexivity | apply frag_xesc; now apply headline_text | apply dull_chars | apply quiet_outside; right; now left].
    + change (t_chapter (OdtWChapterDesc tr pn pp)) with OdtWChapterDesc_chapter. rewrite chapterdesc_text. assert (Kd : of_kind false c). { split; [exact T0|]. split; [discriminate|]. intro L. rewrite L in L1. discriminate. }
      destruct (Hk Kd) as [Kt Ks]. apply (template_block n ND pn pp i c k0 m (s "2") Em Hp Hi Hc T0 Kt Ks). right. now left.
  - exists es. split; [exact E|]. intros es' styles title author desc D. apply K; [|exact D]. apply base_opening; reflexivity.
Qed.
Theorem parts_back : forall tr pn pp n doc, NoDup (map fst (nv_chapters n)) -> chapters_ok true pn n -> get_text (OdtWPartDesc tr pn pp) n = Ok doc ->
  forall nm, other_chapters (chapters_of_kind Part n) n nm ->
  exists es, sax doc = Some es /\ forall es' styles title author desc, deliver_by trimmed es es' -> read_plain chapterdesc_reader (opening_calls styles title author desc) es' nm = Ok n.
Proof.
  intros tr pn pp n doc ND Hok H nm O. destruct (desc_document trimmed chapterdesc_reader other_chapters (chapters_of_kind Part n) (OdtWPartDesc tr pn pp) n pn doc cother_weaken cother_end H) with (m := nm) as [es [E K]]; try reflexivity; try apply (dco_header _ _ _ Hok); try exact O.
  - intros m1 _. exact (quiet_outside m1 (s "p") (or_introl eq_refl)).
  - intros cs p0 l0 i0 Hcs Hp0 Hl0 Hi0. apply empty_elements in Hp0. apply empty_elements in Hl0. apply empty_elements in Hi0. rewrite (only cs p0 l0 i0 Hp0 Hl0 Hi0). clear p0 l0 i0 Hp0 Hl0 Hi0.
    destruct (chapters_loop trimmed chapterdesc_reader other_chapters cother_weaken (fun m => RC m None) (fun i j => j = i /\ chapter_kind n i = Part) (OdtWPartDesc tr pn pp) n) with (2 := Hcs) as [js [B HQ]].
    2:{ exists (fun m => RC m None), js. split; [reflexivity|]. split; [exact B|]. intros j [J1 J2]. now apply (HQ j j J1). }
    clear cs Hcs. intros lines k t i lines' k' t' Hin Es.
    destruct (step_emits (OdtWPartDesc tr pn pp) n lines k t i lines' k' t' eq_refl Es) as [c [dne [m [scs [hd [tl [k0 [[Hc Ed] [Hm [Hg [-> [Hhd [Htl0 Htl]]]]]]]]]]]]].
    apply (scenes_empty (OdtWPartDesc tr pn pp) n c dne t (scs, t')) in Hg; [|no_scenes | reflexivity | reflexivity]. cbn [fst] in Hg. destruct (dco_chapters _ _ _ Hok i c Hin Hc) as [Hi [Hty [Hti Hk]]]. pose proof (proj2 (proj2 (dco_header _ _ _ Hok))) as Hp.
    pose proof (kind_ifs n i c Hc) as Ek. rewrite <- Ed in Ek.
    assert (Plain : hd = [] -> tl = [] -> chapter_kind n i <> Part -> exists w js, concat (lines ++ hd ++ scs ++ tl) = concat lines ++ w /\ restores trimmed chapterdesc_reader other_chapters n (fun m0 => RC m0 None) (fun m0 => RC m0 None) w js /\ (forall j, j = i /\ chapter_kind n i = Part -> In j js)).
    { intros -> -> Nk. exists [], []. split; [cbn [app]; now rewrite !concat_app, Hg|]. split; [apply restores_nil; exact cother_weaken | intros j [_ J]; contradiction]. }
    unfold chapter_template in Hhd, Htl0, Htl, Hm. unfold chapter_end_template in Htl0, Htl.
    destruct (is_type (ch_type c) 2) eqn:T2; [destruct (is_type (ch_level c) 1); exact (Plain Hhd (Htl0 eq_refl eq_refl) ltac:(kinds Ek))|]. destruct (is_type (ch_type c) 1) eqn:T1; [destruct (is_type (ch_level c) 1); exact (Plain Hhd (Htl0 eq_refl eq_refl) ltac:(kinds Ek))|].
    destruct (is_type (ch_type c) 3) eqn:T3; [exact (Plain Hhd (Htl0 eq_refl eq_refl) ltac:(kinds Ek))|]. destruct dne; [exact (Plain Hhd (Htl0 eq_refl eq_refl) ltac:(kinds Ek))|]. pose proof (type_cases _ Hty T2 T1 T3) as T0.
    change (truthy (t_part (OdtWPartDesc tr pn pp))) with true in Hhd, Hm, Htl. rewrite andb_true_r in Hhd, Hm, Htl.
    change (m_chapter (OdtWPartDesc tr pn pp)) with (chapterMapping odt_conv pn pp) in Hm.
    assert (Em : chapterMapping odt_conv pn pp n i k0 = Ok m) by (apply Hm; destruct (is_type (ch_level c) 1); discriminate).
    assert (Etl : tl = []) by (apply Htl; destruct (is_type (ch_level c) 1); discriminate). subst tl. exists (concat hd), (if is_type (ch_level c) 1 then [i] else []). split; [now rewrite !concat_app, Hg, !app_nil_r|]. rewrite Hhd.
    destruct (is_type (ch_level c) 1) eqn:L1; (split; [|intros j [-> J]; rewrite Ek in J; first [discriminate J | now left]]); cbn [fst emitted concat]; rewrite app_nil_r.
    + change (t_part (OdtWPartDesc tr pn pp)) with OdtWPartDesc_part. rewrite partdesc_text. assert (Kd : of_kind true c). { split; [exact T0|]. split; [intros _; now apply level_one | reflexivity]. }
      destruct (Hk Kd) as [Kt Ks]. apply (template_block n ND pn pp i c k0 m (s "1") Em Hp Hi Hc T0 Kt Ks). now left.
    + apply restores_nil. exact cother_weaken.
  - exists es. split; [exact E|]. intros es' styles title author desc D. apply K; [|exact D]. apply base_opening; reflexivity.
Qed.
