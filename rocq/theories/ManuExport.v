(** The exported manuscript consists of blocks. *)
From Coq Require Import String List NArith ZArith Bool Lia Arith.
From Verif Require Import ManuDoc PyStr PyDict WordCount WordCountProofs YwText YwTextProofs NovelModel NovelOps OdfXml OdfXmlProofs OdfLex OdtText OdtTextProofs OdtTextProofs2 SpecOdf SpecFormat SpecManuscript Template Templates Export Manuscript
  FormatLines FormatRun FormatXml FormatXml4 FormatXml5 FormatEnds OdsRoundTrip2 SplitterProofs ConfigProofs ManuText ManuClean ManuEvents ManuQuote SpecExport SpecRetext Retext Written OdtRead ManuRead ManuMachine ManuWalk XmlTags ManuStyles ManuBlocks.
From Verif Require ExportProofs.
Import ListNotations.

(** ** Mappings *)
Lemma mapping_get : forall l m, mapping l = Ok m -> forall k v, dget k l = Some v -> exists x, v = Ok x /\ dget k m = Some x.
Proof.
  induction l as [|[k0 v0] l IH]; intros m E k v G; [discriminate|]. cbn [mapping] in E. destruct v0 as [x|]; [|discriminate]. cbn [bind] in E. destruct (mapping l) as [m'|] eqn:M; [|discriminate]. cbn [bind] in E. injection E as <-.
  cbn [dget] in *. destruct (str_eqb k k0); [injection G as <-; now exists x | now apply (IH m')].
Qed.
Lemma mapping_ok : forall l, Forall (fun p => exists x, snd p = Ok x) l -> exists m, mapping l = Ok m.
Proof.
  induction l as [|[k v] l IH]; intro F; [now exists []|]. apply Forall_cons_iff in F as [[x F1] F2]. cbn [snd] in F1. subst v. destruct (IH F2) as [m E]. cbn [mapping bind]. rewrite E. cbn [bind]. now eexists.
Qed.
Lemma value_get : forall m k x own, dget k m = Some x -> value_or m k own = x.
Proof. intros m k x own E. unfold value_or. now rewrite E. Qed.

(** ** Templates *)
Definition V (m : dict str) (k : str) : str := value_or m k (s "$" ++ k).
Lemma scene_template_text : forall m, safe_substitute OdtWManuscript_scene m =
  s "<text:h text:style-name=""Invisible_20_Heading_20_3"" text:outline-level=""3"">" ++ V m (s "Title") ++ s "</text:h>" ++ [10%N] ++
  s "<text:section text:style-name=""Sect1"" text:name=""ScID:" ++ V m (s "ID") ++ s """>" ++ [10%N] ++ s "<text:p text:style-name=""Text_20_body"">" ++ V m (s "SceneContent") ++ s "</text:p>" ++ [10%N] ++ s "</text:section>" ++ [10%N].
Proof. intro m. unfold V. cbv -[value_or]. reflexivity. Qed.
Lemma appended_template_text : forall m, safe_substitute OdtWManuscript_appendedScene m =
  s "<text:h text:style-name=""Invisible_20_Heading_20_3"" text:outline-level=""3"">" ++ V m (s "Title") ++ s "</text:h>" ++ [10%N] ++
  s "<text:section text:style-name=""Sect1"" text:name=""ScID:" ++ V m (s "ID") ++ s """>" ++ [10%N] ++ s "<text:p text:style-name=""First_20_line_20_indent"">" ++ V m (s "SceneContent") ++ s "</text:p>" ++ [10%N] ++ s "</text:section>" ++ [10%N].
Proof. intro m. unfold V. cbv -[value_or]. reflexivity. Qed.
Lemma part_template_text : forall m, safe_substitute OdtWManuscript_part m =
  s "<text:section text:style-name=""Sect1"" text:name=""ChID:" ++ V m (s "ID") ++ s """>" ++ [10%N] ++ s "<text:h text:style-name=""Heading_20_1"" text:outline-level=""1"">" ++ V m (s "Title") ++ s "</text:h>" ++ [10%N].
Proof. intro m. unfold V. cbv -[value_or]. reflexivity. Qed.
Lemma chapter_template_text : forall m, safe_substitute OdtWManuscript_chapter m =
  s "<text:section text:style-name=""Sect1"" text:name=""ChID:" ++ V m (s "ID") ++ s """>" ++ [10%N] ++ s "<text:h text:style-name=""Heading_20_2"" text:outline-level=""2"">" ++ V m (s "Title") ++ s "</text:h>" ++ [10%N].
Proof. intro m. unfold V. cbv -[value_or]. reflexivity. Qed.
Lemma header_template_text : forall m, safe_substitute OdtWManuscript_fileHeader m =
  V m (s "ContentHeader") ++ s "<text:p text:style-name=""Title"">" ++ V m (s "Title") ++ s "</text:p>" ++ [10%N] ++ s "<text:p text:style-name=""Subtitle"">" ++ V m (s "AuthorName") ++ s "</text:p>" ++ [10%N].
Proof. intro m. unfold V. cbv -[value_or]. reflexivity. Qed.
Lemma end_template_text : forall m, safe_substitute OdtWManuscript_chapterEnd m = s "</text:section>" ++ [10%N].
Proof. intro m. reflexivity. Qed.
Lemma scene_joined : forall i st t w, st = s "Text_20_body" \/ st = s "First_20_line_20_indent" ->
  s "<text:h text:style-name=""Invisible_20_Heading_20_3"" text:outline-level=""3"">" ++ xesc t ++ s "</text:h>" ++ [10%N] ++
  s "<text:section text:style-name=""Sect1"" text:name=""ScID:" ++ i ++ s """>" ++ [10%N] ++ (s "<text:p text:style-name=""" ++ st ++ s """>") ++ w ++ s "</text:p>" ++ [10%N] ++ s "</text:section>" ++ [10%N] =
  (heading_text (s "Invisible_20_Heading_20_3") (s "3") t ++ [10%N]) ++ (scene_text i st w ++ [10%N]).
Proof. intros i st t w _. unfold heading_text, scene_text, section_text, para_text, tag_text, attr_text, heading_attrs, section_attrs, para_attrs, closing_text. cbn [flat_map fst snd]. rewrite <- !app_assoc. reflexivity. Qed.
Lemma divider_text : OdtWManuscript_divider = para_text (s "Heading_20_4") (xesc (s "* * *")) ++ [10%N].
Proof. vm_compute. reflexivity. Qed.

(** the head of the document *)
Fixpoint clearb (p t : str) : bool := match t with [] => true | c :: r => negb (prefixb p (c :: r)) && negb (prefixb (c :: r) p) && clearb p r end.
Lemma prefix_either : forall p a b, prefixb p (a ++ b) = true -> prefixb p a = true \/ prefixb a p = true.
Proof.
  induction p as [|x p IH]; intros a b P; [now left|]. destruct a as [|y a]; [now right|]. cbn [app prefixb] in *. apply andb_true_iff in P as [P1 P2]. apply N.eqb_eq in P1. subst y. rewrite N.eqb_refl. cbn [andb]. now apply (IH a b).
Qed.
Lemma clearb_miss : forall p c r x, clearb p (c :: r) = true -> prefixb p ((c :: r) ++ x) = false /\ clearb p r = true.
Proof.
  intros p c r x H. cbn [clearb] in H. apply andb_true_iff in H as [H H3]. apply andb_true_iff in H as [H1 H2]. apply negb_true_iff in H1, H2. split; [|exact H3].
  destruct (prefixb p ((c :: r) ++ x)) eqn:P; [|reflexivity]. apply prefix_either in P as [P | P]; congruence.
Qed.
Lemma clearb_clear : forall p t, clearb p t = true -> clear p t.
Proof.
  intro p. induction t as [|c t IH]; intros H q r; [reflexivity|]. destruct (clearb_miss p c t r H) as [P H2]. cbn [app] in *. rewrite replace_miss by exact P. now rewrite IH.
Qed.
Lemma clearb_closes : forall t, clearb Q_CLOSE t = true -> closes t.
Proof. induction t as [|c t IH]; intros H r Hr; [exact Hr|]. destruct (clearb_miss _ c t r H) as [P H2]. unfold ncl. cbn [app containsb] in *. rewrite P. cbn [orb]. now apply IH. Qed.
Lemma clean_literal : forall t, (clearb QUOTE1 t && clearb QUOTE2 t && clearb Q_CLOSE t)%bool = true -> clean t.
Proof. intros t H. apply andb_true_iff in H as [H H3]. apply andb_true_iff in H as [H1 H2]. split; [split; now apply clearb_clear | now apply clearb_closes]. Qed.
Lemma clean_styles : forall ls, Forall codes_ok ls -> clean (automatic_styles ls).
Proof.
  assert (Entry : forall i x, codes_ok x -> clean (language_entry i x)).
  { intros i x [H1 H2]. rewrite (entry_text i x (fst (locale_codes x)) (snd (locale_codes x))) by now destruct (locale_codes x).
    apply clean_app; [apply clean_literal; reflexivity|]. apply clean_app; [apply clean_tag|].
    - reflexivity.
    - constructor; [split; [reflexivity|]; exact (digits_style i) | constructor; [split; reflexivity | constructor]].
    - constructor; [|constructor; [split; discriminate | constructor]]. pose proof (str_of_N_digits i) as D. split; intro E; cbn [snd] in E; unfold t_style in E.
      + discriminate E.
      + apply (f_equal (fun t => nth 1 t 0%N)) in E. change (nth 1 TB 0%N) with 101%N in E. change (nth 1 (s "T" ++ str_of_N i) 0%N) with (nth 0 (str_of_N i) 0%N) in E.
        destruct (str_of_N i) as [|d r]; [discriminate|]. cbn [nth] in E. subst d. specialize (D _ (or_introl eq_refl)). lia.
    - apply clean_app; [|apply clean_literal; reflexivity]. apply clean_app; [|apply clean_literal; reflexivity]. apply clean_app; [apply clean_literal; reflexivity|]. apply clean_empty_tag; [reflexivity|]. unfold a_props.
      repeat (constructor; [split; [reflexivity | assumption]|]). constructor. }
  assert (Es : forall ls i, Forall codes_ok ls -> clean (entries_text i ls)).
  { induction ls as [|x ls IH]; intros i F; [apply clean_literal; reflexivity|]. apply Forall_cons_iff in F as [F1 F2]. cbn [entries_text]. apply clean_app; [now apply Entry|]. apply clean_app; [apply clean_literal; reflexivity | now apply IH]. }
  intros [|x ls] F; [apply clean_literal; vm_compute; reflexivity|]. rewrite styles_text. apply clean_app; [apply clean_literal; reflexivity|]. apply clean_app; [|apply clean_literal; reflexivity]. apply clean_app; [|apply clean_literal; reflexivity].
  apply clean_app; [apply clean_literal; reflexivity | now apply Es].
Qed.
Lemma clean_head : forall ls, Forall codes_ok ls -> clean (OdsRoundTrip.DECL ++ ManuDoc.HEAD1 ++ automatic_styles ls ++ ManuDoc.HEAD2).
Proof.
  intros ls F. apply clean_app; [apply clean_literal; vm_compute; reflexivity|]. apply clean_app; [apply clean_literal; vm_compute; reflexivity|]. apply clean_app; [now apply clean_styles | apply clean_literal; vm_compute; reflexivity].
Qed.
Lemma clean_foot : clean ManuDoc.FOOT.
Proof. apply clean_literal. vm_compute. reflexivity. Qed.

Lemma foot_quotes : Qt ManuDoc.FOOT = ManuDoc.FOOT.
Proof. vm_compute. reflexivity. Qed.
Lemma foot_ncl : ncl ManuDoc.FOOT.
Proof. vm_compute. reflexivity. Qed.
Lemma quoted_document : forall h body body', clean h -> quotes body body' -> closes body' ->
  (if containsb (s "&gt; ") (h ++ body ++ ManuDoc.FOOT) then quote_notes 0 (replace QUOTE2 (s """Quotations"">") (replace QUOTE1 (s """Quotations"">") (h ++ body ++ ManuDoc.FOOT))) else h ++ body ++ ManuDoc.FOOT) = h ++ body' ++ ManuDoc.FOOT.
Proof.
  intros h body body' [Ch Cc] Gq Gc. pose proof foot_quotes as Ef. pose proof foot_ncl as Nf. set (F := ManuDoc.FOOT) in *. clearbody F.
  assert (Eq : Qt (h ++ body ++ F) = h ++ body' ++ F) by (rewrite (clear_quotes h Ch); rewrite Gq; now rewrite Ef).
  assert (Nc : ncl (Qt (h ++ body ++ F))) by (rewrite Eq; apply Cc, Gc, Nf). apply quoting in Nc. rewrite <- Eq. exact Nc.
Qed.

Section Exporting.
#[local] Instance manuscript_type : Typ := 0%N.
Variables (tr : str -> str) (pn pp : option str) (n : novel).
Notation author := (py_str (nv_authorName n)).
Notation languages := (languages_in n).
Hypothesis names : names_ok author languages.
Hypothesis locales : Forall locale_ok languages.
Hypothesis keys : NoDup (map fst (nv_scenes n)).
Notation conv := (formatted_convert n).
Notation X := (OdtWManuscript tr pn pp).
Notation good := (block languages n).

Lemma conv_ok : forall t q, exists w, conv t q = Ok w.
Proof.
  intros t q. unfold formatted_convert. destruct (odtf_convert author languages t q) as [w|] eqn:E; [now exists w|]. exfalso. revert E. apply conversion_ends.
  destruct names as [_ [P _]]. eapply Forall_impl; [|exact P]. intros l F I. rewrite Forall_forall in F. specialize (F _ I). discriminate.
Qed.
Lemma esc_no_bracket : forall t, ~ In 91%N t -> ~ In 91%N (xesc t).
Proof.
  intros t H I. unfold xesc in I. apply in_flat_map in I as [c [Hc I]]. unfold esc5 in I. destruct (N.eqb c 38); [revert I; apply no_char; reflexivity|]. destruct (N.eqb c 62); [revert I; apply no_char; reflexivity|].
  destruct (N.eqb c 60); [revert I; apply no_char; reflexivity|]. destruct (N.eqb c 39); [revert I; apply no_char; reflexivity|]. destruct (N.eqb c 34); [revert I; apply no_char; reflexivity|]. destruct I as [I | []]. subst c. contradiction.
Qed.
Lemma conv_title : forall t, otitle_ok t = true -> conv t true = Ok (xesc (ostr t)).
Proof.
  intros [t|] H; [|reflexivity]. destruct t as [|c t]; [reflexivity|]. cbn [otitle_ok] in H. destruct (title_parts _ H) as [_ [_ T4]]. unfold formatted_convert. cbn [odtf_convert ostr]. rewrite odt_entities.
  change (re_sub m_hidden [] (flat_map esc5 (c :: t))) with (hide (xesc (c :: t))). rewrite <- (app_nil_r (xesc (c :: t))). rewrite hide_plain by now apply esc_no_bracket. reflexivity.
Qed.
Lemma title_nil : title_ok [] = true. Proof. reflexivity. Qed.
Lemma otitle : forall t, otitle_ok t = true -> title_ok (ostr t) = true.
Proof. intros [t|] H; [exact H | reflexivity]. Qed.

(** ** Scenes *)
Lemma places_ok : forall (d : dict world) ids, (forall l i, ids = Some l -> In i l -> dmem i d = true) -> exists w, scene_places d ids = Ok w.
Proof.
  intros d [l|] H; [|now exists []]. specialize (H l). assert (H2 : forall i, In i l -> dmem i d = true) by (intros i Hi; now apply H). clear H. unfold scene_places.
  match goal with |- context [mapM ?f l] => assert (G : exists r, mapM f l = Ok r); [|destruct G as [r ->]; now eexists] end.
  induction l as [|i l IH]; [now exists []|]. destruct IH as [r E]; [intros j Hj; apply H2; now right|]. cbn [mapM]. unfold dindex at 1. destruct (dget i d) as [w|] eqn:G; [cbn [bind]; rewrite E; now eexists|].
  apply ReadFrame.dmem_false in G. rewrite (H2 i (or_introl eq_refl)) in G. discriminate.
Qed.
Lemma status_ok : forall st, known_status st = true -> exists w, status_text st = Ok w.
Proof.
  intros [z|] H; [|discriminate]. cbn [known_status] in H. apply andb_true_iff in H as [H1 H2]. apply Z.leb_le in H1, H2. assert (E : (z = 0 \/ z = 1 \/ z = 2 \/ z = 3 \/ z = 4 \/ z = 5)%Z) by lia.
  repeat (destruct E as [-> | E]; [now eexists|]). subst. now eexists.
Qed.
Lemma scene_map : forall i x k w l c, dget i (nv_scenes n) = Some x -> known_status (sc_status x) = true -> otitle_ok (sc_title x) = true ->
  (forall l i, sc_locations x = Some l -> In i l -> dmem i (nv_locations n) = true) -> (forall l i, sc_items x = Some l -> In i l -> dmem i (nv_items n) = true) -> conv (sc_content x) false = Ok c ->
  exists m, manuscript_scene tr pn pp n i k w l = Ok m /\ V m (s "ID") = i /\ V m (s "Title") = xesc (ostr (sc_title x)) /\ V m (s "SceneContent") = c.
Proof.
  intros i x k w l c Hx Hs Ht Hl Hi Hc. unfold manuscript_scene, sceneMapping. unfold dindex. rewrite Hx. cbn [bind]. destruct (places_ok _ _ Hl) as [a ->]. destruct (places_ok _ _ Hi) as [b ->]. cbn [bind].
  match goal with |- context [mapping ?L0] => destruct (mapping_ok L0) as [m E] end.
  { repeat (apply Forall_cons; [cbn [snd]; first [now eexists | apply conv_ok | now apply status_ok]|]). apply Forall_nil. }
  rewrite E. cbn [bind]. eexists. split; [reflexivity|]. unfold V.
  assert (G : forall k, k <> s "Summary" -> k <> s "sceneTitle" -> dget k (dset (s "Summary") (tr (s "Summary")) (dset (s "sceneTitle") (tr (s "Scene")) m)) = dget k m) by (intros k0 H1 H2; rewrite !dget_dset_other by assumption; reflexivity).
  destruct (mapping_get _ _ E (s "ID") _ eq_refl) as [v1 [E1 G1]]. destruct (mapping_get _ _ E (s "Title") _ eq_refl) as [v2 [E2 G2]]. destruct (mapping_get _ _ E (s "SceneContent") _ eq_refl) as [v3 [E3 G3]].
  rewrite conv_title in E2 by exact Ht. rewrite Hc in E3. injection E1 as <-. injection E2 as <-. injection E3 as <-.
  split; [|split]; apply value_get; (rewrite G by discriminate); assumption.
Qed.
Definition normal_ok (x : scene) : Prop := known_status (sc_status x) = true /\ otitle_ok (sc_title x) = true /\
    (forall l i, sc_locations x = Some l -> In i l -> dmem i (nv_locations n) = true) /\ (forall l i, sc_items x = Some l -> In i l -> dmem i (nv_items n) = true) /\
    exists t, sc_content x = Some t /\ restorable languages t.
Lemma scene_block : forall ch i x tpl a b c, titled n ch -> number_id i = true -> dget i (nv_scenes n) = Some x -> sc_type x = Some 0%N -> (forall t, sc_content x = Some t -> set_sceneContent t x = x) -> normal_ok x ->
  tpl = OdtWManuscript_scene \/ tpl = OdtWManuscript_appendedScene -> exists w, fill tpl (manuscript_scene tr pn pp n i a b c) = Ok w /\ good ch w [i].
Proof.
  intros ch i x tpl a b c Hc Hi Hx Ht Hs [N1 [N2 [N3 [N4 [t [N5 [ks [-> [M [W [Sd [Sq [R Q]]]]]]]]]]]]] Htpl.
  destruct (exported_quoted author languages names ks M W R Q) as [w [E1 E2]].
  assert (C : conv (sc_content x) false = Ok w) by (unfold formatted_convert; rewrite N5, E1; reflexivity).
  destruct (scene_map i x a b c w Hx N1 N2 N3 N4 C) as [m [M1 [M2 [M3 M4]]]]. unfold fill. rewrite M1. cbn [bind]. eexists. split; [reflexivity|].
  assert (G : forall st, In st [s "Text_20_body"; s "First_20_line_20_indent"] -> good ch ((heading_text (s "Invisible_20_Heading_20_3") (s "3") (ostr (sc_title x)) ++ [10%N]) ++ (scene_text i st w ++ [10%N])) [i]).
  { intros st Hst. apply block_after; [apply block_heading; [do 2 right; now left | reflexivity | split; discriminate | now apply otitle | exact Hc]|].
    assert (Hst2 : In st [FI; TB]) by (destruct Hst as [<- | [<- | []]]; [right; now left | now left]). destruct (E2 st Hst2) as [ks' [st' [w' [es [G1 [G2 [G3 G4]]]]]]].
    apply (block_scene author languages names locales n keys ch i x st ks w ks' st' w' es); try assumption. now apply Hs. }
  destruct Htpl as [-> | ->].
  - rewrite scene_template_text, M2, M3, M4. specialize (G (s "Text_20_body") (or_introl eq_refl)). rewrite <- (scene_joined i (s "Text_20_body")) in G by now left. rewrite <- !app_assoc in G. exact G.
  - rewrite appended_template_text, M2, M3, M4. specialize (G (s "First_20_line_20_indent") (or_intror (or_introl eq_refl))). rewrite <- (scene_joined i (s "First_20_line_20_indent")) in G by now right. rewrite <- !app_assoc in G. exact G.
Qed.
Lemma type_cases : forall t, known_type t = true -> is_type t 2 = false -> is_type t 1 = false -> is_type t 3 = false -> t = Some 0%N.
Proof.
  intros [k|] H H2 H1 H3; [|discriminate]. cbn [known_type is_type] in *. apply N.leb_le in H. apply N.eqb_neq in H1, H2, H3. f_equal. lia.
Qed.
Lemma step_block : forall c dne ch lines first t i x, titled n ch -> number_id i = true -> dget i (nv_scenes n) = Some x -> scene_ok languages n x ->
  exists extra first' t' js, scene_step X n c dne (lines, first, t) i = Ok (lines ++ extra, first', t') /\ good ch (concat extra) js /\ (written c dne x -> In i js).
Proof.
  intros c dne ch lines first t i x Hc Hi Hx [S1 S2 S3].
  assert (None_ : ~ written c dne x -> exists extra first' t' js, Ok (lines, first, t) = Ok (lines ++ extra, first', t') /\ good ch (concat extra) js /\ (written c dne x -> In i js)).
  { intro Nw. exists [], first, t, []. split; [now rewrite app_nil_r|]. split; [apply block_nil|]. intro Wr. contradiction. }
  unfold scene_step. change (f_scene X i) with true. cbn [negb]. unfold dindex. rewrite Hx. cbn [bind]. unfold scene_template. unfold written, raw_code in None_ |- *.
  destruct (is_type (sc_type x) 2) eqn:T2; [refine (None_ _); intuition discriminate|]. destruct (is_type (sc_type x) 1) eqn:T1; [refine (None_ _); intuition discriminate|]. destruct (is_type (sc_type x) 3) eqn:T3; [refine (None_ _); intuition discriminate|]. cbn [orb].
  destruct (is_type (ch_type c) 3); [refine (None_ _); intuition discriminate|]. destruct (flag (sc_doNotExport x) || dne)%bool; [refine (None_ _); intuition discriminate|].
  destruct (prefixb (s "<HTML>") _) eqn:P1.
  { refine (None_ _). intros [_ [_ [_ [_ [_ Rw]]]]]. destruct (sc_content x); [|discriminate P1]. rewrite P1 in Rw. discriminate Rw. }
  destruct (prefixb (s "<TEX>") _) eqn:P2.
  { refine (None_ _). intros [_ [_ [_ [_ [_ Rw]]]]]. destruct (sc_content x); [|discriminate P2]. rewrite P2 in Rw. now rewrite orb_true_r in Rw. }
  clear None_.
  pose proof (type_cases _ S1 T2 T1 T3) as T0. cbv iota zeta. change (truthy (t_firstScene X)) with false. rewrite andb_false_r. change (m_scene X) with (manuscript_scene tr pn pp).
  set (tpl := if (_ && _)%bool then t_appendedScene X else t_scene X). assert (Htpl : tpl = OdtWManuscript_scene \/ tpl = OdtWManuscript_appendedScene) by (unfold tpl; destruct (_ && _)%bool; [right | left]; reflexivity).
  clearbody tpl. destruct (scene_block ch i x tpl (tt_scenes (Export.add_scene x t)) (tt_words (Export.add_scene x t)) (tt_letters (Export.add_scene x t)) Hc Hi Hx T0) as [w [E1 E2]]; [intros tx Htx; now apply S2 | exact (S3 T0) | exact Htpl|].
  rewrite E1. cbn [bind]. change (t_divider X) with OdtWManuscript_divider. destruct (negb (first || flag (sc_appendToPrev x))).
  - exists [OdtWManuscript_divider; w], false, (Export.add_scene x t), [i]. split; [now rewrite <- app_assoc|]. split; [|intros _; now left]. cbn [concat]. rewrite app_nil_r. apply block_after; [|exact E2]. rewrite divider_text. apply block_divider; [reflexivity | exact Hc].
  - exists [w], false, (Export.add_scene x t), [i]. split; [reflexivity|]. split; [cbn [concat]; rewrite app_nil_r; exact E2 | intros _; now left].
Qed.
Lemma scenes_blocks : forall c dne ch ids lines first t, titled n ch -> (forall i, In i ids -> number_id i = true /\ exists x, dget i (nv_scenes n) = Some x /\ scene_ok languages n x) ->
  exists extra first' t' js, foldM (scene_step X n c dne) ids (lines, first, t) = Ok (lines ++ extra, first', t') /\ good ch (concat extra) js /\ (forall i, In i ids -> written c dne (scene_of n i) -> In i js).
Proof.
  intros c dne ch. induction ids as [|i ids IH]; intros lines first t Hc H; [exists [], first, t, []; split; [cbn; now rewrite app_nil_r|]; split; [apply block_nil | intros i []]|].
  destruct (H i (or_introl eq_refl)) as [Hi [x [Hx Ho]]]. destruct (step_block c dne ch lines first t i x Hc Hi Hx Ho) as [e1 [f1 [t1 [j1 [E1 [F1 W1]]]]]]. cbn [foldM]. rewrite E1. cbn [bind].
  destruct (IH (lines ++ e1) f1 t1 Hc) as [e2 [f2 [t2 [j2 [E2 [F2 W2]]]]]]; [intros j Hj; apply H; now right|]. exists (e1 ++ e2), f2, t2, (j1 ++ j2). split; [now rewrite E2, app_assoc|].
  split; [rewrite concat_app; now apply block_app|]. intros k [<- | Hk] Wk; apply in_or_app; [left | right; now apply W2]. apply W1. unfold scene_of in Wk. now rewrite Hx in Wk.
Qed.

(** ** Chapters *)
Lemma chapter_map : forall i c k, dget i (nv_chapters n) = Some c -> chapter_ok languages n c ->
  exists m t, manuscript_chapter pn pp n i k = Ok m /\ title_ok t = true /\ V m (s "ID") = i /\ V m (s "Title") = xesc t.
Proof.
  intros i c k Hc [_ [t [Ht1 Ht2]] _]. unfold manuscript_chapter, chapterMapping. unfold dindex. rewrite Hc. cbn [bind].
  match goal with |- context [mapping ?L0] => destruct (mapping_ok L0) as [m E] end.
  { repeat (apply Forall_cons; [cbn [snd]; first [now eexists | apply conv_ok]|]). apply Forall_nil. }
  rewrite E. cbn [bind].
  destruct (mapping_get _ _ E (s "ID") _ eq_refl) as [v1 [E1 G1]]. destruct (mapping_get _ _ E (s "Title") _ eq_refl) as [v2 [E2 G2]].
  rewrite Ht1 in E2. rewrite conv_title in E2 by exact Ht2. injection E1 as <-. injection E2 as <-. destruct (flag (ch_suppressTitle c)).
  - eexists. exists []. split; [reflexivity|]. split; [reflexivity|]. split; apply value_get; [rewrite dget_dset_other by discriminate; exact G1 | apply dget_dset_same].
  - eexists. exists t. split; [reflexivity|]. split; [exact Ht2|]. split; apply value_get; assumption.
Qed.
Lemma block_chapter : forall i c w js, number_id i = true -> dget i (nv_chapters n) = Some c -> ch_type c = Some 0%N -> titled n (Some i) -> good (Some i) w js ->
  good None (section_text (s "ChID:" ++ i) ([10%N] ++ w) ++ [10%N]) js.
Proof.
  intros i c w js Hi Hc Ht Hd [w' [es [Q [C [F W]]]]]. destruct feed_frag as [F2 Q2]. assert (Hid : forallb style_char (s "ChID:" ++ i) = true) by now apply number_style. pose proof (clean_quotes _ Q2) as Q3. destruct Q2 as [_ C3].
  destruct (section_quotes (s "ChID:" ++ i) ([10%N] ++ w) ([10%N] ++ w') Hid) as [Sq1 Sc1]; [split; discriminate | now apply quotes_app | now apply closes_app|].
  exists (section_text (s "ChID:" ++ i) ([10%N] ++ w') ++ [10%N]). eexists. split; [now apply quotes_app|]. split; [now apply closes_app|].
  split; [apply frag_app; [apply section_frag; [exact Hid|]; apply frag_app; [exact F2 | exact F] | exact F2]|].
  intros u R ls todo m Hl D. destruct (W [10%N] (End text_section :: chars [10%N] ++ R) ls todo m Hl D) as [u1 [ls1 [m1 [H1 [D1 E1]]]]]. exists [10%N], ls1, m1. split; [exact H1|]. split; [exact D1|].
  assert (Hcm : dget i (nv_chapters (nset m ls)) = Some c) by (destruct D as [scs [-> _]]; destruct n; exact Hc). cbn [app]. rewrite <- !app_assoc. cbn [app]. rewrite (walk_chapter_start _ u _ i c) by assumption.
  change (chars [10%N]) with [Data [10%N]] at 1. cbn [app]. rewrite <- ?app_assoc. rewrite pfeed_data. cbn [app]. rewrite E1. rewrite walk_chapter_end by exact (titled_langs n m1 ls1 _ _ D1 Hd). change (chars [10%N] ++ R) with (map (fun c => Data [c]) [10%N] ++ R). now rewrite pfeed_chars.
Qed.
Lemma chapter_joined : forall i st l t w, s "<text:section text:style-name=""Sect1"" text:name=""ChID:" ++ i ++ s """>" ++ [10%N] ++ (s "<text:h text:style-name=""" ++ st ++ s """ text:outline-level=""" ++ l ++ s """>") ++ xesc t ++ s "</text:h>" ++ [10%N] ++ w ++ s "</text:section>" ++ [10%N] =
  section_text (s "ChID:" ++ i) ([10%N] ++ (heading_text st l t ++ [10%N]) ++ w) ++ [10%N].
Proof. intros i st l t w. unfold heading_text, section_text, tag_text, attr_text, heading_attrs, section_attrs, closing_text. cbn [flat_map fst snd]. rewrite <- !app_assoc. reflexivity. Qed.
Lemma export_known : forall c, (forall i, In i (ch_srtScenes c) -> number_id i = true /\ exists x, dget i (nv_scenes n) = Some x /\ scene_ok languages n x) -> not_exported n (ch_srtScenes c) = Ok (hidden_chapter n c).
Proof.
  intros c H. rewrite ExportProofs.not_exported_eq; [unfold hidden_chapter; destruct (ch_srtScenes c); reflexivity|]. intros i Hi. destruct (H i Hi) as [_ [x [Hx _]]]. now exists x.
Qed.
Lemma chapter_block : forall lines k t i c, number_id i = true -> dget i (nv_chapters n) = Some c -> chapter_ok languages n c ->
  exists lines' k' t' w js, chapter_step X n (lines, k, t) i = Ok (lines', k', t') /\ concat lines' = concat lines ++ w /\ good None w js /\ (forall j, in_chapter n i j -> In j js).
Proof.
  intros lines k t i c Hi Hc Ho. pose proof Ho as [C1 [tt [C2 C3]] C4]. unfold chapter_step. change (f_chapter X i) with true. cbn [negb]. unfold dindex. rewrite Hc. cbn [bind]. rewrite (export_known _ C4). cbn [bind]. set (dne := hidden_chapter n c).
  assert (Hd : titled n (Some i)) by (exists c, tt; split; [exact Hc | exact C2]).
  assert (Plain : exists (lines' : list str) (k' : nat) (t' : totals) (w : str) (js : list str), (do ' (scs, t') <- get_scenes X n c dne t; Ok (lines ++ [] ++ scs ++ [], k, t')) = Ok (lines', k', t') /\ concat lines' = concat lines ++ w /\ good None w js /\ (forall j, in_chapter n i j -> In j js)).
  { destruct (scenes_blocks c dne None (ch_srtScenes c) [] true t I C4) as [ex [f' [t' [js [E [F W]]]]]]. unfold get_scenes. rewrite E. cbn [bind app]. exists (lines ++ ex ++ []), k, t', (concat ex), js. split; [reflexivity|].
    split; [now rewrite app_nil_r, concat_app|]. split; [exact F|]. intros j Hj. destruct (in_written n i j c Hc Hj) as [H1 H2]. now apply W. }
  assert (Full : forall (tpl : str) (k' d : nat) (st l : str), In l [s "1"; s "2"; s "3"] -> forallb style_char st = true -> st_other st ->
    (forall m, safe_substitute tpl m = s "<text:section text:style-name=""Sect1"" text:name=""ChID:" ++ V m (s "ID") ++ s """>" ++ [10%N] ++ (s "<text:h text:style-name=""" ++ st ++ s """ text:outline-level=""" ++ l ++ s """>") ++ V m (s "Title") ++ s "</text:h>" ++ [10%N]) -> ch_type c = Some 0%N ->
    exists (lines' : list str) (k0' : nat) (t' : totals) (w : str) (js : list str), (do head <- (do x <- fill tpl (m_chapter X n i d); Ok [x]); do ' (scs, t') <- get_scenes X n c dne t; do tail <- (do x <- fill OdtWManuscript_chapterEnd (m_chapter X n i d); Ok [x]); Ok (lines ++ head ++ scs ++ tail, k', t')) = Ok (lines', k0', t') /\ concat lines' = concat lines ++ w /\ good None w js /\ (forall j, in_chapter n i j -> In j js)).
  { intros tpl k' d st l Hl Hst Hso Htpl Ty. change (m_chapter X) with (manuscript_chapter pn pp). destruct (chapter_map i c d Hc Ho) as [m [ti [M1 [M2 [M3 M4]]]]]. unfold fill. rewrite M1. cbn [bind].
    destruct (scenes_blocks c dne (Some i) (ch_srtScenes c) [] true t Hd C4) as [ex [f' [t' [js [E [F W]]]]]]. unfold get_scenes. rewrite E. cbn [bind app].
    eexists. exists k', t', (section_text (s "ChID:" ++ i) ([10%N] ++ (heading_text st l ti ++ [10%N]) ++ concat ex) ++ [10%N]), js. split; [reflexivity|]. split; [|split].
    - rewrite concat_app. f_equal. cbn [concat]. rewrite concat_app. cbn [concat]. rewrite app_nil_r. rewrite Htpl, M3, M4, end_template_text. rewrite <- chapter_joined. rewrite <- !app_assoc. reflexivity.
    - apply (block_chapter i c); [exact Hi | exact Hc | exact Ty | exact Hd|]. apply block_after; [now apply block_heading | exact F].
    - intros j Hj. destruct (in_written n i j c Hc Hj) as [H1 H2]. now apply W. }
  unfold chapter_template, chapter_end_template.
  destruct (is_type (ch_type c) 2) eqn:T2; [destruct (is_type (ch_level c) 1); exact Plain|]. destruct (is_type (ch_type c) 1) eqn:T1; [destruct (is_type (ch_level c) 1); exact Plain|]. destruct (is_type (ch_type c) 3) eqn:T3; [exact Plain|].
  destruct dne; [exact Plain|]. pose proof (type_cases _ C1 T2 T1 T3) as T0. change (truthy (t_part X)) with true. rewrite andb_true_r. destruct (is_type (ch_level c) 1); cbn [fst snd].
  - apply (Full (t_part X) k 0 (s "Heading_20_1") (s "1")); [now left | reflexivity | split; discriminate | | exact T0]. intro m. exact (part_template_text m).
  - apply (Full (t_chapter X) (S k) (S k) (s "Heading_20_2") (s "2")); [right; now left | reflexivity | split; discriminate | | exact T0]. intro m. exact (chapter_template_text m).
Qed.
Lemma chapters_block : forall ids lines k t, (forall i, In i ids -> number_id i = true /\ exists c, dget i (nv_chapters n) = Some c /\ chapter_ok languages n c) ->
  exists lines' k' t' w js, foldM (chapter_step X n) ids (lines, k, t) = Ok (lines', k', t') /\ concat lines' = concat lines ++ w /\ good None w js /\ (forall i j, In i ids -> in_chapter n i j -> In j js).
Proof.
  induction ids as [|i ids IH]; intros lines k t H; [exists lines, k, t, [], []; split; [reflexivity|]; split; [now rewrite app_nil_r|]; split; [apply block_nil | intros i j []]|].
  destruct (H i (or_introl eq_refl)) as [Hi [c [Hc Ho]]]. destruct (chapter_block lines k t i c Hi Hc Ho) as [l1 [k1 [t1 [w1 [j1 [E1 [E2 [E3 I1]]]]]]]]. cbn [foldM]. rewrite E1. cbn [bind].
  destruct (IH l1 k1 t1) as [l2 [k2 [t2 [w2 [j2 [G1 [G2 [G3 I2]]]]]]]]; [intros j Hj; apply H; now right|]. exists l2, k2, t2, (w1 ++ w2), (j1 ++ j2). split; [exact G1|]. split; [now rewrite G2, E2, app_assoc|].
  split; [now apply block_app|]. intros a j [<- | Ha] Hj; apply in_or_app; [left; now apply I1 | right; now apply (I2 a)].
Qed.
(** ** The document *)
Theorem document_text : manuscript_ok author languages n -> exists body es, get_formatted_text X n = Ok (OdsRoundTrip.DECL ++ ManuDoc.HEAD1 ++ automatic_styles languages ++ ManuDoc.HEAD2 ++ body ++ ManuDoc.FOOT) /\ frag body es /\
  exists js, (forall i, in_document n i -> In i js) /\ forall u R ls todo m, incl ls languages -> differ (js ++ todo) n m ->
  exists u' ls' m', incl ls' languages /\ differ todo n m' /\ pfeed u (es ++ R) (Out (LANG languages) (nset m ls) None) = pfeed u' R (Out (LANG languages) (nset m' ls') None).
Proof.
  intros [_ _ O1 O2 O3]. unfold get_formatted_text, get_fileHeader. change (m_fileHeader X) with formatted_header. unfold fill, formatted_header, fileHeaderMapping.
  match goal with |- context [mapping ?L0] => destruct (mapping_ok L0) as [m E] end.
  { repeat (apply Forall_cons; [cbn [snd]; first [now eexists | apply conv_ok]|]). apply Forall_nil. }
  rewrite E. cbn [bind].
  destruct (mapping_get _ _ E (s "Title") _ eq_refl) as [v1 [E1 G1]]. destruct (mapping_get _ _ E (s "AuthorName") _ eq_refl) as [v2 [E2 G2]].
  rewrite conv_title in E1 by exact O1. rewrite conv_title in E2 by exact O2. injection E1 as <-. injection E2 as <-.
  change (t_fileHeader X) with OdtWManuscript_fileHeader. rewrite header_template_text, ManuDoc.header_text. set (H0 := OdsRoundTrip.DECL ++ ManuDoc.HEAD1 ++ automatic_styles languages ++ ManuDoc.HEAD2).
  match goal with |- context [V ?d (s "ContentHeader")] =>
    assert (X1 : V d (s "ContentHeader") = H0) by (apply value_get; apply dget_dset_same);
    assert (X2 : V d (s "Title") = xesc (ostr (nv_title n))) by (apply value_get; rewrite dget_dset_other by discriminate; exact G1);
    assert (X3 : V d (s "AuthorName") = xesc (ostr (nv_authorName n))) by (apply value_get; rewrite dget_dset_other by discriminate; exact G2);
    rewrite X1, X2, X3; clear X1 X2 X3 end.
  unfold get_chapters. destruct (chapters_block (nv_srtChapters n) [] 0 (mkTotals 0 0 0) O3) as [ls [k [t [w [js [C1 [C2 [C3 C4]]]]]]]]. rewrite C1. cbn [bind]. cbn [concat app] in C2.
  change (t_fileFooter X) with ManuDoc.FOOT.
  set (body := (para_text (s "Title") (xesc (ostr (nv_title n))) ++ [10%N]) ++ (para_text (s "Subtitle") (xesc (ostr (nv_authorName n))) ++ [10%N]) ++ w).
  assert (Gb : good None body js).
  { unfold body. apply block_after; [apply block_title; [now left | now apply otitle | exact I]|]. apply block_after; [apply block_title; [right; now left | now apply otitle | exact I]|]. exact C3. }
  destruct Gb as [body' [es [Gq [Gc [Gf Gw]]]]]. exists body', es. split; [|split; [exact Gf|]; exists js; split; [intros i [k0 [H1 H2]]; now apply (C4 k0) | exact Gw]].
  match goal with |- context [concat ?l] => assert (Et : concat l = H0 ++ body ++ ManuDoc.FOOT) end.
  { cbn [app concat]. rewrite concat_app. cbn [concat]. rewrite app_nil_r, C2. unfold body, para_text, tag_text, attr_text, para_attrs, closing_text. cbn [flat_map fst snd]. rewrite <- !app_assoc. cbn [app]. rewrite <- ?app_assoc. reflexivity. }
  rewrite Et.
  pose proof (quoted_document H0 body body' (clean_head languages (proj1 (all_locales languages locales (proj1 (proj2 names))))) Gq Gc) as Fin.
  assert (Fl : H0 ++ body' ++ ManuDoc.FOOT = OdsRoundTrip.DECL ++ ManuDoc.HEAD1 ++ automatic_styles languages ++ ManuDoc.HEAD2 ++ body' ++ ManuDoc.FOOT) by (unfold H0; now rewrite <- !app_assoc).
  rewrite <- Fl. clear - Fin. set (t0 := H0 ++ body ++ ManuDoc.FOOT) in *. set (t1 := H0 ++ body' ++ ManuDoc.FOOT) in *. clearbody t0 t1. rewrite Fin. reflexivity.
Qed.
End Exporting.
