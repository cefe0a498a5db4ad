(** The exported notes and "todo" chapters consist of blocks, and are read back. *)
From Coq Require Import String List NArith ZArith Bool Lia Arith.
From Verif Require Import SpecExport ManuDoc PyStr PyDict WordCount WordCountProofs YwText YwTextProofs NovelModel NovelOps OdfXml OdfXmlProofs OdfLex OdtText OdtTextProofs OdtTextProofs2 SpecOdf SpecFormat SpecManuscript Template Templates Export Manuscript
  FormatLines FormatRun FormatXml FormatXml4 FormatXml5 FormatEnds OdsRoundTrip2 SplitterProofs ConfigProofs ManuText ManuClean ManuEvents ManuQuote OdtRead ManuRead ManuMachine ManuWalk XmlTags ManuStyles ManuBlocks ManuExport ManuProofs Notes SpecRetext Retext SpecNotes.
Import ListNotations.

Lemma note_template_text : forall m, safe_substitute OdtWNotes_notesScene m =
  s "<text:h text:style-name=""Heading_20_3"" text:outline-level=""3"">" ++ V m (s "Title") ++ s "</text:h>" ++ [10%N] ++
  s "<text:section text:style-name=""Sect1"" text:name=""ScID:" ++ V m (s "ID") ++ s """>" ++ [10%N] ++ s "<text:p text:style-name=""Text_20_body"">" ++ V m (s "SceneContent") ++ s "</text:p>" ++ [10%N] ++ s "</text:section>" ++ [10%N].
Proof. intro m. unfold V. cbv -[value_or]. reflexivity. Qed.
Lemma note_joined : forall i t w,
  s "<text:h text:style-name=""Heading_20_3"" text:outline-level=""3"">" ++ xesc t ++ s "</text:h>" ++ [10%N] ++
  s "<text:section text:style-name=""Sect1"" text:name=""ScID:" ++ i ++ s """>" ++ [10%N] ++ s "<text:p text:style-name=""Text_20_body"">" ++ w ++ s "</text:p>" ++ [10%N] ++ s "</text:section>" ++ [10%N] =
  (heading_text (s "Heading_20_3") (s "3") t ++ [10%N]) ++ (scene_text i (s "Text_20_body") w ++ [10%N]).
Proof. intros i t w. unfold heading_text, scene_text, section_text, para_text, tag_text, attr_text, heading_attrs, section_attrs, para_attrs, closing_text. cbn [flat_map fst snd]. rewrite <- !app_assoc. reflexivity. Qed.

(** what the two exporters have in common *)
Record writes (tr : str -> str) (pn pp : option str) (kind : N) (e : exporter) : Prop := mkWrites {
  w_header : t_fileHeader e = OdtWManuscript_fileHeader; w_footer : t_fileFooter e = ManuDoc.FOOT;
  w_fs : forall i, f_scene e i = true; w_fc : forall i, f_chapter e i = true;
  w_mh : m_fileHeader e = formatted_header; w_mc : m_chapter e = manuscript_chapter pn pp; w_ms : m_scene e = manuscript_scene tr pn pp;
  w_first : t_firstScene e = []; w_divider : t_divider e = [];
  w_scene : forall c x dne first, known_type (sc_type x) = true ->
    match fst (scene_template e c x dne first) with None => sc_type x <> Some kind | Some tpl => (tpl = OdtWNotes_notesScene /\ sc_type x = Some kind) \/ (tpl = [] /\ sc_type x <> Some kind) end;
  w_chapter : forall c dne, known_type (ch_type c) = true ->
    (ch_type c = Some kind /\ (fst (chapter_template e c dne) = Some OdtWManuscript_part \/ fst (chapter_template e c dne) = Some OdtWManuscript_chapter) /\ chapter_end_template e c dne = Some OdtWManuscript_chapterEnd) \/
    ((fst (chapter_template e c dne) = None \/ fst (chapter_template e c dne) = Some []) /\ chapter_end_template e c dne = None) }.

Section Exporting.
Context {typ : Typ}.
Variables (tr : str -> str) (pn pp : option str) (n : novel).
Notation author := (py_str (nv_authorName n)).
Notation languages := (languages_in n).
Hypothesis names : names_ok author languages.
Hypothesis locales : Forall locale_ok languages.
Hypothesis keys : NoDup (map fst (nv_scenes n)).
Variable X : exporter.
Hypothesis wr : writes tr pn pp TYPE X.
Notation conv := (formatted_convert n).
Notation good := (block languages n).

Lemma scene_filled : forall i x k w l, dget i (nv_scenes n) = Some x -> scene_fit TYPE languages n x -> exists m, manuscript_scene tr pn pp n i k w l = Ok m.
Proof.
  intros i x k w l Hx [_ Hs Hl Hi _ _]. unfold manuscript_scene, sceneMapping. unfold dindex. rewrite Hx. cbn [bind]. destruct (places_ok _ _ Hl) as [a ->]. destruct (places_ok _ _ Hi) as [b ->]. cbn [bind].
  match goal with |- context [mapping ?L0] => destruct (mapping_ok L0) as [m E] end.
  { repeat (apply Forall_cons; [cbn [snd]; first [now eexists | now apply conv_ok | now apply status_ok]|]). apply Forall_nil. }
  rewrite E. cbn [bind]. eexists. reflexivity.
Qed.
Lemma note_block : forall ch i x a b c, titled n ch -> number_id i = true -> dget i (nv_scenes n) = Some x -> sc_type x = Some TYPE -> scene_fit TYPE languages n x ->
  exists w, fill OdtWNotes_notesScene (manuscript_scene tr pn pp n i a b c) = Ok w /\ good ch w [i].
Proof.
  intros ch i x a b c Hc Hi Hx Ht [_ N1 N3 N4 Hs Hk]. destruct (Hk Ht) as [N2 [t [N5 [ks [-> [M [W [Sd [Sq [R Q]]]]]]]]]].
  destruct (exported_quoted author languages names ks M W R Q) as [w [E1 E2]].
  assert (C : conv (sc_content x) false = Ok w) by (unfold formatted_convert; rewrite N5, E1; reflexivity).
  destruct (scene_map tr pn pp n names i x a b c w Hx N1 N2 N3 N4 C) as [m [M1 [M2 [M3 M4]]]]. unfold fill. rewrite M1. cbn [bind]. eexists. split; [reflexivity|].
  assert (G : good ch ((heading_text (s "Heading_20_3") (s "3") (ostr (sc_title x)) ++ [10%N]) ++ (scene_text i (s "Text_20_body") w ++ [10%N])) [i]).
  { apply block_after; [apply block_heading; [do 2 right; now left | reflexivity | split; discriminate | now apply otitle | exact Hc]|].
    destruct (E2 (s "Text_20_body") (or_intror (or_introl eq_refl))) as [ks' [st' [w' [es [G1 [G2 [G3 G4]]]]]]].
    apply (block_scene author languages names locales n keys ch i x (s "Text_20_body") ks w ks' st' w' es); try assumption; [now apply Hs | right; now left]. }
  rewrite note_template_text, M2, M3, M4. rewrite <- note_joined in G. exact G.
Qed.
Lemma step_block : forall c dne ch lines first t i x, titled n ch -> number_id i = true -> dget i (nv_scenes n) = Some x -> scene_fit TYPE languages n x ->
  exists extra first' t' js, scene_step X n c dne (lines, first, t) i = Ok (lines ++ extra, first', t') /\ good ch (concat extra) js /\ (sc_type x = Some TYPE -> In i js).
Proof.
  intros c dne ch lines first t i x Hc Hi Hx Hf. pose proof Hf as [S1 _ _ _ _ _].
  unfold scene_step. rewrite (w_fs _ _ _ _ _ wr). cbn [negb]. unfold dindex. rewrite Hx. cbn [bind]. pose proof (w_scene _ _ _ _ _ wr c x dne first S1) as T.
  destruct (scene_template X c x dne first) as [[tpl|] nb]; cbn [fst] in T; [|exists [], first, t, []; split; [now rewrite app_nil_r|]; split; [apply block_nil | intro K; contradiction]].
  rewrite (w_first _ _ _ _ _ wr). change (truthy []) with false. rewrite andb_false_r. rewrite (w_ms _ _ _ _ _ wr), (w_divider _ _ _ _ _ wr). cbv iota zeta. set (t' := if nb then Export.add_scene x t else t). set (d := if nb then tt_scenes t' else 0).
  assert (G : exists w js, fill tpl (manuscript_scene tr pn pp n i d (tt_words t') (tt_letters t')) = Ok w /\ good ch w js /\ (sc_type x = Some TYPE -> In i js)).
  { destruct T as [[-> T] | [-> T]]; [destruct (note_block ch i x d (tt_words t') (tt_letters t') Hc Hi Hx T Hf) as [w [E1 E2]]; exists w, [i]; split; [exact E1|]; split; [exact E2 | intros _; now left]|].
    destruct (scene_filled i x d (tt_words t') (tt_letters t') Hx Hf) as [m E]. unfold fill. rewrite E. cbn [bind]. exists [], []. split; [reflexivity|]. split; [apply block_nil | intro K; contradiction]. }
  destruct G as [w [js [E1 [E2 E3]]]]. rewrite E1. cbn [bind]. destruct (negb (first || flag (sc_appendToPrev x))).
  - exists [[]; w], false, t', js. split; [now rewrite <- app_assoc|]. split; [cbn [concat app]; rewrite app_nil_r; exact E2 | exact E3].
  - exists [w], false, t', js. split; [reflexivity|]. split; [cbn [concat app]; rewrite app_nil_r; exact E2 | exact E3].
Qed.
Lemma scenes_blocks : forall c dne ch ids lines first t, titled n ch -> (forall i, In i ids -> number_id i = true /\ exists x, dget i (nv_scenes n) = Some x /\ scene_fit TYPE languages n x) ->
  exists extra first' t' js, foldM (scene_step X n c dne) ids (lines, first, t) = Ok (lines ++ extra, first', t') /\ good ch (concat extra) js /\ (forall i, In i ids -> sc_type (scene_of n i) = Some TYPE -> In i js).
Proof.
  intros c dne ch. induction ids as [|i ids IH]; intros lines first t Hc H; [exists [], first, t, []; split; [cbn; now rewrite app_nil_r|]; split; [apply block_nil | intros i []]|].
  destruct (H i (or_introl eq_refl)) as [Hi [x [Hx Ho]]]. destruct (step_block c dne ch lines first t i x Hc Hi Hx Ho) as [e1 [f1 [t1 [j1 [E1 [F1 W1]]]]]]. cbn [foldM]. rewrite E1. cbn [bind].
  destruct (IH (lines ++ e1) f1 t1 Hc) as [e2 [f2 [t2 [j2 [E2 [F2 W2]]]]]]; [intros j Hj; apply H; now right|]. exists (e1 ++ e2), f2, t2, (j1 ++ j2). split; [now rewrite E2, app_assoc|].
  split; [rewrite concat_app; now apply block_app|]. intros k [<- | Hk] Wk; apply in_or_app; [left | right; now apply W2]. apply W1. unfold scene_of in Wk. now rewrite Hx in Wk.
Qed.


(** ** Chapters *)
Lemma chapter_filled : forall i c k, dget i (nv_chapters n) = Some c -> exists m, manuscript_chapter pn pp n i k = Ok m /\
  forall t, ch_title c = Some t -> title_ok t = true -> exists t', title_ok t' = true /\ V m (s "ID") = i /\ V m (s "Title") = xesc t'.
Proof.
  intros i c k Hc. unfold manuscript_chapter, chapterMapping. unfold dindex. rewrite Hc. cbn [bind].
  match goal with |- context [mapping ?L0] => destruct (mapping_ok L0) as [m E] end.
  { repeat (apply Forall_cons; [cbn [snd]; first [now eexists | now apply conv_ok]|]). apply Forall_nil. }
  rewrite E. cbn [bind]. eexists. split; [reflexivity|]. intros t Ht1 Ht2.
  destruct (mapping_get _ _ E (s "ID") _ eq_refl) as [v1 [E1 G1]]. destruct (mapping_get _ _ E (s "Title") _ eq_refl) as [v2 [E2 G2]].
  rewrite Ht1 in E2. rewrite conv_title in E2 by exact Ht2. injection E1 as <-. injection E2 as <-. destruct (flag (ch_suppressTitle c)).
  - exists []. split; [reflexivity|]. split; apply value_get; [rewrite dget_dset_other by discriminate; exact G1 | apply dget_dset_same].
  - exists t. split; [exact Ht2|]. split; apply value_get; assumption.
Qed.
Lemma block_chapter : forall i c w js, number_id i = true -> dget i (nv_chapters n) = Some c -> ch_type c = Some TYPE -> titled n (Some i) -> good (Some i) w js ->
  good None (section_text (s "ChID:" ++ i) ([10%N] ++ w) ++ [10%N]) js.
Proof.
  intros i c w js Hi Hc Ht Hd [w' [es [Q [C [F W]]]]]. destruct feed_frag as [F2 Q2]. assert (Hid : forallb style_char (s "ChID:" ++ i) = true) by now apply number_style. pose proof (clean_quotes _ Q2) as Q3. destruct Q2 as [_ C3].
  destruct (section_quotes (s "ChID:" ++ i) ([10%N] ++ w) ([10%N] ++ w') Hid) as [Sq1 Sc1]; [split; discriminate | now apply quotes_app | now apply closes_app|].
  exists (section_text (s "ChID:" ++ i) ([10%N] ++ w') ++ [10%N]). eexists. split; [now apply quotes_app|]. split; [now apply closes_app|].
  split; [apply frag_app; [apply section_frag; [exact Hid|]; apply frag_app; [exact F2 | exact F] | exact F2]|].
  intros u R ls todo m Hl D. destruct (W [10%N] (End text_section :: chars [10%N] ++ R) ls todo m Hl D) as [u1 [ls1 [m1 [H1 [D1 E1]]]]]. exists [10%N], ls1, m1. split; [exact H1|]. split; [exact D1|].
  assert (Hcm : dget i (nv_chapters (nset m ls)) = Some c) by (destruct D as [scs [-> _]]; destruct n; exact Hc). cbn [app]. rewrite <- !app_assoc. cbn [app]. rewrite (walk_chapter_start _ u _ i c) by assumption.
  change (chars [10%N]) with [Data [10%N]] at 1. cbn [app]. rewrite <- ?app_assoc. rewrite pfeed_data. cbn [app]. rewrite E1. rewrite walk_chapter_end by exact (titled_langs n m1 ls1 _ _ D1 Hd). change (chars [10%N] ++ R) with (map (fun c => Data [c]) [10%N] ++ R). now rewrite pfeed_chars.
Qed.
Lemma export_known : forall ids, (forall i, In i ids -> number_id i = true /\ exists x, dget i (nv_scenes n) = Some x /\ scene_fit TYPE languages n x) -> exists b, not_exported n ids = Ok b.
Proof.
  intros ids H. unfold not_exported.
  assert (G : forall a, exists b, foldM (fun (c : nat * nat) scId => do x <- dindex scId (nv_scenes n); Ok (S (fst c), if flag (sc_doNotExport x) then S (snd c) else snd c)) ids a = Ok b).
  { induction ids as [|i ids IH]; intro a; [now exists a|]. destruct (H i (or_introl eq_refl)) as [_ [x [Hx _]]]. cbn [foldM]. unfold dindex at 1. rewrite Hx. cbn [bind]. apply IH. intros j Hj. apply H. now right. }
  destruct (G (0, 0)) as [b E]. rewrite E. now eexists.
Qed.
Definition in_typed_chapter (k i : str) : Prop := In i (ch_srtScenes (chapter_of n k)) /\ sc_type (scene_of n i) = Some TYPE.
Lemma chapter_block : forall lines k t i c, number_id i = true -> dget i (nv_chapters n) = Some c -> chapter_fit TYPE languages n c ->
  exists lines' k' t' w js, chapter_step X n (lines, k, t) i = Ok (lines', k', t') /\ concat lines' = concat lines ++ w /\ good None w js /\ (forall j, in_typed_chapter i j -> In j js).
Proof.
  intros lines k t i c Hi Hc [C1 C2 C4]. unfold chapter_step. rewrite (w_fc _ _ _ _ _ wr). cbn [negb]. unfold dindex. rewrite Hc. cbn [bind]. destruct (export_known _ C4) as [dne ->]. cbn [bind]. cbv zeta. assert (Tc : forall j, in_typed_chapter i j -> In j (ch_srtScenes c) /\ sc_type (scene_of n j) = Some TYPE) by (intros j [K1 K2]; unfold chapter_of in K1; rewrite Hc in K1; now split).
  set (b := snd (chapter_template X c dne)). set (d := if b then _ else 0). destruct (chapter_filled i c d Hc) as [m [M1 M2]]. rewrite (w_mc _ _ _ _ _ wr). unfold fill. rewrite M1. cbn [bind].
  destruct (w_chapter _ _ _ _ _ wr c dne C1) as [[Ty [Tp Te]] | [Tp Te]]; rewrite Te.
  - destruct (C2 Ty) as [ti [Ht1 Ht2]]. destruct (M2 ti Ht1 Ht2) as [ti' [Ht3 [V1 V2]]]. assert (Hd : titled n (Some i)) by (exists c, ti; split; [exact Hc | exact Ht1]).
    destruct (scenes_blocks c dne (Some i) (ch_srtScenes c) [] true t Hd C4) as [ex [f' [t' [js [E [F W]]]]]]. unfold get_scenes. rewrite E. cbn [bind app].
    assert (Full : forall tpl st l, fst (chapter_template X c dne) = Some tpl -> In l [s "1"; s "2"; s "3"] -> forallb style_char st = true -> st_other st ->
      safe_substitute tpl m = s "<text:section text:style-name=""Sect1"" text:name=""ChID:" ++ V m (s "ID") ++ s """>" ++ [10%N] ++ (s "<text:h text:style-name=""" ++ st ++ s """ text:outline-level=""" ++ l ++ s """>") ++ V m (s "Title") ++ s "</text:h>" ++ [10%N] ->
      exists lines' k' t'0 w js, (do head <- match fst (chapter_template X c dne) with Some tpl => Ok [safe_substitute tpl m] | None => Ok [] end;
        Ok (lines ++ head ++ ex ++ [safe_substitute OdtWManuscript_chapterEnd m], if b then S k else k, t')) = Ok (lines', k', t'0) /\ concat lines' = concat lines ++ w /\ good None w js /\ (forall j, in_typed_chapter i j -> In j js)).
    { intros tpl st l Et Hl Hst Hso Htpl. rewrite Et. cbn [bind]. eexists. eexists. eexists. exists (section_text (s "ChID:" ++ i) ([10%N] ++ (heading_text st l ti' ++ [10%N]) ++ concat ex) ++ [10%N]), js. split; [reflexivity|]. split; [|split].
      - rewrite !concat_app. f_equal. cbn [concat]. rewrite !app_nil_r. rewrite Htpl, V1, V2, end_template_text. rewrite <- chapter_joined. rewrite <- !app_assoc. reflexivity.
      - apply (block_chapter i c); [exact Hi | exact Hc | exact Ty | exact Hd|]. apply block_after; [now apply block_heading | exact F].
      - intros j Hj. destruct (Tc j Hj) as [H1 H2]. now apply W. }
    destruct Tp as [Tp | Tp].
    + apply (Full OdtWManuscript_part (s "Heading_20_1") (s "1") Tp); [now left | reflexivity | split; discriminate | exact (part_template_text m)].
    + apply (Full OdtWManuscript_chapter (s "Heading_20_2") (s "2") Tp); [right; now left | reflexivity | split; discriminate | exact (chapter_template_text m)].
  - destruct (scenes_blocks c dne None (ch_srtScenes c) [] true t I C4) as [ex [f' [t' [js [E [F W]]]]]]. unfold get_scenes. rewrite E. cbn [bind app].
    assert (P : forall h, concat h = [] -> concat (lines ++ h ++ ex ++ []) = concat lines ++ concat ex) by (intros h Hh; rewrite app_nil_r, !concat_app, Hh; reflexivity).
    destruct Tp as [-> | ->]; cbn [bind]; eexists; eexists; eexists; exists (concat ex), js; (split; [reflexivity|]); (split; [|split; [exact F | intros j Hj; destruct (Tc j Hj) as [H1 H2]; now apply W]]); [exact (P [] eq_refl) | exact (P [[]] eq_refl)].
Qed.
Lemma chapters_block : forall ids lines k t, (forall i, In i ids -> number_id i = true /\ exists c, dget i (nv_chapters n) = Some c /\ chapter_fit TYPE languages n c) ->
  exists lines' k' t' w js, foldM (chapter_step X n) ids (lines, k, t) = Ok (lines', k', t') /\ concat lines' = concat lines ++ w /\ good None w js /\ (forall i j, In i ids -> in_typed_chapter i j -> In j js).
Proof.
  induction ids as [|i ids IH]; intros lines k t H; [exists lines, k, t, [], []; split; [reflexivity|]; split; [now rewrite app_nil_r|]; split; [apply block_nil | intros i j []]|].
  destruct (H i (or_introl eq_refl)) as [Hi [c [Hc Ho]]]. destruct (chapter_block lines k t i c Hi Hc Ho) as [l1 [k1 [t1 [w1 [j1 [E1 [E2 [E3 I1]]]]]]]]. cbn [foldM]. rewrite E1. cbn [bind].
  destruct (IH l1 k1 t1) as [l2 [k2 [t2 [w2 [j2 [G1 [G2 [G3 I2]]]]]]]]; [intros j Hj; apply H; now right|]. exists l2, k2, t2, (w1 ++ w2), (j1 ++ j2). split; [exact G1|]. split; [now rewrite G2, E2, app_assoc|].
  split; [now apply block_app|]. intros a j [<- | Ha] Hj; apply in_or_app; [left; now apply I1 | right; now apply (I2 a)].
Qed.
(** ** The document *)
Theorem document_text : novel_fit TYPE author languages n -> exists body es, get_formatted_text X n = Ok (OdsRoundTrip.DECL ++ ManuDoc.HEAD1 ++ automatic_styles languages ++ ManuDoc.HEAD2 ++ body ++ ManuDoc.FOOT) /\ frag body es /\
  exists js, (forall i, in_typed_document TYPE n i -> In i js) /\ forall u R ls todo m, incl ls languages -> differ (js ++ todo) n m ->
  exists u' ls' m', incl ls' languages /\ differ todo n m' /\ pfeed u (es ++ R) (Out (LANG languages) (nset m ls) None) = pfeed u' R (Out (LANG languages) (nset m' ls') None).
Proof.
  intros [_ _ O1 O2 O3]. unfold get_formatted_text, get_fileHeader. rewrite (w_mh _ _ _ _ _ wr). unfold fill, formatted_header, fileHeaderMapping.
  match goal with |- context [mapping ?L0] => destruct (mapping_ok L0) as [m E] end.
  { repeat (apply Forall_cons; [cbn [snd]; first [now eexists | now apply conv_ok]|]). apply Forall_nil. }
  rewrite E. cbn [bind].
  destruct (mapping_get _ _ E (s "Title") _ eq_refl) as [v1 [E1 G1]]. destruct (mapping_get _ _ E (s "AuthorName") _ eq_refl) as [v2 [E2 G2]].
  rewrite conv_title in E1 by exact O1. rewrite conv_title in E2 by exact O2. injection E1 as <-. injection E2 as <-.
  rewrite (w_header _ _ _ _ _ wr). rewrite header_template_text, ManuDoc.header_text. set (H0 := OdsRoundTrip.DECL ++ ManuDoc.HEAD1 ++ automatic_styles languages ++ ManuDoc.HEAD2).
  match goal with |- context [V ?d (s "ContentHeader")] =>
    assert (X1 : V d (s "ContentHeader") = H0) by (apply value_get; apply dget_dset_same);
    assert (X2 : V d (s "Title") = xesc (ostr (nv_title n))) by (apply value_get; rewrite dget_dset_other by discriminate; exact G1);
    assert (X3 : V d (s "AuthorName") = xesc (ostr (nv_authorName n))) by (apply value_get; rewrite dget_dset_other by discriminate; exact G2);
    rewrite X1, X2, X3; clear X1 X2 X3 end.
  unfold get_chapters. destruct (chapters_block (nv_srtChapters n) [] 0 (mkTotals 0 0 0) O3) as [ls [k [t [w [js [C1 [C2 [C3 C4]]]]]]]]. rewrite C1. cbn [bind]. cbn [concat app] in C2.
  rewrite (w_footer _ _ _ _ _ wr).
  set (body := (para_text (s "Title") (xesc (ostr (nv_title n))) ++ [10%N]) ++ (para_text (s "Subtitle") (xesc (ostr (nv_authorName n))) ++ [10%N]) ++ w).
  assert (Gb : good None body js).
  { unfold body. apply block_after; [apply block_title; [now left | now apply otitle | exact I]|]. apply block_after; [apply block_title; [right; now left | now apply otitle | exact I]|]. exact C3. }
  destruct Gb as [body' [es [Gq [Gc [Gf Gw]]]]]. exists body', es. split; [|split; [exact Gf|]; exists js; split; [intros i [k0 [H1 H2]]; now apply (C4 k0) | exact Gw]].
  match goal with |- context [concat ?l] => assert (Et : concat l = H0 ++ body ++ ManuDoc.FOOT) end.
  { cbn [app concat]. rewrite concat_app. cbn [concat]. rewrite app_nil_r, C2. unfold body, para_text, tag_text, attr_text, para_attrs, closing_text. cbn [flat_map fst snd]. rewrite <- !app_assoc. cbn [app]. rewrite <- ?app_assoc. reflexivity. }
  rewrite Et.
  pose proof (quoted_document H0 body body' (clean_head languages (proj1 (all_locales languages locales (proj1 (proj2 names))))) Gq Gc) as Fin.
  assert (Fl : H0 ++ body' ++ ManuDoc.FOOT = OdsRoundTrip.DECL ++ ManuDoc.HEAD1 ++ automatic_styles languages ++ ManuDoc.HEAD2 ++ body' ++ ManuDoc.FOOT) by (unfold H0; now rewrite <- !app_assoc).
  rewrite <- Fl. clear - Fin. set (t0 := H0 ++ body ++ ManuDoc.FOOT) in *. set (t1 := H0 ++ body' ++ ManuDoc.FOOT) in *. clearbody t0 t1. rewrite Fin. reflexivity.
Qed.
End Exporting.

(** ** The two exporters *)
Lemma notes_writes : forall tr pn pp, writes tr pn pp 1%N (OdtWNotes tr pn pp).
Proof.
  intros tr pn pp. constructor; try reflexivity.
  - intros c x dne first Hk. unfold scene_template. destruct (sc_type x) as [k|]; [|discriminate]. cbn [is_type].
    destruct (N.eqb k 2) eqn:E2; [apply N.eqb_eq in E2; subst k; discriminate|]. destruct (N.eqb k 1) eqn:E; [apply N.eqb_eq in E; subst k; left; split; reflexivity|]. destruct (N.eqb k 3 || is_type (ch_type c) 3)%bool; [intro K; injection K as ->; discriminate E|].
    destruct (flag (sc_doNotExport x) || dne)%bool; [intro K; injection K as ->; discriminate E|]. destruct (prefixb (s "<HTML>") _); [intro K; injection K as ->; discriminate E|]. destruct (prefixb (s "<TEX>") _); [intro K; injection K as ->; discriminate E|]. right. cbn [fst]. rewrite andb_false_r. split; [reflexivity | intro K; injection K as ->; discriminate E].
  - intros c dne Hk. unfold chapter_template, chapter_end_template. destruct (ch_type c) as [k|]; [|discriminate]. cbn [is_type].
    destruct (N.eqb k 2); [right; split; [left; destruct (is_type (ch_level c) 1); reflexivity | reflexivity]|].
    destruct (N.eqb k 1) eqn:E; [apply N.eqb_eq in E; subst k; left; split; [reflexivity|]; split; [destruct (is_type (ch_level c) 1); [left | right]; reflexivity | reflexivity]|].
    right. destruct (N.eqb k 3); [split; [left; reflexivity | reflexivity]|]. destruct dne; [split; [left; reflexivity | reflexivity]|]. split; [right; rewrite andb_false_r; reflexivity | reflexivity].
Qed.
Lemma todo_writes : forall tr pn pp, writes tr pn pp 2%N (OdtWTodo tr pn pp).
Proof.
  intros tr pn pp. constructor; try reflexivity.
  - intros c x dne first Hk. unfold scene_template. destruct (sc_type x) as [k|]; [|discriminate]. cbn [is_type].
    destruct (N.eqb k 2) eqn:E; [apply N.eqb_eq in E; subst k; left; split; reflexivity|]. destruct (N.eqb k 1); [intro K; injection K as ->; discriminate E|]. destruct (N.eqb k 3 || is_type (ch_type c) 3)%bool; [intro K; injection K as ->; discriminate E|].
    destruct (flag (sc_doNotExport x) || dne)%bool; [intro K; injection K as ->; discriminate E|]. destruct (prefixb (s "<HTML>") _); [intro K; injection K as ->; discriminate E|]. destruct (prefixb (s "<TEX>") _); [intro K; injection K as ->; discriminate E|]. right. cbn [fst]. rewrite andb_false_r. split; [reflexivity | intro K; injection K as ->; discriminate E].
  - intros c dne Hk. unfold chapter_template, chapter_end_template. destruct (ch_type c) as [k|]; [|discriminate]. cbn [is_type].
    destruct (N.eqb k 2) eqn:E; [apply N.eqb_eq in E; subst k; left; split; [reflexivity|]; split; [destruct (is_type (ch_level c) 1); [left | right]; reflexivity | reflexivity]|].
    right. destruct (N.eqb k 1); [split; [left; destruct (is_type (ch_level c) 1); reflexivity | reflexivity]|].
    destruct (N.eqb k 3); [split; [left; reflexivity | reflexivity]|]. destruct dne; [split; [left; reflexivity | reflexivity]|]. split; [right; rewrite andb_false_r; reflexivity | reflexivity].
Qed.

(** ** The whole way *)
Lemma fit_moved : forall kind n l L a, novel_fit kind a L n -> novel_fit kind a L (set_nv_languages (Some l) n).
Proof.
  intros kind n l L a [A B C D F]. constructor; [exact A | exact B | exact C | exact D|].
  intros i Hi. destruct (F i Hi) as [F1 [c [F2 [G1 G2 G3]]]]. split; [exact F1|]. exists c. split; [exact F2|]. constructor; [exact G1 | exact G2|].
  intros j Hj. destruct (G3 j Hj) as [H1 [x [H2 [K1 K2 K3 K4 K5 K6]]]]. split; [exact H1|]. exists x. split; [exact H2|]. constructor; assumption.
Qed.
Theorem typed_round_trip : forall (kind : N) tr pn pp n X, writes tr pn pp kind X -> novel_fit kind (py_str (nv_authorName n)) (languages_in (with_languages n)) n -> NoDup (map fst (nv_scenes n)) ->
  exists doc es, get_formatted_text X (with_languages n) = Ok doc /\ sax doc = Some es /\
  forall m es' styles title name desc, other_texts (in_typed_document kind n) n m -> deliver es es' -> styles = None \/ styles = Some (nv_languageCode n, nv_countryCode n) ->
  exists ls, incl ls (languages_in (with_languages n)) /\ read_formatted tr (manuscript_reader kind) (opening_calls styles title name desc) es' m = Ok (set_nv_languages (Some ls) n, false).
Proof.
  intros kind tr pn pp n X Wr M keys. destruct (with_set n) as [l0 Ew].
  assert (M0 : novel_fit kind (py_str (nv_authorName (with_languages n))) (languages_in (with_languages n)) (with_languages n)) by (set (L0 := languages_in (with_languages n)) in *; clearbody L0; rewrite Ew; exact (fit_moved kind n l0 L0 _ M)).
  pose proof M0 as [N0 L0 _ _ _].
  assert (keys0 : NoDup (map fst (nv_scenes (with_languages n)))) by (rewrite scenes_moved; exact keys).
  destruct (@document_text kind tr pn pp (with_languages n) N0 L0 keys0 X Wr M0) as [body [Eb [D1 [Fb [js [Js W]]]]]].
  destruct (blocks_read tr n kind body Eb L0 (proj1 (proj2 N0)) Fb (in_typed_document kind n) js (fun i Hi => Js i (typed_moved n kind i Hi)) W) as [es [S R]].
  { intros k Hk. destruct M as [_ _ _ _ Ch]. destruct (Ch k Hk) as [_ [c [Hc [_ _ Hsc]]]]. exists c. split; [exact Hc|]. intros i Hi. destruct (Hsc i Hi) as [_ [x [Hx Hx2]]]. exists x. split; [exact Hx | exact (sf_text _ _ _ _ Hx2)]. }
  eexists. exists es. split; [exact D1|]. split; [exact S | exact R].
Qed.
