(** Lists written and read. *)
From Coq Require Import String List NArith ZArith Bool Lia Arith.
From Verif Require Import PyStr PyDict Globals GlobalsProofs NovelModel YwText YwTextProofs OdfXml OdfXmlProofs OdtText OdtTextProofs OdtTextProofs2 Template TemplateProofs Export ExportProofs Templates OdsRead SpecOdf SpecOds OdsProofs OdsTree OdfLex OdsWrite OdsRoundTrip.
Import ListNotations.

(** * The blocks of a list *)
Definition cell_raw (w : str) : str :=
  SP 5 ++ (s "<table:table-cell office:value-type=""string"">" ++ ([10%N] ++ SP 6 ++ (s "<text:p>" ++ w ++ s "</text:p>") ++ [10%N] ++ SP 5) ++ s "</table:table-cell>") ++ [10%N].
Definition row_raw (ws : list str) : str :=
  SP 3 ++ (s "<table:table-row table:style-name=""ro2"">" ++ ([10%N] ++ flat_map cell_raw ws ++ SP 5 ++ s "<table:table-cell table:number-columns-repeated=""1014""/>" ++ [10%N] ++ SP 4) ++
    s "</table:table-row>") ++ [10%N; 10%N].
Lemma row_raw_xml : forall ts, row_xml ts = row_raw (map obr ts).
Proof.
  intro ts. unfold row_xml, row_raw. assert (E : flat_map cell_xml ts = flat_map cell_raw (map obr ts)); [|now rewrite E].
  induction ts as [|t ts IH]; [reflexivity|]. cbn [flat_map map]. now rewrite IH.
Qed.
Lemma char_template : forall v1 v2 v3 v4 v5 v6 v7 v8 v9 v10 v11 v12 v13 : str,
  safe_substitute OdsWCharList_character [(s "ID", v1); (s "Title", v2); (s "Desc", v3); (s "Tags", v4); (s "Image", v5); (s "AKA", v6); (s "Notes", v7); (s "Bio", v8);
    (s "Goals", v9); (s "FullName", v10); (s "Status", v11); (s "ProjectName", v12); (s "ProjectPath", v13)]
  = row_raw [s "CrID:" ++ v1; v2; v10; v6; v3; v8; v9; v11; v4; v7].
Proof.
  intros. unfold row_raw, cell_raw. cbn [flat_map]. rewrite <- !app_assoc. vm_compute. reflexivity.
Qed.
Lemma loc_template : forall v1 v2 v3 v4 v5 v6 v7 v8 : str,
  safe_substitute OdsWLocList_location [(s "ID", v1); (s "Title", v2); (s "Desc", v3); (s "Tags", v4); (s "Image", v5); (s "AKA", v6); (s "ProjectName", v7); (s "ProjectPath", v8)]
  = row_raw [s "LcID:" ++ v1; v2; v3; v6; v4].
Proof. intros. unfold row_raw, cell_raw. cbn [flat_map]. rewrite <- !app_assoc. vm_compute. reflexivity. Qed.
Lemma item_template : forall v1 v2 v3 v4 v5 v6 v7 v8 : str,
  safe_substitute OdsWItemList_item [(s "ID", v1); (s "Title", v2); (s "Desc", v3); (s "Tags", v4); (s "Image", v5); (s "AKA", v6); (s "ProjectName", v7); (s "ProjectPath", v8)]
  = row_raw [s "ItID:" ++ v1; v2; v3; v6; v4].
Proof. intros. unfold row_raw, cell_raw. cbn [flat_map]. rewrite <- !app_assoc. vm_compute. reflexivity. Qed.

Definition shown (t : option str) : str := match t with Some x => rstrip x | None => [] end.
Lemma ods_shown : forall t, ods_convert t = obr (shown t).
Proof. intros [t|]; [apply ods_long | reflexivity]. Qed.
Lemma obr_plain : forall t, Forall (fun c => esc5 c = [c] /\ c <> 10%N) t -> obr t = t.
Proof.
  intros t H. induction H as [|c t [H1 H2] H IH]; [reflexivity|]. cbn [obr flat_map]. rewrite (proj2 (N.eqb_neq c 10)) by exact H2. rewrite H1. cbn [app]. f_equal. exact IH.
Qed.
Lemma digit_plain : forall t, digits t -> obr t = t.
Proof.
  intros t [_ H]. apply obr_plain. eapply Forall_impl; [|exact H]. cbn. intros c Hc. split; [|lia]. unfold esc5.
  rewrite !(proj2 (N.eqb_neq c _)) by lia. reflexivity.
Qed.
Lemma obr_app : forall a b, obr (a ++ b) = obr a ++ obr b.
Proof. intros a b. unfold obr. apply flat_map_app. Qed.
Lemma mark_plain : forall m i, obr m = m -> digits i -> obr (m ++ i) = m ++ i.
Proof. intros m i H D. now rewrite obr_app, H, digit_plain. Qed.

Lemma ok_inj : forall a b : str, Ok a = Ok b -> a = b.
Proof. congruence. Qed.
Definition char_texts (i : str) (c : character) : list str :=
  [s "CrID:" ++ i; shown (cr_title c); shown (cr_fullName c); shown (cr_aka c); shown (cr_desc c); shown (cr_bio c); shown (cr_goals c);
   (if flag (cr_isMajor c) then s "Major" else s "Minor"); rstrip (tags_text (cr_tags c)); shown (cr_notes c)].
Definition world_texts (mark i : str) (w : world) : list str := [mark ++ i; shown (we_title w); shown (we_desc w); shown (we_aka w); rstrip (tags_text (we_tags w))].
Lemma char_block : forall pn pp n i b, digits i -> fill OdsWCharList_character (characterMapping ods_conv pn pp n i) = Ok b ->
  exists c, dget i (nv_characters n) = Some c /\ b = row_xml (char_texts i c).
Proof.
  intros pn pp n i b D H. unfold fill, characterMapping, dindex in H. destruct (dget i (nv_characters n)) as [c|]; [|discriminate]. exists c. split; [reflexivity|].
  cbn [bind mapping ods_conv] in H. rewrite char_template in H. apply ok_inj in H. rewrite <- H, row_raw_xml. unfold char_texts. cbn [map].
  rewrite !ods_shown. rewrite mark_plain by (try exact D; reflexivity). destruct (flag (cr_isMajor c)); reflexivity.
Qed.
Lemma loc_block : forall pn pp d i b, digits i -> fill OdsWLocList_location (worldMapping ods_conv pn pp d i) = Ok b ->
  exists w, dget i d = Some w /\ b = row_xml (world_texts (s "LcID:") i w).
Proof.
  intros pn pp d i b D H. unfold fill, worldMapping, dindex in H. destruct (dget i d) as [w|]; [|discriminate]. exists w. split; [reflexivity|].
  cbn [bind mapping ods_conv] in H. rewrite loc_template in H. apply ok_inj in H. rewrite <- H, row_raw_xml. unfold world_texts. cbn [map].
  rewrite !ods_shown. rewrite mark_plain by (try exact D; reflexivity). reflexivity.
Qed.
Lemma item_block : forall pn pp d i b, digits i -> fill OdsWItemList_item (worldMapping ods_conv pn pp d i) = Ok b ->
  exists w, dget i d = Some w /\ b = row_xml (world_texts (s "ItID:") i w).
Proof.
  intros pn pp d i b D H. unfold fill, worldMapping, dindex in H. destruct (dget i d) as [w|]; [|discriminate]. exists w. split; [reflexivity|].
  cbn [bind mapping ods_conv] in H. rewrite item_template in H. apply ok_inj in H. rewrite <- H, row_raw_xml. unfold world_texts. cbn [map].
  rewrite !ods_shown. rewrite mark_plain by (try exact D; reflexivity). reflexivity.
Qed.
Lemma blocks : forall {A} (f : str -> res str) (get : str -> option A) (texts : str -> A -> list str) ids bs,
  (forall i b, In i ids -> f i = Ok b -> exists x, get i = Some x /\ b = row_xml (texts i x)) -> mapM f ids = Ok bs ->
  exists rows, concat bs = flat_map row_xml rows /\ Forall2 (fun i r => exists x, get i = Some x /\ r = texts i x) ids rows.
Proof.
  intros A f get texts. induction ids as [|i ids IH]; intros bs H E; cbn [mapM] in E.
  - injection E as <-. exists []. split; [reflexivity | constructor].
  - destruct (f i) as [b|] eqn:Ef; cbn [bind] in E; [|discriminate]. destruct (mapM f ids) as [bs'|] eqn:Em; cbn [bind] in E; [|discriminate]. injection E as <-.
    destruct (H i b (or_introl eq_refl) Ef) as [x [G ->]]. destruct (IH bs') as [rows [R1 R2]]; [intros j c Hj; apply H; now right | reflexivity|].
    exists (texts i x :: rows). cbn [concat flat_map]. rewrite R1. split; [reflexivity|]. constructor; [now exists x | exact R2].
Qed.

(** * The other parts are empty *)
Lemma fill_nil : forall m b, fill [] m = Ok b -> b = [].
Proof. intros m b H. unfold fill in H. destruct m; cbn in H; [|discriminate]. now injection H as <-. Qed.
Definition empty_or_none (t : option str) : Prop := t = None \/ t = Some [].
Record bare (e : exporter) : Prop := {
  b_chapter : forall c d, empty_or_none (fst (chapter_template e c d));
  b_end : forall c d, chapter_end_template e c d = None;
  b_scene : forall c x d f, empty_or_none (fst (scene_template e c x d f));
  b_first : t_firstScene e = [];
  b_divider : t_divider e = [] }.
Lemma concat_empty_app : forall a b : list str, concat a = [] -> concat b = [] -> concat (a ++ b) = [].
Proof. intros a b H1 H2. rewrite concat_app, H1, H2. reflexivity. Qed.
Lemma bare_scenes : forall e n c d t r, bare e -> get_scenes e n c d t = Ok r -> concat (fst r) = [].
Proof.
  intros e n c d t r B H. unfold get_scenes in H.
  assert (G : forall ids lines first t st, concat lines = [] -> foldM (scene_step e n c d) ids (lines, first, t) = Ok st -> concat (fst (fst st)) = []).
  { clear H t r. induction ids as [|i ids IH]; intros lines first t st L H; cbn [foldM] in H; [injection H as <-; exact L|].
    destruct (scene_step e n c d (lines, first, t) i) as [[[l1 f1] t1]|] eqn:E; cbn [bind] in H; [|discriminate].
    apply (IH l1 f1 t1 st); [|exact H]. unfold scene_step in E. destruct (negb (f_scene e i)); [now injection E as <- _ _|].
    destruct (dindex i (nv_scenes n)) as [x|]; cbn [bind] in E; [|discriminate]. pose proof (b_scene e B c x d first) as S.
    destruct (scene_template e c x d first) as [[tpl|] num]; [|now injection E as <- _ _]. cbn [fst] in S. destruct S as [S|S]; [discriminate|]. injection S as ->.
    rewrite (b_first e B) in E. cbn [truthy] in E. rewrite andb_false_r in E. cbv zeta in E. rewrite (b_divider e B) in E.
    destruct (fill [] _) as [b|] eqn:F; cbn [bind] in E; [|discriminate]. apply fill_nil in F. subst b. injection E as <- _ _. apply concat_empty_app; [|reflexivity].
    destruct (negb (first || flag (sc_appendToPrev x))); [apply concat_empty_app; [exact L | reflexivity] | exact L]. }
  destruct (foldM (scene_step e n c d) (ch_srtScenes c) ([], true, t)) as [[[l f] t']|] eqn:E; cbn [bind] in H; [|discriminate]. injection H as <-. cbn [fst].
  exact (G (ch_srtScenes c) [] true t _ eq_refl E).
Qed.
Lemma bare_chapters : forall e n lines, bare e -> get_chapters e n = Ok lines -> concat lines = [].
Proof.
  intros e n lines B H. unfold get_chapters in H.
  assert (G : forall ids lines k t st, concat lines = [] -> foldM (chapter_step e n) ids (lines, k, t) = Ok st -> concat (fst (fst st)) = []).
  { clear H lines. induction ids as [|i ids IH]; intros lines k t st L H; cbn [foldM] in H; [injection H as <-; exact L|].
    destruct (chapter_step e n (lines, k, t) i) as [[[l1 f1] t1]|] eqn:E; cbn [bind] in H; [|discriminate].
    apply (IH l1 f1 t1 st); [|exact H]. unfold chapter_step in E. destruct (negb (f_chapter e i)); [now injection E as <- _ _|].
    destruct (dindex i (nv_chapters n)) as [c|]; cbn [bind] in E; [|discriminate]. destruct (not_exported n (ch_srtScenes c)) as [d|]; cbn [bind] in E; [|discriminate].
    rewrite (b_end e B c d) in E. pose proof (b_chapter e B c d) as S.
    set (tn := chapter_template e c d) in *. cbv zeta in E.
    destruct (match fst tn with Some tpl => _ | None => Ok [] end) as [head|] eqn:Eh; cbn [bind] in E; [|discriminate].
    assert (Hh : concat head = []).
    { destruct S as [S|S]; rewrite S in Eh; [injection Eh as <-; reflexivity|]. destruct (fill [] _) as [b|] eqn:F; cbn [bind] in Eh; [|discriminate]. apply fill_nil in F. subst b. now injection Eh as <-. }
    destruct (get_scenes e n c d t) as [[scs t2]|] eqn:Es; cbn [bind] in E; [|discriminate]. apply (bare_scenes e n c d t _ B) in Es. cbn [fst] in Es.
    injection E as <- _ _. rewrite app_nil_r. repeat apply concat_empty_app; assumption. }
  destruct (foldM (chapter_step e n) (nv_srtChapters n) ([], 0, mkTotals 0 0 0)) as [[[l f] t']|] eqn:E; cbn [bind] in H; [|discriminate]. injection H as <-.
  exact (G (nv_srtChapters n) [] 0 (mkTotals 0 0 0) _ eq_refl E).
Qed.
Lemma empty_elements : forall m ids l accept, get_elements [] [] accept m ids = Ok l -> concat l = [].
Proof.
  intros m ids l accept H. unfold get_elements in H. destruct (mapM _ (filter accept ids)) as [bs|] eqn:E; cbn [bind] in H; [|discriminate]. injection H as <-. cbn [truthy app].
  revert bs E. induction (filter accept ids) as [|i r IH]; intros bs E; cbn [mapM] in E; [now injection E as <-|].
  destruct (fill [] (m i)) as [b|] eqn:F; cbn [bind] in E; [|discriminate]. apply fill_nil in F. destruct (mapM _ r) as [bs'|]; cbn [bind] in E; [|discriminate]. injection E as <-. subst b. cbn [concat app]. exact (IH bs' eq_refl).
Qed.
Lemma empty_notes : forall (e : exporter) n l, t_projectNote e = [] -> get_projectNotes e n = Ok l -> concat l = [].
Proof.
  intros e n l T H. unfold get_projectNotes in H. rewrite T in H. revert l H. induction (nv_srtPrjNotes n) as [|i r IH]; intros bs E; cbn [mapM] in E; [now injection E as <-|].
  destruct (fill [] (m_projectNote e n i)) as [b|] eqn:F; cbn [bind] in E; [|discriminate]. apply fill_nil in F. destruct (mapM _ r) as [bs'|]; cbn [bind] in E; [|discriminate]. injection E as <-. subst b. cbn [concat app]. exact (IH bs' eq_refl).
Qed.
Lemma subst_plain : forall m t, ~ In 36%N t -> safe_substitute t m = t.
Proof.
  intros m t. unfold safe_substitute. induction t as [|c t IH]; intro H; [reflexivity|]. cbn [subst_go]. rewrite (proj2 (N.eqb_neq c 36)) by (intros ->; apply H; now left).
  f_equal. apply IH. intro I. apply H. now right.
Qed.
Lemma no_char : forall c t, smem [c] (map (fun c => [c]) t) = false -> ~ In c t.
Proof. intros c t H I. apply smem_false in H. apply H. apply in_map_iff. now exists c. Qed.
Lemma char_bare : forall pn pp, bare (OdsWCharList pn pp).
Proof.
  intros pn pp. split; try reflexivity.
  - intros c d. unfold chapter_template. cbn. repeat match goal with |- context[if ?b then _ else _] => destruct b end; cbn; (left; reflexivity) || (right; reflexivity).
  - intros c d. unfold chapter_end_template. cbn. repeat match goal with |- context[if ?b then _ else _] => destruct b end; reflexivity.
  - intros c x d f. unfold scene_template. cbn. repeat match goal with |- context[if ?b then _ else _] => destruct b end; cbn; (left; reflexivity) || (right; reflexivity).
Qed.
Lemma loc_bare : forall pn pp, bare (OdsWLocList pn pp).
Proof. intros pn pp. destruct (char_bare pn pp) as [B1 B2 B3 B4 B5]. split; assumption. Qed.
Lemma item_bare : forall pn pp, bare (OdsWItemList pn pp).
Proof. intros pn pp. destruct (char_bare pn pp) as [B1 B2 B3 B4 B5]. split; assumption. Qed.

(** the parts of a document *)
Lemma text_parts : forall e n doc, get_text e n = Ok doc -> exists h c p l i o,
  get_fileHeader e n = Ok h /\ get_chapters e n = Ok c /\ get_characters e n = Ok p /\ get_locations e n = Ok l /\ get_items e n = Ok i /\ get_projectNotes e n = Ok o /\
  doc = h ++ concat c ++ concat p ++ concat l ++ concat i ++ concat o ++ t_fileFooter e.
Proof.
  intros e n doc H. unfold get_text in H.
  destruct (get_fileHeader e n) as [h|]; cbn [bind] in H; [|discriminate]. destruct (get_chapters e n) as [c|]; cbn [bind] in H; [|discriminate].
  destruct (get_characters e n) as [p|]; cbn [bind] in H; [|discriminate]. destruct (get_locations e n) as [l|]; cbn [bind] in H; [|discriminate].
  destruct (get_items e n) as [i|]; cbn [bind] in H; [|discriminate]. destruct (get_projectNotes e n) as [o|]; cbn [bind] in H; [|discriminate]. injection H as <-.
  exists h, c, p, l, i, o. repeat split. cbn [app concat]. rewrite !concat_app. cbn [concat]. now rewrite app_nil_r.
Qed.
Lemma header_of : forall t m h, ~ In 36%N t -> fill t m = Ok h -> h = t.
Proof. intros t m h N H. unfold fill in H. destruct m; cbn in H; [|discriminate]. injection H as <-. now apply subst_plain. Qed.
Lemma elements_of : forall tpl m ids l, get_elements [] tpl (fun _ => true) m ids = Ok l -> mapM (fun i => fill tpl (m i)) ids = Ok l.
Proof.
  intros tpl m ids l H. unfold get_elements in H. rewrite filter_all in H by reflexivity. destruct (mapM _ ids) as [bs|]; cbn [bind] in H; [|discriminate]. now injection H as <-.
Qed.
Lemma char_doc : forall pn pp n doc, get_text (OdsWCharList pn pp) n = Ok doc -> Forall digits (nv_srtCharacters n) ->
  exists rows, doc = DECL ++ CHAR_head ++ flat_map row_xml rows ++ FOOT /\ Forall2 (fun i r => exists c, dget i (nv_characters n) = Some c /\ r = char_texts i c) (nv_srtCharacters n) rows.
Proof.
  intros pn pp n doc H D. destruct (text_parts _ _ _ H) as [h [c [p [l [i [o [Hh [Hc [Hp [Hl [Hi [Ho E]]]]]]]]]]]].
  apply (bare_chapters _ _ _ (char_bare pn pp)) in Hc. apply empty_elements in Hl. apply empty_elements in Hi. apply (empty_notes (OdsWCharList pn pp) n o eq_refl) in Ho.
  apply header_of in Hh; [|apply no_char; vm_compute; reflexivity]. apply elements_of in Hp.
  destruct (blocks _ (fun i => dget i (nv_characters n)) char_texts _ _ (fun i b Hi => char_block pn pp n i b (proj1 (Forall_forall _ _) D i Hi)) Hp) as [rows [R1 R2]].
  exists rows. split; [|exact R2]. rewrite E, Hc, Hl, Hi, Ho, Hh, R1. cbn [app]. reflexivity.
Qed.
Lemma loc_doc : forall pn pp n doc, get_text (OdsWLocList pn pp) n = Ok doc -> Forall digits (nv_srtLocations n) ->
  exists rows, doc = DECL ++ LOC_head ++ flat_map row_xml rows ++ FOOT /\ Forall2 (fun i r => exists c, dget i (nv_locations n) = Some c /\ r = world_texts (s "LcID:") i c) (nv_srtLocations n) rows.
Proof.
  intros pn pp n doc H D. destruct (text_parts _ _ _ H) as [h [c [p [l [i [o [Hh [Hc [Hp [Hl [Hi [Ho E]]]]]]]]]]]].
  apply (bare_chapters _ _ _ (loc_bare pn pp)) in Hc. apply empty_elements in Hp. apply empty_elements in Hi. apply (empty_notes (OdsWLocList pn pp) n o eq_refl) in Ho.
  apply header_of in Hh; [|apply no_char; vm_compute; reflexivity]. apply elements_of in Hl.
  destruct (blocks _ (fun i => dget i (nv_locations n)) (world_texts (s "LcID:")) _ _ (fun i b Hi => loc_block pn pp (nv_locations n) i b (proj1 (Forall_forall _ _) D i Hi)) Hl) as [rows [R1 R2]].
  exists rows. split; [|exact R2]. rewrite E, Hc, Hp, Hi, Ho, Hh, R1. cbn [app]. reflexivity.
Qed.
Lemma item_doc : forall pn pp n doc, get_text (OdsWItemList pn pp) n = Ok doc -> Forall digits (nv_srtItems n) ->
  exists rows, doc = DECL ++ ITEM_head ++ flat_map row_xml rows ++ FOOT /\ Forall2 (fun i r => exists c, dget i (nv_items n) = Some c /\ r = world_texts (s "ItID:") i c) (nv_srtItems n) rows.
Proof.
  intros pn pp n doc H D. destruct (text_parts _ _ _ H) as [h [c [p [l [i [o [Hh [Hc [Hp [Hl [Hi [Ho E]]]]]]]]]]]].
  apply (bare_chapters _ _ _ (item_bare pn pp)) in Hc. apply empty_elements in Hp. apply empty_elements in Hl. apply (empty_notes (OdsWItemList pn pp) n o eq_refl) in Ho.
  apply header_of in Hh; [|apply no_char; vm_compute; reflexivity]. apply elements_of in Hi.
  destruct (blocks _ (fun i => dget i (nv_items n)) (world_texts (s "ItID:")) _ _ (fun i b Hi => item_block pn pp (nv_items n) i b (proj1 (Forall_forall _ _) D i Hi)) Hi) as [rows [R1 R2]].
  exists rows. split; [|exact R2]. rewrite E, Hc, Hp, Hl, Ho, Hh, R1. cbn [app]. reflexivity.
Qed.
