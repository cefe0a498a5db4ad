(** The exported document for proof reading consists of blocks. *)
From Coq Require Import String List NArith ZArith Bool Lia Arith.
From Verif Require Import ManuDoc PyStr PyDict WordCount WordCountProofs YwText YwTextProofs NovelModel NovelOps OdfXml OdfXmlProofs OdfLex OdtText OdtTextProofs OdtTextProofs2 SpecOdf SpecFormat SpecManuscript Template Templates Export Manuscript
  FormatWords FormatXml4 FormatEnds OdsRoundTrip2 SplitterProofs ConfigProofs OdtRead ManuWalk XmlTags ManuStyles Proofing SpecExport SpecRetext Retext Written SpecProof ProofBlocks.
From Verif Require ManuBlocks ManuExport ExportProofs.
Import ListNotations.
Local Notation V := ManuExport.V.
Local Notation xesc := ManuBlocks.xesc.
Local Notation heading_text := ManuBlocks.heading_text.
Local Notation para_text := ManuBlocks.para_text.

(** ** Templates *)
Lemma proof_scene_text : forall m, safe_substitute OdtWProof_scene m =
  s "<text:h text:style-name=""Heading_20_3"" text:outline-level=""3"">" ++ V m (s "Title") ++ s "</text:h>" ++ [10%N] ++
  s "<text:p text:style-name=""scene_20_mark"">[ScID:" ++ V m (s "ID") ++ s "]</text:p>" ++ [10%N] ++ s "<text:p text:style-name=""Text_20_body"">" ++ V m (s "SceneContent") ++ s "</text:p>" ++ [10%N] ++
  s "<text:p text:style-name=""scene_20_mark"">[/ScID]</text:p>" ++ [10%N].
Proof. intro m. unfold ManuExport.V. cbv -[value_or]. reflexivity. Qed.
Lemma proof_part_text : forall m, safe_substitute OdtWProof_part m = s "<text:h text:style-name=""Heading_20_1"" text:outline-level=""1"">" ++ V m (s "Title") ++ s "</text:h>" ++ [10%N].
Proof. intro m. unfold ManuExport.V. cbv -[value_or]. reflexivity. Qed.
Lemma proof_chapter_text : forall m, safe_substitute OdtWProof_chapter m = s "<text:h text:style-name=""Heading_20_2"" text:outline-level=""2"">" ++ V m (s "Title") ++ s "</text:h>" ++ [10%N].
Proof. intro m. unfold ManuExport.V. cbv -[value_or]. reflexivity. Qed.
Lemma proof_header_text : forall m, safe_substitute OdtWProof_fileHeader m =
  V m (s "ContentHeader") ++ s "<text:p text:style-name=""Title"">" ++ V m (s "Title") ++ s "</text:p>" ++ [10%N] ++ s "<text:p text:style-name=""Subtitle"">" ++ V m (s "AuthorName") ++ s "</text:p>" ++ [10%N].
Proof. intro m. unfold ManuExport.V. cbv -[value_or]. reflexivity. Qed.
Lemma scene_joined : forall i t w, ~ In 38%N i -> xesc i = i ->
  s "<text:h text:style-name=""Heading_20_3"" text:outline-level=""3"">" ++ xesc t ++ s "</text:h>" ++ [10%N] ++
  s "<text:p text:style-name=""scene_20_mark"">[ScID:" ++ i ++ s "]</text:p>" ++ [10%N] ++ s "<text:p text:style-name=""Text_20_body"">" ++ w ++ s "</text:p>" ++ [10%N] ++
  s "<text:p text:style-name=""scene_20_mark"">[/ScID]</text:p>" ++ [10%N] =
  heading_text (s "Heading_20_3") (s "3") t ++ [10%N] ++ scene_text i w ++ [10%N].
Proof.
  intros i t w _ Ei. unfold scene_text, mark_text. assert (E1 : xesc (s "[ScID:" ++ i ++ s "]") = s "[ScID:" ++ i ++ s "]") by (unfold ManuBlocks.xesc in *; rewrite !flat_map_app, Ei; reflexivity). rewrite E1.
  change (xesc (s "[/ScID]")) with (s "[/ScID]"). unfold ManuBlocks.heading_text, ManuBlocks.para_text, tag_text, attr_text, heading_attrs, para_attrs, closing_text. cbn [flat_map fst snd]. rewrite <- !app_assoc. reflexivity.
Qed.
Lemma part_joined : forall t, s "<text:h text:style-name=""Heading_20_1"" text:outline-level=""1"">" ++ xesc t ++ s "</text:h>" ++ [10%N] = heading_text (s "Heading_20_1") (s "1") t ++ [10%N].
Proof. intro t. unfold ManuBlocks.heading_text, tag_text, attr_text, heading_attrs, closing_text. cbn [flat_map fst snd]. rewrite <- !app_assoc. reflexivity. Qed.
Lemma chapter_joined : forall t, s "<text:h text:style-name=""Heading_20_2"" text:outline-level=""2"">" ++ xesc t ++ s "</text:h>" ++ [10%N] = heading_text (s "Heading_20_2") (s "2") t ++ [10%N].
Proof. intro t. unfold ManuBlocks.heading_text, tag_text, attr_text, heading_attrs, closing_text. cbn [flat_map fst snd]. rewrite <- !app_assoc. reflexivity. Qed.

(** ** Titles *)
Lemma no_count : forall (p t : str), ~ In 91%N t -> OdtText.count (91%N :: p) t = 0.
Proof. intros p t H. rewrite <- (app_nil_r t). now rewrite count_skip. Qed.
Lemma bare_line : forall tag t : str, ~ In 91%N t -> tag_line t tag false = Some (t, false).
Proof.
  intros tag t H. unfold tag_line. cbv iota zeta.
  assert (C1 : OdtText.count (OdtText.closing tag) t = 0) by exact (no_count (47%N :: tag ++ s "]") t H).
  assert (C2 : OdtText.count (OdtText.opening tag) t = 0) by exact (no_count (tag ++ s "]") t H).
  assert (C3 : replace (OdtText.opening tag ++ OdtText.closing tag) [] t = t).
  { apply replace_absent. apply containsb_missing with 91%N; [now left | exact H]. }
  cbn [close_line]. rewrite C1, C2. change (0 <? 0) with false. cbv iota. cbn [open_line]. rewrite C1, C2. change (0 <? 0) with false. cbv iota. now rewrite C3.
Qed.
Lemma bare_lines : forall (t : str) st, ~ In 91%N t -> Forall (fun p => snd p = false) st -> tags_line t st = Some (t, st).
Proof.
  intros t st H. induction st as [|[tag b] st IH]; intro F; [reflexivity|]. apply Forall_cons_iff in F as [F1 F2]. cbn [snd] in F1. subst b. cbn [tags_line]. rewrite bare_line by exact H. now rewrite IH.
Qed.
Lemma rs_absent : forall rs t, Forall (fun r => containsb (fst r) t = false) rs -> apply_replacements rs t = t.
Proof.
  induction rs as [|r rs IH]; intros t F; [reflexivity|]. apply Forall_cons_iff in F as [F1 F2]. cbn [apply_replacements fold_left]. rewrite replace_absent by exact F1. now apply IH.
Qed.
Definition freeb (t : str) : Prop := ~ In 91%N t /\ ~ In 10%N t /\ ~ In 13%N t /\ containsb (s "/*") t = false /\ containsb (s "*/") t = false.
Lemma line_parts : forall t, line_ok t = true -> title_ok t = true /\ freeb t.
Proof.
  intros t H. unfold line_ok in H. apply andb_true_iff in H as [H H4]. apply andb_true_iff in H as [H H3]. apply andb_true_iff in H as [H1 H2]. apply negb_true_iff in H2, H3, H4. split; [exact H1|].
  destruct (ManuBlocks.title_parts t H1) as [_ [N13 N91]]. split; [exact N91|]. split; [|split; [exact N13 | split; assumption]].
  intro I. assert (existsb (N.eqb 10) t = true) by (apply existsb_exists; exists 10%N; split; [exact I | reflexivity]). congruence.
Qed.
Lemma oline : forall t, oline_ok t = true -> title_ok (ostr t) = true.
Proof. intros [t|] H; [exact (proj1 (line_parts t H)) | reflexivity]. Qed.
Lemma in_rstrip : forall t (c : N), In c (rstrip t) -> In c t.
Proof.
  intros t c H. unfold rstrip, rstrip_by in H. apply in_rev in H. apply in_rev. revert H. generalize (rev t). intro l. induction l as [|d l IH]; [tauto|]. cbn [lstrip_by]. destruct (is_space d); [intro H; right; now apply IH | tauto].
Qed.
Lemma rstrip_front : forall t, exists r, t = rstrip t ++ r.
Proof.
  intro t. unfold rstrip, rstrip_by. assert (E : exists p, rev t = p ++ lstrip_by is_space (rev t)).
  { generalize (rev t). intro l. induction l as [|d l [p IH]]; [now exists []|]. cbn [lstrip_by]. destruct (is_space d); [exists (d :: p); cbn; now rewrite <- IH | now exists []]. }
  destruct E as [p E]. exists (rev p). rewrite <- rev_app_distr, <- E. now rewrite rev_involutive.
Qed.
Lemma contains_front : forall p a b, containsb p (a ++ b) = false -> containsb p a = false.
Proof. intros p a b H. destruct (containsb p a) eqn:E; [|reflexivity]. apply containsb_spec in E as [x [y ->]]. assert (containsb p ((x ++ p ++ y) ++ b) = true); [|congruence]. apply containsb_spec. exists x, (y ++ b). now rewrite <- !app_assoc. Qed.
Lemma free_strip : forall t, freeb t -> freeb (rstrip t).
Proof.
  intros t [H1 [H2 [H3 [H4 H5]]]]. destruct (rstrip_front t) as [r E]. split; [intro I; now apply H1, in_rstrip|]. split; [intro I; now apply H2, in_rstrip|]. split; [intro I; now apply H3, in_rstrip|].
  rewrite E in H4, H5. split; [exact (contains_front _ _ _ H4) | exact (contains_front _ _ _ H5)].
Qed.

Lemma contains_miss : forall (x : N) p a b, ~ In x a -> containsb (x :: p) (a ++ b) = containsb (x :: p) b.
Proof.
  intros x p. induction a as [|c a IH]; intros b H; [reflexivity|]. cbn [app containsb prefixb]. assert (E : N.eqb x c = false) by (apply N.eqb_neq; intro E; subst; apply H; now left). rewrite E. cbn [andb orb]. apply IH. intro I. apply H. now right.
Qed.
Lemma esc_head : forall y u, In y [47; 42]%N -> prefixb [y] (xesc u) = prefixb [y] u.
Proof.
  intros y [|c u] Hy; [reflexivity|]. change (xesc (c :: u)) with (esc5 c ++ xesc u). unfold esc5. cbn [prefixb]. rewrite !andb_true_r.
  destruct (N.eqb_spec c 38) as [-> | ?]; [destruct Hy as [<- | [<- | []]]; reflexivity|]. destruct (N.eqb_spec c 62) as [-> | ?]; [destruct Hy as [<- | [<- | []]]; reflexivity|].
  destruct (N.eqb_spec c 60) as [-> | ?]; [destruct Hy as [<- | [<- | []]]; reflexivity|]. destruct (N.eqb_spec c 39) as [-> | ?]; [destruct Hy as [<- | [<- | []]]; reflexivity|].
  destruct (N.eqb_spec c 34) as [-> | ?]; [destruct Hy as [<- | [<- | []]]; reflexivity|]. cbn [app prefixb]. now rewrite andb_true_r.
Qed.
Lemma esc_one : forall c x, In x [47; 42]%N -> c <> x -> ~ In x (esc5 c).
Proof.
  intros c x Hx Hn I. unfold esc5 in I. destruct (N.eqb c 38); [destruct Hx as [<- | [<- | []]]; revert I; apply no_char; reflexivity|]. destruct (N.eqb c 62); [destruct Hx as [<- | [<- | []]]; revert I; apply no_char; reflexivity|].
  destruct (N.eqb c 60); [destruct Hx as [<- | [<- | []]]; revert I; apply no_char; reflexivity|]. destruct (N.eqb c 39); [destruct Hx as [<- | [<- | []]]; revert I; apply no_char; reflexivity|].
  destruct (N.eqb c 34); [destruct Hx as [<- | [<- | []]]; revert I; apply no_char; reflexivity|]. destruct I as [I | []]. congruence.
Qed.
Lemma esc_pair : forall x y u, In x [47; 42]%N -> In y [47; 42]%N -> containsb [x; y] u = false -> containsb [x; y] (xesc u) = false.
Proof.
  intros x y u Hx Hy. induction u as [|c u IH]; intro H; [reflexivity|]. cbn [containsb] in H. apply orb_false_iff in H as [H1 H2]. change (xesc (c :: u)) with (esc5 c ++ xesc u).
  destruct (N.eq_dec c x) as [-> | Hc].
  - assert (E : esc5 x = [x]) by (destruct Hx as [<- | [<- | []]]; reflexivity). rewrite E. cbn [app containsb]. rewrite (IH H2), orb_false_r. change (prefixb [x; y] (x :: xesc u)) with (N.eqb x x && prefixb [y] (xesc u))%bool. rewrite esc_head by exact Hy.
    exact H1.
  - rewrite contains_miss by now apply esc_one. now apply IH.
Qed.
Lemma esc_lost : forall (x : N) u, In x [91; 10; 13]%N -> ~ In x u -> ~ In x (xesc u).
Proof.
  intros x u Hx H I. unfold ManuBlocks.xesc in I. apply in_flat_map in I as [c [Hc I]]. unfold esc5 in I.
  destruct (N.eqb c 38); [destruct Hx as [<- | [<- | [<- | []]]]; revert I; apply no_char; reflexivity|]. destruct (N.eqb c 62); [destruct Hx as [<- | [<- | [<- | []]]]; revert I; apply no_char; reflexivity|].
  destruct (N.eqb c 60); [destruct Hx as [<- | [<- | [<- | []]]]; revert I; apply no_char; reflexivity|]. destruct (N.eqb c 39); [destruct Hx as [<- | [<- | [<- | []]]]; revert I; apply no_char; reflexivity|].
  destruct (N.eqb c 34); [destruct Hx as [<- | [<- | [<- | []]]]; revert I; apply no_char; reflexivity|]. destruct I as [I | []]. subst c. contradiction.
Qed.
Lemma free_esc : forall t, freeb t -> freeb (xesc t).
Proof.
  intros t [H1 [H2 [H3 [H4 H5]]]]. split; [apply esc_lost; [now left | exact H1]|]. split; [apply esc_lost; [right; now left | exact H2]|]. split; [apply esc_lost; [do 2 right; now left | exact H3]|].
  split; [apply (esc_pair 47 42 t); [now left | right; now left | exact H4] | apply (esc_pair 42 47 t); [right; now left | now left | exact H5]].
Qed.
Lemma free_absent : forall author ls t, freeb t -> Forall (fun r => containsb (fst r) t = false) (proof_replacements author ++ language_replacements 1 ls ++ proof_emphasis ls).
Proof.
  intros author ls t [H1 [H2 [H3 [H4 H5]]]].
  assert (B : forall p x (y : str), Forall (fun r : str * str => containsb (fst r) t = false) x -> Forall (fun r : str * str => containsb (fst r) t = false) ((91%N :: p, y) :: x)).
  { intros p x y F. constructor; [cbn [fst]; apply containsb_missing with 91%N; [now left | exact H1] | exact F]. }
  apply Forall_app. split.
  - constructor; [apply containsb_missing with 10%N; [now left | exact H2]|]. constructor; [apply containsb_missing with 10%N; [now left | exact H2]|]. constructor; [apply containsb_missing with 13%N; [now left | exact H3]|].
    apply B, B. constructor; [exact H4|]. constructor; [exact H5 | constructor].
  - apply Forall_app. split; [|apply B, B; constructor]. generalize 1%N. induction ls as [|l ls IH]; intro i; [constructor|]. apply B, B. apply IH.
Qed.
Lemma convert_line : forall author ls t, freeb t -> exists r, t = rstrip t ++ r /\ proof_convert author ls (Some t) = Some (xesc (rstrip t)).
Proof.
  intros author ls t F. destruct (rstrip_front t) as [r Er]. exists r. split; [exact Er|]. destruct t as [|c t]; [reflexivity|]. unfold proof_convert. cbv zeta. pose proof F as [H1 [H2 _]].
  rewrite split_splitc, splitc_nosep by exact H2. cbn [tags_lines]. rewrite bare_lines; [|exact H1 | apply Forall_map; apply Forall_forall; reflexivity]. cbn [join].
  rewrite apply_rs_app, odt_entities. pose proof (free_esc _ (free_strip _ F)) as F2. change (flat_map esc5 (rstrip (c :: t))) with (xesc (rstrip (c :: t))). rewrite rs_absent by now apply free_absent.
  change (re_sub m_hidden []) with hide. f_equal. rewrite <- (app_nil_r (xesc (rstrip (c :: t)))) at 1. rewrite hide_plain by apply F2. now rewrite app_nil_r.
Qed.

Section Exporting.
Variables (tr : str -> str) (pn pp : option str) (n : novel).
Notation author := (py_str (nv_authorName n)).
Notation languages := (languages_in n).
Hypothesis names : names_ok author languages.
Hypothesis locales : Forall locale_ok languages.
Hypothesis keys : NoDup (map fst (nv_scenes n)).
Notation conv := (proofing_convert n).
Notation X := (OdtWProof tr pn pp).
Notation good := (block tr languages n).

Lemma conv_ok : forall t q, exists w, conv t q = Ok w.
Proof.
  intros t q. unfold proofing_convert. destruct (proof_convert author languages t) as [w|] eqn:E; [now exists w|]. exfalso. revert E. destruct t as [[|c t]|]; try discriminate. unfold proof_convert. cbv zeta.
  match goal with |- context [tags_lines ?a ?b] => destruct (lines_end a b) as [r E] end; [|rewrite E; discriminate].
  apply Forall_map. cbn [fst]. constructor; [split; [intros [K | []]; discriminate | discriminate]|]. constructor; [split; [intros [K | []]; discriminate | discriminate]|].
  apply Forall_map. destruct names as [_ [P _]]. eapply Forall_impl; [|exact P]. intros l F. split; [|discriminate]. intro K. apply in_app_iff in K. destruct K as [K | K]; [revert K; vm_compute; intuition discriminate|].
  rewrite Forall_forall in F. specialize (F _ K). discriminate.
Qed.
(** a title is escaped; white space at its end is lost *)
Lemma conv_title : forall t q, oline_ok t = true -> exists u, conv t q = Ok (xesc u) /\ title_ok u = true.
Proof.
  intros [t|] q H; [|exists []; split; reflexivity]. cbn [oline_ok] in H. destruct (line_parts t H) as [H1 H2]. destruct (convert_line author languages t H2) as [r [E1 E2]]. exists (rstrip t). unfold proofing_convert. rewrite E2. split; [reflexivity|].
  unfold title_ok in *. rewrite E1 in H1. rewrite forallb_app, existsb_app in H1. apply andb_true_iff in H1 as [A B]. apply andb_true_iff in A as [A _]. apply negb_true_iff in B. apply orb_false_iff in B as [B _]. now rewrite A, B.
Qed.

(** ** Scenes *)
Lemma scene_map : forall i x k w l c, dget i (nv_scenes n) = Some x -> known_status (sc_status x) = true -> oline_ok (sc_title x) = true ->
  (forall l i, sc_locations x = Some l -> In i l -> dmem i (nv_locations n) = true) -> (forall l i, sc_items x = Some l -> In i l -> dmem i (nv_items n) = true) -> conv (sc_content x) false = Ok c ->
  exists m u, proof_scene tr pn pp n i k w l = Ok m /\ V m (s "ID") = i /\ V m (s "Title") = xesc u /\ title_ok u = true /\ V m (s "SceneContent") = c.
Proof.
  intros i x k w l c Hx Hs Ht Hl Hi Hc. unfold proof_scene, sceneMapping. unfold dindex. rewrite Hx. cbn [bind]. destruct (ManuExport.places_ok _ _ Hl) as [a ->]. destruct (ManuExport.places_ok _ _ Hi) as [b ->]. cbn [bind].
  match goal with |- context [mapping ?L0] => destruct (ManuExport.mapping_ok L0) as [m E] end.
  { repeat (apply Forall_cons; [cbn [snd]; first [now eexists | apply conv_ok | now apply ManuExport.status_ok]|]). apply Forall_nil. }
  rewrite E. cbn [bind]. destruct (conv_title (sc_title x) true Ht) as [u [U1 U2]]. eexists. exists u. split; [reflexivity|]. unfold ManuExport.V.
  assert (G : forall k, k <> s "Summary" -> k <> s "sceneTitle" -> dget k (dset (s "Summary") (tr (s "Summary")) (dset (s "sceneTitle") (tr (s "Scene")) m)) = dget k m) by (intros k0 H1 H2; rewrite !dget_dset_other by assumption; reflexivity).
  destruct (ManuExport.mapping_get _ _ E (s "ID") _ eq_refl) as [v1 [E1 G1]]. destruct (ManuExport.mapping_get _ _ E (s "Title") _ eq_refl) as [v2 [E2 G2]]. destruct (ManuExport.mapping_get _ _ E (s "SceneContent") _ eq_refl) as [v3 [E3 G3]].
  rewrite U1 in E2. rewrite Hc in E3. injection E1 as <-. injection E2 as <-. injection E3 as <-.
  split; [|split; [|split; [exact U2|]]]; apply ManuExport.value_get; (rewrite G by discriminate); assumption.
Qed.
Lemma digits_plain : forall i, number_id i = true -> ~ In 38%N i /\ xesc i = i.
Proof.
  intros i H. assert (D : forallb is_digit i = true) by (destruct i; [discriminate | exact H]). split.
  - intro I. apply (digits_in i D) in I. revert I. apply no_char. reflexivity.
  - clear H. induction i as [|c i IH]; [reflexivity|]. cbn [forallb] in D. apply andb_true_iff in D as [D1 D2]. change (xesc (c :: i)) with (esc5 c ++ xesc i). rewrite (IH D2).
    assert (Hc : In c (s "0123456789")) by (apply (digits_in [c]); [cbn; now rewrite D1 | now left]). cbn in Hc. repeat (destruct Hc as [<- | Hc]; [reflexivity|]). destruct Hc.
Qed.
Lemma scene_block : forall i x a b c, number_id i = true -> dget i (nv_scenes n) = Some x -> sc_type x = Some 0%N -> proof_scene_ok languages n x ->
  exists w, fill OdtWProof_scene (proof_scene tr pn pp n i a b c) = Ok w /\ good w [i].
Proof.
  intros i x a b c Hi Hx Ht [_ Hs N0]. destruct (N0 Ht) as [N1 [N2 [N3 [N4 [t [N5 [ks [-> [M [W [St Mk]]]]]]]]]]]. destruct (Hs _ N5) as [_ Hc].
  destruct (conv_ok (sc_content x) false) as [w C]. assert (Hw : proof_convert author languages (Some (typed ks)) = Some w).
  { unfold proofing_convert in C. rewrite N5 in C. destruct (proof_convert author languages (Some (typed ks))) as [w'|]; [|discriminate]. now injection C as ->. }
  destruct (scene_map i x a b c w Hx N1 N2 N3 N4 C) as [m [u [M1 [M2 [M3 [M4 M5]]]]]]. unfold fill. rewrite M1. cbn [bind]. eexists. split; [reflexivity|]. rewrite proof_scene_text, M2, M3, M5.
  destruct (digits_plain i Hi) as [D1 D2]. rewrite (scene_joined i u w D1 D2).
  apply block_after; [apply block_heading; [do 2 right; now left | reflexivity | split; discriminate | exact M4]|]. apply block_after; [apply block_line|]. apply block_before; [|apply block_line].
  now apply (block_scene tr author languages names locales n keys i x ks w).
Qed.
Lemma step_block : forall c dne lines first t i x, number_id i = true -> dget i (nv_scenes n) = Some x -> proof_scene_ok languages n x ->
  exists extra first' t' js, scene_step X n c dne (lines, first, t) i = Ok (lines ++ extra, first', t') /\ good (concat extra) js /\ (written c dne x -> In i js).
Proof.
  intros c dne lines first t i x Hi Hx Ho. pose proof Ho as [S1 _ _].
  assert (None_ : ~ written c dne x -> exists extra first' t' js, Ok (lines, first, t) = Ok (lines ++ extra, first', t') /\ good (concat extra) js /\ (written c dne x -> In i js)).
  { intro Nw. exists [], first, t, []. split; [now rewrite app_nil_r|]. split; [apply block_nil|]. intro Wr. contradiction. }
  unfold scene_step. change (f_scene X i) with true. cbn [negb]. unfold dindex. rewrite Hx. cbn [bind]. unfold scene_template. unfold written, raw_code in None_ |- *.
  destruct (is_type (sc_type x) 2) eqn:T2; [refine (None_ _); intuition discriminate|]. destruct (is_type (sc_type x) 1) eqn:T1; [refine (None_ _); intuition discriminate|]. destruct (is_type (sc_type x) 3) eqn:T3; [refine (None_ _); intuition discriminate|]. cbn [orb].
  destruct (is_type (ch_type c) 3); [refine (None_ _); intuition discriminate|]. destruct (flag (sc_doNotExport x) || dne)%bool; [refine (None_ _); intuition discriminate|].
  destruct (prefixb (s "<HTML>") _) eqn:P1.
  { refine (None_ _). intros [_ [_ [_ [_ [_ Rw]]]]]. destruct (sc_content x); [|discriminate P1]. rewrite P1 in Rw. discriminate Rw. }
  destruct (prefixb (s "<TEX>") _) eqn:P2.
  { refine (None_ _). intros [_ [_ [_ [_ [_ Rw]]]]]. destruct (sc_content x); [|discriminate P2]. rewrite P2 in Rw. now rewrite orb_true_r in Rw. }
  clear None_.
  pose proof (ManuExport.type_cases _ S1 T2 T1 T3) as T0. cbv iota zeta. change (truthy (t_firstScene X)) with false. rewrite andb_false_r. change (m_scene X) with (proof_scene tr pn pp).
  change (truthy (t_appendedScene X)) with false. rewrite andb_false_r. change (t_scene X) with OdtWProof_scene.
  destruct (scene_block i x (tt_scenes (Export.add_scene x t)) (tt_words (Export.add_scene x t)) (tt_letters (Export.add_scene x t)) Hi Hx T0 Ho) as [w [E1 E2]].
  rewrite E1. cbn [bind]. change (t_divider X) with (@nil N). destruct (negb (first || flag (sc_appendToPrev x))).
  - exists [[]; w], false, (Export.add_scene x t), [i]. split; [now rewrite <- app_assoc|]. split; [cbn [concat app]; rewrite app_nil_r; exact E2 | intros _; now left].
  - exists [w], false, (Export.add_scene x t), [i]. split; [reflexivity|]. split; [cbn [concat app]; rewrite app_nil_r; exact E2 | intros _; now left].
Qed.
Lemma scenes_blocks : forall c dne ids lines first t, (forall i, In i ids -> number_id i = true /\ exists x, dget i (nv_scenes n) = Some x /\ proof_scene_ok languages n x) ->
  exists extra first' t' js, foldM (scene_step X n c dne) ids (lines, first, t) = Ok (lines ++ extra, first', t') /\ good (concat extra) js /\ (forall i, In i ids -> written c dne (scene_of n i) -> In i js).
Proof.
  intros c dne. induction ids as [|i ids IH]; intros lines first t H; [exists [], first, t, []; split; [cbn; now rewrite app_nil_r|]; split; [apply block_nil | intros i []]|].
  destruct (H i (or_introl eq_refl)) as [Hi [x [Hx Ho]]]. destruct (step_block c dne lines first t i x Hi Hx Ho) as [e1 [f1 [t1 [j1 [E1 [F1 W1]]]]]]. cbn [foldM]. rewrite E1. cbn [bind].
  destruct (IH (lines ++ e1) f1 t1) as [e2 [f2 [t2 [j2 [E2 [F2 W2]]]]]]; [intros j Hj; apply H; now right|]. exists (e1 ++ e2), f2, t2, (j1 ++ j2). split; [now rewrite E2, app_assoc|].
  split; [rewrite concat_app; now apply block_app|]. intros k [<- | Hk] Wk; apply in_or_app; [left | right; now apply W2]. apply W1. unfold scene_of in Wk. now rewrite Hx in Wk.
Qed.

(** ** Chapters *)
Lemma chapter_map : forall i c k, dget i (nv_chapters n) = Some c -> oline_ok (ch_title c) = true ->
  exists m u, chapterMapping conv pn pp n i k = Ok m /\ title_ok u = true /\ V m (s "Title") = xesc u.
Proof.
  intros i c k Hc Ht. unfold chapterMapping. unfold dindex. rewrite Hc. cbn [bind].
  match goal with |- context [mapping ?L0] => destruct (ManuExport.mapping_ok L0) as [m E] end.
  { repeat (apply Forall_cons; [cbn [snd]; first [now eexists | apply conv_ok]|]). apply Forall_nil. }
  rewrite E. destruct (conv_title (ch_title c) true Ht) as [u [U1 U2]]. exists m, u. split; [reflexivity|]. split; [exact U2|].
  destruct (ManuExport.mapping_get _ _ E (s "Title") _ eq_refl) as [v2 [E2 G2]]. rewrite U1 in E2. injection E2 as <-. now apply ManuExport.value_get.
Qed.
Lemma export_known : forall c, (forall i, In i (ch_srtScenes c) -> number_id i = true /\ exists x, dget i (nv_scenes n) = Some x /\ proof_scene_ok languages n x) -> not_exported n (ch_srtScenes c) = Ok (hidden_chapter n c).
Proof.
  intros c H. rewrite ExportProofs.not_exported_eq; [unfold hidden_chapter; destruct (ch_srtScenes c); reflexivity|]. intros i Hi. destruct (H i Hi) as [_ [x [Hx _]]]. now exists x.
Qed.
Lemma chapter_block : forall lines k t i c, dget i (nv_chapters n) = Some c -> proof_chapter_ok languages n c ->
  exists lines' k' t' w js, chapter_step X n (lines, k, t) i = Ok (lines', k', t') /\ concat lines' = concat lines ++ w /\ good w js /\ (forall j, in_chapter n i j -> In j js).
Proof.
  intros lines k t i c Hc [C1 C2 C4]. unfold chapter_step. change (f_chapter X i) with true. cbn [negb]. unfold dindex. rewrite Hc. cbn [bind]. rewrite (export_known _ C4). cbn [bind]. set (dne := hidden_chapter n c).
  assert (Plain : exists (lines' : list str) (k' : nat) (t' : totals) (w : str) (js : list str), (do ' (scs, t') <- get_scenes X n c dne t; Ok (lines ++ [] ++ scs ++ [], k, t')) = Ok (lines', k', t') /\ concat lines' = concat lines ++ w /\ good w js /\ (forall j, in_chapter n i j -> In j js)).
  { destruct (scenes_blocks c dne (ch_srtScenes c) [] true t C4) as [ex [f' [t' [js [E [F W]]]]]]. unfold get_scenes. rewrite E. cbn [bind app]. exists (lines ++ ex ++ []), k, t', (concat ex), js. split; [reflexivity|].
    split; [now rewrite app_nil_r, concat_app|]. split; [exact F|]. intros j Hj. destruct (in_written n i j c Hc Hj) as [H1 H2]. now apply W. }
  assert (Full : forall (tpl : str) (k' d : nat) (st l : str), In l [s "1"; s "2"; s "3"] -> forallb style_char st = true -> ManuBlocks.st_other st ->
    (forall m u, V m (s "Title") = xesc u -> safe_substitute tpl m = heading_text st l u ++ [10%N]) ->
    exists (lines' : list str) (k0' : nat) (t' : totals) (w : str) (js : list str), (do head <- (do x <- fill tpl (m_chapter X n i d); Ok [x]); do ' (scs, t') <- get_scenes X n c dne t; Ok (lines ++ head ++ scs ++ [], k', t')) = Ok (lines', k0', t') /\ concat lines' = concat lines ++ w /\ good w js /\ (forall j, in_chapter n i j -> In j js)).
  { intros tpl k' d st l Hl Hst Hso Htpl. change (m_chapter X n) with (chapterMapping conv pn pp n). destruct (chapter_map i c d Hc C2) as [m [u [M1 [M2 M3]]]]. unfold fill. rewrite M1. cbn [bind].
    destruct (scenes_blocks c dne (ch_srtScenes c) [] true t C4) as [ex [f' [t' [js [E [F W]]]]]]. unfold get_scenes. rewrite E. cbn [bind app].
    eexists. exists k', t', ((heading_text st l u ++ [10%N]) ++ concat ex), js. split; [reflexivity|]. split; [|split].
    - rewrite concat_app. f_equal. cbn [concat]. rewrite app_nil_r. now rewrite (Htpl m u M3).
    - apply block_after; [|exact F]. apply block_after; [now apply block_heading | apply block_line].
    - intros j Hj. destruct (in_written n i j c Hc Hj) as [H1 H2]. now apply W. }
  unfold chapter_template, chapter_end_template.
  destruct (is_type (ch_type c) 2) eqn:T2; [destruct (is_type (ch_level c) 1); exact Plain|]. destruct (is_type (ch_type c) 1) eqn:T1; [destruct (is_type (ch_level c) 1); exact Plain|]. destruct (is_type (ch_type c) 3) eqn:T3; [exact Plain|].
  destruct dne; [exact Plain|]. change (truthy (t_part X)) with true. rewrite andb_true_r. destruct (is_type (ch_level c) 1); cbn [fst snd].
  - apply (Full (t_part X) k 0 (s "Heading_20_1") (s "1")); [now left | reflexivity | split; discriminate|]. intros m u E. rewrite <- part_joined, <- E. exact (proof_part_text m).
  - apply (Full (t_chapter X) (S k) (S k) (s "Heading_20_2") (s "2")); [right; now left | reflexivity | split; discriminate|]. intros m u E. rewrite <- chapter_joined, <- E. exact (proof_chapter_text m).
Qed.
Lemma chapters_block : forall ids lines k t, (forall i, In i ids -> exists c, dget i (nv_chapters n) = Some c /\ proof_chapter_ok languages n c) ->
  exists lines' k' t' w js, foldM (chapter_step X n) ids (lines, k, t) = Ok (lines', k', t') /\ concat lines' = concat lines ++ w /\ good w js /\ (forall i j, In i ids -> in_chapter n i j -> In j js).
Proof.
  induction ids as [|i ids IH]; intros lines k t H; [exists lines, k, t, [], []; split; [reflexivity|]; split; [now rewrite app_nil_r|]; split; [apply block_nil | intros i j []]|].
  destruct (H i (or_introl eq_refl)) as [c [Hc Ho]]. destruct (chapter_block lines k t i c Hc Ho) as [l1 [k1 [t1 [w1 [j1 [E1 [E2 [E3 I1]]]]]]]]. cbn [foldM]. rewrite E1. cbn [bind].
  destruct (IH l1 k1 t1) as [l2 [k2 [t2 [w2 [j2 [G1 [G2 [G3 I2]]]]]]]]; [intros j Hj; apply H; now right|]. exists l2, k2, t2, (w1 ++ w2), (j1 ++ j2). split; [exact G1|]. split; [now rewrite G2, E2, app_assoc|].
  split; [now apply block_app|]. intros a j [<- | Ha] Hj; apply in_or_app; [left; now apply I1 | right; now apply (I2 a)].
Qed.
(** ** The document *)
Theorem document_text : proof_ok author languages n -> exists body, get_proof_text X n = Ok (OdsRoundTrip.DECL ++ ManuDoc.HEAD1 ++ proof_styles languages ++ ManuDoc.HEAD2 ++ body ++ ManuDoc.FOOT) /\
  exists js, good body js /\ forall i, in_document n i -> In i js.
Proof.
  intros [_ _ O1 O2 O3]. unfold get_proof_text, get_fileHeader. change (m_fileHeader X) with proof_header. unfold fill, proof_header, fileHeaderMapping.
  match goal with |- context [mapping ?L0] => destruct (ManuExport.mapping_ok L0) as [m E] end.
  { repeat (apply Forall_cons; [cbn [snd]; first [now eexists | apply conv_ok]|]). apply Forall_nil. }
  rewrite E. cbn [bind].
  destruct (ManuExport.mapping_get _ _ E (s "Title") _ eq_refl) as [v1 [E1 G1]]. destruct (ManuExport.mapping_get _ _ E (s "AuthorName") _ eq_refl) as [v2 [E2 G2]].
  destruct (conv_title _ true O1) as [u1 [U1 U2]]. destruct (conv_title _ true O2) as [u2 [U3 U4]]. rewrite U1 in E1. rewrite U3 in E2. injection E1 as <-. injection E2 as <-.
  change (t_fileHeader X) with OdtWProof_fileHeader. rewrite proof_header_text, ManuDoc.header_text. set (H0 := OdsRoundTrip.DECL ++ ManuDoc.HEAD1 ++ proof_styles languages ++ ManuDoc.HEAD2).
  match goal with |- context [V ?d (s "ContentHeader")] =>
    assert (X1 : V d (s "ContentHeader") = H0) by (apply ManuExport.value_get; apply dget_dset_same);
    assert (X2 : V d (s "Title") = xesc u1) by (apply ManuExport.value_get; rewrite dget_dset_other by discriminate; exact G1);
    assert (X3 : V d (s "AuthorName") = xesc u2) by (apply ManuExport.value_get; rewrite dget_dset_other by discriminate; exact G2);
    rewrite X1, X2, X3; clear X1 X2 X3 end.
  unfold get_chapters. destruct (chapters_block (nv_srtChapters n) [] 0 (mkTotals 0 0 0) O3) as [ls [k [t [w [js [C1 [C2 [C3 C4]]]]]]]]. rewrite C1. cbn [bind]. cbn [concat app] in C2.
  change (t_fileFooter X) with ManuDoc.FOOT.
  set (body := (para_text (s "Title") (xesc u1) ++ [10%N]) ++ (para_text (s "Subtitle") (xesc u2) ++ [10%N]) ++ w). exists body. split.
  - f_equal. assert (Fl : H0 ++ body ++ ManuDoc.FOOT = OdsRoundTrip.DECL ++ ManuDoc.HEAD1 ++ proof_styles languages ++ ManuDoc.HEAD2 ++ body ++ ManuDoc.FOOT) by (unfold H0; now rewrite <- !app_assoc).
    rewrite <- Fl. clear - C2. clearbody H0. set (F := ManuDoc.FOOT). clearbody F. cbn [app concat]. rewrite concat_app. cbn [concat]. rewrite app_nil_r, C2. unfold body, ManuBlocks.para_text, tag_text, attr_text, para_attrs, closing_text. cbn [flat_map fst snd]. rewrite <- !app_assoc. cbn [app]. rewrite <- ?app_assoc. reflexivity.
  - exists js. split.
    + unfold body. apply block_after; [apply block_after; [eapply block_title; try exact names; try exact locales; [now left | exact U2] | apply block_line]|].
      apply block_after; [apply block_after; [eapply block_title; try exact names; try exact locales; [right; now left | exact U4] | apply block_line]|]. exact C3.
    + intros i [k0 [H1 H2]]. now apply (C4 k0).
Qed.
End Exporting.
