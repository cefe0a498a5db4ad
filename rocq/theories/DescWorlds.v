(** Locations, items and characters: exported and read back. *)
From Coq Require Import String List NArith ZArith Bool Lia Arith.
From Verif Require Import SpecExport SpecRetext SpecRedesc Redesc Written.
From Verif Require Import PyStr PyDict YwText YwTextProofs NovelModel NovelOps OdfXml OdfXmlProofs OdfLex OdtText OdtTextProofs OdtTextProofs2 SpecOdf SpecManuscript
  OdsTree OdsRoundTrip OdsRoundTrip2 OdsRoundTrip3 Template Templates OdtRead XmlTags FormatXml4 SpecDesc DescEngine DescBlocks Export Descriptions ManuExport DescDoc DescScenes DescMore ReadFrame ReadFrame2.
From Verif Require ManuDoc ManuBlocks ManuRead ManuWalk ManuClean ConfigProofs ImportProofs.
Import ListNotations.

(** ** Names in headings *)
Definition quoted (aka : option str) : str := match aka with Some (c :: t) => in_quotes (c :: t) | _ => [] end.
Definition slashed (full : option str) : str := match full with Some (c :: t) => after_slash (c :: t) | _ => [] end.
Definition plain_text (w : str) : Prop := exists es, frag w es /\ forallb dull es = true.
Lemma plain_raw : forall t, writable t -> Forall (fun c => c <> 38%N /\ c <> 60%N /\ c <> 62%N) t -> plain_text t.
Proof. intros t H F. exists (chars t). split; [now apply frag_raw | apply dull_chars]. Qed.
Lemma plain_esc : forall t, writable t -> plain_text (xesc t).
Proof. intros t H. exists (chars t). split; [now apply frag_xesc | apply dull_chars]. Qed.
Lemma plain_app : forall a b, plain_text a -> plain_text b -> plain_text (a ++ b).
Proof. intros a b [ea [Fa Da]] [eb [Fb Db]]. exists (ea ++ eb). split; [now apply frag_app | now rewrite forallb_app, Da, Db]. Qed.
Lemma plain_nil : plain_text [].
Proof. exists []. split; [apply frag_nil | reflexivity]. Qed.
Lemma plain_lit : forall t, forallb xml_char t && negb (existsb (N.eqb 13) t) = true -> forallb (fun c => negb (N.eqb c 38) && negb (N.eqb c 60) && negb (N.eqb c 62)) t = true -> plain_text t.
Proof.
  intros t H1 H2. apply plain_raw; [now apply writable_lit|]. rewrite forallb_forall in H2. apply Forall_forall. intros c Hc. specialize (H2 c Hc). rewrite !andb_true_iff, !negb_true_iff, !N.eqb_neq in H2. tauto.
Qed.
Lemma plain_quoted : forall t, SpecDesc.bare t -> plain_text (quoted t).
Proof.
  intros [[|c t]|] H; try apply plain_nil. unfold quoted, in_quotes. destruct H as [H1 H2]. apply plain_app; [apply plain_lit; reflexivity|]. apply plain_app; [now apply plain_raw | apply plain_lit; reflexivity].
Qed.
Lemma plain_slashed : forall t, SpecDesc.bare t -> plain_text (slashed t).
Proof. intros [[|c t]|] H; try apply plain_nil. unfold slashed, after_slash. destruct H as [H1 H2]. apply plain_app; [apply plain_lit; reflexivity|]. now apply plain_raw. Qed.
Lemma number_after : forall p i, forallb (fun c => negb (is_digit c)) p = true -> number_id i = true -> number_in (p ++ i) = Ok i.
Proof.
  intros p i. induction p as [|c p IH]; intros Hp Hi.
  - pose proof (proj2 (ManuWalk.number_of i Hi)) as E. exact E.
  - cbn [forallb] in Hp. apply andb_true_iff in Hp as [Hc Hp]. apply negb_true_iff in Hc. specialize (IH Hp Hi). unfold number_in in *. cbn [app]. unfold first_number. rewrite Hc. exact IH.
Qed.

(** ** Locations and items: the same for both, up to the reader h, its state RW in a section, and the prefix of the section names *)
Lemma heading_text_eq : forall w, s "<text:h text:style-name=""Heading_20_2"" text:outline-level=""2"">" ++ w ++ s "</text:h>" ++ [10%N] = head_text (s "Heading_20_2") (s "2") w ++ [10%N].
Proof. intro w. unfold head_text, tag_text, attr_text, ManuWalk.heading_attrs. cbn [flat_map fst snd]. rewrite <- !app_assoc. reflexivity. Qed.
Lemma body_text_eq : forall p i d, s "<text:section text:style-name=""Sect1"" text:name=""" ++ p ++ i ++ s """>" ++ [10%N] ++ s "<text:p text:style-name=""Text_20_body"">" ++ d ++ s "</text:p>" ++ [10%N] ++ s "</text:section>" ++ [10%N] =
  section_text (p ++ i) ([10%N] ++ [] ++ para_text (s "Text_20_body") d ++ [10%N]) ++ [10%N].
Proof.
  intros. unfold ManuBlocks.section_text, ManuBlocks.para_text, tag_text, attr_text, ManuWalk.section_attrs, ManuWalk.para_attrs, closing_text. cbn [flat_map fst snd app]. rewrite <- !app_assoc. cbn [app]. rewrite <- ?app_assoc. reflexivity.
Qed.
Definition world_text (p : str) (m : dict str) : str :=
  (s "<text:h text:style-name=""Heading_20_2"" text:outline-level=""2"">" ++ (V m (s "Title") ++ V m (s "AKA")) ++ s "</text:h>" ++ [10%N]) ++
  (s "<text:section text:style-name=""Sect1"" text:name=""" ++ p ++ V m (s "ID") ++ s """>" ++ [10%N] ++ s "<text:p text:style-name=""Text_20_body"">" ++ V m (s "Desc") ++ s "</text:p>" ++ [10%N] ++ s "</text:section>" ++ [10%N]).
Lemma location_text : forall m, safe_substitute OdtWLocations_location m = world_text (s "LcID:") m.
Proof. intro m. unfold world_text. rewrite <- !app_assoc. unfold V. cbv -[value_or]. reflexivity. Qed.
Lemma item_text : forall m, safe_substitute OdtWItems_item m = world_text (s "ItID:") m.
Proof. intro m. unfold world_text. rewrite <- !app_assoc. unfold V. cbv -[value_or]. reflexivity. Qed.
Lemma put_given_get : forall m k v f, dget k (put_given k v f m) = match v with Some (c :: t) => Some (f (c :: t)) | _ => dget k m end.
Proof. intros m k v f. destruct v as [[|c t]|]; try reflexivity. cbn [put_given]. apply dget_dset_same. Qed.
Lemma put_given_other : forall m k j v f, k <> j -> dget k (put_given j v f m) = dget k m.
Proof. intros m k j v f H. destruct v as [[|c t]|]; try reflexivity. cbn [put_given]. now apply dget_dset_other. Qed.
Lemma world_map : forall pn pp n d i x m, dget i d = Some x -> odt_world pn pp n d i = Ok m ->
  V m (s "ID") = i /\ V m (s "Title") = xesc (otext (we_title x)) /\ V m (s "AKA") = quoted (we_aka x) /\ V m (s "Desc") = br (otext (we_desc x)).
Proof.
  intros pn pp n d i x m Hx E. unfold odt_world in E. okstep E. unfold dindex in E. rewrite Hx in E. cbn [bind] in E. apply ok_eq in E. subst m. unfold worldMapping in E0. unfold dindex in E0. rewrite Hx in E0. cbn [bind] in E0.
  destruct (mapping_get _ _ E0 (s "ID") _ eq_refl) as [v1 [A1 G1]]. destruct (mapping_get _ _ E0 (s "Title") _ eq_refl) as [v2 [A2 G2]]. destruct (mapping_get _ _ E0 (s "Desc") _ eq_refl) as [v3 [A3 G3]]. destruct (mapping_get _ _ E0 (s "AKA") _ eq_refl) as [v4 [A4 G4]].
  unfold odt_conv in A2, A3, A4. apply ok_eq in A1, A2, A3, A4. rewrite conv_quick in A2, A4. rewrite conv_long in A3. rewrite A1, A2, A3.
  repeat split; apply value_get; rewrite ?put_given_other by discriminate; try assumption. rewrite put_given_get. unfold quoted. destruct (we_aka x) as [[|c t]|]; rewrite ?G4, <- ?A4; reflexivity.
Qed.
Section Worlds.
Variables (h : reader) (p : str) (n : novel) (get : novel -> dict world) (put : dict world -> novel -> novel) (RW : str -> novel -> rs).
Hypothesis laws : (forall d n, get (put d n) = d) /\ (forall d d' n, put d (put d' n) = put d n) /\ (forall n, put (get n) n = n).
Notation other := (others redescribed_world get put).
Notation R0 := (fun m : novel => new_rs m).
Hypothesis Hkeys : NoDup (map fst (get n)).
Hypothesis Hp : forallb style_char p = true.
Hypothesis W_quiet : forall m, heading h (s "h2") (same (R0 m)) (R0 m) (R0 m).
Hypothesis W_start : forall m i x, number_id i = true -> dget i (get m) = Some x -> h_start h (s "div") (ManuWalk.div_attr (p ++ i)) (R0 m) = Ok (set_r_lines [] (RW i m)).
Hypothesis W_collects : forall m i, collects h strip (RW i m).
Hypothesis W_end : forall m i y t L, dget i (get m) = Some y -> rstrip t = t -> concat L = t ++ [10%N] -> h_end h (Some (s "div")) (set_r_lines L (RW i m)) = Ok (R0 (put (dset i (set_we_desc (Some t) y) (get m)) m)).
Notation good w js := (restores trimmed h other n R0 R0 w js).
Lemma world_block : forall pn pp i x m, dget i (get n) = Some x -> number_id i = true -> world_ok x -> odt_world pn pp n (get n) i = Ok m -> good (world_text p m) [i].
Proof.
  intros pn pp i x m Hx Hi [Ht [Ha [t [Hd [[Wd Rd] Ld]]]]] E. destruct (world_map pn pp n (get n) i x m Hx E) as [M1 [M2 [M3 M4]]]. unfold world_text. rewrite M1, M2, M3, M4, heading_text_eq, body_text_eq. rewrite Hd. cbn [otext].
  apply (restores_app trimmed h other n R0 R0 R0 _ _ [] [i]).
  - apply (restores_quiet trimmed h other (others_weaken redescribed_world get put) n R0). intros m1 _.
    destruct (plain_app _ _ (plain_esc _ (headline_text _ Ht)) (plain_quoted _ Ha)) as [es [F D]]. eapply block_head; [reflexivity | reflexivity | exact F | exact D | apply W_quiet].
  - intros todo m1 O. destruct (others_get (R:=redescribed_world) (get:=get) (put:=put) (proj1 laws) O Hx) as [y [Hy K]].
    assert (Ex : set_we_desc (Some t) y = x) by (destruct K as [-> | [u ->]]; destruct x; cbn in *; now subst).
    exists (put (dset i x (get m1)) m1). split; [exact (others_set (R:=redescribed_world) (get:=get) (put:=put) (proj1 laws) (proj1 (proj2 laws)) Hkeys Hx O)|].
    apply (moves_desc trimmed h strip trimmed_strip eq_refl (p ++ i) (R0 m1) _ (RW i m1)); [now apply number_style | now apply (W_start m1 i y) | apply block_nil | apply W_collects | now left | exact Wd | exact Ld |].
    intros L E2. rewrite <- Ex. now apply W_end.
Qed.
Lemma worlds_block : forall pn pp tpl ids l, (forall m, safe_substitute tpl m = world_text p m) -> (forall i x, In i ids -> dget i (get n) = Some x -> number_id i = true /\ world_ok x) ->
  get_elements [] tpl (fun _ => true) (odt_world pn pp n (get n)) ids = Ok l -> good (concat l) ids.
Proof.
  intros pn pp tpl ids l Htpl Hok E. apply elements_of in E. revert l E. induction ids as [|i ids IH]; intros l E; cbn [mapM] in E; [apply ok_eq in E; subst l; apply restores_nil; exact (others_weaken redescribed_world get put)|].
  unfold fill in E at 1. okstep E. okstep E0. apply ok_eq in E0. okstep E. apply ok_eq in E. subst l y. cbn [concat]. apply (restores_app trimmed h other n R0 R0 R0 _ _ [i] ids).
  - rewrite Htpl. assert (Hx : exists x, dget i (get n) = Some x). { unfold odt_world, worldMapping, dindex in E1. destruct (dget i (get n)) as [x|]; [now exists x | discriminate]. } destruct Hx as [x Hx]. destruct (Hok i x (or_introl eq_refl) Hx) as [K1 K2]. exact (world_block pn pp i x y0 Hx K1 K2 E1).
  - apply IH; [|reflexivity]. intros j x Hj. apply Hok. now right.
Qed.
End Worlds.
Ltac bare_exporter := split; try reflexivity;
  [ intros c d; unfold chapter_template; cbn; repeat match goal with |- context[if ?b then _ else _] => destruct b end; cbn; (left; reflexivity) || (right; reflexivity)
  | intros c d; unfold chapter_end_template; cbn; repeat match goal with |- context[if ?b then _ else _] => destruct b end; reflexivity
  | intros c x d f; unfold scene_template; cbn; repeat match goal with |- context[if ?b then _ else _] => destruct b end; cbn; (left; reflexivity) || (right; reflexivity) ].
Lemma locations_bare : forall tr pn pp, OdsRoundTrip2.bare (OdtWLocations tr pn pp).
Proof. intros. bare_exporter. Qed.
Lemma items_bare : forall tr pn pp, OdsRoundTrip2.bare (OdtWItems tr pn pp).
Proof. intros. bare_exporter. Qed.
Lemma characters_bare : forall tr pn pp, OdsRoundTrip2.bare (OdtWCharacters tr pn pp).
Proof. intros. bare_exporter. Qed.

Theorem locations_back : forall tr pn pp n doc, NoDup (map fst (nv_locations n)) -> worlds_ok pn n (nv_srtLocations n) (nv_locations n) -> get_text (OdtWLocations tr pn pp) n = Ok doc ->
  forall m, other_locations (fun i => In i (nv_srtLocations n)) n m ->
  exists es, sax doc = Some es /\ forall es' styles title author desc, deliver_by trimmed es es' -> read_plain locations_reader (opening_calls styles title author desc) es' m = Ok n.
Proof.
  intros tr pn pp n doc ND Hok H m O.
  destruct (desc_document trimmed locations_reader other_locations (fun i => In i (nv_srtLocations n)) (OdtWLocations tr pn pp) n pn doc (others_weaken redescribed_world nv_locations set_nv_locations)
    (others_end redescribed_world nv_locations set_nv_locations (proj2 (proj2 locations_laws))) H) with (m := m) as [es [E K]]; try reflexivity; try apply (dwo_header _ _ _ _ Hok); try exact O.
  - intros m1 _. apply quiet_heading; reflexivity.
  - intros c p l i Hc Hp Hl Hi. apply (bare_chapters _ _ _ (locations_bare tr pn pp)) in Hc. apply empty_elements in Hp. apply empty_elements in Hi.
    replace (concat c ++ concat p ++ concat l ++ concat i) with (concat l) by (rewrite Hc, Hp, Hi; cbn [app]; now rewrite ?app_nil_r).
    exists (fun m => new_rs m), (nv_srtLocations n). split; [reflexivity|]. split; [|intros j Hj; exact Hj].
    refine (worlds_block locations_reader (s "LcID:") n nv_locations set_nv_locations (fun i m => set_r_lcId (Some i) (new_rs m)) locations_laws ND eq_refl _ _ _ _ pn pp OdtWLocations_location (nv_srtLocations n) l location_text (dwo_elements _ _ _ _ Hok) Hl).
    + intro m1. apply quiet_heading; reflexivity.
    + intros m1 a x Ha Hx. cbn [h_start locations_reader]. unfold lc_start. change (str_eqb (s "div") (s "div")) with true. cbv iota. cbn [first_attr bind ManuWalk.div_attr]. change (str_eqb (s "id") (s "id")) with true. cbv iota.
      change (prefixb (s "LcID") (s "LcID:" ++ a)) with true. cbv iota. rewrite (number_after (s "LcID:") a eq_refl Ha). cbn [bind]. cbv zeta. change (r_novel (set_r_lcId (Some a) (new_rs m1))) with m1. rewrite (ReadFrame.dget_dmem _ _ _ Hx). reflexivity.
    + intros m1 a. constructor; intros; reflexivity.
    + intros m1 a y t L Hy Hr El. cbn [h_end locations_reader]. unfold lc_end. change (r_lcId (set_r_lines L (set_r_lcId (Some a) (new_rs m1)))) with (Some a). cbv iota. change (tag_is (Some (s "div")) (s "div")) with true. cbv iota.
      change (r_novel (set_r_lines L (set_r_lcId (Some a) (new_rs m1)))) with m1. unfold dindex. rewrite Hy. cbn [bind]. cbv zeta. change (r_lines (set_r_lines L (set_r_lcId (Some a) (new_rs m1)))) with L. rewrite El, ManuClean.rstrip_feed, Hr. reflexivity.
  - exists es. split; [exact E|]. intros es' styles title author desc D. apply K; [|exact D]. apply opening_parts; reflexivity.
Qed.
Theorem items_back : forall tr pn pp n doc, NoDup (map fst (nv_items n)) -> worlds_ok pn n (nv_srtItems n) (nv_items n) -> get_text (OdtWItems tr pn pp) n = Ok doc ->
  forall m, other_items (fun i => In i (nv_srtItems n)) n m ->
  exists es, sax doc = Some es /\ forall es' styles title author desc, deliver_by trimmed es es' -> read_plain items_reader (opening_calls styles title author desc) es' m = Ok n.
Proof.
  intros tr pn pp n doc ND Hok H m O.
  destruct (desc_document trimmed items_reader other_items (fun i => In i (nv_srtItems n)) (OdtWItems tr pn pp) n pn doc (others_weaken redescribed_world nv_items set_nv_items)
    (others_end redescribed_world nv_items set_nv_items (proj2 (proj2 items_laws))) H) with (m := m) as [es [E K]]; try reflexivity; try apply (dwo_header _ _ _ _ Hok); try exact O.
  - intros m1 _. apply quiet_heading; reflexivity.
  - intros c p l i Hc Hp Hl Hi. apply (bare_chapters _ _ _ (items_bare tr pn pp)) in Hc. apply empty_elements in Hp. apply empty_elements in Hl.
    replace (concat c ++ concat p ++ concat l ++ concat i) with (concat i) by (rewrite Hc, Hp, Hl; cbn [app]; now rewrite ?app_nil_r).
    exists (fun m => new_rs m), (nv_srtItems n). split; [reflexivity|]. split; [|intros j Hj; exact Hj].
    refine (worlds_block items_reader (s "ItID:") n nv_items set_nv_items (fun i m => set_r_itId (Some i) (new_rs m)) items_laws ND eq_refl _ _ _ _ pn pp OdtWItems_item (nv_srtItems n) i item_text (dwo_elements _ _ _ _ Hok) Hi).
    + intro m1. apply quiet_heading; reflexivity.
    + intros m1 a x Ha Hx. cbn [h_start items_reader]. unfold it_start. change (str_eqb (s "div") (s "div")) with true. cbv iota. cbn [first_attr bind ManuWalk.div_attr]. change (str_eqb (s "id") (s "id")) with true. cbv iota.
      change (prefixb (s "ItID") (s "ItID:" ++ a)) with true. cbv iota. rewrite (number_after (s "ItID:") a eq_refl Ha). cbn [bind]. cbv zeta. change (r_novel (set_r_itId (Some a) (new_rs m1))) with m1. rewrite (ReadFrame.dget_dmem _ _ _ Hx). reflexivity.
    + intros m1 a. constructor; intros; reflexivity.
    + intros m1 a y t L Hy Hr El. cbn [h_end items_reader]. unfold it_end. change (r_itId (set_r_lines L (set_r_itId (Some a) (new_rs m1)))) with (Some a). cbv iota. change (tag_is (Some (s "div")) (s "div")) with true. cbv iota.
      change (r_novel (set_r_lines L (set_r_itId (Some a) (new_rs m1)))) with m1. unfold dindex. rewrite Hy. cbn [bind]. cbv zeta. change (r_lines (set_r_lines L (set_r_itId (Some a) (new_rs m1)))) with L. rewrite El, ManuClean.rstrip_feed, Hr. reflexivity.
  - exists es. split; [exact E|]. intros es' styles title author desc D. apply K; [|exact D]. apply opening_parts; reflexivity.
Qed.
