(** Characters: exported and read back. *)
From Coq Require Import String List NArith ZArith Bool Lia Arith.
From Verif Require Import SpecExport SpecRetext SpecRedesc Redesc Written.
From Verif Require Import PyStr PyDict YwText YwTextProofs NovelModel NovelOps OdfXml OdfXmlProofs OdfLex OdtText OdtTextProofs OdtTextProofs2 SpecOdf SpecManuscript
  OdsTree OdsRoundTrip OdsRoundTrip2 OdsRoundTrip3 Template Templates OdtRead XmlTags FormatXml4 SpecDesc DescEngine DescBlocks Export Descriptions ManuExport DescDoc DescScenes DescMore DescWorlds ReadFrame ReadFrame2.
From Verif Require ManuDoc ManuBlocks ManuRead ManuWalk ManuClean ConfigProofs.
Import ListNotations.

Notation SUB t p i d := (s "<text:h text:style-name=""Heading_20_3"" text:outline-level=""3"">" ++ s t ++ s "</text:h>" ++ [10%N] ++ (s "<text:section text:style-name=""Sect1"" text:name=""" ++ s p ++ i ++ s """>" ++ [10%N] ++ s "<text:p text:style-name=""Text_20_body"">" ++ d ++ s "</text:p>" ++ [10%N] ++ s "</text:section>" ++ [10%N])).
Definition character_text (m : dict str) : str :=
  (s "<text:h text:style-name=""Heading_20_2"" text:outline-level=""2"">" ++ (V m (s "Title") ++ V m (s "FullName") ++ V m (s "AKA")) ++ s "</text:h>" ++ [10%N]) ++
  s "<text:section text:style-name=""Sect1"" text:name=""CrID:" ++ V m (s "ID") ++ s """>" ++ [10%N] ++
  SUB "Description" "CrID_desc:" (V m (s "ID")) (V m (s "Desc")) ++ SUB "Bio" "CrID_bio:" (V m (s "ID")) (V m (s "Bio")) ++ SUB "Goals" "CrID_goals:" (V m (s "ID")) (V m (s "Goals")) ++ SUB "Notes" "CrID_notes:" (V m (s "ID")) (V m (s "Notes")) ++
  s "</text:section>" ++ [10%N].
Lemma character_template : forall m, safe_substitute OdtWCharacters_character m = character_text m.
Proof. intro m. unfold character_text. rewrite <- !app_assoc. unfold V. cbv -[value_or]. reflexivity. Qed.
Lemma character_map : forall pn pp n i x m, dget i (nv_characters n) = Some x -> odt_character pn pp n i = Ok m ->
  V m (s "ID") = i /\ V m (s "Title") = xesc (otext (cr_title x)) /\ V m (s "AKA") = quoted (cr_aka x) /\ V m (s "FullName") = slashed (cr_fullName x) /\
  V m (s "Desc") = br (otext (cr_desc x)) /\ V m (s "Bio") = br (otext (cr_bio x)) /\ V m (s "Goals") = br (otext (cr_goals x)) /\ V m (s "Notes") = br (otext (cr_notes x)).
Proof.
  intros pn pp n i x m Hx E. unfold odt_character in E. okstep E. unfold dindex in E. rewrite Hx in E. cbn [bind] in E. apply ok_eq in E. subst m. unfold characterMapping in E0. unfold dindex in E0. rewrite Hx in E0. cbn [bind] in E0.
  destruct (mapping_get _ _ E0 (s "ID") _ eq_refl) as [v1 [A1 G1]]. destruct (mapping_get _ _ E0 (s "Title") _ eq_refl) as [v2 [A2 G2]]. destruct (mapping_get _ _ E0 (s "Desc") _ eq_refl) as [v3 [A3 G3]]. destruct (mapping_get _ _ E0 (s "AKA") _ eq_refl) as [v4 [A4 G4]].
  destruct (mapping_get _ _ E0 (s "FullName") _ eq_refl) as [v5 [A5 G5]]. destruct (mapping_get _ _ E0 (s "Bio") _ eq_refl) as [v6 [A6 G6]]. destruct (mapping_get _ _ E0 (s "Goals") _ eq_refl) as [v7 [A7 G7]]. destruct (mapping_get _ _ E0 (s "Notes") _ eq_refl) as [v8 [A8 G8]].
  unfold odt_conv in A2, A3, A4, A5, A6, A7, A8. apply ok_eq in A1, A2, A3, A4, A5, A6, A7, A8. rewrite conv_quick in A2, A4, A5. rewrite conv_long in A3, A6, A7, A8. rewrite A1, A2, A3, A6, A7, A8.
  repeat split; apply value_get.
  all: try (rewrite !put_given_other by discriminate; assumption).
  - rewrite put_given_other by discriminate. rewrite put_given_get. unfold quoted. destruct (cr_aka x) as [[|c t]|]; rewrite ?G4, <- ?A4; reflexivity.
  - rewrite put_given_get. rewrite put_given_other by discriminate. unfold slashed. destruct (cr_fullName x) as [[|c t]|]; rewrite ?G5, <- ?A5; reflexivity.
Qed.
Section Reader.
Variable n : novel.
Notation H := characters_reader.
Definition RCr (o : option str) : rs := set_r_crId o (new_rs n).
Definition RSec (i k : str) : rs := set_r_section (Some k) (RCr (Some i)).
Lemma quiet_character : forall o l, In l [s "2"; s "3"] -> heading H (s "h" ++ l) (same (RCr o)) (RCr o) (RCr o).
Proof. intros o l Hl. apply quiet_heading; [destruct Hl as [<- | [<- | []]]; reflexivity | reflexivity | destruct o; destruct Hl as [<- | [<- | []]]; reflexivity]. Qed.
Lemma collect_character : forall i k, collects H strip (RSec i k).
Proof. intros i k. constructor; intros; reflexivity. Qed.
End Reader.
Notation H := characters_reader.
(** the character i replaced by z *)
Definition upd (m : novel) (i : str) (z : character) : novel := set_nv_characters (dset i z (nv_characters m)) m.
Lemma upd_get : forall m i z, dget i (nv_characters (upd m i z)) = Some z.
Proof. intros m i z. unfold upd. rewrite (proj1 characters_laws). apply dget_dset_same. Qed.
Lemma dset_twice : forall (d : dict character) i a b, dset i b (dset i a d) = dset i b d.
Proof. induction d as [|[k z] d IH]; intros i a b; cbn [dset]; [now rewrite str_eqb_refl|]. destruct (str_eqb i k) eqn:E; cbn [dset]; rewrite ?str_eqb_refl, ?E; [reflexivity | now rewrite IH]. Qed.
Lemma upd_upd : forall m i a b, upd (upd m i a) i b = upd m i b.
Proof. intros m i a b. unfold upd. rewrite (proj1 characters_laws), (proj1 (proj2 characters_laws)). now rewrite dset_twice. Qed.
(** one of the four texts of a character: the section k with the prefix p; o: the character before *)
Record sub (m : novel) (o : option str) (p k : str) (i : str) (y : character) (put : option str -> character -> character) : Prop := mkSub {
  sub_name : forallb style_char p = true;
  sub_start : h_start H (s "div") (ManuWalk.div_attr (p ++ i)) (RCr m o) = Ok (set_r_lines [] (RSec m i k));
  sub_end : forall t L, rstrip t = t -> concat L = t ++ [10%N] -> h_end H (Some (s "div")) (set_r_lines L (RSec m i k)) = Ok (RCr (upd m i (put (Some t) y)) (Some i)) }.
Lemma sub_moves : forall m o t p k i y put v, sub m o (s p) k i y put -> number_id i = true -> given listable v -> plain_text (s t) ->
  moves trimmed H (RCr m o) (RCr (upd m i (put v y)) (Some i)) (SUB t p i (br (otext v))).
Proof.
  intros m o t p k i y put v [S1 S2 S3] Hi [d [Hd [[Wd Rd] Ld]]] [es [F D]]. subst v. cbn [otext].
  match goal with |- moves _ _ _ _ ?w => replace w with ((head_text (s "Heading_20_3") (s "3") (s t) ++ [10%N]) ++ (section_text (s p ++ i) ([10%N] ++ [] ++ para_text (s "Text_20_body") (br d) ++ [10%N]) ++ [10%N])) end.
  2:{ unfold head_text, ManuBlocks.section_text, ManuBlocks.para_text, tag_text, attr_text, ManuWalk.heading_attrs, ManuWalk.section_attrs, ManuWalk.para_attrs, closing_text. cbn [flat_map fst snd]. rewrite <- !app_assoc. cbn [app]. rewrite <- ?app_assoc. reflexivity. }
  apply (moves_app trimmed H (RCr m o) (RCr m o)).
  - exact (block_head trimmed H (RCr m o) (same (RCr m o)) (s "Heading_20_3") (s "3") (s t) es eq_refl eq_refl F D (quiet_character m o (s "3") (or_intror (or_introl eq_refl)))).
  - apply (moves_desc trimmed H strip trimmed_strip eq_refl (s p ++ i) (RCr m o) _ (RSec m i k)); [now apply number_style | exact S2 | apply block_nil | apply collect_character | now left | exact Wd | exact Ld |].
    intros L E. now apply (S3 d).
Qed.
Lemma end_of : forall m i k y L t (f : option str -> character -> character), dget i (nv_characters m) = Some y -> rstrip t = t -> concat L = t ++ [10%N] ->
  h_end H (Some (s "div")) (set_r_lines L (RSec m i k)) = (do st <- on_character i (f (Some (rstrip (concat L)))) (set_r_lines L (RSec m i k)); Ok (set_r_section None (set_r_lines [] st))) ->
  h_end H (Some (s "div")) (set_r_lines L (RSec m i k)) = Ok (RCr (upd m i (f (Some t) y)) (Some i)).
Proof.
  intros m i k y L t f Hy Hr E G. rewrite G, E, ManuClean.rstrip_feed, Hr. unfold on_character, dindex. change (r_novel (set_r_lines L (RSec m i k))) with m. rewrite Hy. cbn [bind]. reflexivity.
Qed.
Lemma sub_desc : forall n o i x, number_id i = true -> dget i (nv_characters n) = Some x -> sub n o (s "CrID_desc:") (s "desc") i x set_cr_desc.
Proof.
  intros n o i x Hi Hx. constructor; [reflexivity| |].
  - cbn [h_start H characters_reader]. unfold cr_start. change (str_eqb (s "div") (s "div")) with true. cbv iota. cbn [first_attr bind ManuWalk.div_attr]. change (str_eqb (s "id") (s "id")) with true. cbv iota.
    change (prefixb (s "CrID_desc") (s "CrID_desc:" ++ i)) with true. cbv iota. rewrite (number_after (s "CrID_desc:") i eq_refl Hi). cbn [bind]. cbv zeta. change (r_novel (set_r_crId (Some i) (RCr n o))) with n. rewrite (ReadFrame.dget_dmem _ _ _ Hx). reflexivity.
  - intros t L Hr E. apply (end_of n i (s "desc") x L t set_cr_desc Hx Hr E). reflexivity.
Qed.
Lemma sub_bio : forall m i x, dget i (nv_characters m) = Some x -> sub m (Some i) (s "CrID_bio:") (s "bio") i x set_cr_bio.
Proof. intros m i x Hx. constructor; [reflexivity | reflexivity|]. intros t L Hr E. apply (end_of m i (s "bio") x L t set_cr_bio Hx Hr E). reflexivity. Qed.
Lemma sub_goals : forall m i x, dget i (nv_characters m) = Some x -> sub m (Some i) (s "CrID_goals:") (s "goals") i x set_cr_goals.
Proof. intros m i x Hx. constructor; [reflexivity | reflexivity|]. intros t L Hr E. apply (end_of m i (s "goals") x L t set_cr_goals Hx Hr E). reflexivity. Qed.
Lemma sub_notes : forall m i x, dget i (nv_characters m) = Some x -> sub m (Some i) (s "CrID_notes:") (s "notes") i x set_cr_notes.
Proof. intros m i x Hx. constructor; [reflexivity | reflexivity|]. intros t L Hr E. apply (end_of m i (s "notes") x L t set_cr_notes Hx Hr E). reflexivity. Qed.
Section Characters.
Variable n : novel.
Hypothesis Hkeys : NoDup (map fst (nv_characters n)).
Notation at_ o := (fun m0 : novel => RCr m0 o).
Lemma character_moves : forall pn pp o i x m, dget i (nv_characters n) = Some x -> number_id i = true -> character_ok x -> odt_character pn pp n i = Ok m ->
  restores trimmed H other_characters n (at_ o) (at_ (Some i)) (character_text m) [i].
Proof.
  intros pn pp o i x m Hx Hi [K1 K2 K3 K4 K5 K6 K7] E todo m0 O. destruct (character_map pn pp n i x m Hx E) as [M1 [M2 [M3 [M4 [M5 [M6 [M7 M8]]]]]]]. unfold character_text. rewrite M1, M2, M3, M4, M5, M6, M7, M8, heading_text_eq.
  destruct (others_get (R:=redescribed_character) (get:=nv_characters) (put:=set_nv_characters) (proj1 characters_laws) O Hx) as [y [Hy K]].
  exists (upd m0 i x). split; [exact (others_set (R:=redescribed_character) (get:=nv_characters) (put:=set_nv_characters) (proj1 characters_laws) (proj1 (proj2 characters_laws)) Hkeys Hx O)|].
  set (y1 := set_cr_desc (cr_desc x) y). set (y2 := set_cr_bio (cr_bio x) y1). set (y3 := set_cr_goals (cr_goals x) y2). set (y4 := set_cr_notes (cr_notes x) y3).
  assert (Ey : y4 = x) by (unfold y4, y3, y2, y1; destruct K as [-> | [d [b [g [q ->]]]]]; now destruct x).
  pose proof (sub_moves m0 o "Description" "CrID_desc:" (s "desc") i y set_cr_desc (cr_desc x) (sub_desc m0 o i y Hi Hy) Hi K4 (plain_lit (s "Description") eq_refl eq_refl)) as B1.
  pose proof (sub_moves (upd m0 i y1) (Some i) "Bio" "CrID_bio:" (s "bio") i y1 set_cr_bio (cr_bio x) (sub_bio (upd m0 i y1) i y1 (upd_get m0 i y1)) Hi K5 (plain_lit (s "Bio") eq_refl eq_refl)) as B2.
  pose proof (sub_moves (upd m0 i y2) (Some i) "Goals" "CrID_goals:" (s "goals") i y2 set_cr_goals (cr_goals x) (sub_goals (upd m0 i y2) i y2 (upd_get m0 i y2)) Hi K6 (plain_lit (s "Goals") eq_refl eq_refl)) as B3.
  pose proof (sub_moves (upd m0 i y3) (Some i) "Notes" "CrID_notes:" (s "notes") i y3 set_cr_notes (cr_notes x) (sub_notes (upd m0 i y3) i y3 (upd_get m0 i y3)) Hi K7 (plain_lit (s "Notes") eq_refl eq_refl)) as B4.
  rewrite upd_upd in B2, B3, B4. fold y1 in B1. fold y2 in B2. fold y3 in B3. fold y4 in B4. rewrite Ey in B4. clearbody y1 y2 y3.
  apply (moves_app trimmed H (RCr m0 o) (RCr m0 o)).
  - destruct (plain_app _ _ (plain_esc _ (headline_text _ K1)) (plain_app _ _ (plain_slashed _ K3) (plain_quoted _ K2))) as [es [F D]].
    exact (block_head trimmed H (RCr m0 o) (same (RCr m0 o)) (s "Heading_20_2") (s "2") _ es eq_refl eq_refl F D (quiet_character m0 o (s "2") (or_introl eq_refl))).
  - set (w1 := SUB "Description" "CrID_desc:" i (br (otext (cr_desc x)))) in *. set (w2 := SUB "Bio" "CrID_bio:" i (br (otext (cr_bio x)))) in *. set (w3 := SUB "Goals" "CrID_goals:" i (br (otext (cr_goals x)))) in *. set (w4 := SUB "Notes" "CrID_notes:" i (br (otext (cr_notes x)))) in *. clearbody w1 w2 w3 w4.
    match goal with |- moves _ _ _ _ ?w => replace w with (section_text (s "CrID:" ++ i) ([10%N] ++ w1 ++ w2 ++ w3 ++ w4) ++ [10%N]) end.
    2:{ unfold ManuBlocks.section_text, tag_text, attr_text, ManuWalk.section_attrs, closing_text. cbn [flat_map fst snd]. rewrite <- !app_assoc. cbn [app]. rewrite <- ?app_assoc. reflexivity. }
    apply (moves_section trimmed H (s "CrID:" ++ i) (RCr m0 o) (RCr m0 o) (RCr (upd m0 i x) (Some i))); [now apply number_style | reflexivity | | reflexivity].
    apply (moves_app trimmed H _ _ _ _ _ B1). apply (moves_app trimmed H _ _ _ _ _ B2). apply (moves_app trimmed H _ _ _ _ _ B3). exact B4.
Qed.
Lemma characters_move : forall pn pp ids o l, (forall i x, In i ids -> dget i (nv_characters n) = Some x -> number_id i = true /\ character_ok x) ->
  mapM (fun i => fill OdtWCharacters_character (odt_character pn pp n i)) ids = Ok l -> exists o', restores trimmed H other_characters n (at_ o) (at_ o') (concat l) ids.
Proof.
  intros pn pp ids. induction ids as [|i ids IH]; intros o l Hok E; cbn [mapM] in E; [apply ok_eq in E; subst l; exists o; apply restores_nil; exact (others_weaken redescribed_character nv_characters set_nv_characters)|].
  unfold fill in E at 1. destruct (odt_character pn pp n i) as [m|] eqn:Em; [|discriminate]. cbn [bind] in E. destruct (mapM _ ids) as [l1|] eqn:El; [|discriminate]. cbn [bind] in E. apply ok_eq in E. subst l.
  assert (Hx : exists x, dget i (nv_characters n) = Some x). { unfold odt_character, characterMapping, dindex in Em. destruct (dget i (nv_characters n)) as [x|]; [now exists x | discriminate]. } destruct Hx as [x Hx].
  destruct (Hok i x (or_introl eq_refl) Hx) as [Hi Hc]. destruct (IH (Some i) l1) as [o' B]; [intros j y Hj; apply Hok; now right | reflexivity|]. exists o'. cbn [concat]. rewrite character_template.
  apply (restores_app trimmed H other_characters n (at_ o) (at_ (Some i)) (at_ o') _ _ [i] ids); [now apply (character_moves pn pp o i x) | exact B].
Qed.
End Characters.
Theorem characters_back : forall tr pn pp n doc, NoDup (map fst (nv_characters n)) -> characters_ok pn n -> get_text (OdtWCharacters tr pn pp) n = Ok doc ->
  forall m, other_characters (fun i => In i (nv_srtCharacters n)) n m ->
  exists es, sax doc = Some es /\ forall es' styles title author desc, deliver_by trimmed es es' -> read_plain characters_reader (opening_calls styles title author desc) es' m = Ok n.
Proof.
  intros tr pn pp n doc ND Hok H m O.
  destruct (desc_document trimmed characters_reader other_characters (fun i => In i (nv_srtCharacters n)) (OdtWCharacters tr pn pp) n pn doc (others_weaken redescribed_character nv_characters set_nv_characters)
    (others_end redescribed_character nv_characters set_nv_characters (proj2 (proj2 characters_laws))) H) with (m := m) as [es [E K]]; try reflexivity; try apply (dho_header _ _ Hok); try exact O.
  - intros m1 _. apply quiet_heading; reflexivity.
  - intros c p l i Hc Hp Hl Hi. apply (bare_chapters _ _ _ (characters_bare tr pn pp)) in Hc. apply empty_elements in Hl. apply empty_elements in Hi.
    replace (concat c ++ concat p ++ concat l ++ concat i) with (concat p) by (rewrite Hc, Hl, Hi; cbn [app]; now rewrite ?app_nil_r).
    unfold get_characters in Hp. apply elements_of in Hp. destruct (characters_move n ND pn pp (nv_srtCharacters n) None p (dho_elements _ _ Hok) Hp) as [o' B].
    exists (fun m0 => RCr m0 o'), (nv_srtCharacters n). split; [reflexivity|]. split; [exact B | intros j Hj; exact Hj].
  - exists es. split; [exact E|]. intros es' styles title author desc D. apply K; [|exact D]. apply opening_parts; reflexivity.
Qed.
