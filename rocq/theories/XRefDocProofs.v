(** The cross reference document as XML. *)
From Coq Require Import List NArith ZArith Bool Lia Arith.
From Verif Require Import SpecExport PyStr PyDict Globals NovelModel Template SpecTemplate TemplateProofs Export YwText OdfXml OdfXmlProofs OdfLex OdtText OdtTextProofs OdtTextProofs2 SpecOdf SpecDesc Templates Descriptions
  XRef SpecNovel XRefWrite SpecShow ShowProofs SpecXref XRefWriteProofs SpecXrefDoc XmlTags FormatXml4 FormatXml5 OdsRoundTrip2.
From Verif Require ManuDoc ManuBlocks ManuWalk ManuStyles ManuExport DescBlocks DescDoc.
Import ListNotations.
Notation V := ManuExport.V. Notation xesc := ManuBlocks.xesc.
Notation shows := ShowProofs.shows. Notation rendered := SpecShow.rendered. Notation table := SpecShow.table. Notation short := SpecShow.short. Notation long := SpecShow.long.

(** * Texts *)
Definition safe (c : N) : bool := negb (existsb (N.eqb c) [38; 62; 60; 39; 34; 13])%N && xml_char c.
Lemma esc5_safe : forall c, safe c = true -> esc5 c = [c].
Proof.
  intros c H. unfold safe in H. apply andb_true_iff in H as [H _]. apply negb_true_iff in H. cbn [existsb] in H. repeat (apply orb_false_iff in H as [? H]). unfold esc5.
  repeat match goal with E : (_ =? _)%N = false |- _ => rewrite E; clear E end. reflexivity.
Qed.
Lemma xesc_safe : forall t, forallb safe t = true -> xesc t = t.
Proof. induction t as [|c t IH]; intro H; [reflexivity|]. apply andb_true_iff in H as [H1 H2]. unfold ManuBlocks.xesc in *. cbn [flat_map]. now rewrite (esc5_safe c H1), IH. Qed.
Lemma xesc_app : forall a b, xesc (a ++ b) = xesc a ++ xesc b.
Proof. intros a b. apply flat_map_app. Qed.
Lemma writable_safe : forall t, forallb safe t = true -> writable t.
Proof.
  intros t H. rewrite forallb_forall in H. split.
  - apply Forall_forall. intros c Hc. apply H in Hc. now apply andb_true_iff in Hc as [_ Hc].
  - intro Hc. apply H in Hc. discriminate Hc.
Qed.
Lemma writable_app : forall a b, writable a -> writable b -> writable (a ++ b).
Proof. intros a b [A1 A2] [B1 B2]. split; [now apply Forall_app|]. rewrite in_app_iff. tauto. Qed.
Lemma safe_range : forall c, letter_or_digit c = true -> safe c = true.
Proof.
  intros c H. assert (K : (48 <= c <= 57 \/ 65 <= c <= 90 \/ c = 95 \/ 97 <= c <= 122)%N).
  { unfold letter_or_digit, letter in H. rewrite !orb_true_iff, !andb_true_iff, !N.leb_le, N.eqb_eq in H. lia. }
  unfold safe. apply andb_true_iff. split.
  - apply negb_true_iff. cbn [existsb]. rewrite !orb_false_iff, !N.eqb_neq. repeat split; lia.
  - unfold xml_char. rewrite ?orb_true_iff, ?andb_true_iff, ?N.leb_le, ?N.eqb_eq. lia.
Qed.
Lemma id_safe : forall i, plain_id i -> forallb safe i = true.
Proof. intros i H. unfold plain_id in H. rewrite forallb_forall in *. intros c Hc. apply safe_range. now apply H. Qed.
Lemma number_safe : forall k, forallb safe (str_of_N k) = true.
Proof.
  intro k. apply forallb_forall. intros c Hc. apply str_of_N_digits in Hc. apply safe_range. unfold letter_or_digit. rewrite !orb_true_iff, !andb_true_iff, !N.leb_le. lia.
Qed.
Lemma br_line : forall t, ~ In 10%N t -> ~ In 13%N t -> br t = xesc t.
Proof.
  induction t as [|c t IH]; intros H1 H2; [reflexivity|]. cbn [br]. destruct (N.eqb_spec c 10) as [->|_]; [now elim H1; left|]. destruct (N.eqb_spec c 13) as [->|_]; [now elim H2; left|].
  rewrite IH; [reflexivity|intro K; apply H1; now right|intro K; apply H2; now right].
Qed.

(** * Paragraphs *)
Definition para_ok (w : str) (ps : list (str * str)) : Prop := exists es, frag w es /\ forall R, paragraphs None (es ++ R) = ps ++ paragraphs None R.
Lemma para_nil : para_ok [] [].
Proof. exists []. split; [apply frag_nil|reflexivity]. Qed.
Lemma para_app : forall a b p q, para_ok a p -> para_ok b q -> para_ok (a ++ b) (p ++ q).
Proof.
  intros a b p q [ea [Fa Ha]] [eb [Fb Hb]]. exists (ea ++ eb). split; [now apply frag_app|]. intro R. now rewrite <- app_assoc, Ha, Hb, app_assoc.
Qed.
Lemma para_nl : para_ok [10%N] [].
Proof. exists [Data [10%N]]. split; [apply frag_char; [reflexivity|discriminate|discriminate|discriminate|discriminate]|reflexivity]. Qed.
(** inside a paragraph: w adds the text t *)
Definition adds (w t : str) : Prop := exists es, frag w es /\ forall n u R, paragraphs (Some (n, u)) (es ++ R) = paragraphs (Some (n, u ++ t)) R.
Lemma adds_nil : adds [] [].
Proof. exists []. split; [apply frag_nil|]. intros n u R. now rewrite app_nil_r. Qed.
Lemma adds_app : forall a b t u, adds a t -> adds b u -> adds (a ++ b) (t ++ u).
Proof.
  intros a b t u [ea [Fa Ha]] [eb [Fb Hb]]. exists (ea ++ eb). split; [now apply frag_app|]. intros n v R. now rewrite <- app_assoc, Ha, Hb, app_assoc.
Qed.
Lemma adds_chars : forall w t, frag w (chars t) -> adds w t.
Proof.
  intros w t F. exists (chars t). split; [exact F|]. clear F w. induction t as [|c t IH]; intros n u R; [now rewrite app_nil_r|].
  change (chars (c :: t) ++ R) with (Data [c] :: (chars t ++ R)). cbn [paragraphs]. rewrite IH, <- app_assoc. reflexivity.
Qed.
Lemma adds_xesc : forall t, writable t -> adds (xesc t) t.
Proof. intros t H. apply adds_chars. now apply DescBlocks.frag_xesc. Qed.
Lemma adds_safe : forall t, forallb safe t = true -> adds t t.
Proof. intros t H. rewrite <- (xesc_safe t H) at 1. apply adds_xesc. now apply writable_safe. Qed.
Lemma adds_tag : forall t, plain_tag t -> adds t t.
Proof. intros t [H1 H2]. apply adds_chars. now apply DescBlocks.frag_raw. Qed.
Lemma adds_link : forall v w t, writable v -> adds w t -> adds (DescBlocks.link_text (xesc v) ++ w ++ s "</text:a>") t.
Proof.
  intros v w t Hv [es [F H]]. eexists. split; [apply DescBlocks.frag_link; [exact Hv|exact F]|]. intros n u R. cbn [app paragraphs]. rewrite <- app_assoc. cbn [app].
  change (is_paragraph (s "text:a")) with false. cbv iota. rewrite H. cbn [paragraphs]. destruct (str_eqb (s "text:a") n) eqn:E; [|reflexivity]. apply str_eqb_eq in E. subst n.
Abort.
(** the name of the open paragraph *)
Definition adds_in (w t : str) : Prop := exists es, frag w es /\ forall n u R, is_paragraph n = true -> paragraphs (Some (n, u)) (es ++ R) = paragraphs (Some (n, u ++ t)) R.
Lemma adds_adds_in : forall w t, adds w t -> adds_in w t.
Proof. intros w t [es [F H]]. exists es. split; [exact F|]. intros n u R _. apply H. Qed.
Lemma adds_in_app : forall a b t u, adds_in a t -> adds_in b u -> adds_in (a ++ b) (t ++ u).
Proof.
  intros a b t u [ea [Fa Ha]] [eb [Fb Hb]]. exists (ea ++ eb). split; [now apply frag_app|]. intros n v R Hn. now rewrite <- app_assoc, Ha, Hb, app_assoc.
Qed.
Lemma adds_link : forall v w t, writable v -> adds_in w t -> adds_in (DescBlocks.link_text (xesc v) ++ w ++ s "</text:a>") t.
Proof.
  intros v w t Hv [es [F H]]. eexists. split; [apply DescBlocks.frag_link; [exact Hv|exact F]|]. intros n u R Hn. cbn [app paragraphs]. rewrite <- app_assoc. cbn [app].
  change (is_paragraph (s "text:a")) with false. cbv iota. rewrite H by exact Hn. cbn [paragraphs]. destruct (str_eqb (s "text:a") n) eqn:E; [|reflexivity]. apply str_eqb_eq in E. subst n. discriminate Hn.
Qed.
Lemma para_para : forall st w t, forallb style_char st = true -> adds_in w t -> para_ok (ManuBlocks.para_text st w) [Para t].
Proof.
  intros st w t Hs [es [F H]]. eexists. split.
  - unfold ManuBlocks.para_text. apply ManuStyles.frag_tag; [reflexivity|now apply ManuBlocks.good_para|apply ManuStyles.nodup_names; reflexivity|apply xlex_lexes; reflexivity|apply no_char; reflexivity|exact F].
  - intro R. cbn [app paragraphs]. change (is_paragraph text_p) with true. cbv iota. rewrite <- app_assoc, H by reflexivity. reflexivity.
Qed.
Lemma para_head : forall st l w t, forallb style_char st = true -> forallb style_char l = true -> adds_in w t -> para_ok (DescBlocks.head_text st l w) [(s "text:h", t)].
Proof.
  intros st l w t Hs Hl [es [F H]]. eexists. split.
  - unfold DescBlocks.head_text. apply ManuStyles.frag_tag; [reflexivity|now apply ManuBlocks.good_heading|apply ManuStyles.nodup_names; reflexivity|apply xlex_lexes; reflexivity|apply no_char; reflexivity|exact F].
  - intro R. cbn [app paragraphs]. change (is_paragraph ManuWalk.text_h) with true. cbv iota. rewrite <- app_assoc, H by reflexivity. reflexivity.
Qed.

(** * Lines *)
Lemma rendered_values : forall tb tpl t, rendered tb tpl t -> exists m, shows tb m /\ t = safe_substitute tpl m.
Proof.
  intros tb tpl t [m [H1 [H2 H3]]]. exists m. split; [now split|]. destruct (segments_exist tpl) as [l [E U]]. rewrite (H3 l E U), <- E. symmetry. now apply substitute_segments.
Qed.
Lemma shown_value : forall tb m k (allowed : str -> Prop), shows tb m -> In (k, allowed) tb -> exists v, V m k = v /\ allowed v.
Proof. intros tb m k allowed [H _] Hi. destruct (H k allowed Hi) as [v [Hv Ha]]. exists v. split; [now apply ManuExport.value_get|exact Ha]. Qed.
Lemma short_text : forall o v, short odt_conv o v -> v = xesc (text_of o).
Proof. intros o v H. unfold short, odt_conv in H. rewrite DescDoc.conv_quick in H. injection H as <-. destruct o; reflexivity. Qed.
Lemma long_line : forall o v, long odt_conv o v -> headline o -> ~ In 10%N (text_of o) -> v = xesc (text_of o).
Proof.
  intros o v H W N. unfold long, odt_conv in H. rewrite DescDoc.conv_long in H. injection H as <-. destruct o as [t|]; [|reflexivity]. destruct W as [_ W]. now apply br_line.
Qed.
Lemma headline_writable : forall o, headline o -> writable (text_of o).
Proof. intros [t|] H; [exact H|]. split; [constructor|intros []]. Qed.

(** the texts of the templates *)
Definition NL : str := [10%N].
Definition VB (m : dict str) (k : str) : str := value_or m k (s "${" ++ k ++ s "}").
Ltac flat := unfold ManuBlocks.para_text, DescBlocks.link_text, tag_text, attr_text, ManuWalk.para_attrs, closing_text; cbn [flat_map fst snd]; rewrite <- ?app_assoc; cbn [app]; rewrite <- ?app_assoc; reflexivity.
Ltac raw := let m := fresh in intro m; unfold ManuExport.V, VB; cbv -[value_or]; reflexivity.
Lemma t_notes_raw : forall m, safe_substitute OdtWXref_notesScene m = s "<text:p text:style-name=""scene_20_mark_20_notes"">" ++ NL ++ V m (s "SceneNumber") ++ s " (Ch " ++ V m (s "Chapter") ++ s ") " ++ V m (s "Title") ++ s " (Notes)" ++ NL ++ s "</text:p>" ++ NL.
Proof. raw. Qed.
Lemma t_notes : forall m, safe_substitute OdtWXref_notesScene m = ManuBlocks.para_text (s "scene_20_mark_20_notes") (NL ++ V m (s "SceneNumber") ++ s " (Ch " ++ V m (s "Chapter") ++ s ") " ++ V m (s "Title") ++ s " (Notes)" ++ NL) ++ NL.
Proof. intro m. rewrite t_notes_raw. flat. Qed.
Lemma t_todo_raw : forall m, safe_substitute OdtWXref_todoScene m = s "<text:p text:style-name=""scene_20_mark_20_todo"">" ++ NL ++ V m (s "SceneNumber") ++ s " (Ch " ++ V m (s "Chapter") ++ s ") " ++ V m (s "Title") ++ s " (ToDo)" ++ NL ++ s "</text:p>" ++ NL.
Proof. raw. Qed.
Lemma t_todo : forall m, safe_substitute OdtWXref_todoScene m = ManuBlocks.para_text (s "scene_20_mark_20_todo") (NL ++ V m (s "SceneNumber") ++ s " (Ch " ++ V m (s "Chapter") ++ s ") " ++ V m (s "Title") ++ s " (ToDo)" ++ NL) ++ NL.
Proof. intro m. rewrite t_todo_raw. flat. Qed.
Lemma t_unused_raw : forall m, safe_substitute OdtWXref_unusedScene m = s "<text:p text:style-name=""scene_20_mark_20_unused"">" ++ NL ++ V m (s "SceneNumber") ++ s " (Ch " ++ V m (s "Chapter") ++ s ") " ++ V m (s "Title") ++ s " (Unused)" ++ NL ++ s "</text:p>" ++ NL.
Proof. raw. Qed.
Lemma t_unused : forall m, safe_substitute OdtWXref_unusedScene m = ManuBlocks.para_text (s "scene_20_mark_20_unused") (NL ++ V m (s "SceneNumber") ++ s " (Ch " ++ V m (s "Chapter") ++ s ") " ++ V m (s "Title") ++ s " (Unused)" ++ NL) ++ NL.
Proof. intro m. rewrite t_unused_raw. flat. Qed.
Lemma t_scene_raw : forall m, safe_substitute OdtWXref_scene m = s "<text:p text:style-name=""scene_20_mark"">" ++ NL ++ s "<text:a xlink:href=""" ++ s "../" ++ VB m (s "ProjectName") ++ s "_manuscript.odt#ScID:" ++ V m (s "ID") ++ s "%7Cregion" ++ s """>" ++ V m (s "SceneNumber") ++ s "</text:a>" ++ s " (Ch " ++ V m (s "Chapter") ++ s ") " ++ V m (s "Title") ++ NL ++ s "</text:p>" ++ NL.
Proof. raw. Qed.
Lemma t_scene : forall m, safe_substitute OdtWXref_scene m = ManuBlocks.para_text (s "scene_20_mark") (NL ++
  (DescBlocks.link_text (s "../" ++ VB m (s "ProjectName") ++ s "_manuscript.odt#ScID:" ++ V m (s "ID") ++ s "%7Cregion") ++ V m (s "SceneNumber") ++ s "</text:a>") ++ s " (Ch " ++ V m (s "Chapter") ++ s ") " ++ V m (s "Title") ++ NL) ++ NL.
Proof. intro m. rewrite t_scene_raw. flat. Qed.
Lemma t_character_raw : forall m, safe_substitute OdtWXref_character m = s "<text:p text:style-name=""Text_20_body"">" ++ NL ++ s "<text:a xlink:href=""" ++ s "../" ++ VB m (s "ProjectName") ++ s "_characters.odt#CrID:" ++ V m (s "ID") ++ s "%7Cregion" ++ s """>" ++ V m (s "Title") ++ s "</text:a>" ++ s " " ++ V m (s "FullName") ++ NL ++ s "</text:p>" ++ NL.
Proof. raw. Qed.
Lemma t_character : forall m, safe_substitute OdtWXref_character m = ManuBlocks.para_text (s "Text_20_body") (NL ++
  (DescBlocks.link_text (s "../" ++ VB m (s "ProjectName") ++ s "_characters.odt#CrID:" ++ V m (s "ID") ++ s "%7Cregion") ++ V m (s "Title") ++ s "</text:a>") ++ s " " ++ V m (s "FullName") ++ NL) ++ NL.
Proof. intro m. rewrite t_character_raw. flat. Qed.
Lemma t_location_raw : forall m, safe_substitute OdtWXref_location m = s "<text:p text:style-name=""Text_20_body"">" ++ NL ++ s "<text:a xlink:href=""" ++ s "../" ++ VB m (s "ProjectName") ++ s "_locations.odt#LcID:" ++ V m (s "ID") ++ s "%7Cregion" ++ s """>" ++ V m (s "Title") ++ s "</text:a>" ++ NL ++ s "</text:p>" ++ NL.
Proof. raw. Qed.
Lemma t_location : forall m, safe_substitute OdtWXref_location m = ManuBlocks.para_text (s "Text_20_body") (NL ++
  (DescBlocks.link_text (s "../" ++ VB m (s "ProjectName") ++ s "_locations.odt#LcID:" ++ V m (s "ID") ++ s "%7Cregion") ++ V m (s "Title") ++ s "</text:a>") ++ NL) ++ NL.
Proof. intro m. rewrite t_location_raw. flat. Qed.
Lemma t_item_raw : forall m, safe_substitute OdtWXref_item m = s "<text:p text:style-name=""Text_20_body"">" ++ NL ++ s "<text:a xlink:href=""" ++ s "../" ++ VB m (s "ProjectName") ++ s "_items.odt#ItID:" ++ V m (s "ID") ++ s "%7Cregion" ++ s """>" ++ V m (s "Title") ++ s "</text:a>" ++ NL ++ s "</text:p>" ++ NL.
Proof. raw. Qed.
Lemma t_item : forall m, safe_substitute OdtWXref_item m = ManuBlocks.para_text (s "Text_20_body") (NL ++
  (DescBlocks.link_text (s "../" ++ VB m (s "ProjectName") ++ s "_items.odt#ItID:" ++ V m (s "ID") ++ s "%7Cregion") ++ V m (s "Title") ++ s "</text:a>") ++ NL) ++ NL.
Proof. intro m. rewrite t_item_raw. flat. Qed.
Lemma h_Chr_raw : forall m, safe_substitute (heading2 (s "Scenes with Character $Title")) m = s "<text:h text:style-name=""Heading_20_2"" text:outline-level=""2"">" ++ s "Scenes with Character " ++ V m (s "Title") ++ s ":</text:h>" ++ NL.
Proof. raw. Qed.
Lemma h_Chr : forall m, safe_substitute (heading2 (s "Scenes with Character $Title")) m = DescBlocks.head_text (s "Heading_20_2") (s "2") (s "Scenes with Character " ++ V m (s "Title") ++ s ":") ++ NL.
Proof. intro m. rewrite h_Chr_raw. unfold DescBlocks.head_text, ManuWalk.heading_attrs. flat. Qed.
Lemma h_Loc_raw : forall m, safe_substitute (heading2 (s "Scenes with Location $Title")) m = s "<text:h text:style-name=""Heading_20_2"" text:outline-level=""2"">" ++ s "Scenes with Location " ++ V m (s "Title") ++ s ":</text:h>" ++ NL.
Proof. raw. Qed.
Lemma h_Loc : forall m, safe_substitute (heading2 (s "Scenes with Location $Title")) m = DescBlocks.head_text (s "Heading_20_2") (s "2") (s "Scenes with Location " ++ V m (s "Title") ++ s ":") ++ NL.
Proof. intro m. rewrite h_Loc_raw. unfold DescBlocks.head_text, ManuWalk.heading_attrs. flat. Qed.
Lemma h_Itm_raw : forall m, safe_substitute (heading2 (s "Scenes with Item $Title")) m = s "<text:h text:style-name=""Heading_20_2"" text:outline-level=""2"">" ++ s "Scenes with Item " ++ V m (s "Title") ++ s ":</text:h>" ++ NL.
Proof. raw. Qed.
Lemma h_Itm : forall m, safe_substitute (heading2 (s "Scenes with Item $Title")) m = DescBlocks.head_text (s "Heading_20_2") (s "2") (s "Scenes with Item " ++ V m (s "Title") ++ s ":") ++ NL.
Proof. intro m. rewrite h_Itm_raw. unfold DescBlocks.head_text, ManuWalk.heading_attrs. flat. Qed.
Lemma h_STag_raw : forall m, safe_substitute (heading2 (s "Scenes tagged $Tag")) m = s "<text:h text:style-name=""Heading_20_2"" text:outline-level=""2"">" ++ s "Scenes tagged " ++ V m (s "Tag") ++ s ":</text:h>" ++ NL.
Proof. raw. Qed.
Lemma h_STag : forall m, safe_substitute (heading2 (s "Scenes tagged $Tag")) m = DescBlocks.head_text (s "Heading_20_2") (s "2") (s "Scenes tagged " ++ V m (s "Tag") ++ s ":") ++ NL.
Proof. intro m. rewrite h_STag_raw. unfold DescBlocks.head_text, ManuWalk.heading_attrs. flat. Qed.
Lemma h_CTag_raw : forall m, safe_substitute (heading2 (s "Characters tagged $Tag")) m = s "<text:h text:style-name=""Heading_20_2"" text:outline-level=""2"">" ++ s "Characters tagged " ++ V m (s "Tag") ++ s ":</text:h>" ++ NL.
Proof. raw. Qed.
Lemma h_CTag : forall m, safe_substitute (heading2 (s "Characters tagged $Tag")) m = DescBlocks.head_text (s "Heading_20_2") (s "2") (s "Characters tagged " ++ V m (s "Tag") ++ s ":") ++ NL.
Proof. intro m. rewrite h_CTag_raw. unfold DescBlocks.head_text, ManuWalk.heading_attrs. flat. Qed.
Lemma h_LTag_raw : forall m, safe_substitute (heading2 (s "Locations tagged $Tag")) m = s "<text:h text:style-name=""Heading_20_2"" text:outline-level=""2"">" ++ s "Locations tagged " ++ V m (s "Tag") ++ s ":</text:h>" ++ NL.
Proof. raw. Qed.
Lemma h_LTag : forall m, safe_substitute (heading2 (s "Locations tagged $Tag")) m = DescBlocks.head_text (s "Heading_20_2") (s "2") (s "Locations tagged " ++ V m (s "Tag") ++ s ":") ++ NL.
Proof. intro m. rewrite h_LTag_raw. unfold DescBlocks.head_text, ManuWalk.heading_attrs. flat. Qed.
Lemma h_ITag_raw : forall m, safe_substitute (heading2 (s "Items tagged $Tag")) m = s "<text:h text:style-name=""Heading_20_2"" text:outline-level=""2"">" ++ s "Items tagged " ++ V m (s "Tag") ++ s ":</text:h>" ++ NL.
Proof. raw. Qed.
Lemma h_ITag : forall m, safe_substitute (heading2 (s "Items tagged $Tag")) m = DescBlocks.head_text (s "Heading_20_2") (s "2") (s "Items tagged " ++ V m (s "Tag") ++ s ":") ++ NL.
Proof. intro m. rewrite h_ITag_raw. unfold DescBlocks.head_text, ManuWalk.heading_attrs. flat. Qed.

(** ** What is shown *)
Section Show.
Variables (tr : str -> str) (pn pp : option str) (n : novel).
Hypothesis PR : printable n pn.
Lemma shown_valueB : forall tb m k (allowed : str -> Prop), shows tb m -> In (k, allowed) tb -> exists v, VB m k = v /\ allowed v.
Proof. intros tb m k allowed [H _] Hi. destruct (H k allowed Hi) as [v [Hv Ha]]. exists v. split; [unfold VB, value_or; now rewrite Hv|exact Ha]. Qed.
Ltac find_in := cbn [In]; repeat (first [left; reflexivity | right]).
Lemma adds_plain : forall t, forallb safe t = true -> adds_in t t.
Proof. intros t H. apply adds_adds_in. now apply adds_safe. Qed.
Lemma adds_esc : forall o, headline o -> adds_in (xesc (text_of o)) (text_of o).
Proof. intros o H. apply adds_adds_in, adds_xesc. now apply headline_writable. Qed.
Lemma adds_nl : adds_in NL NL.
Proof. apply adds_adds_in. exists [Data NL]. split; [apply frag_char; [reflexivity|discriminate|discriminate|discriminate|discriminate]|reflexivity]. Qed.
Lemma target : forall a i b, forallb safe a = true -> plain_id i -> forallb safe b = true -> s "../" ++ xesc (text_of pn) ++ a ++ i ++ b = xesc (s "../" ++ text_of pn ++ a ++ i ++ b) /\ writable (s "../" ++ text_of pn ++ a ++ i ++ b).
Proof.
  intros a i b Ha Hi Hb. apply id_safe in Hi. split.
  - rewrite !xesc_app, (xesc_safe a Ha), (xesc_safe i Hi), (xesc_safe b Hb). reflexivity.
  - repeat apply writable_app; try (now apply writable_safe). apply headline_writable. apply (pr_name n pn PR).
Qed.
Lemma para_line : forall w ps, para_ok w ps -> para_ok (w ++ NL) ps.
Proof. intros w ps H. rewrite <- (app_nil_r ps). apply para_app; [exact H|apply para_nl]. Qed.
Lemma known_get : forall {A} (d : dict A) i, In i (dkeys d) -> exists a, dget i d = Some a.
Proof. intros A d i H. destruct (dget i d) as [a|] eqn:E; [now exists a|]. apply dget_None in E. contradiction. Qed.
Lemma L_notes : forall m i k c o, plain_id i -> headline o -> VB m (s "ProjectName") = xesc (text_of pn) -> V m (s "ID") = i -> V m (s "SceneNumber") = str_of_N k -> V m (s "Chapter") = str_of_N c -> V m (s "Title") = xesc (text_of o) ->
  para_ok (safe_substitute OdtWXref_notesScene m) [Para (NL ++ str_of_N k ++ s " (Ch " ++ str_of_N c ++ s ") " ++ text_of o ++ s " (Notes)" ++ NL)].
Proof.
  intros m i k c o Hi Ho Ep Ei En Ec Et. rewrite t_notes, ?Ep, ?Ei, En, Ec, Et. apply para_line, para_para; [reflexivity|].
  apply adds_in_app; [apply adds_nl|]. apply adds_in_app.
  { apply adds_plain, number_safe. }
  apply adds_in_app; [apply adds_plain; reflexivity|]. apply adds_in_app; [apply adds_plain, number_safe|]. apply adds_in_app; [apply adds_plain; reflexivity|].
  apply adds_in_app; [now apply adds_esc|]. apply adds_in_app; [apply adds_plain; reflexivity|]. apply adds_nl.
Qed.
Lemma L_todo : forall m i k c o, plain_id i -> headline o -> VB m (s "ProjectName") = xesc (text_of pn) -> V m (s "ID") = i -> V m (s "SceneNumber") = str_of_N k -> V m (s "Chapter") = str_of_N c -> V m (s "Title") = xesc (text_of o) ->
  para_ok (safe_substitute OdtWXref_todoScene m) [Para (NL ++ str_of_N k ++ s " (Ch " ++ str_of_N c ++ s ") " ++ text_of o ++ s " (ToDo)" ++ NL)].
Proof.
  intros m i k c o Hi Ho Ep Ei En Ec Et. rewrite t_todo, ?Ep, ?Ei, En, Ec, Et. apply para_line, para_para; [reflexivity|].
  apply adds_in_app; [apply adds_nl|]. apply adds_in_app.
  { apply adds_plain, number_safe. }
  apply adds_in_app; [apply adds_plain; reflexivity|]. apply adds_in_app; [apply adds_plain, number_safe|]. apply adds_in_app; [apply adds_plain; reflexivity|].
  apply adds_in_app; [now apply adds_esc|]. apply adds_in_app; [apply adds_plain; reflexivity|]. apply adds_nl.
Qed.
Lemma L_unused : forall m i k c o, plain_id i -> headline o -> VB m (s "ProjectName") = xesc (text_of pn) -> V m (s "ID") = i -> V m (s "SceneNumber") = str_of_N k -> V m (s "Chapter") = str_of_N c -> V m (s "Title") = xesc (text_of o) ->
  para_ok (safe_substitute OdtWXref_unusedScene m) [Para (NL ++ str_of_N k ++ s " (Ch " ++ str_of_N c ++ s ") " ++ text_of o ++ s " (Unused)" ++ NL)].
Proof.
  intros m i k c o Hi Ho Ep Ei En Ec Et. rewrite t_unused, ?Ep, ?Ei, En, Ec, Et. apply para_line, para_para; [reflexivity|].
  apply adds_in_app; [apply adds_nl|]. apply adds_in_app.
  { apply adds_plain, number_safe. }
  apply adds_in_app; [apply adds_plain; reflexivity|]. apply adds_in_app; [apply adds_plain, number_safe|]. apply adds_in_app; [apply adds_plain; reflexivity|].
  apply adds_in_app; [now apply adds_esc|]. apply adds_in_app; [apply adds_plain; reflexivity|]. apply adds_nl.
Qed.
Lemma L_scene : forall m i k c o, plain_id i -> headline o -> VB m (s "ProjectName") = xesc (text_of pn) -> V m (s "ID") = i -> V m (s "SceneNumber") = str_of_N k -> V m (s "Chapter") = str_of_N c -> V m (s "Title") = xesc (text_of o) ->
  para_ok (safe_substitute OdtWXref_scene m) [Para (NL ++ str_of_N k ++ s " (Ch " ++ str_of_N c ++ s ") " ++ text_of o ++ NL)].
Proof.
  intros m i k c o Hi Ho Ep Ei En Ec Et. rewrite t_scene, ?Ep, ?Ei, En, Ec, Et. apply para_line, para_para; [reflexivity|].
  apply adds_in_app; [apply adds_nl|]. apply adds_in_app.
  { destruct (target (s "_manuscript.odt#ScID:") i (s "%7Cregion") eq_refl Hi eq_refl) as [-> W]. apply adds_link; [exact W|apply adds_plain, number_safe]. }
  apply adds_in_app; [apply adds_plain; reflexivity|]. apply adds_in_app; [apply adds_plain, number_safe|]. apply adds_in_app; [apply adds_plain; reflexivity|].
  apply adds_in_app; [now apply adds_esc|]. apply adds_nl.
Qed.
Lemma position_S : forall x l, In x l -> exists k, position x l = S k.
Proof. intros x [|y l] H; [destruct H|]. cbn [position]. destruct (str_eqb y x); now eexists. Qed.
Lemma scene_ok : forall i t, In i (all_scenes n) -> In i (dkeys (nv_scenes n)) -> line_shown (scene_line tr pn pp n i) t -> para_ok t [scene_paragraph n i].
Proof.
  intros i t Hp Hi H. destruct (known_get _ _ Hi) as [x Hx]. destruct (pr_scenes n pn PR i x Hx) as [Pi Pt]. unfold line_shown, scene_line in H. cbn [fst snd] in H. unfold scene_of in H. rewrite Hx in H.
  apply rendered_values in H as [m [Sm ->]].
  destruct (shown_value _ m (s "Chapter") (number (position (its_chapter n i) (nv_srtChapters n))) Sm) as [vc [Ec Ac]]; [now left|].
  assert (K : forall k a, In (k, a) (scene_table odt_conv pn pp n i (position i (all_scenes n)) 0 0) -> In (k, a) (xref_scene_table tr pn pp n i)) by (intros k a Hk; now do 2 right).
  destruct (shown_value _ m (s "Title") (short odt_conv (sc_title (scene_of n i))) Sm) as [vt [Et At]]; [apply K; unfold scene_table; find_in|].
  destruct (shown_value _ m (s "ID") (exactly i) Sm) as [vi [Ei Ai]]; [apply K; unfold scene_table; find_in|].
  destruct (shown_value _ m (s "SceneNumber") (counter (position i (all_scenes n))) Sm) as [vn [En An]]; [apply K; unfold scene_table; find_in|].
  destruct (shown_valueB _ m (s "ProjectName") (short odt_conv pn) Sm) as [vp [Ep Ap]]; [apply K; unfold scene_table; find_in|].
  apply short_text in At. apply short_text in Ap. unfold number in Ac. unfold exactly in Ai. unfold scene_of in At. rewrite Hx in At. rewrite Ac in Ec. rewrite At in Et. rewrite Ai in Ei. rewrite Ap in Ep.
  unfold scene_paragraph, scene_of. rewrite Hx. destruct (position_S i (all_scenes n) Hp) as [k Ek]. rewrite Ek in An |- *. unfold counter, number in An. rewrite An in En.
  destruct (sc_type x) as [[|[[p|p|]|[p|p|]|]]|].
  - exact (L_scene m _ _ _ _ Pi Pt Ep Ei En Ec Et).
  - exact (L_scene m _ _ _ _ Pi Pt Ep Ei En Ec Et).
  - exact (L_scene m _ _ _ _ Pi Pt Ep Ei En Ec Et).
  - exact (L_unused m _ _ _ _ Pi Pt Ep Ei En Ec Et).
  - exact (L_scene m _ _ _ _ Pi Pt Ep Ei En Ec Et).
  - exact (L_scene m _ _ _ _ Pi Pt Ep Ei En Ec Et).
  - exact (L_todo m _ _ _ _ Pi Pt Ep Ei En Ec Et).
  - exact (L_notes m _ _ _ _ Pi Pt Ep Ei En Ec Et).
  - exact (L_scene m _ _ _ _ Pi Pt Ep Ei En Ec Et).
Qed.
Lemma L_character : forall m i o f, plain_id i -> headline o -> headline f -> VB m (s "ProjectName") = xesc (text_of pn) -> V m (s "ID") = i -> V m (s "Title") = xesc (text_of o) -> V m (s "FullName") = xesc (text_of f) ->
  para_ok (safe_substitute OdtWXref_character m) [Para (NL ++ text_of o ++ s " " ++ text_of f ++ NL)].
Proof.
  intros m i o f Hi Ho Hf Ep Ei Et Ef. rewrite t_character, Ep, Ei, Et, Ef. apply para_line, para_para; [reflexivity|].
  apply adds_in_app; [apply adds_nl|]. apply adds_in_app.
  { destruct (target (s "_characters.odt#CrID:") i (s "%7Cregion") eq_refl Hi eq_refl) as [-> W]. apply adds_link; [exact W|now apply adds_esc]. }
  apply adds_in_app; [apply adds_plain; reflexivity|]. apply adds_in_app; [now apply adds_esc|]. apply adds_nl.
Qed.
Lemma L_location : forall m i o, plain_id i -> headline o -> VB m (s "ProjectName") = xesc (text_of pn) -> V m (s "ID") = i -> V m (s "Title") = xesc (text_of o) ->
  para_ok (safe_substitute OdtWXref_location m) [Para (NL ++ text_of o ++ NL)].
Proof.
  intros m i o Hi Ho Ep Ei Et. rewrite t_location, Ep, Ei, Et. apply para_line, para_para; [reflexivity|].
  apply adds_in_app; [apply adds_nl|]. apply adds_in_app.
  { destruct (target (s "_locations.odt#LcID:") i (s "%7Cregion") eq_refl Hi eq_refl) as [-> W]. apply adds_link; [exact W|now apply adds_esc]. }
  apply adds_nl.
Qed.
Lemma L_item : forall m i o, plain_id i -> headline o -> VB m (s "ProjectName") = xesc (text_of pn) -> V m (s "ID") = i -> V m (s "Title") = xesc (text_of o) ->
  para_ok (safe_substitute OdtWXref_item m) [Para (NL ++ text_of o ++ NL)].
Proof.
  intros m i o Hi Ho Ep Ei Et. rewrite t_item, Ep, Ei, Et. apply para_line, para_para; [reflexivity|].
  apply adds_in_app; [apply adds_nl|]. apply adds_in_app.
  { destruct (target (s "_items.odt#ItID:") i (s "%7Cregion") eq_refl Hi eq_refl) as [-> W]. apply adds_link; [exact W|now apply adds_esc]. }
  apply adds_nl.
Qed.

Definition reads : list line -> list (str * str) -> Prop := Forall2 (fun l p => forall t, line_shown l t -> para_ok t [p]).
Lemma reads_app : forall a b p q, reads a p -> reads b q -> reads (a ++ b) (p ++ q).
Proof. intros a b p q. apply Forall2_app. Qed.
Lemma reads_map : forall (g : str -> line) (f : str -> str * str) ids, (forall i, In i ids -> forall t, line_shown (g i) t -> para_ok t [f i]) -> reads (map g ids) (map f ids).
Proof. induction ids as [|i ids IH]; intro H; constructor; [apply H; now left|apply IH; intros j Hj; apply H; now right]. Qed.
Lemma reads_flat : forall (g : str -> list line) (f : str -> list (str * str)) ids, (forall i, In i ids -> reads (g i) (f i)) -> reads (flat_map g ids) (flat_map f ids).
Proof. induction ids as [|i ids IH]; intro H; [constructor|]. cbn [flat_map]. apply reads_app; [apply H; now left|apply IH; intros j Hj; apply H; now right]. Qed.
Lemma reads_single : forall (g : str -> list line) (f : str -> str * str) ids, (forall i, In i ids -> reads (g i) [f i]) -> reads (flat_map g ids) (map f ids).
Proof. induction ids as [|i ids IH]; intro H; [constructor|]. cbn [flat_map map]. apply (reads_app _ _ [f i]); [apply H; now left|apply IH; intros j Hj; apply H; now right]. Qed.
Lemma reads_section : forall h e hd p, reads h [Heading hd] -> reads e p -> reads (section h e) (group hd p).
Proof.
  intros h e hd p Hh He. unfold section, group. inversion He; subst; [constructor|]. change (Heading hd :: y :: l') with ([Heading hd] ++ (y :: l')). apply reads_app; [exact Hh|now constructor].
Qed.
Lemma head_ok : forall w a t, adds_in w (a ++ t ++ s ":") -> para_ok (DescBlocks.head_text (s "Heading_20_2") (s "2") w ++ NL) [Heading (a ++ t)].
Proof. intros w a t H. apply para_line. unfold Heading. rewrite <- app_assoc. now apply para_head. Qed.
Lemma head_adds : forall a o, forallb safe a = true -> headline o -> adds_in (a ++ xesc (text_of o) ++ s ":") (a ++ text_of o ++ s ":").
Proof. intros a o Ha Ho. apply adds_in_app; [now apply adds_plain|]. apply adds_in_app; [now apply adds_esc|apply adds_plain; reflexivity]. Qed.
Lemma head_tag : forall a t, forallb safe a = true -> plain_tag t -> adds_in (a ++ t ++ s ":") (a ++ t ++ s ":").
Proof. intros a o Ha Ho. apply adds_in_app; [now apply adds_plain|]. apply adds_in_app; [apply adds_adds_in; now apply adds_tag|apply adds_plain; reflexivity]. Qed.
Lemma character_head : forall i, In i (dkeys (nv_characters n)) ->
  reads (character_line pn pp n (heading2 (s "Scenes with Character $Title")) i) [Heading (s "Scenes with Character " ++ title_of cr_title (nv_characters n) i)].
Proof.
  intros i Hi. destruct (known_get _ _ Hi) as [c Hc]. destruct (pr_characters n pn PR i c Hc) as [_ [Pt _]]. unfold character_line, title_of. rewrite Hc. constructor; [|constructor].
  intros t H. apply rendered_values in H as [m [Sm ->]]. cbn [fst snd] in *. destruct (shown_value _ m (s "Title") (short odt_conv (cr_title c)) Sm) as [vt [Et At]]; [unfold character_table; find_in|].
  apply short_text in At. rewrite At in Et. rewrite h_Chr, Et. apply head_ok. now apply head_adds.
Qed.
Lemma location_head : forall i, In i (dkeys (nv_locations n)) ->
  reads (world_line pn pp (nv_locations n) (heading2 (s "Scenes with Location $Title")) i) [Heading (s "Scenes with Location " ++ title_of we_title (nv_locations n) i)].
Proof.
  intros i Hi. destruct (known_get _ _ Hi) as [c Hc]. destruct (pr_locations n pn PR i c Hc) as [_ Pt]. unfold world_line, title_of. rewrite Hc. constructor; [|constructor].
  intros t H. apply rendered_values in H as [m [Sm ->]]. cbn [fst snd] in *. destruct (shown_value _ m (s "Title") (short odt_conv (we_title c)) Sm) as [vt [Et At]]; [unfold world_table; find_in|].
  apply short_text in At. rewrite At in Et. rewrite h_Loc, Et. apply head_ok. now apply head_adds.
Qed.
Lemma item_head : forall i, In i (dkeys (nv_items n)) ->
  reads (world_line pn pp (nv_items n) (heading2 (s "Scenes with Item $Title")) i) [Heading (s "Scenes with Item " ++ title_of we_title (nv_items n) i)].
Proof.
  intros i Hi. destruct (known_get _ _ Hi) as [c Hc]. destruct (pr_items n pn PR i c Hc) as [_ Pt]. unfold world_line, title_of. rewrite Hc. constructor; [|constructor].
  intros t H. apply rendered_values in H as [m [Sm ->]]. cbn [fst snd] in *. destruct (shown_value _ m (s "Title") (short odt_conv (we_title c)) Sm) as [vt [Et At]]; [unfold world_table; find_in|].
  apply short_text in At. rewrite At in Et. rewrite h_Itm, Et. apply head_ok. now apply head_adds.
Qed.
Lemma head_STag : forall t, plain_tag t -> reads (tag_line (heading2 (s "Scenes tagged $Tag")) t) [Heading (s "Scenes tagged " ++ t)].
Proof.
  intros t Ht. unfold tag_line. constructor; [|constructor]. intros w H. apply rendered_values in H as [m [Sm ->]]. cbn [fst snd] in *.
  destruct (shown_value _ m (s "Tag") (exactly t) Sm) as [vt [Et At]]; [now left|]. unfold exactly in At. rewrite At in Et. rewrite h_STag, Et. apply head_ok. now apply head_tag.
Qed.
Lemma head_CTag : forall t, plain_tag t -> reads (tag_line (heading2 (s "Characters tagged $Tag")) t) [Heading (s "Characters tagged " ++ t)].
Proof.
  intros t Ht. unfold tag_line. constructor; [|constructor]. intros w H. apply rendered_values in H as [m [Sm ->]]. cbn [fst snd] in *.
  destruct (shown_value _ m (s "Tag") (exactly t) Sm) as [vt [Et At]]; [now left|]. unfold exactly in At. rewrite At in Et. rewrite h_CTag, Et. apply head_ok. now apply head_tag.
Qed.
Lemma head_LTag : forall t, plain_tag t -> reads (tag_line (heading2 (s "Locations tagged $Tag")) t) [Heading (s "Locations tagged " ++ t)].
Proof.
  intros t Ht. unfold tag_line. constructor; [|constructor]. intros w H. apply rendered_values in H as [m [Sm ->]]. cbn [fst snd] in *.
  destruct (shown_value _ m (s "Tag") (exactly t) Sm) as [vt [Et At]]; [now left|]. unfold exactly in At. rewrite At in Et. rewrite h_LTag, Et. apply head_ok. now apply head_tag.
Qed.
Lemma head_ITag : forall t, plain_tag t -> reads (tag_line (heading2 (s "Items tagged $Tag")) t) [Heading (s "Items tagged " ++ t)].
Proof.
  intros t Ht. unfold tag_line. constructor; [|constructor]. intros w H. apply rendered_values in H as [m [Sm ->]]. cbn [fst snd] in *.
  destruct (shown_value _ m (s "Tag") (exactly t) Sm) as [vt [Et At]]; [now left|]. unfold exactly in At. rewrite At in Et. rewrite h_ITag, Et. apply head_ok. now apply head_tag.
Qed.
Lemma character_ok : forall i, In i (dkeys (nv_characters n)) -> reads (character_line pn pp n OdtWXref_character i) [character_paragraph n i].
Proof.
  intros i Hi. destruct (known_get _ _ Hi) as [c Hc]. destruct (pr_characters n pn PR i c Hc) as [Pi [Pt Pf]]. unfold character_line, character_paragraph, title_of. rewrite Hc. constructor; [|constructor].
  intros t H. apply rendered_values in H as [m [Sm ->]]. cbn [fst snd] in *.
  destruct (shown_value _ m (s "Title") (short odt_conv (cr_title c)) Sm) as [vt [Et At]]; [unfold character_table; find_in|].
  destruct (shown_value _ m (s "FullName") (short odt_conv (cr_fullName c)) Sm) as [vf [Ef Af]]; [unfold character_table; find_in|].
  destruct (shown_value _ m (s "ID") (exactly i) Sm) as [vi [Ei Ai]]; [unfold character_table; find_in|].
  destruct (shown_valueB _ m (s "ProjectName") (long odt_conv pn) Sm) as [vp [Ep Ap]]; [unfold character_table; find_in|].
  destruct (pr_name n pn PR) as [N1 N2]. apply short_text in At. apply short_text in Af. apply long_line in Ap; [|exact N1|exact N2]. unfold exactly in Ai. rewrite At in Et. rewrite Af in Ef. rewrite Ai in Ei. rewrite Ap in Ep.
  exact (L_character m i _ _ Pi Pt Pf Ep Ei Et Ef).
Qed.
Lemma location_ok : forall i, In i (dkeys (nv_locations n)) -> reads (world_line pn pp (nv_locations n) OdtWXref_location i) [world_paragraph (nv_locations n) i].
Proof.
  intros i Hi. destruct (known_get _ _ Hi) as [c Hc]. destruct (pr_locations n pn PR i c Hc) as [Pi Pt]. unfold world_line, world_paragraph, title_of. rewrite Hc. constructor; [|constructor].
  intros t H. apply rendered_values in H as [m [Sm ->]]. cbn [fst snd] in *.
  destruct (shown_value _ m (s "Title") (short odt_conv (we_title c)) Sm) as [vt [Et At]]; [unfold world_table; find_in|].
  destruct (shown_value _ m (s "ID") (exactly i) Sm) as [vi [Ei Ai]]; [unfold world_table; find_in|].
  destruct (shown_valueB _ m (s "ProjectName") (short odt_conv pn) Sm) as [vp [Ep Ap]]; [unfold world_table; find_in|].
  apply short_text in At. apply short_text in Ap. unfold exactly in Ai. rewrite At in Et. rewrite Ai in Ei. rewrite Ap in Ep.
  exact (L_location m i _ Pi Pt Ep Ei Et).
Qed.
Lemma item_ok : forall i, In i (dkeys (nv_items n)) -> reads (world_line pn pp (nv_items n) OdtWXref_item i) [world_paragraph (nv_items n) i].
Proof.
  intros i Hi. destruct (known_get _ _ Hi) as [c Hc]. destruct (pr_items n pn PR i c Hc) as [Pi Pt]. unfold world_line, world_paragraph, title_of. rewrite Hc. constructor; [|constructor].
  intros t H. apply rendered_values in H as [m [Sm ->]]. cbn [fst snd] in *.
  destruct (shown_value _ m (s "Title") (short odt_conv (we_title c)) Sm) as [vt [Et At]]; [unfold world_table; find_in|].
  destruct (shown_value _ m (s "ID") (exactly i) Sm) as [vi [Ei Ai]]; [unfold world_table; find_in|].
  destruct (shown_valueB _ m (s "ProjectName") (short odt_conv pn) Sm) as [vp [Ep Ap]]; [unfold world_table; find_in|].
  apply short_text in At. apply short_text in Ap. unfold exactly in Ai. rewrite At in Et. rewrite Ai in Ei. rewrite Ap in Ep.
  exact (L_item m i _ Pi Pt Ep Ei Et).
Qed.
End Show.

(** * The document *)
Lemma paragraphs_merge : forall es o, paragraphs o (merge es) = paragraphs o es.
Proof.
  induction es as [|[n a|n|d] es IH]; intro o; [reflexivity| | |].
  - cbn [merge paragraphs]. now rewrite !IH.
  - cbn [merge paragraphs]. destruct o as [[m t]|]; [|apply IH]. destruct (str_eqb n m); now rewrite IH.
  - cbn [merge]. change (paragraphs o (Data d :: es)) with (match o with Some (n, t) => paragraphs (Some (n, t ++ d)) es | None => paragraphs None es end).
    destruct (merge es) as [|[n a|n|u] r] eqn:M.
    + destruct d as [|c d].
      * destruct o as [[m t]|]; [rewrite app_nil_r|]; apply IH.
      * destruct o as [[m t]|]; [exact (IH (Some (m, t ++ c :: d)))|exact (IH None)].
    + destruct d as [|c d]; [destruct o as [[m t]|]; [rewrite app_nil_r|]; apply IH|]. destruct o as [[m t]|]; [exact (IH (Some (m, t ++ c :: d)))|exact (IH None)].
    + destruct d as [|c d]; [destruct o as [[m t]|]; [rewrite app_nil_r|]; apply IH|]. destruct o as [[m t]|]; [exact (IH (Some (m, t ++ c :: d)))|exact (IH None)].
    + destruct o as [[m t]|]; rewrite <- IH; cbn [paragraphs]; [now rewrite app_assoc|reflexivity].
Qed.
Definition no_paragraph (e : event) : bool := match e with Start n _ => negb (is_paragraph n) | _ => true end.
Lemma paragraphs_none : forall es R, forallb no_paragraph es = true -> paragraphs None (es ++ R) = paragraphs None R.
Proof.
  induction es as [|[n a|n|d] es IH]; intros R H; [reflexivity| | |]; cbn [forallb] in H; apply andb_true_iff in H as [H1 H2]; cbn [app paragraphs].
  - unfold no_paragraph in H1. apply negb_true_iff in H1. rewrite H1. now apply IH.
  - now apply IH.
  - now apply IH.
Qed.
Lemma paras_concat : forall ts ps, Forall2 (fun t p => para_ok t [p]) ts ps -> para_ok (concat ts) ps.
Proof. intros ts ps F. induction F as [|t p ts ps H F IH]; [apply para_nil|]. cbn [concat]. change (p :: ps) with ([p] ++ ps). now apply para_app. Qed.
Lemma reads_shown : forall ls ts ps, Forall2 line_shown ls ts -> reads ls ps -> para_ok (concat ts) ps.
Proof.
  intros ls ts ps F G. apply paras_concat. revert ts F. induction G as [|l p ls ps Hl G IH]; intros ts F; inversion F; subst; constructor; [now apply Hl|now apply IH].
Qed.
Lemma lines_read : forall tr pn pp n, printable n pn -> SpecNovel.refs_exist n ->
  reads (xref_lines tr pn pp n) (skipn 2 (xref_paragraphs n)).
Proof.
  intros tr pn pp n PR R. unfold xref_paragraphs. cbn [app skipn]. destruct R as [_ [Rs [Rc [Rl Ri]]]].
  assert (Sc : forall f k, reads (map (scene_line tr pn pp n) (references f n k (all_scenes n))) (map (scene_paragraph n) (references f n k (all_scenes n)))).
  { intros f k. apply reads_map. intros i Hi t Ht. apply references_in in Hi. eapply scene_ok; [exact PR|exact Hi|now apply (Rs i)|exact Ht]. }
  unfold xref_lines. repeat apply reads_app; apply reads_flat; intros i Hi; apply (proj1 (firsts_in _ _)) in Hi; apply reads_section; try apply Sc.
  - apply character_head; [exact PR|now apply Rc].
  - apply location_head; [exact PR|now apply Rl].
  - apply item_head; [exact PR|now apply Ri].
  - apply head_STag. apply (pr_tags n pn PR). tauto.
  - apply head_CTag. apply (pr_tags n pn PR). tauto.
  - apply reads_single. intros j Hj. apply tagged_in in Hj. apply character_ok; [exact PR|now apply Rc].
  - apply head_LTag. apply (pr_tags n pn PR). tauto.
  - apply reads_single. intros j Hj. apply tagged_in in Hj. apply location_ok; [exact PR|now apply Rl].
  - apply head_ITag. apply (pr_tags n pn PR). tauto.
  - apply reads_single. intros j Hj. apply tagged_in in Hj. apply item_ok; [exact PR|now apply Ri].
Qed.
Theorem document_paragraphs : forall tr pn pp n, SpecNovel.refs_exist n -> printable n pn ->
  (forall i x, In i (all_scenes n) -> dget i (nv_scenes n) = Some x -> exists z, sc_status x = Some z /\ (0 <= z <= 5)%Z) ->
  exists doc es, xref_text tr pn pp n = Ok doc /\ sax doc = Some es /\ paragraphs None es = xref_paragraphs n.
Proof.
  intros tr pn pp n R PR St. destruct (xref_document tr pn pp n R St) as [header [texts [E [Hh F]]]].
  apply rendered_values in Hh as [m [Sm Eh]]. change OdtWXref_fileHeader with OdtWSceneDesc_fileHeader in Eh. rewrite DescDoc.header_text in Eh.
  destruct (shown_value _ m (s "Title") (short odt_conv (nv_title n)) Sm) as [vt [Et At]]; [now left|].
  destruct (shown_value _ m (s "AuthorName") (short odt_conv (nv_authorName n)) Sm) as [va [Ea Aa]]; [do 2 right; now left|].
  apply short_text in At. apply short_text in Aa. rewrite At in Et. rewrite Aa in Ea. rewrite Et, Ea in Eh. destruct (pr_title n pn PR) as [T1 T2].
  assert (Pt : para_ok (ManuBlocks.para_text (s "Title") (xesc (text_of (nv_title n))) ++ NL) [Para (text_of (nv_title n))]) by (apply para_line, para_para; [reflexivity|now apply adds_esc]).
  assert (Pa : para_ok (ManuBlocks.para_text (s "Subtitle") (xesc (text_of (nv_authorName n))) ++ NL) [Para (text_of (nv_authorName n))]) by (apply para_line, para_para; [reflexivity|now apply adds_esc]).
  pose proof (para_app _ _ _ _ Pt (para_app _ _ _ _ Pa (reads_shown _ _ _ F (lines_read tr pn pp n PR R)))) as [Eb [Fb Hb]].
  exists (header ++ concat texts ++ OdtWXref_fileFooter). eexists. split; [exact E|]. split.
  - pose proof (DescDoc.document_events _ _ Fb) as D. rewrite <- D. f_equal. rewrite Eh. change OdtWXref_fileFooter with ManuDoc.FOOT.
    unfold ManuBlocks.para_text, tag_text, attr_text, ManuWalk.para_attrs, closing_text, NL. cbn [flat_map fst snd]. rewrite <- !app_assoc. cbn [app]. rewrite <- ?app_assoc. reflexivity.
  - rewrite paragraphs_merge, paragraphs_none by (vm_compute; reflexivity). rewrite Hb, <- (app_nil_r ManuDoc.E3), paragraphs_none by (vm_compute; reflexivity).
    cbn [paragraphs]. rewrite app_nil_r. reflexivity.
Qed.
