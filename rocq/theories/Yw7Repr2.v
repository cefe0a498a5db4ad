(** Every part of a representable novel is stored and comes back. *)
From Coq Require Import String List NArith ZArith Bool Lia Arith.
From Verif Require Import PyStr PyDict Spec Globals GlobalsProofs NovelModel NovelOps NovelOpsProofs YwTree IsoDate Yw7Build Yw7Read YwTreeProofs Yw7SceneProofs
  Yw7StartProofs Yw7SceneRT Yw7ChapterRT Yw7ElemRT Yw7ListRT Yw7TreeInv Yw7ProjRT Yw7SecRT Yw7TreeRT YwText YwTextProofs SpecYw7 Yw7Clean Yw7Clean2 Yw7Repr.
Import ListNotations.

(** ** Scenes *)
Definition mode_text (x : scene) : option str :=
  match sc_scnMode x with Some m => if Z.eqb m 0 then None else Some (str_of_Z m) | None => kw_value (s "Field_SceneMode") (sc_kw x) end.

Lemma prepare_arcs : forall x, get_kw (s "Field_SceneArcs") (sc_kw (prepare_scene x)) = arcs_of x.
Proof.
  intro x. unfold prepare_scene, arcs_of, get_kw, kw_value. cbn [set_sc_kw sc_kw]. rewrite dget_dset_other by discriminate.
  destruct (sc_scnMode x) as [m|]; [rewrite dget_dset_other by discriminate|]; destruct (sc_scnArcs x) as [a|]; try rewrite dget_dset_same; reflexivity.
Qed.
Lemma prepare_mode : forall x, get_kw (s "Field_SceneMode") (sc_kw (prepare_scene x)) = mode_text x.
Proof.
  intro x. unfold prepare_scene, mode_text, get_kw, kw_value. cbn [set_sc_kw sc_kw]. rewrite dget_dset_other by discriminate.
  destruct (sc_scnMode x) as [m|]; [rewrite dget_dset_same; reflexivity|]. destruct (sc_scnArcs x) as [a|]; [rewrite dget_dset_other by discriminate|]; reflexivity.
Qed.
Lemma prepare_eq : forall x, exists kw, prepare_scene x = set_sc_kw kw x /\ get_kw (s "Field_SceneArcs") kw = arcs_of x /\ get_kw (s "Field_SceneMode") kw = mode_text x.
Proof. intro x. exists (sc_kw (prepare_scene x)). split; [reflexivity|]. split; [apply prepare_arcs | apply prepare_mode]. Qed.

Lemma safe_no_markup : forall v, forallb safe_char v = true -> convert_from_yw v = v.
Proof.
  intros v H. apply convert_id. intros c Hc Hm. rewrite forallb_forall in H. apply H in Hc.
  cbn [In] in Hm. repeat (destruct Hm as [<- | Hm]; [discriminate Hc|]). destruct Hm.
Qed.

Lemma scene_ok_texts : forall cs ls x, scene_ok cs ls x -> scene_texts (prepare_scene x).
Proof.
  intros cs ls x []. destruct (prepare_eq x) as (kw & -> & Ha & Hm). constructor; cbn [set_sc_kw sc_title sc_desc sc_content sc_notes sc_tags sc_field1 sc_field2 sc_field3 sc_field4
   sc_lastsDays sc_lastsHours sc_lastsMinutes sc_goal sc_conflict sc_outcome sc_image sc_kw sc_date sc_time sc_day sc_characters sc_locations sc_items];
   try (apply text_long; [reflexivity | assumption]); try (apply text_plain; [reflexivity | assumption]).
  - apply tags_text_good. assumption.
  - unfold kw_text. rewrite Ha. destruct (arcs_of x) as [[|c v]|]; [exact I | | exact I]. cbn [opt_ok] in so_arcs. destruct so_arcs as [A1 A2]. rewrite convert_id by exact A2. apply text_long; [reflexivity | exact A1].
  - unfold kw_text. rewrite Hm. unfold mode_text in *. destruct (sc_scnMode x) as [m|]; [|rewrite so_mode by reflexivity; exact I]. destruct (Z.eqb m 0); [exact I|].
    pose proof (str_of_Z_safe m) as [Z1 Z2]. destruct (str_of_Z m) as [|c v]; [exact I|]. rewrite safe_no_markup by exact Z2. apply text_safe. split; assumption.
  - apply start_text_ok. assumption.
  - intros i Hi. apply id_plain. apply so_characters. exact Hi.
  - intros i Hi. apply id_plain. apply so_locations. exact Hi.
  - intros i Hi. apply id_plain. apply so_items. exact Hi.
Qed.

Lemma scene_ok_good : forall cs ls x, scene_ok cs ls x -> scene_good out_text (prepare_scene x).
Proof.
  intros cs ls x []. destruct (prepare_eq x) as (kw & -> & Ha & Hm). split; [apply start_text_ok; assumption|].
  split; intros a Hin; (apply id_out; [reflexivity|]); [apply so_characters | apply so_locations]; exact Hin.
Qed.

Lemma scene_same : forall cs ls x, scene_ok cs ls x -> same_scene x (custom_vars (merged_scene out_text cs ls (prepare_scene x) blank_scene)).
Proof.
  intros cs ls x []. destruct (prepare_eq x) as (kw & -> & Ha & Hm). unfold custom_vars, merged_scene.
  constructor; cbn [set_sc_scnArcs set_sc_scnMode set_sc_kw sc_title sc_desc sc_content sc_notes sc_tags sc_field1 sc_field2 sc_field3 sc_field4
   sc_lastsDays sc_lastsHours sc_lastsMinutes sc_goal sc_conflict sc_outcome sc_image sc_kw sc_date sc_time sc_day sc_characters sc_locations sc_items
   sc_type sc_status sc_appendToPrev sc_isReactionScene sc_isSubPlot sc_doNotExport sc_scnArcs sc_scnMode blank_scene scene_of fst snd].
  - apply keep_long. reflexivity.
  - apply keep_long. reflexivity.
  - apply keep_long. reflexivity.
  - apply keep_long. reflexivity.
  - apply keep_long. reflexivity.
  - apply keep_plain; [reflexivity | assumption].
  - apply keep_long. reflexivity.
  - apply keep_long. reflexivity.
  - repeat split; apply keep_plain; try reflexivity; assumption.
  - repeat split; apply keep_plain; try reflexivity; assumption.
  - reflexivity.
  - destruct (sc_status x); reflexivity.
  - apply tags_same. assumption.
  - repeat split; [destruct (sc_appendToPrev x) as [[]|] | destruct (sc_isReactionScene x) as [[]|] | destruct (sc_isSubPlot x) as [[]|] | destruct (sc_doNotExport x) as [[]|]]; reflexivity.
  - match goal with |- context [new_start ?a ?b ?c ?d] => change d with (@None str, @None str, @None str) end. rewrite start_text_same by assumption. reflexivity.
  - apply refs_same. assumption.
  - apply refs_same. assumption.
  - change (get_kw (s "Field_SceneArcs") (map (fun f => (f, kw_out out_text f kw)) SCN_KWVAR)) with (kw_out out_text (s "Field_SceneArcs") kw).
    unfold kw_out. rewrite Ha. destruct (arcs_of x) as [[|c v]|]; [reflexivity | | reflexivity]. cbn [opt_ok] in so_arcs. destruct so_arcs as [A1 A2]. rewrite convert_id by exact A2. rewrite out_long by reflexivity. reflexivity.
  - unfold mode_of. cbn [sc_scnMode]. change (get_kw (s "Field_SceneMode") (map (fun f => (f, kw_out out_text f kw)) SCN_KWVAR)) with (kw_out out_text (s "Field_SceneMode") kw).
    unfold kw_out. rewrite Hm. unfold mode_text. destruct (sc_scnMode x) as [m|]; [|rewrite so_mode by reflexivity; reflexivity].
    destruct (Z.eqb m 0) eqn:E; [apply Z.eqb_eq in E; subst; reflexivity|]. pose proof (parse_int_str_of_Z m) as P. pose proof (str_of_Z_safe m) as [Z1 Z2]. destruct (str_of_Z m) as [|c v]; [congruence|].
    rewrite safe_no_markup by exact Z2. rewrite oc_safe by (split; assumption). rewrite P. reflexivity.
Qed.

(** ** Chapters *)
Lemma chapter_ok_texts : forall scs c, chapter_ok scs c -> chapter_texts c.
Proof.
  intros scs c []. constructor; try (apply text_long; [reflexivity | assumption]). intros i Hi. apply id_plain. apply co_scenes. exact Hi.
Qed.
Lemma chapter_ok_good : forall scs c, chapter_ok scs c -> chapter_good out_text c.
Proof. intros scs c [] a Ha. apply id_out; [reflexivity | apply co_scenes; exact Ha]. Qed.
Lemma chapter_same : forall scs c, chapter_ok (dkeys scs) c -> same_chapter c (merged_chapter out_text scs c blank_chapter).
Proof.
  intros scs c []. unfold merged_chapter.
  constructor; cbn [ch_title ch_desc ch_type ch_level ch_isTrash ch_suppressBreak ch_suppressTitle ch_srtScenes].
  - apply keep_long. reflexivity.
  - apply keep_long. reflexivity.
  - reflexivity.
  - destruct co_level as [-> | [-> | ->]]; reflexivity.
  - destruct (ch_suppressTitle c) as [[]|], (ch_suppressBreak c) as [[]|], (ch_isTrash c) as [[]|]; reflexivity.
  - destruct (ch_suppressTitle c) as [[]|], (ch_suppressBreak c) as [[]|], (ch_isTrash c) as [[]|]; reflexivity.
  - assert (Q : at_sign (keep out_text (s "Title") (ch_title c) (ch_title blank_chapter)) = prefixb (s "@") (text_of (ch_title c))).
    { unfold keep. destruct (ch_title c) as [v|]; [|reflexivity]. rewrite out_long by reflexivity. destruct v; reflexivity. }
    rewrite Q. unfold flag. rewrite orb_comm. destruct (ch_suppressTitle c) as [[]|]; destruct (prefixb (s "@") (text_of (ch_title c))); reflexivity.
  - apply filter_all. intros a Ha. apply smem_In. apply co_scenes. exact Ha.
Qed.

(** ** Locations, items, characters, notes *)
Lemma world_ok_texts : forall w, world_ok link w -> world_texts LOC_KWVAR w.
Proof.
  intros w []. constructor; try (apply text_long; [reflexivity | assumption]); [apply tags_text_good; assumption|].
  intros f Hf. split; [destruct Hf as [<- | []]; reflexivity|]. apply line_kw; [destruct Hf as [<- | []]; reflexivity | apply wo_fields; exact Hf].
Qed.
Lemma kw_value_map : forall f fs (g : str -> option str), In f fs -> kw_value f (map (fun f => (f, g f)) fs) = g f.
Proof.
  intros f fs g H. unfold kw_value. replace (dget f (map (fun f => (f, g f)) fs)) with (Some (g f)); [reflexivity|].
  induction fs as [|h fs IH]; [destruct H|]. cbn [map dget]. destruct (str_eqb f h) eqn:E; [apply str_eqb_eq in E; subst; reflexivity|].
  destruct H as [-> | H]; [rewrite str_eqb_refl in E; discriminate | apply IH; exact H].
Qed.
Lemma world_same : forall w, world_ok link w -> same_world link w (stored_world out_text LOC_KWVAR w).
Proof.
  intros w []. unfold stored_world. constructor; cbn [we_title we_desc we_image we_aka we_tags we_kw]; try (apply keep_long; reflexivity); [apply tags_same; assumption|].
  intros f Hf. change LOC_KWVAR with link. rewrite kw_value_map by exact Hf. apply line_kw; [destruct Hf as [<- | []]; reflexivity | apply wo_fields; exact Hf].
Qed.
Lemma character_ok_texts : forall c, character_ok character_fields c -> character_texts c.
Proof.
  intros c []. constructor; try (apply text_long; [reflexivity | assumption]); [apply tags_text_good; assumption|].
  intros f Hf. split; [destruct Hf as [<- | [<- | [<- | []]]]; reflexivity|]. apply line_kw; [destruct Hf as [<- | [<- | [<- | []]]]; reflexivity | apply ro_fields; exact Hf].
Qed.
Lemma character_same : forall c, character_ok character_fields c -> same_character character_fields c (stored_character out_text c).
Proof.
  intros c []. unfold stored_character. constructor; cbn [cr_title cr_desc cr_image cr_aka cr_notes cr_bio cr_goals cr_fullName cr_isMajor cr_tags cr_kw]; try (apply keep_long; reflexivity).
  - destruct (cr_isMajor c) as [[]|]; reflexivity.
  - apply tags_same; assumption.
  - intros f Hf. change CRT_KWVAR with character_fields. rewrite kw_value_map by exact Hf. apply line_kw; [destruct Hf as [<- | [<- | [<- | []]]]; reflexivity | apply ro_fields; exact Hf].
Qed.
Lemma note_ok_texts : forall x, note_ok x -> note_texts x.
Proof. intros x []. constructor; apply text_long; try reflexivity; assumption. Qed.
Lemma note_same : forall x, note_ok x -> same_note x (stored_note out_text x).
Proof. intros x []. split; apply keep_long; reflexivity. Qed.

Lemma listing_same : forall {A} (Q : A -> Prop) (P : A -> A -> Prop) st ids d ids' d', listed Q ids d -> (forall a, Q a -> P a (st a)) ->
  stored_list st ids d ids' d' -> same_listing P ids d ids' d'.
Proof.
  intros A Q P st ids d ids' d' [_ HL] HP (H1 & H2 & H3). split; [exact H1|]. split; [exact H2|]. intros i Hi. destruct (H3 i Hi) as (a & Ha & Hb). exists a, (st a). split; [exact Ha|]. split; [exact Hb|].
  destruct (HL i Hi) as (a' & Ha' & Hq). rewrite Ha in Ha'. injection Ha' as <-. apply HP. exact Hq.
Qed.
Lemma listed_texts : forall {A} (Q : A -> Prop) (T : A -> Prop) ids d, listed Q ids d -> (forall a, Q a -> T a) ->
  ids_plain ids /\ forall i a, dget i d = Some a -> In i ids -> T a.
Proof.
  intros A Q T ids d [[_ H1] H2] HT. split; [intros i Hi; apply id_plain; apply H1; exact Hi|]. intros i a Ha Hi. apply HT. destruct (H2 i Hi) as (b & Hb & Hq). rewrite Ha in Hb. injection Hb as <-. exact Hq.
Qed.
Lemma ids_text_ok : forall ids, ids_text ids -> ids_ok out_text ids.
Proof. intros ids [H1 H2]. split; [exact H1|]. intros i Hi. apply id_out; [reflexivity | apply H2; exact Hi]. Qed.
