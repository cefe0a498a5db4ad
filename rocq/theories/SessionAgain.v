(** What is read from a project file can be saved again, and this changes nothing. *)
From Coq Require Import String List NArith ZArith Bool Lia Arith.
From Verif Require Import PyStr PyDict Spec Globals GlobalsProofs NovelModel NovelOps NovelOpsProofs YwTree IsoDate Yw7Build Yw7Read YwTreeProofs Yw7SceneProofs
  Yw7StartProofs Yw7SceneRT Yw7ChapterRT Yw7ElemRT Yw7ListRT Yw7TreeInv Yw7ProjRT Yw7SecRT Yw7TreeRT YwText YwTextProofs SpecYw7 Yw7Clean Yw7Clean2 Yw7Repr Yw7Repr2 Yw7Repr3
  Yw7Strict Yw7Reopen Yw7Reopen2 Yw7Session SpecSession SessionTree SessionTotal.
Import ListNotations.

(** ** Texts *)
Lemma long_nil : long_text [].
Proof.
  split; [constructor|]. split; [intros (a & b & E); destruct a; discriminate E|]. split; [intros (a & b & E) | intros (a & b & E)];
   apply (f_equal (@length N)) in E; rewrite !app_length in E; cbn in E; try lia.
Qed.
Lemma plain_nil : plain_text [].
Proof.
  split; [constructor|]. split; [intros []|]. split; [intros []|]. split; [|split]; intros (a & b & E); destruct a; discriminate E.
Qed.
Lemma out_long_ok : forall t x, cd t = true -> opt_ok long_text x -> opt_ok long_text (out_text t x).
Proof. intros t x Hc H. rewrite out_long by exact Hc. destruct x as [[|c v]|]; [exact I | exact H | exact I]. Qed.
Lemma out_plain_ok : forall t x, cd t = false -> opt_ok plain_text x -> opt_ok plain_text (out_text t x).
Proof. intros t x Hc H. rewrite out_plain by assumption. destruct x as [[|c v]|]; [exact I | exact H | exact I]. Qed.
Lemma keep_long_ok : forall t x o, cd t = true -> opt_ok long_text x -> opt_ok long_text o -> opt_ok long_text (keep out_text t x o).
Proof. intros t [v|] o Hc H Ho; [apply out_long_ok; assumption | exact Ho]. Qed.
Lemma keep_plain_ok : forall t x o, cd t = false -> opt_ok plain_text x -> opt_ok plain_text o -> opt_ok plain_text (keep out_text t x o).
Proof. intros t [v|] o Hc H Ho; [apply out_plain_ok; assumption | exact Ho]. Qed.
Lemma tags_ok_same : forall a b, same_list a b -> tags_ok a -> tags_ok b.
Proof. intros a b H [H1 H2]. unfold same_list in H. unfold tags_ok. rewrite <- H. split; assumption. Qed.
Lemma tags_keep_ok : forall x o, tags_ok x -> tags_ok o -> tags_ok (match x with Some _ => tags_in (out_text (s "Tags") (tags_text x)) | None => o end).
Proof. intros x o Hx Ho. pose proof (tags_same x Hx) as Q. destruct x as [l|]; [|exact Ho]. exact (tags_ok_same _ _ Q Hx). Qed.
Lemma start_over_ok : forall d t y od ot oy, start_text d t y -> start_text od ot oy ->
  let z := new_start d t y (od, ot, oy) in start_text (fst (fst z)) (snd (fst z)) (snd z).
Proof.
  intros d t y od ot oy H Ho z. subst z. destruct H as [d t Hd Ht | y t Hy Ht | y Hy | t Ht |].
  - destruct d; [discriminate Hd|]. cbn. constructor; assumption.
  - cbn. constructor; assumption.
  - cbn. destruct Ho; cbn; constructor; assumption.
  - cbn. destruct Ho; cbn; constructor; assumption.
  - cbn. exact Ho.
Qed.
Lemma refs_out_in : forall known l a, In a (list_of (refs_out known l)) -> In a (list_of l) /\ In a known.
Proof.
  intros known l a H. unfold refs_out in H. change (match l with Some l0 => l0 | None => [] end) with (list_of l) in H.
  assert (Q : In a (filter (fun a => smem a known) (list_of l))) by (destruct (filter (fun a => smem a known) (list_of l)); exact H).
  apply filter_In in Q. destruct Q as [Q1 Q2]. split; [exact Q1 | apply smem_In; exact Q2].
Qed.

(** ** Scenes *)
(** an old scene whose references need not be known any more *)
Record scene_texts_ok (x : scene) : Prop := {
  xo_title : opt_ok long_text (sc_title x);
  xo_desc : opt_ok long_text (sc_desc x);
  xo_content : opt_ok long_text (sc_content x);
  xo_notes : opt_ok long_text (sc_notes x);
  xo_goal : opt_ok long_text (sc_goal x);
  xo_outcome : opt_ok long_text (sc_outcome x);
  xo_image : opt_ok long_text (sc_image x);
  xo_conflict : opt_ok plain_text (sc_conflict x);
  xo_field1 : opt_ok plain_text (sc_field1 x);
  xo_field2 : opt_ok plain_text (sc_field2 x);
  xo_field3 : opt_ok plain_text (sc_field3 x);
  xo_field4 : opt_ok plain_text (sc_field4 x);
  xo_days : opt_ok plain_text (sc_lastsDays x);
  xo_hours : opt_ok plain_text (sc_lastsHours x);
  xo_minutes : opt_ok plain_text (sc_lastsMinutes x);
  xo_tags : tags_ok (sc_tags x);
  xo_start : start_text (sc_date x) (sc_time x) (sc_day x)
}.
Lemma scene_ok_xo : forall cs ls x, scene_ok cs ls x -> scene_texts_ok x.
Proof. intros cs ls x []. constructor; assumption. Qed.
Lemma blank_xo : scene_texts_ok blank_scene.
Proof. constructor; try exact I; [split; [constructor | intros t []] | constructor]. Qed.

Lemma scene_again : forall cs ls x old, scene_ok cs ls x -> scene_texts_ok old -> scene_ok cs ls (custom_vars (merged_scene out_text cs ls (prepare_scene x) old)).
Proof.
  intros cs ls x old H O. pose proof (scene_same cs ls x H) as S. pose proof (ss_arcs _ _ S) as SA. destruct H. destruct O. pose proof (prepare_eq x) as (kw & Ex & Ha & Hm). rewrite Ex in *.
  pose proof (start_over_ok _ _ _ _ _ _ so_start xo_start0) as HS. unfold custom_vars, merged_scene in *.
  apply Build_scene_ok; cbn [set_sc_scnArcs set_sc_scnMode set_sc_kw sc_title sc_desc sc_content sc_notes sc_tags sc_field1 sc_field2 sc_field3 sc_field4
   sc_lastsDays sc_lastsHours sc_lastsMinutes sc_goal sc_conflict sc_outcome sc_image sc_kw sc_date sc_time sc_day sc_characters sc_locations sc_items
   sc_type sc_scnArcs sc_scnMode fst snd] in *;
   try (apply keep_long_ok; [reflexivity | assumption | assumption]); try (apply keep_plain_ok; [reflexivity | assumption | assumption]).
  - exact so_type.
  - apply tags_keep_ok; assumption.
  - exact HS.
  - intros a Hin. apply refs_out_in in Hin. split; [apply so_characters; apply Hin | apply Hin].
  - intros a Hin. apply refs_out_in in Hin. split; [apply so_locations; apply Hin | apply Hin].
  - intros a [].
  - unfold arcs_of, kw_value. cbn [set_sc_scnArcs set_sc_scnMode sc_scnArcs sc_kw].
    change (get_kw (s "Field_SceneArcs") (map (fun f => (f, kw_out out_text f kw)) SCN_KWVAR)) with (kw_out out_text (s "Field_SceneArcs") kw).
    change (dget (s "Field_SceneArcs") (map (fun f => (f, kw_out out_text f kw)) SCN_KWVAR)) with (Some (kw_out out_text (s "Field_SceneArcs") kw)).
    assert (Q : opt_ok (fun v => long_text v /\ no_markup_char v) (kw_out out_text (s "Field_SceneArcs") kw)).
    { unfold kw_out. rewrite Ha. destruct (arcs_of x) as [[|c v]|]; [exact I | | exact I]. cbn [opt_ok] in so_arcs. destruct so_arcs as [A1 A2]. rewrite convert_id by exact A2. rewrite out_long by reflexivity. split; assumption. }
    destruct (kw_out out_text (s "Field_SceneArcs") kw); [exact Q | exact I].
  - unfold kw_value. cbn [set_sc_scnArcs set_sc_scnMode sc_scnMode sc_kw].
    change (get_kw (s "Field_SceneMode") (map (fun f => (f, kw_out out_text f kw)) SCN_KWVAR)) with (kw_out out_text (s "Field_SceneMode") kw).
    change (dget (s "Field_SceneMode") (map (fun f => (f, kw_out out_text f kw)) SCN_KWVAR)) with (Some (kw_out out_text (s "Field_SceneMode") kw)).
    unfold kw_out. rewrite Hm. unfold mode_text. destruct (sc_scnMode x) as [m|]; [|rewrite so_mode by reflexivity; reflexivity].
    destruct (Z.eqb m 0); [reflexivity|]. pose proof (parse_int_str_of_Z m) as P. pose proof (str_of_Z_safe m) as [Z1 Z2]. destruct (str_of_Z m) as [|c v]; [congruence|].
    rewrite safe_no_markup by exact Z2. rewrite oc_safe by (split; assumption). rewrite P. discriminate.
Qed.

(** ** Chapters *)
Record chapter_texts_ok (c : chapter) : Prop := { yo_title : opt_ok long_text (ch_title c); yo_desc : opt_ok long_text (ch_desc c);
  yo_level : ch_level c = None \/ ch_level c = Some 0%N \/ ch_level c = Some 1%N }.
Lemma chapter_ok_yo : forall scs c, chapter_ok scs c -> chapter_texts_ok c.
Proof. intros scs c []. constructor; assumption. Qed.
Lemma blank_yo : chapter_texts_ok blank_chapter.
Proof. constructor; try exact I. first [left; reflexivity | right; left; reflexivity | right; right; reflexivity]. Qed.
Lemma chapter_again : forall scs c old, chapter_ok (dkeys scs) c -> chapter_texts_ok old -> chapter_ok (dkeys scs) (merged_chapter out_text scs c old).
Proof.
  intros scs c old [] []. unfold merged_chapter. constructor; cbn [ch_title ch_desc ch_type ch_level ch_srtScenes]; try (apply keep_long_ok; [reflexivity | assumption | assumption]).
  - exact co_type.
  - destruct co_level as [-> | [-> | ->]]; [exact yo_level0 | right; left; reflexivity | right; right; reflexivity].
  - intros a Ha. apply filter_In in Ha. apply co_scenes. apply Ha.
Qed.

(** ** Locations, items, characters, notes *)
Lemma line_out : forall f kw, cd f = false -> opt_ok line_text (get_kw f kw) -> opt_ok line_text (kw_out out_text f kw).
Proof.
  intros f kw Hc H. destruct (line_kw f kw Hc H) as [_ Q]. unfold same_text in Q. destruct (kw_out out_text f kw) as [v|]; [|exact I]. cbn [text_of opt_ok] in *. subst v.
  destruct (get_kw f kw) as [v|]; [exact H | split; [constructor | intros []]].
Qed.
Lemma world_again : forall w, world_ok link w -> world_ok link (stored_world out_text LOC_KWVAR w).
Proof.
  intros w H. pose proof (sw_tags _ _ _ (world_same w H)) as T. destruct H. unfold stored_world in *. constructor; cbn [we_title we_desc we_image we_aka we_tags we_kw] in *; try (apply keep_long_ok; [reflexivity | assumption | exact I]).
  - exact (tags_ok_same _ _ T wo_tags).
  - intros f Hf. change LOC_KWVAR with link. rewrite kw_value_map by exact Hf. apply line_out; [destruct Hf as [<- | []]; reflexivity | apply wo_fields; exact Hf].
Qed.
Lemma character_again : forall c, character_ok character_fields c -> character_ok character_fields (stored_character out_text c).
Proof.
  intros c H. pose proof (sr_tags _ _ _ (character_same c H)) as T. destruct H. unfold stored_character in *. constructor; cbn [cr_title cr_desc cr_image cr_aka cr_notes cr_bio cr_goals cr_fullName cr_tags cr_kw] in *;
    try (apply keep_long_ok; [reflexivity | assumption | exact I]).
  - exact (tags_ok_same _ _ T ro_tags).
  - intros f Hf. change CRT_KWVAR with character_fields. rewrite kw_value_map by exact Hf. apply line_out; [destruct Hf as [<- | [<- | [<- | []]]]; reflexivity | apply ro_fields; exact Hf].
Qed.
Lemma note_again : forall x, note_ok x -> note_ok (stored_note out_text x).
Proof. intros x []. unfold stored_note. constructor; cbn [pn_title pn_desc]; (apply keep_long_ok; [reflexivity | assumption | exact I]). Qed.
Lemma listed_again : forall {A} (Q : A -> Prop) st ids d ids' d', listed Q ids d -> (forall a, Q a -> Q (st a)) -> stored_list st ids d ids' d' -> listed Q ids' d'.
Proof.
  intros A Q st ids d ids' d' [H1 H2] HQ (E & K & H3). subst ids'. split; [exact H1|]. intros i Hi. destruct (H3 i Hi) as (a & Ha & Hb). exists (st a). split; [exact Hb|].
  destruct (H2 i Hi) as (a' & Ha' & Hq). rewrite Ha in Ha'. injection Ha' as <-. apply HQ. exact Hq.
Qed.

(** ** Languages *)
Lemma remove_str_nodup : forall x l, NoDup l -> NoDup (remove_str x l).
Proof.
  intros x l H. induction H as [|y l Hy H IH]; [constructor|]. cbn [remove_str]. destruct (str_eqb y x); [exact H|]. constructor; [|exact IH]. intro E. apply Hy. exact (remove_str_In _ _ _ E).
Qed.
Lemma remove_str_gone : forall x l, NoDup l -> ~ In x (remove_str x l).
Proof.
  intros x l H. induction H as [|y l Hy H IH]; [intros []|]. cbn [remove_str]. destruct (str_eqb y x) eqn:E; [apply str_eqb_eq in E; subst y; exact Hy|].
  intros [-> | F]; [rewrite str_eqb_refl in E; discriminate | exact (IH F)].
Qed.
Lemma removed_in : forall old l c, In c (fold_left (fun l c => remove_str c l) old l) -> In c l.
Proof. induction old as [|o old IH]; intros l c H; [exact H|]. cbn [fold_left] in H. apply IH in H. exact (remove_str_In _ _ _ H). Qed.
Lemma removed_nodup : forall old l, NoDup l -> NoDup (fold_left (fun l c => remove_str c l) old l).
Proof. induction old as [|o old IH]; intros l H; [exact H|]. cbn [fold_left]. apply IH. apply remove_str_nodup. exact H. Qed.
Lemma removed_gone : forall old l c, NoDup l -> In c old -> ~ In c (fold_left (fun l c => remove_str c l) old l).
Proof.
  induction old as [|o old IH]; intros l c H Hc; [destruct Hc|]. cbn [fold_left]. destruct Hc as [-> | Hc]; [|apply IH; [apply remove_str_nodup; exact H | exact Hc]].
  intro E. apply removed_in in E. exact (remove_str_gone c l H E).
Qed.
Lemma NoDup_app : forall {A} (a b : list A), NoDup a -> NoDup b -> (forall x, In x a -> ~ In x b) -> NoDup (a ++ b).
Proof.
  intros A a b Ha Hb H. induction Ha as [|x a Hx Ha IH]; [exact Hb|]. cbn [app]. constructor.
  - intro E. apply in_app_iff in E. destruct E as [E | E]; [exact (Hx E) | exact (H x (or_introl eq_refl) E)].
  - apply IH. intros y Hy. apply H. right. exact Hy.
Qed.
Definition codes_ok (x : option (list str)) : Prop := NoDup (list_of x) /\ forall c, In c (list_of x) -> code_text c.
Lemma langs_again : forall old ls, codes_ok old -> NoDup ls -> (forall c, In c ls -> code_text c) ->
  codes_ok (langs_opt (refs_in old ++ fold_left (fun l c => remove_str c l) (refs_in old) ls)).
Proof.
  intros old ls [H1 H2] H3 H4. change (refs_in old) with (list_of old). set (z := list_of old ++ fold_left (fun l c => remove_str c l) (list_of old) ls).
  assert (Q : list_of (langs_opt z) = z) by (unfold langs_opt; destruct z; reflexivity). unfold codes_ok. rewrite Q. unfold z. split.
  - apply NoDup_app; [exact H1 | apply removed_nodup; exact H3 | intros x Hx; apply removed_gone; assumption].
  - intros c Hc. apply in_app_iff in Hc. destruct Hc as [Hc | Hc]; [apply H2; exact Hc | apply H4; exact (removed_in _ _ _ Hc)].
Qed.

(** ** The language of the novel *)
Lemma line_long : forall v, Forall file_char v -> ~ In 10%N v -> ~ In 93%N v -> long_text v.
Proof.
  intros v H1 H2 H3. split; [exact H1|]. split; [|split].
  - intros (a & b & ->). apply H3. rewrite !in_app_iff. right. left. left. reflexivity.
  - intros (a & b & E). assert (Q : In 10%N (s "[CDATA[" ++ v)) by (rewrite E; unfold cdata_blank; rewrite !in_app_iff; right; left; right; left; reflexivity).
    apply in_app_iff in Q. destruct Q as [Q | Q]; [|exact (H2 Q)]. vm_compute in Q. intuition discriminate.
  - intros (a & b & E). assert (Q : In 10%N (v ++ s "]]")) by (rewrite E; unfold newline_close; rewrite !in_app_iff; right; left; left; reflexivity).
    apply in_app_iff in Q. destruct Q as [Q | Q]; [exact (H2 Q)|]. vm_compute in Q. intuition discriminate.
Qed.
Lemma locale_pair_long : forall loc a b, locale_text loc -> locale_pair loc = Some (a, b) -> long_text a /\ long_text b.
Proof.
  intros loc a b H E. destruct (locale_ok loc H a b E) as [(A1 & A2 & A3) (B1 & B2 & B3)]. split; apply line_long; assumption.
Qed.
Lemma check_locale_long : forall loc dloc n n1, locale_text loc -> locale_text dloc -> opt_ok long_text (nv_languageCode n) -> opt_ok long_text (nv_countryCode n) ->
  check_locale loc dloc n = Ok n1 -> opt_ok long_text (nv_languageCode n1) /\ opt_ok long_text (nv_countryCode n1).
Proof.
  intros loc dloc n n1 L1 L2 H1 H2 H. unfold check_locale in H. destruct (negb (otruthy (nv_languageCode n))).
  - destruct (locale_pair loc) as [[a b]|] eqn:E; [injection H as <-; exact (locale_pair_long loc a b L1 E)|].
    destruct (locale_pair dloc) as [[a b]|] eqn:E2; [injection H as <-; exact (locale_pair_long dloc a b L2 E2) | discriminate].
  - match type of H with (if ?b then _ else _) = _ => destruct b end; injection H as <-; [split; assumption|]. split; apply line_long; cbn; try (intuition discriminate);
      repeat (constructor; [right; right; left; lia|]); constructor.
Qed.

(** ** The whole novel *)
Lemma dget_map_snd : forall {A B} (f : str -> A -> B) (d : dict A) i, dget i (map (fun p => (fst p, f (fst p) (snd p))) d) = option_map (f i) (dget i d).
Proof.
  intros A B f d i. induction d as [|[j x] d IH]; [reflexivity|]. cbn [map dget fst snd]. destruct (str_eqb i j) eqn:E; [|exact IH]. apply str_eqb_eq in E. subst j. reflexivity.
Qed.
Theorem saved_again : forall loc dloc n n1 n0 n', representable n -> plain_tags n -> representable n0 -> plain_tags n0 -> locale_text loc -> locale_text dloc ->
  (has_language (prepare n) = true -> check_locale loc dloc (prepare n) = Ok n1) -> saved out_text (prepare n) n1 n0 n' -> representable n' /\ plain_tags n'.
Proof.
  intros loc dloc n n1 n0 n' R T R0 T0 L1 L2 HC S. destruct (languages_ok n R) as (lsok & EL & ND & HL). destruct (prepare_shape n) as (ls & sc & kw & Epr & Esc & Els & _). rewrite EL in Els.
  assert (CL : has_language (prepare n) = true -> opt_ok long_text (nv_languageCode n1) /\ opt_ok long_text (nv_countryCode n1)).
  { intro Hh. apply (check_locale_long loc dloc (prepare n) n1 L1 L2); [rewrite Epr; exact (re_code n R) | rewrite Epr; exact (re_country n R) | exact (HC Hh)]. }
  destruct S. set (hl := has_language (prepare n)) in *. assert (Ehl : hl = has_language (prepare n)) by reflexivity. clearbody hl. rewrite Epr in *.
  cbn [set_nv_kw set_nv_scenes set_nv_languages nv_title nv_desc nv_authorName nv_authorBio nv_fieldTitle1 nv_fieldTitle2 nv_fieldTitle3 nv_fieldTitle4 nv_kw nv_wordTarget nv_wordCountStart
    nv_srtLocations nv_locations nv_srtItems nv_items nv_srtCharacters nv_characters nv_srtPrjNotes nv_projectNotes nv_scenes nv_chapters nv_srtChapters nv_languages] in *.
  (* the scenes *)
  assert (SG : forall i y, dget i (nv_scenes n') = Some y -> exists x, dget i (nv_scenes n) = Some x /\
      y = custom_vars (merged_scene out_text (nv_srtCharacters n) (nv_srtLocations n) (prepare_scene x) (or_else (dget i (nv_scenes n0)) blank_scene))).
  { intros i y Hy. rewrite sv_scenes, Esc, map_map in Hy. cbn [fst snd] in Hy.
    rewrite (dget_map_snd (fun i x => custom_vars (merged_scene out_text (nv_srtCharacters n) (nv_srtLocations n) (prepare_scene x) (or_else (dget i (nv_scenes n0)) blank_scene)))) in Hy.
    destruct (dget i (nv_scenes n)) as [x|]; [|discriminate]. injection Hy as <-. exists x. split; reflexivity. }
  assert (SK : dkeys (nv_scenes n') = dkeys (nv_scenes n)) by (rewrite sv_scenes, Esc; unfold dkeys; rewrite !map_map; reflexivity).
  assert (PT : plain_tags n').
  { intros i y t c Hy Ht Hb Ho. destruct (SG i y Hy) as (x & Hx & ->). destruct (prepare_eq x) as (kw' & Ex & _). rewrite Ex in Ht. unfold custom_vars, merged_scene in Ht. cbn [set_sc_scnArcs set_sc_scnMode set_sc_kw sc_content] in Ht.
    unfold keep in Ht. destruct (sc_content x) as [v|] eqn:Ev.
    - rewrite out_long in Ht by reflexivity. destruct v as [|a v]; [discriminate|]. injection Ht as <-. exact (T i x _ c Hx Ev Hb Ho).
    - destruct (dget i (nv_scenes n0)) as [o|] eqn:Eo; [exact (T0 i o t c Eo Ht Hb Ho) | discriminate Ht]. }
  assert (CH : forall i d, dget i (nv_chapters n') = Some d -> exists c, dget i (nv_chapters n) = Some c /\ d = merged_chapter out_text (nv_scenes n) c (or_else (dget i (nv_chapters n0)) blank_chapter)).
  { intros i d Hd. assert (Hi : In i (nv_srtChapters n)) by (rewrite <- (proj2 sv_srtChapters); apply dget_Some_key; exists d; exact Hd). destruct (sv_chapters i Hi) as (c & Hc & Hd'). rewrite Hd in Hd'. injection Hd' as ->.
    exists c. split; [exact Hc|]. apply merged_chapter_keys. rewrite Esc. unfold dkeys. rewrite map_map. reflexivity. }
  split; [|exact PT]. constructor.
  - rewrite sv_title. apply keep_long_ok; [reflexivity | apply R | apply R0].
  - rewrite sv_desc. apply keep_long_ok; [reflexivity | apply R | apply R0].
  - rewrite sv_author. apply keep_long_ok; [reflexivity | apply R | apply R0].
  - rewrite sv_bio. apply keep_long_ok; [reflexivity | apply R | apply R0].
  - rewrite sv_f1. apply keep_long_ok; [reflexivity | apply R | apply R0].
  - rewrite sv_f2. apply keep_long_ok; [reflexivity | apply R | apply R0].
  - rewrite sv_f3. apply keep_long_ok; [reflexivity | apply R | apply R0].
  - rewrite sv_f4. apply keep_long_ok; [reflexivity | apply R | apply R0].
  - exact (listed_again _ _ _ _ _ _ (re_locations n R) world_again sv_locations).
  - exact (listed_again _ _ _ _ _ _ (re_items n R) world_again sv_items).
  - exact (listed_again _ _ _ _ _ _ (re_characters n R) character_again sv_characters).
  - exact (listed_again _ _ _ _ _ _ (re_notes n R) note_again sv_notes).
  - rewrite SK. split; [apply (re_scenes n R)|]. intros i y Hy. destruct (SG i y Hy) as (x & Hx & ->). rewrite (proj1 sv_characters), (proj1 sv_locations).
    apply scene_again; [exact (proj2 (re_scenes n R) i x Hx)|]. destruct (dget i (nv_scenes n0)) as [o|] eqn:Eo; [exact (scene_ok_xo _ _ _ (proj2 (re_scenes n0 R0) i o Eo)) | exact blank_xo].
  - destruct sv_srtChapters as [C1 C2]. rewrite C1. split; [apply (re_chapters n R)|]. split; [exact C2|]. intros i d Hd. destruct (CH i d Hd) as (c & Hc & ->). rewrite SK.
    apply chapter_again; [exact (proj2 (proj2 (re_chapters n R)) i c Hc)|]. destruct (dget i (nv_chapters n0)) as [o|] eqn:Eo; [exact (chapter_ok_yo _ _ (proj2 (proj2 (re_chapters n0 R0)) i o Eo)) | exact blank_yo].
  - intros i d Hd Hne j y Hj Hy. destruct (CH i d Hd) as (c & Hc & ->). destruct (SG j y Hy) as (x & Hx & ->). destruct (prepare_eq x) as (kw' & Ex & _). rewrite Ex in *. unfold custom_vars, merged_scene, merged_chapter in *.
    cbn [set_sc_scnArcs set_sc_scnMode set_sc_kw sc_type ch_type ch_srtScenes] in *. apply filter_In in Hj. exact (re_types n R i c Hc Hne j x (proj1 Hj) Hx).
  - destruct hl.
    + destruct (sv_langs eq_refl) as (E1 & _). rewrite E1. apply out_long_ok; [reflexivity | apply CL; reflexivity].
    + destruct (sv_nocode eq_refl) as ([-> | ->] & _); [apply R0 | exact I].
  - destruct hl.
    + destruct (sv_langs eq_refl) as (_ & E1 & _). rewrite E1. apply out_long_ok; [reflexivity | apply CL; reflexivity].
    + destruct (sv_nocode eq_refl) as (_ & [-> | ->]); [apply R0 | exact I].
  - destruct hl.
    + destruct (sv_langs eq_refl) as (_ & _ & l & El & E). rewrite E.
      assert (Q : codes_ok (nv_languages n0)). { pose proof (re_languages n0 R0) as Q. destruct (nv_languages n0); [exact Q | split; [constructor | intros c []]]. }
      rewrite El in Els. injection Els as <-. pose proof (langs_again _ l Q ND HL) as Z. destruct (langs_opt _); [exact Z | exact PT].
    + rewrite (sv_nolangs eq_refl). pose proof (re_languages n0 R0) as Q. destruct (nv_languages n0); [exact Q | exact PT].
Qed.

(** the empty novel *)
Lemma new_again : forall ext n0, read_tree ext new_root new_novel = Ok n0 -> representable n0 /\ plain_tags n0.
Proof.
  intros ext n0 H. vm_compute in H. injection H as <-. split; [|intros i x t c E; discriminate E].
  constructor; try exact I; try (intros i c E; discriminate E); try (intros i x t c E; discriminate E); (split; [split; [constructor | intros i []]|]); try (split; [reflexivity|]); first [intros i x E; discriminate E | intros i []].
Qed.
