(** The scene list written and read. *)
From Coq Require Import String List NArith ZArith Bool Lia Arith.
From Verif Require Import PyStr PyDict Globals GlobalsProofs NovelModel YwText YwTextProofs OdfXml OdfXmlProofs OdtText OdtTextProofs OdtTextProofs2 Template TemplateProofs Export SpecExport ExportProofs ExportProofs2 Templates OdsRead SpecOdf SpecOds SpecSceneList SpecRedesc SpecRelist Redesc OdsProofs OdsTree OdfLex OdsWrite OdsWriteScenes OdsRoundTrip OdsRoundTrip2 OdsRoundTrip3 FormatXml4 XmlTags XmlTags2 SceneTable SceneListRows ReadFrame2.
Import ListNotations.
Notation clean := OdsRoundTrip3.clean.

(** * Values in attributes *)
Lemma no13_app : forall a b : str, ~ In 13%N a -> ~ In 13%N b -> ~ In 13%N (a ++ b).
Proof. intros a b H1 H2 H. apply in_app_iff in H. tauto. Qed.
Ltac no13 := apply no_cr; vm_compute; reflexivity.
Definition URLS : list N := Eval vm_compute in filter url_char (map N.of_nat (seq 0 127)).
Lemma url_style : forall c, url_char c = true -> style_char c = true.
Proof.
  intros c H. assert (I : In c URLS).
  { change URLS with (filter url_char (map N.of_nat (seq 0 127))). apply filter_In. split; [|exact H]. apply in_map_iff. exists (N.to_nat c). split; [apply N2Nat.id|]. apply in_seq.
    assert ((c <= 126)%N); [|lia]. unfold url_char in H. rewrite !orb_true_iff, !andb_true_iff, !N.leb_le in H. destruct H as [[[H|H]|H]|H]; try lia.
    apply existsb_exists in H as [x [H1 H2]]. apply N.eqb_eq in H2. subst x. change (In c [95; 46; 45; 126; 37; 47; 58]%N) in H1. cbn [In] in H1. lia. }
  assert (A : forallb style_char URLS = true) by (vm_compute; reflexivity). rewrite forallb_forall in A. exact (A c I).
Qed.
Lemma url_styles : forall t, forallb url_char t = true -> forallb style_char t = true.
Proof. intros t H. rewrite forallb_forall in *. intros c Hc. apply url_style. now apply H. Qed.
Lemma digits_url : forall t, Forall (fun c => (48 <= c <= 57)%N) t -> forallb url_char t = true.
Proof. intros t H. apply forallb_forall. rewrite Forall_forall in H. intros c Hc. apply H in Hc. unfold url_char. rewrite !orb_true_iff, !andb_true_iff, !N.leb_le. lia. Qed.
Lemma str_url : forall k, forallb url_char (str_of_N k) = true.
Proof. intro k. apply digits_url. apply Forall_forall. exact (str_of_N_digits k). Qed.
Lemma disp_url : forall k, forallb url_char (disp k) = true.
Proof. intros [|k]; [reflexivity | apply str_url]. Qed.
Lemma url_raw : forall t, forallb url_char t = true -> Forall raw_char t.
Proof.
  intros t H. apply url_styles in H. rewrite forallb_forall in H. apply Forall_forall. intros c Hc. apply H in Hc. unfold style_char in Hc. rewrite !andb_true_iff in Hc. destruct Hc as [[H1 _] H2].
  split; [exact H1|]. intro I. apply negb_true_iff in H2. assert (X : in_chars (s "[]&<>*'""" ++ [10; 13]%N) c = true); [|congruence].
  change (In c [13; 60; 62; 38]%N) in I. cbn [In] in I. destruct I as [<-|[<-|[<-|[<-|[]]]]]; reflexivity.
Qed.
Lemma style_kept : forall nm v, xname_ok nm = true -> forallb style_char v = true -> attr_kept (nm, v) /\ flat_map esc5 v = v /\ ~ In 13%N v.
Proof. intros nm v H1 H2. destruct (esc_style v H2) as [E1 [E2 [E3 [_ E4]]]]. split; [split; [exact H1 | now split] | now split]. Qed.
Lemma kept_app : forall nm a b, attr_kept (nm, a) -> attr_kept (nm, b) -> attr_kept (nm, a ++ b).
Proof.
  intros nm a b [H1 [H2 H3]] [_ [H4 H5]]. cbn [fst snd] in *. split; [exact H1|]. cbn [snd]. split; [unfold xml_text in *; apply Forall_app; now split|]. unfold blanks in *. rewrite map_app, H3, H5. reflexivity.
Qed.
Lemma link_kept : forall pp pn i, forallb url_char pp = true -> forallb url_char pn = true -> forallb url_char i = true ->
  cell_attrs (LINK pp pn i) /\ map esc_value (LINK pp pn i) = LINKr pp pn i.
Proof.
  intros pp pn i H1 H2 H3. apply url_styles in H1, H2, H3.
  assert (K : forall nm v, xname_ok nm = true -> forallb style_char v = true -> attr_kept (nm, v)) by (intros; now apply style_kept).
  assert (E : forall v, forallb style_char v = true -> flat_map esc5 v = v) by (intros v Hv; exact (proj1 (proj2 (style_kept (s "x") v eq_refl Hv)))).
  assert (C : forall v, forallb style_char v = true -> ~ In 13%N v) by (intros v Hv; exact (proj2 (proj2 (style_kept (s "x") v eq_refl Hv)))).
  assert (Q : forall v, forallb (fun c => xml_char c && negb (xml_space c)) v = true -> attr_kept (s "table:formula", v)).
  { intros v Hv. rewrite forallb_forall in Hv. split; [reflexivity|]. cbn [snd]. split.
    - apply Forall_forall. intros c Hc. apply Hv in Hc. now apply andb_true_iff in Hc.
    - unfold blanks. rewrite <- (map_id v) at 2. apply map_ext_in. intros c Hc. apply Hv in Hc. apply andb_true_iff in Hc as [_ Hc]. apply negb_true_iff in Hc. rewrite Hc. reflexivity. }
  split; [split; [|split; [|split]]|].
  - unfold LINK. apply Forall_cons; [|apply Forall_cons; [now apply K|apply Forall_cons; [|apply Forall_nil]]].
    + repeat (apply kept_app; [first [now apply K | apply Q; vm_compute; reflexivity]|]); apply Q; vm_compute; reflexivity.
    + apply kept_app; [now apply K | now apply K].
  - unfold LINK. cbn [map fst]. apply (NoDup_count_occ' (list_eq_dec N.eq_dec)). intros x [<-|[<-|[<-|[]]]]; reflexivity.
  - unfold LINK. repeat apply Forall_cons; try apply Forall_nil; cbn [fst snd]; (split; [no13|]); repeat (apply no13_app; [first [now apply C | no13]|]); first [now apply C | no13].
  - reflexivity.
  - unfold LINK, LINKr, esc_value. cbn [map fst snd]. rewrite !flat_map_app, (E pp), (E pn), (E i) by assumption. reflexivity.
Qed.

(** * The row of a scene *)
Definition rated (f : option str) : str := match f with Some v => if str_eqb v (s "1") then [] else v | None => s "None" end.
Lemma blank1 : forall (f : option str) key (a b : dict str), str_eqb (s key) (s key) = true -> (forall k v, In (k, v) a -> str_eqb (s key) k = false) ->
  blank_rating f key (a ++ (s key, py_str f) :: b) = a ++ (s key, rated f) :: b.
Proof.
  intros f key a b R H. destruct f as [v|]; cbn [blank_rating rated py_str]; [|reflexivity]. destruct (str_eqb v (s "1")); [|reflexivity].
  induction a as [|[k w] a IH]; cbn [app dset]; [now rewrite R|]. rewrite (H k w (or_introl eq_refl)). f_equal. apply IH. intros k' v' Hk. exact (H k' v' (or_intror Hk)).
Qed.
Definition scene_cells_of (pn pp : str) (i title desc tags notes ar goal conflict outcome number words f1 f2 f3 f4 wc lc st chars locs its : str) : list (attrs * str) :=
  [(LINK pp pn i, s "ScID:" ++ i); (STRING, title); (STRING, desc); (STRING, tags); (STRING, notes); (STRING, ar); (STRING, goal); (STRING, conflict); (STRING, outcome);
   (FLOAT number, number); (FLOAT words, words); (FLOAT f1, f1); (FLOAT f2, f2); (FLOAT f3, f3); (FLOAT f4, f4); (FLOAT wc, wc); (FLOAT lc, lc); (STRING, st); (STRING, chars); (STRING, locs); ([], its)].
Definition scene_texts (i : str) (x : scene) (number words : nat) (st chars locs its : str) : list str :=
  [s "ScID:" ++ i; shown (sc_title x); shown (sc_desc x); rstrip (tags_text (sc_tags x)); shown (sc_notes x); (if flag (sc_isReactionScene x) then s "R" else s "A");
   shown (sc_goal x); shown (sc_conflict x); shown (sc_outcome x); disp number; nat_str words; rated (sc_field1 x); rated (sc_field2 x); rated (sc_field3 x); rated (sc_field4 x);
   nat_str (sc_wordCount x); nat_str (sc_letterCount x); st; chars; locs; its].
Lemma kept_attrs : forall v, forallb url_char v = true -> cell_attrs (FLOAT v) /\ map esc_value (FLOAT v) = FLOAT v.
Proof.
  intros v H. apply url_styles in H. destruct (style_kept (s "office:value") v eq_refl H) as [K [E C]]. split; [split; [|split; [|split]]|].
  - apply Forall_cons; [now apply style_kept | apply Forall_cons; [exact K | apply Forall_nil]].
  - apply (NoDup_count_occ' (list_eq_dec N.eq_dec)). intros x [<-|[<-|[]]]; reflexivity.
  - apply Forall_cons; [split; nocr | apply Forall_cons; [split; [nocr | exact C] | apply Forall_nil]].
  - reflexivity.
  - unfold FLOAT, esc_value. cbn [map fst snd]. rewrite E. reflexivity.
Qed.
Lemma string_attrs : cell_attrs STRING.
Proof.
  split; [|split; [|split]]; [apply Forall_cons; [now apply style_kept | apply Forall_nil] | repeat constructor; intros [] | apply Forall_cons; [split; nocr | apply Forall_nil] | reflexivity].
Qed.
Lemma no_attrs : cell_attrs [].
Proof. split; [constructor | split; [constructor | split; [constructor | reflexivity]]]. Qed.
Lemma url_content : forall t, forallb url_char t = true -> content t t.
Proof. intros t H. apply content_raw. now apply url_raw. Qed.
Lemma rated_url : forall f, rating_fits f -> forallb url_char (rated f) = true.
Proof. intros f [k [_ ->]]. cbn [rated]. destruct (str_eqb (str_of_N k) (s "1")); [reflexivity | apply str_url]. Qed.
Lemma scene_row_text : forall pn pp i x number words st chars locs its, forallb url_char pn = true -> forallb url_char pp = true -> digits i ->
  clean (shown (sc_title x)) -> clean (shown (sc_desc x)) -> clean (rstrip (tags_text (sc_tags x))) -> clean (shown (sc_notes x)) ->
  clean (shown (sc_goal x)) -> clean (shown (sc_conflict x)) -> clean (shown (sc_outcome x)) ->
  rating_fits (sc_field1 x) -> rating_fits (sc_field2 x) -> rating_fits (sc_field3 x) -> rating_fits (sc_field4 x) ->
  Forall raw_char st -> Forall raw_char chars -> Forall raw_char locs -> Forall raw_char its ->
  row_text (grow 3 (s "ro2") (scene_cells_of pn pp i (obr (shown (sc_title x))) (obr (shown (sc_desc x))) (obr (rstrip (tags_text (sc_tags x)))) (obr (shown (sc_notes x)))
    (if flag (sc_isReactionScene x) then s "R" else s "A") (obr (shown (sc_goal x))) (obr (shown (sc_conflict x))) (obr (shown (sc_outcome x))) (disp number) (nat_str words)
    (rated (sc_field1 x)) (rated (sc_field2 x)) (rated (sc_field3 x)) (rated (sc_field4 x)) (nat_str (sc_wordCount x)) (nat_str (sc_letterCount x)) st chars locs its) [])
    (scene_texts i x number words st chars locs its).
Proof.
  intros pn pp i x number words st chars locs its Hn Hp D C1 C2 C3 C4 C5 C6 C7 R1 R2 R3 R4 W1 W2 W3 W4.
  assert (U : forallb url_char i = true) by (apply digits_url; exact (proj2 D)).
  apply (grow_text 3 (s "ro2") _ _ [] []).
  - constructor; [|constructor]. split; reflexivity.
  - nocr.
  - unfold scene_cells_of. repeat apply Forall_cons; try apply Forall_nil; cbn [fst]; try exact string_attrs; try exact no_attrs; try (apply kept_attrs; first [apply disp_url | apply str_url | now apply rated_url]).
    now apply link_kept.
  - unfold scene_cells_of, scene_texts. repeat apply Forall2_cons; try apply Forall2_nil; cbn [snd]; try (now apply content_obr); try (now apply content_raw);
      try (apply url_content; first [apply disp_url | apply str_url | now apply rated_url]).
    + apply url_content. rewrite forallb_app, U. reflexivity.
    + destruct (flag (sc_isReactionScene x)); apply url_content; reflexivity.
  - exact frag_nil.
Qed.
Lemma rated_same : forall f, rating_fits f -> Some (rating (rated f)) = f.
Proof.
  intros f [k [K ->]]. cbn [rated]. assert (I : In k [1; 2; 3; 4; 5; 6; 7; 8; 9; 10]%N) by (cbn [In]; lia). cbn [In] in I.
  repeat (destruct I as [<-|I]; [reflexivity|]). destruct I.
Qed.
Lemma url_solid : forall c, url_char c = true -> is_space c = false /\ esc5 c = [c] /\ c <> 10%N.
Proof.
  intros c H. assert (I : In c URLS).
  { change URLS with (filter url_char (map N.of_nat (seq 0 127))). apply filter_In. split; [|exact H]. apply in_map_iff. exists (N.to_nat c). split; [apply N2Nat.id|]. apply in_seq.
    assert ((c <= 126)%N); [|lia]. unfold url_char in H. rewrite !orb_true_iff, !andb_true_iff, !N.leb_le in H. destruct H as [[[H|H]|H]|H]; try lia.
    apply existsb_exists in H as [x [H1 H2]]. apply N.eqb_eq in H2. subst x. change (In c [95; 46; 45; 126; 37; 47; 58]%N) in H1. cbn [In] in H1. lia. }
  assert (A : forallb (fun c => negb (is_space c) && str_eqb (esc5 c) [c] && negb (N.eqb c 10)) URLS = true) by (vm_compute; reflexivity). rewrite forallb_forall in A. specialize (A c I).
  rewrite !andb_true_iff, !negb_true_iff in A. destruct A as [[A1 A2] A3]. split; [exact A1|]. split; [now apply str_eqb_eq | now apply N.eqb_neq].
Qed.
Lemma url_name : forall t, url_text t -> forallb url_char (shown t) = true /\ obr (shown t) = shown t.
Proof.
  intros [t|] H; [|split; reflexivity]. specialize (H t eq_refl). assert (R : rstrip t = t).
  { unfold rstrip, rstrip_by. rewrite lstrip_by_id; [apply rev_involutive|]. destruct (rev t) as [|c r] eqn:E; [exact I|]. rewrite forallb_forall in H. apply url_solid. apply H. apply in_rev. rewrite E. now left. }
  cbn [shown]. rewrite R. split; [exact H|]. apply obr_plain. apply Forall_forall. rewrite forallb_forall in H. intros c Hc. apply url_solid. now apply H.
Qed.

(** * The document *)
Definition sl_dict (vID vSceneNumber vTitle vDesc vWordCount vWordsTotal vLetterCount vLettersTotal vStatus vSceneContent vFieldTitle1 vFieldTitle2 vFieldTitle3 vFieldTitle4 vField1 vField2 vField3 vField4 vDate vTime vDay vScDate vLastsDays vLastsHours vLastsMinutes vDuration vReactionScene vGoal vConflict vOutcome vTags vImage vCharacters vViewpoint vLocations vItems vNotes vProjectName vProjectPath vLanguage vCountry : str) : dict str :=
  [(s "ID", vID); (s "SceneNumber", vSceneNumber); (s "Title", vTitle); (s "Desc", vDesc); (s "WordCount", vWordCount); (s "WordsTotal", vWordsTotal); (s "LetterCount", vLetterCount); (s "LettersTotal", vLettersTotal); (s "Status", vStatus); (s "SceneContent", vSceneContent); (s "FieldTitle1", vFieldTitle1); (s "FieldTitle2", vFieldTitle2); (s "FieldTitle3", vFieldTitle3); (s "FieldTitle4", vFieldTitle4); (s "Field1", vField1); (s "Field2", vField2); (s "Field3", vField3); (s "Field4", vField4); (s "Date", vDate); (s "Time", vTime); (s "Day", vDay); (s "ScDate", vScDate); (s "LastsDays", vLastsDays); (s "LastsHours", vLastsHours); (s "LastsMinutes", vLastsMinutes); (s "Duration", vDuration); (s "ReactionScene", vReactionScene); (s "Goal", vGoal); (s "Conflict", vConflict); (s "Outcome", vOutcome); (s "Tags", vTags); (s "Image", vImage); (s "Characters", vCharacters); (s "Viewpoint", vViewpoint); (s "Locations", vLocations); (s "Items", vItems); (s "Notes", vNotes); (s "ProjectName", vProjectName); (s "ProjectPath", vProjectPath); (s "Language", vLanguage); (s "Country", vCountry)].
Lemma sl_blank1 : forall f vID vSceneNumber vTitle vDesc vWordCount vWordsTotal vLetterCount vLettersTotal vStatus vSceneContent vFieldTitle1 vFieldTitle2 vFieldTitle3 vFieldTitle4 vField2 vField3 vField4 vDate vTime vDay vScDate vLastsDays vLastsHours vLastsMinutes vDuration vReactionScene vGoal vConflict vOutcome vTags vImage vCharacters vViewpoint vLocations vItems vNotes vProjectName vProjectPath vLanguage vCountry, blank_rating f "Field1" (sl_dict vID vSceneNumber vTitle vDesc vWordCount vWordsTotal vLetterCount vLettersTotal vStatus vSceneContent vFieldTitle1 vFieldTitle2 vFieldTitle3 vFieldTitle4 (py_str f) vField2 vField3 vField4 vDate vTime vDay vScDate vLastsDays vLastsHours vLastsMinutes vDuration vReactionScene vGoal vConflict vOutcome vTags vImage vCharacters vViewpoint vLocations vItems vNotes vProjectName vProjectPath vLanguage vCountry) = sl_dict vID vSceneNumber vTitle vDesc vWordCount vWordsTotal vLetterCount vLettersTotal vStatus vSceneContent vFieldTitle1 vFieldTitle2 vFieldTitle3 vFieldTitle4 (rated f) vField2 vField3 vField4 vDate vTime vDay vScDate vLastsDays vLastsHours vLastsMinutes vDuration vReactionScene vGoal vConflict vOutcome vTags vImage vCharacters vViewpoint vLocations vItems vNotes vProjectName vProjectPath vLanguage vCountry.
Proof. intros. destruct f as [v|]; [|reflexivity]. cbn [blank_rating py_str rated]. destruct (str_eqb v (s "1")); [vm_compute|]; reflexivity. Qed.
Lemma sl_blank2 : forall f vID vSceneNumber vTitle vDesc vWordCount vWordsTotal vLetterCount vLettersTotal vStatus vSceneContent vFieldTitle1 vFieldTitle2 vFieldTitle3 vFieldTitle4 vField1 vField3 vField4 vDate vTime vDay vScDate vLastsDays vLastsHours vLastsMinutes vDuration vReactionScene vGoal vConflict vOutcome vTags vImage vCharacters vViewpoint vLocations vItems vNotes vProjectName vProjectPath vLanguage vCountry, blank_rating f "Field2" (sl_dict vID vSceneNumber vTitle vDesc vWordCount vWordsTotal vLetterCount vLettersTotal vStatus vSceneContent vFieldTitle1 vFieldTitle2 vFieldTitle3 vFieldTitle4 vField1 (py_str f) vField3 vField4 vDate vTime vDay vScDate vLastsDays vLastsHours vLastsMinutes vDuration vReactionScene vGoal vConflict vOutcome vTags vImage vCharacters vViewpoint vLocations vItems vNotes vProjectName vProjectPath vLanguage vCountry) = sl_dict vID vSceneNumber vTitle vDesc vWordCount vWordsTotal vLetterCount vLettersTotal vStatus vSceneContent vFieldTitle1 vFieldTitle2 vFieldTitle3 vFieldTitle4 vField1 (rated f) vField3 vField4 vDate vTime vDay vScDate vLastsDays vLastsHours vLastsMinutes vDuration vReactionScene vGoal vConflict vOutcome vTags vImage vCharacters vViewpoint vLocations vItems vNotes vProjectName vProjectPath vLanguage vCountry.
Proof. intros. destruct f as [v|]; [|reflexivity]. cbn [blank_rating py_str rated]. destruct (str_eqb v (s "1")); [vm_compute|]; reflexivity. Qed.
Lemma sl_blank3 : forall f vID vSceneNumber vTitle vDesc vWordCount vWordsTotal vLetterCount vLettersTotal vStatus vSceneContent vFieldTitle1 vFieldTitle2 vFieldTitle3 vFieldTitle4 vField1 vField2 vField4 vDate vTime vDay vScDate vLastsDays vLastsHours vLastsMinutes vDuration vReactionScene vGoal vConflict vOutcome vTags vImage vCharacters vViewpoint vLocations vItems vNotes vProjectName vProjectPath vLanguage vCountry, blank_rating f "Field3" (sl_dict vID vSceneNumber vTitle vDesc vWordCount vWordsTotal vLetterCount vLettersTotal vStatus vSceneContent vFieldTitle1 vFieldTitle2 vFieldTitle3 vFieldTitle4 vField1 vField2 (py_str f) vField4 vDate vTime vDay vScDate vLastsDays vLastsHours vLastsMinutes vDuration vReactionScene vGoal vConflict vOutcome vTags vImage vCharacters vViewpoint vLocations vItems vNotes vProjectName vProjectPath vLanguage vCountry) = sl_dict vID vSceneNumber vTitle vDesc vWordCount vWordsTotal vLetterCount vLettersTotal vStatus vSceneContent vFieldTitle1 vFieldTitle2 vFieldTitle3 vFieldTitle4 vField1 vField2 (rated f) vField4 vDate vTime vDay vScDate vLastsDays vLastsHours vLastsMinutes vDuration vReactionScene vGoal vConflict vOutcome vTags vImage vCharacters vViewpoint vLocations vItems vNotes vProjectName vProjectPath vLanguage vCountry.
Proof. intros. destruct f as [v|]; [|reflexivity]. cbn [blank_rating py_str rated]. destruct (str_eqb v (s "1")); [vm_compute|]; reflexivity. Qed.
Lemma sl_blank4 : forall f vID vSceneNumber vTitle vDesc vWordCount vWordsTotal vLetterCount vLettersTotal vStatus vSceneContent vFieldTitle1 vFieldTitle2 vFieldTitle3 vFieldTitle4 vField1 vField2 vField3 vDate vTime vDay vScDate vLastsDays vLastsHours vLastsMinutes vDuration vReactionScene vGoal vConflict vOutcome vTags vImage vCharacters vViewpoint vLocations vItems vNotes vProjectName vProjectPath vLanguage vCountry, blank_rating f "Field4" (sl_dict vID vSceneNumber vTitle vDesc vWordCount vWordsTotal vLetterCount vLettersTotal vStatus vSceneContent vFieldTitle1 vFieldTitle2 vFieldTitle3 vFieldTitle4 vField1 vField2 vField3 (py_str f) vDate vTime vDay vScDate vLastsDays vLastsHours vLastsMinutes vDuration vReactionScene vGoal vConflict vOutcome vTags vImage vCharacters vViewpoint vLocations vItems vNotes vProjectName vProjectPath vLanguage vCountry) = sl_dict vID vSceneNumber vTitle vDesc vWordCount vWordsTotal vLetterCount vLettersTotal vStatus vSceneContent vFieldTitle1 vFieldTitle2 vFieldTitle3 vFieldTitle4 vField1 vField2 vField3 (rated f) vDate vTime vDay vScDate vLastsDays vLastsHours vLastsMinutes vDuration vReactionScene vGoal vConflict vOutcome vTags vImage vCharacters vViewpoint vLocations vItems vNotes vProjectName vProjectPath vLanguage vCountry.
Proof. intros. destruct f as [v|]; [|reflexivity]. cbn [blank_rating py_str rated]. destruct (str_eqb v (s "1")); [vm_compute|]; reflexivity. Qed.
Lemma sl_mapping : forall pn pp n i k w l m, scenelist_sceneMapping pn pp n i k w l = Ok m -> exists x locs its st,
  dget i (nv_scenes n) = Some x /\ scene_places (nv_locations n) (sc_locations x) = Ok locs /\ scene_places (nv_items n) (sc_items x) = Ok its /\ status_text (sc_status x) = Ok st /\
  safe_substitute OdsWSceneList_scene m = grow_raw 3 (s "ro2") [(LINKr (py_str pp) (ods_convert pn) i, s "ScID:" ++ i); (STRING, ods_convert (sc_title x)); (STRING, ods_convert (sc_desc x));
    (STRING, ods_convert (Some (tags_text (sc_tags x)))); (STRING, ods_convert (sc_notes x)); (STRING, if flag (sc_isReactionScene x) then s "R" else s "A");
    (STRING, ods_convert (sc_goal x)); (STRING, ods_convert (sc_conflict x)); (STRING, ods_convert (sc_outcome x)); (FLOAT (disp k), disp k); (FLOAT (nat_str w), nat_str w);
    (FLOAT (rated (sc_field1 x)), rated (sc_field1 x)); (FLOAT (rated (sc_field2 x)), rated (sc_field2 x)); (FLOAT (rated (sc_field3 x)), rated (sc_field3 x)); (FLOAT (rated (sc_field4 x)), rated (sc_field4 x));
    (FLOAT (nat_str (sc_wordCount x)), nat_str (sc_wordCount x)); (FLOAT (nat_str (sc_letterCount x)), nat_str (sc_letterCount x)); (STRING, st); (STRING, fst (scene_characters n x)); (STRING, locs); ([], its)] [].
Proof.
  intros pn pp n i k w l m H. unfold scenelist_sceneMapping, sceneMapping, dindex in H. destruct (dget i (nv_scenes n)) as [x|] eqn:Ex; cbn [bind] in H; [|discriminate].
  destruct (scene_places (nv_locations n) (sc_locations x)) as [locs|] eqn:El; cbn [bind] in H; [|discriminate].
  destruct (scene_places (nv_items n) (sc_items x)) as [its|] eqn:Ei; cbn [bind] in H; [|discriminate].
  destruct (status_text (sc_status x)) as [st|] eqn:Es; cbn [mapping ods_conv bind] in H; [|discriminate].
  exists x, locs, its, st. split; [reflexivity|]. split; [exact El|]. split; [exact Ei|]. split; [exact Es|]. apply ok_eq in H.
  rewrite <- H. clear H.
  match goal with |- context[blank_rating (sc_field1 x) "Field1" ?M] => change M with (sl_dict (i) (disp k) (ods_convert (sc_title x)) (ods_convert (sc_desc x)) (nat_str (sc_wordCount x)) (nat_str w) (nat_str (sc_letterCount x)) (nat_str l) (st) (ods_convert (sc_content x)) (ods_convert (nv_fieldTitle1 n)) (ods_convert (nv_fieldTitle2 n)) (ods_convert (nv_fieldTitle3 n)) (ods_convert (nv_fieldTitle4 n)) (py_str (sc_field1 x)) (py_str (sc_field2 x)) (py_str (sc_field3 x)) (py_str (sc_field4 x)) (if dated x then ostr (sc_date x) else []) (match sc_time x with Some t => without_seconds t | None => [] end) (if dated x then [] else ostr (sc_day x)) (if dated x then ostr (sc_date x) else match sc_day x with Some d => s "Day " ++ d | None => [] end) (lasts (sc_lastsDays x)) (lasts (sc_lastsHours x)) (lasts (sc_lastsMinutes x)) (lasts_unit (sc_lastsDays x) (s "d ") ++ lasts_unit (sc_lastsHours x) (s "h ") ++ lasts_unit (sc_lastsMinutes x) (s "min")) (if flag (sc_isReactionScene x) then s "R" else s "A") (ods_convert (sc_goal x)) (ods_convert (sc_conflict x)) (ods_convert (sc_outcome x)) (ods_convert (Some (tags_text (sc_tags x)))) (py_str (sc_image x)) (fst (scene_characters n x)) (snd (scene_characters n x)) (locs) (its) (ods_convert (sc_notes x)) (ods_convert pn) (py_str pp) (py_str (nv_languageCode n)) (py_str (nv_countryCode n))) end.
  rewrite sl_blank1, sl_blank2, sl_blank3, sl_blank4. unfold sl_dict. apply scene_template_cells.
Qed.
Lemma cells_back : forall cells x y, y = x \/ relisted_scene x y -> Some (rstrip (cell 1 cells)) = sc_title x -> Some (rstrip (cell 2 cells)) = sc_desc x ->
  (forall u, replaces_tags (sc_tags x) u -> renew_tags u (cell 3 cells) = sc_tags x) ->
  (forall u, replaces_text (sc_notes x) u -> renew u (cell 4 cells) (rstrip (cell 4 cells)) = sc_notes x) -> Some (containsb (lower (s "R")) (lower (cell 5 cells))) = sc_isReactionScene x ->
  (forall u, replaces_text (sc_goal x) u -> renew u (cell 6 cells) (rstrip (cell 6 cells)) = sc_goal x) ->
  (forall u, replaces_text (sc_conflict x) u -> renew u (cell 7 cells) (rstrip (cell 7 cells)) = sc_conflict x) ->
  (forall u, replaces_text (sc_outcome x) u -> renew u (cell 8 cells) (rstrip (cell 8 cells)) = sc_outcome x) ->
  Some (rating (cell 11 cells)) = sc_field1 x -> Some (rating (cell 12 cells)) = sc_field2 x -> Some (rating (cell 13 cells)) = sc_field3 x -> Some (rating (cell 14 cells)) = sc_field4 x ->
  match index_of (cell 17 cells) 0 STATUS with Some k => sc_status x = Some k | None => sc_status x = Some 0%Z end ->
  scene_cells cells y = x.
Proof.
  intros cells x y K H1 H2 H3 H4 H5 H6 H7 H8 H9 H10 H11 H12 H13. 
  assert (K' : relisted_scene x y).
  { destruct K as [-> | K]; [|exact K]. exists (sc_title x), (sc_desc x), (sc_tags x), (sc_notes x), (sc_isReactionScene x), (sc_goal x), (sc_conflict x), (sc_outcome x), (sc_field1 x), (sc_field2 x), (sc_field3 x), (sc_field4 x), (sc_status x).
    split; [clear; destruct x; reflexivity|]. repeat split; first [apply replaces_self | apply replaces_tags_self | easy]. }
  clear K. destruct K' as (title & desc & tags & notes & ar & goal & conflict & outcome & f1 & f2 & f3 & f4 & status & -> & K1 & K2 & K3 & K4 & K5 & K6).
  apply H4 in K1. apply H6 in K2. apply H7 in K3. apply H8 in K4. apply H3 in K5. clear H3 H4 H6 H7 H8.
  unfold scene_cells. cbv zeta. rewrite H1, H2, H5, H9, H10, H11, H12. clear H1 H2 H5 H9 H10 H11 H12.
  set (c3 := cell 3 cells) in *. set (c4 := cell 4 cells) in *. set (c6 := cell 6 cells) in *. set (c7 := cell 7 cells) in *. set (c8 := cell 8 cells) in *. clearbody c3 c4 c6 c7 c8.
  set (r3 := renew_tags) in *. set (r4 := renew) in *. clearbody r3 r4. set (rs := rstrip) in *. clearbody rs. destruct x.
  cbn [set_sc_title set_sc_desc set_sc_tags set_sc_notes set_sc_isReactionScene set_sc_goal set_sc_conflict set_sc_outcome set_sc_field1 set_sc_field2 set_sc_field3 set_sc_field4 set_sc_status
    NovelModel.sc_title NovelModel.sc_desc NovelModel.sc_tags NovelModel.sc_notes NovelModel.sc_isReactionScene NovelModel.sc_goal NovelModel.sc_conflict NovelModel.sc_outcome NovelModel.sc_field1 NovelModel.sc_field2 NovelModel.sc_field3 NovelModel.sc_field4 NovelModel.sc_status] in *.
  rewrite K1, K2, K3, K4, K5. destruct (index_of _ _ _) as [k|]; rewrite H13; [reflexivity|]. now rewrite (K6 H13).
Qed.
Lemma shown_same : forall t, cell_field t -> t <> None -> Some (rstrip (shown t)) = t.
Proof. intros [x|] H N; [|congruence]. destruct (H x eq_refl) as (_ & _ & R). cbn [shown]. now rewrite !R. Qed.
Lemma status_back : forall z st, (0 <= z <= 5)%Z -> status_text (Some z) = Ok st -> Forall raw_char st /\ match index_of st 0 STATUS with Some k => z = k | None => z = 0%Z end.
Proof.
  intros z st Hz H. assert (I : In z [0; 1; 2; 3; 4; 5]%Z) by (cbn [In]; lia). cbn [In] in I.
  assert (R : forall t, forallb (fun c => xml_char c && negb (in_chars (13%N :: s "<>&") c)) t = true -> Forall raw_char t).
  { intros t Ht. rewrite forallb_forall in Ht. apply Forall_forall. intros c Hc. apply Ht in Hc. apply andb_true_iff in Hc as [A B]. split; [exact A|]. apply negb_true_iff in B. intro J.
    assert (X : in_chars (13%N :: s "<>&") c = true); [|congruence]. change (In c [13; 60; 62; 38]%N) in J. cbn [In] in J. destruct J as [<-|[<-|[<-|[<-|[]]]]]; reflexivity. }
  repeat (destruct I as [<-|I]; [apply ok_inj in H; subst st; split; [apply R; vm_compute; reflexivity | vm_compute; reflexivity]|]). destruct I.
Qed.
Lemma raw_join : forall d l, Forall raw_char d -> Forall (Forall raw_char) l -> Forall raw_char (join d l).
Proof.
  intros d l D H. induction H as [|x l C H IH]; [constructor|]. destruct l as [|y l]; [exact C|]. rewrite join_cons by discriminate. apply Forall_app. split; [exact C|]. apply Forall_app. now split.
Qed.
Lemma divider_raw : Forall raw_char DIVIDER.
Proof. constructor; [|constructor; [|constructor]]; (split; [reflexivity|]); vm_compute; intuition discriminate. Qed.
Lemma titles_raw : forall l, Forall plain_title l -> Forall raw_char (titles_text l).
Proof.
  intros l H. unfold titles_text, list_to_string. assert (A : forall r, all_some l = Some r -> Forall (Forall raw_char) r).
  { induction H as [|t l H0 H IH]; intros r E; cbn [all_some] in E; [injection E as <-; constructor|]. destruct t as [t|]; [|discriminate]. destruct (all_some l) as [r'|]; [|discriminate].
    injection E as <-. constructor; [exact (H0 t eq_refl) | now apply IH]. }
  destruct (all_some l) as [r|]; [|constructor]. apply raw_join; [exact divider_raw | now apply A].
Qed.
Lemma mapM_titles : forall {A} (d : dict A) (f : A -> option str) ids r, mapM (fun i => do c <- dindex i d; Ok (f c)) ids = Ok r ->
  (forall i c, In i ids -> dget i d = Some c -> plain_title (f c)) -> Forall plain_title r.
Proof.
  intros A d f. induction ids as [|i ids IH]; intros r E H; cbn [mapM] in E; [injection E as <-; constructor|]. unfold dindex at 1 in E. destruct (dget i d) as [c|] eqn:G; cbn [bind] in E; [|discriminate].
  destruct (mapM _ ids) as [r'|] eqn:Em; cbn [bind] in E; [|discriminate]. injection E as <-. constructor; [apply (H i c); [now left | exact G]|]. apply (IH r' eq_refl). intros j y Hj. apply H. now right.
Qed.
Lemma chars_raw : forall n x, (forall l i c, sc_characters x = Some l -> In i l -> dget i (nv_characters n) = Some c -> plain_title (cr_title c)) -> Forall raw_char (fst (scene_characters n x)).
Proof.
  intros n x H. unfold scene_characters. destruct (sc_characters x) as [ids|]; [|constructor]. specialize (H ids).
  destruct (mapM _ ids) as [r|] eqn:E; [|constructor]. apply mapM_titles in E; [|intros i c Hi; now apply H]. destruct r as [|v r]; [constructor|]. cbn [fst]. now apply titles_raw.
Qed.
Lemma places_raw : forall d ids t, scene_places d ids = Ok t -> (forall l i w, ids = Some l -> In i l -> dget i d = Some w -> plain_title (we_title w)) -> Forall raw_char t.
Proof.
  intros d [ids|] t E H; unfold scene_places in E; [|injection E as <-; constructor]. destruct (mapM _ ids) as [r|] eqn:Em; cbn [bind] in E; [|discriminate]. apply ok_inj in E. subst t.
  apply titles_raw. apply mapM_titles in Em; [exact Em|]. intros i c Hi. now apply (H ids).
Qed.
Lemma url_path : forall t, url_text t -> forallb url_char (py_str t) = true.
Proof. intros [t|] H; [now apply H | reflexivity]. Qed.
Lemma scene_block : forall pn pp n i k w l b, url_text pn -> url_text pp -> digits i -> (forall x, dget i (nv_scenes n) = Some x -> scene_fits n x) ->
  fill OdsWSceneList_scene (scenelist_sceneMapping pn pp n i k w l) = Ok b ->
  exists ts, row_text b ts /\ length ts = 21 /\ (exists x, dget i (nv_scenes n) = Some x /\ forall d y, dget i d = Some y -> y = x \/ relisted_scene x y -> scene_row d ts = Ok (dset i x d)).
Proof.
  intros pn pp n i k w l b Hn Hp D F H. unfold fill in H. destruct (scenelist_sceneMapping pn pp n i k w l) as [m|] eqn:Em; cbn [bind] in H; [|discriminate]. apply ok_inj in H.
  destruct (sl_mapping _ _ _ _ _ _ _ _ Em) as [x [locs [its [st [Ex [El [Ei [Es Et]]]]]]]]. rewrite Et in H. clear Et Em m.
  destruct (F x Ex) as (T1 & T2 & D1 & D2 & N1 & G1 & C1 & O1 & TG & AR & R1 & R2 & R3 & R4 & [z [Z1 Z2]] & P1 & P2 & P3). clear F.
  destruct (url_name pn Hn) as [U1 U2]. pose proof (url_path pp Hp) as U3. rewrite Z2 in Es. destruct (status_back z st Z1 Es) as [S1 S2].
  exists (scene_texts i x k w st (fst (scene_characters n x)) locs its). split; [|split; [reflexivity|]].
  - assert (E : b = grow 3 (s "ro2") (scene_cells_of (shown pn) (py_str pp) i (obr (shown (sc_title x))) (obr (shown (sc_desc x))) (obr (rstrip (tags_text (sc_tags x)))) (obr (shown (sc_notes x)))
      (if flag (sc_isReactionScene x) then s "R" else s "A") (obr (shown (sc_goal x))) (obr (shown (sc_conflict x))) (obr (shown (sc_outcome x))) (disp k) (nat_str w)
      (rated (sc_field1 x)) (rated (sc_field2 x)) (rated (sc_field3 x)) (rated (sc_field4 x)) (nat_str (sc_wordCount x)) (nat_str (sc_letterCount x)) st (fst (scene_characters n x)) locs its) []).
    { rewrite <- H, grow_esc. f_equal. unfold scene_cells_of. cbn [map]. unfold esc_attrs. cbn [fst snd].
      rewrite (proj2 (link_kept (py_str pp) (shown pn) i U3 U1 (digits_url i (proj2 D)))).
      rewrite !(fun v Hv => proj2 (kept_attrs v Hv)) by first [apply disp_url | apply str_url | now apply rated_url].
      rewrite !ods_shown, U2. reflexivity. }
    rewrite E. apply scene_row_text; try assumption; try (now apply clean_shown); try (now apply clean_tags).
    + now apply chars_raw.
    + now apply (places_raw _ _ _ El).
    + now apply (places_raw _ _ _ Ei).
  - exists x. split; [exact Ex|]. intros d y Gy Ry. unfold scene_row. change (cell 0 (scene_texts i x k w st (fst (scene_characters n x)) locs its)) with (s "ScID:" ++ i).
    assert (C : containsb (s "ScID:") (s "ScID:" ++ i) = true) by (apply containsb_spec; exists [], i; reflexivity).
    rewrite C, search_mark by (try exact D; discriminate). cbn [need bind]. rewrite Gy.
    rewrite (cells_back _ x y Ry); [reflexivity|..].
    + now apply shown_same.
    + now apply shown_same.
    + intros u Hu. now apply tags_back.
    + intros u Hu. now apply field_back_r.
    + unfold scene_texts, cell. cbn [nth]. destruct (sc_isReactionScene x) as [[|]|]; [reflexivity | reflexivity | congruence].
    + intros u Hu. now apply field_back_r.
    + intros u Hu. now apply field_back_r.
    + intros u Hu. now apply field_back_r.
    + now apply rated_same.
    + now apply rated_same.
    + now apply rated_same.
    + now apply rated_same.
    + change (cell 17 (scene_texts i x k w st (fst (scene_characters n x)) locs its)) with st. rewrite Z2. destruct (index_of st 0 STATUS); now rewrite S2.
Qed.

Lemma heading_attrs_ok : cell_attrs HEADING.
Proof.
  split; [|split; [|split]]; [apply Forall_cons; [now apply style_kept | apply Forall_cons; [now apply style_kept | apply Forall_nil]] | | apply Forall_cons; [split; no13 | apply Forall_cons; [split; no13 | apply Forall_nil]] | reflexivity].
  apply (NoDup_count_occ' (list_eq_dec N.eq_dec)). intros x [<-|[<-|[]]]; reflexivity.
Qed.
Lemma const_content : forall t, forallb (fun c => xml_char c && negb (in_chars (13%N :: s "<>&") c)) t = true -> content t t.
Proof.
  intros t Ht. apply content_raw. rewrite forallb_forall in Ht. apply Forall_forall. intros c Hc. apply Ht in Hc. apply andb_true_iff in Hc as [A B]. split; [exact A|]. apply negb_true_iff in B. intro J.
  assert (X : in_chars (13%N :: s "<>&") c = true); [|congruence]. change (In c [13; 60; 62; 38]%N) in J. cbn [In] in J. destruct J as [<-|[<-|[<-|[<-|[]]]]]; reflexivity.
Qed.
Lemma head_row : forall t1 t2 t3 t4, clean t1 -> clean t2 -> clean t3 -> clean t4 -> row_text (grow_raw 4 (s "ro1") (head_cells (obr t1) (obr t2) (obr t3) (obr t4)) SCENE_rest) (head_texts t1 t2 t3 t4).
Proof.
  intros t1 t2 t3 t4 C1 C2 C3 C4.
  assert (E : grow_raw 4 (s "ro1") (head_cells (obr t1) (obr t2) (obr t3) (obr t4)) SCENE_rest = grow 4 (s "ro1") (head_cells (obr t1) (obr t2) (obr t3) (obr t4)) SCENE_rest).
  { rewrite grow_esc. f_equal. }
  rewrite E. apply (grow_text 4 (s "ro1") _ _ SCENE_rest (txts (SP 5) ++ [Elt CELL [(s "table:style-name", s "Heading"); (REPEATED, s "1003")] []] ++ txts [10%N])).
  - constructor; [|constructor]. split; reflexivity.
  - no13.
  - unfold head_cells. repeat apply Forall_cons; try apply Forall_nil; exact heading_attrs_ok.
  - unfold head_cells, head_texts. repeat apply Forall2_cons; try apply Forall2_nil; cbn [snd]; first [now apply content_obr | apply const_content; vm_compute; reflexivity].
  - unfold SCENE_rest. rewrite !evs_app. apply frag_app; [apply frag_ws; [reflexivity | nocr]|]. apply frag_app; [|apply frag_ws; [reflexivity | nocr]].
    cbn [evs]. rewrite app_nil_r, ev_elt. cbn [evs app]. apply frag_empty; [lex_tag | no13].
Qed.
Lemma sl_header : forall pn pp n h, titles_fit n -> get_fileHeader (OdsWSceneList pn pp) n = Ok h -> exists x ts, h = DECL ++ SCENE_head ++ x /\ row_text x ts /\ length ts = 21 /\ (forall d, scene_row d ts = Ok d).
Proof.
  intros pn pp n h (F1 & F2 & F3 & F4) H. unfold get_fileHeader, fill in H. cbn [t_fileHeader m_fileHeader OdsWSceneList OdsWSceneList_with] in H. unfold fileHeaderMapping in H. cbn [mapping ods_conv bind] in H.
  apply ok_inj in H. rewrite head_template in H. rewrite !ods_shown in H.
  eexists _, _. split; [symmetry; exact H|]. split; [apply head_row; now apply clean_shown|]. split; [reflexivity|]. intro d. reflexivity.
Qed.
Lemma sl_normal : forall pn pp, normal_only (OdsWSceneList pn pp).
Proof. intros pn pp. repeat split. Qed.
Lemma sl_heading : forall pn pp k, heading (OdsWSceneList pn pp) k = [] /\ ending (OdsWSceneList pn pp) k = [].
Proof. intros pn pp k. destruct k; split; reflexivity. Qed.
Lemma entries_set_in : forall {A} (R : A -> A -> Prop) i x (P Q : str -> Prop) d d', NoDup (map fst d) -> dget i d = Some x -> (forall j, P j -> j = i \/ Q j) ->
  other_entries R P d d' -> other_entries R Q d (dset i x d').
Proof.
  intros A R i x P Q d d' ND G H F. unfold other_entries in *. revert ND G. induction F as [|p q l1 l2 [B C] F IH]; intros ND G; [discriminate|]. destruct p as [k z], q as [k2 y]. cbn [fst snd] in *. subst k2.
  cbn [map fst] in ND. apply NoDup_cons_iff in ND as [Nk ND]. cbn [dget dset] in *. destruct (str_eqb i k) eqn:E.
  - apply str_eqb_eq in E. subst k. injection G as ->. constructor; [split; [reflexivity | now left]|]. clear - F Nk H. revert Nk. induction F as [|p q l1 l2 [B C] F IH]; intro Nk; [constructor|].
    cbn [map In] in Nk. constructor; [|apply IH; tauto]. split; [exact B|]. destruct C as [C | [C D]]; [now left|]. destruct (H _ C) as [C' | C']; [exfalso; apply Nk; left; exact C' | right; split; assumption].
  - constructor; [|now apply IH]. split; [reflexivity|]. cbn [fst snd]. destruct C as [C | [C D]]; [now left|]. destruct (H _ C) as [C' | C']; [subst i; rewrite str_eqb_refl in E; discriminate | right; split; assumption].
Qed.
Lemma entries_empty : forall d d', other_entries relisted_scene (fun _ => False) d d' -> d' = d.
Proof. intros d d' O. apply (entries_end relisted_scene). exact (entries_weaken relisted_scene _ _ d d' (fun i (H : False) => match H with end) O). Qed.
Lemma sl_rows : forall pn pp n bl bs, url_text pn -> url_text pp -> NoDup (map fst (nv_scenes n)) ->
  (forall ch i f k w l, In (BScene ch i f k w l) bl -> scene_kind n ch i = Normal /\ digits i /\ scene_fits n (scene_of n i)) ->
  mapM (block_text (OdsWSceneList pn pp) n) bl = Ok bs ->
  exists xs tss, concat bs = concat xs /\ Forall2 row_text xs tss /\ Forall (fun r => length r = 21) tss /\
    (forall d, other_entries relisted_scene (fun i => exists ch f k w l, In (BScene ch i f k w l) bl) (nv_scenes n) d -> foldM scene_row tss d = Ok (nv_scenes n)).
Proof.
  intros pn pp n bl bs Hn Hp ND. revert bs. induction bl as [|b bl IH]; intros bs F E; cbn [mapM] in E.
  - injection E as <-. exists [], []. split; [reflexivity|]. split; [constructor|]. split; [constructor|]. intros d O. cbn [foldM]. f_equal. apply entries_empty.
    refine (entries_weaken relisted_scene _ _ _ _ _ O). intros i (ch & f & k & w & l & []).
  - destruct (block_text (OdsWSceneList pn pp) n b) as [t|] eqn:Eb; cbn [bind] in E; [|discriminate]. destruct (mapM _ bl) as [bs'|]; cbn [bind] in E; [|discriminate].
    apply ok_eq in E. subst bs. destruct (IH bs' (fun ch i f k w l Hi => F ch i f k w l (or_intror Hi)) eq_refl) as [xs [tss [X1 [X2 [X3 X4]]]]]. cbn [concat]. rewrite X1.
    assert (Z' : t = [] -> (forall ch i f k w l, b <> BScene ch i f k w l) -> exists xs0 tss0, t ++ concat xs = concat xs0 /\ Forall2 row_text xs0 tss0 /\ Forall (fun r => length r = 21) tss0 /\
      (forall d, other_entries relisted_scene (fun i => exists ch f k w l, In (BScene ch i f k w l) (b :: bl)) (nv_scenes n) d -> foldM scene_row tss0 d = Ok (nv_scenes n))).
    { intros -> Nb. exists xs, tss. split; [reflexivity|]. split; [exact X2|]. split; [exact X3|]. intros d O. apply X4. refine (entries_weaken relisted_scene _ _ _ _ _ O).
      intros i (ch & f & k & w & l & [J | J]); [exfalso; now apply (Nb ch i f k w l)|]. now exists ch, f, k, w, l. }
    destruct b as [ch k| |ch i f k w l|ch k]; cbn [block_text] in Eb.
    + rewrite (proj1 (sl_heading pn pp _)) in Eb. apply fill_nil in Eb. apply Z'; [exact Eb | discriminate].
    + apply Z'; [injection Eb as <-; reflexivity | discriminate].
    + clear Z'. destruct (F ch i f k w l (or_introl eq_refl)) as [K [D S]].
      assert (Sf : scene_form (OdsWSceneList pn pp) n ch i f = OdsWSceneList_scene).
      { unfold scene_form. rewrite K. cbn [t_firstScene t_appendedScene t_scene OdsWSceneList OdsWSceneList_with truthy]. rewrite !andb_false_r. reflexivity. }
      rewrite Sf in Eb. cbn [m_scene OdsWSceneList OdsWSceneList_with] in Eb.
      destruct (scene_block pn pp n i k w l t Hn Hp D) as [ts [R1 [R2 [x [Ex R3]]]]]; [|exact Eb|].
      * intros x Hx. unfold scene_of in S. now rewrite Hx in S.
      * exists (t :: xs), (ts :: tss). split; [reflexivity|]. split; [now constructor|]. split; [now constructor|]. intros d O. cbn [foldM].
        destruct (entries_get relisted_scene _ _ d i x O Ex) as [y [Gy Ry]]. rewrite (R3 d y Gy Ry). cbn [bind]. apply X4.
        refine (entries_set_in relisted_scene i x _ _ _ d ND Ex _ O). intros j (ch' & f' & k' & w' & l' & [J | J]); [left; congruence | right; now exists ch', f', k', w', l'].
    + rewrite (proj2 (sl_heading pn pp _)) in Eb. apply fill_nil in Eb. apply Z'; [exact Eb | discriminate].
Qed.
Lemma nv_scenes_eta : forall n, set_nv_scenes (nv_scenes n) n = n.
Proof. intros []; reflexivity. Qed.
Theorem scenes_back : forall pn pp n m doc, get_text (OdsWSceneList pn pp) n = Ok doc -> url_text pn -> url_text pp -> all_listed n -> titles_fit n ->
  (forall ch i, In ch (nv_srtChapters n) -> In i (ch_srtScenes (chapter_of n ch)) -> scene_kind n ch i = Normal -> digits i /\ scene_fits n (scene_of n i)) ->
  NoDup (map fst (nv_scenes n)) -> other_scene_list n m ->
  read_scenelist doc m = Ok n.
Proof.
  intros pn pp n m doc H Hn Hp A T F ND [d [-> O]]. destruct (text_parts _ n doc H) as (h & c & p & l & it & o & H1 & H2 & H3 & H4 & H5 & H6 & ->).
  destruct (sl_header pn pp n h T H1) as [x0 [ts0 [-> [R0 [L0 S0]]]]].
  apply empty_elements in H3, H4, H5. apply empty_notes in H6; [|reflexivity]. rewrite H3, H4, H5, H6. cbn [app].
  rewrite (chapters_document _ n A) in H2.
  destruct (sl_rows pn pp n (SpecExport.document (OdsWSceneList pn pp) n) c Hn Hp ND) as [xs [tss [X1 [X2 [X3 X4]]]]]; [|exact H2|].
  - intros ch i f k w l' Hi. assert (Hs : In (ch, i, k) (scenes (SpecExport.document (OdsWSceneList pn pp) n))) by (unfold scenes; apply in_flat_map; exists (BScene ch i f k w l'); split; [exact Hi | now left]).
    destruct (normal_only_scenes _ n (sl_normal pn pp) ch i k Hs) as [I1 [I2 [I3 _]]]. split; [exact I3|]. now apply (F ch i).
  - rewrite X1. replace ((DECL ++ SCENE_head ++ x0) ++ concat xs ++ t_fileFooter (OdsWSceneList pn pp)) with (DECL ++ SCENE_head ++ concat (x0 :: xs) ++ FOOT).
    + unfold read_scenelist. rewrite (SCENE_written (x0 :: xs) (ts0 :: tss)); [|now constructor | now constructor]. cbn [bind foldM]. rewrite S0. cbn [bind].
      assert (E1 : nv_scenes (set_nv_scenes d n) = d) by (destruct n; reflexivity). rewrite E1, X4; [cbn [bind]; f_equal; clear; destruct n; reflexivity|].
      refine (entries_weaken relisted_scene _ _ _ _ _ O). intros i (ch & I1 & I2 & I3 & I4).
      assert (J : In (ch, i) (map fst (scenes (SpecExport.document (OdsWSceneList pn pp) n)))).
      { rewrite scene_order. unfold scenes_in. apply in_flat_map. exists ch. split; [apply filter_In; split; [exact I1 | reflexivity]|]. apply in_map. unfold shown_scenes. apply filter_In. split; [exact I2|].
        unfold shown_scene. rewrite I3, I4. reflexivity. }
      apply in_map_iff in J as [[[ch' i'] k] [J1 J2]]. injection J1 as -> ->. unfold scenes in J2. apply in_flat_map in J2 as [b [J3 J4]]. destruct b as [? ?| |ch2 i2 f k2 w l2|? ?]; try (destruct J4; fail).
      destruct J4 as [J4 | []]. injection J4 as -> -> ->. now exists ch, f, k, w, l2.
    + cbn [concat]. rewrite <- !app_assoc. reflexivity.
Qed.
