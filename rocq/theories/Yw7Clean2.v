(** The trees built for a representable novel can be written as text: the whole tree. *)
From Coq Require Import String List NArith ZArith Bool Lia Arith.
From Verif Require Import PyStr PyDict Spec Globals GlobalsProofs NovelModel NovelOps NovelOpsProofs YwTree IsoDate Yw7Build Yw7Read YwTreeProofs Yw7SceneProofs
  Yw7StartProofs Yw7SceneRT Yw7ChapterRT Yw7ElemRT Yw7ListRT Yw7TreeInv Yw7ProjRT Yw7SecRT Yw7TreeRT YwText YwTextProofs SpecYw7 Yw7Clean.
Import ListNotations.

Record world_texts (names : list str) (w : world) : Prop := {
  wt_title : text_ok (s "Title") (we_title w);
  wt_image : text_ok (s "ImageFile") (we_image w);
  wt_desc : text_ok (s "Desc") (we_desc w);
  wt_aka : text_ok (s "AKA") (we_aka w);
  wt_tags : tags_text_ok (we_tags w);
  wt_kw : forall f, In f names -> name_ok f = true /\ kw_text f (we_kw w)
}.
Lemma kc_build_world : forall names w k, world_texts names w -> kc k -> kc (build_world names w k).
Proof. intros names w k [] H. unfold build_world. apply kc_remove. apply kc_put_kws; [apply kc_mk_fields | assumption|]. kcs. Qed.

Record character_texts (c : character) : Prop := {
  rt_title : text_ok (s "Title") (cr_title c);
  rt_desc : text_ok (s "Desc") (cr_desc c);
  rt_image : text_ok (s "ImageFile") (cr_image c);
  rt_notes : text_ok (s "Notes") (cr_notes c);
  rt_aka : text_ok (s "AKA") (cr_aka c);
  rt_tags : tags_text_ok (cr_tags c);
  rt_bio : text_ok (s "Bio") (cr_bio c);
  rt_goals : text_ok (s "Goals") (cr_goals c);
  rt_full : text_ok (s "FullName") (cr_fullName c);
  rt_kw : forall f, In f CRT_KWVAR -> name_ok f = true /\ kw_text f (cr_kw c)
}.
Lemma kc_build_character : forall c k, character_texts c -> kc k -> kc (build_character c k).
Proof.
  intros c k [] H. unfold build_character. apply kc_remove. apply kc_put_kws; [apply kc_mk_fields | assumption|].
  assert (Hm : text_ok (s "Major") (if is_true (cr_isMajor c) then Some (s "-1") else None)) by (destruct (is_true _); [apply text_safe; exact safe_m1 | exact I]). kcs.
Qed.

Definition note_texts (x : note) : Prop := text_ok (s "Title") (pn_title x) /\ text_ok (s "Desc") (pn_desc x).
Lemma kc_build_note : forall x k, note_texts x -> kc k -> kc (build_note x k).
Proof. intros x k [H1 H2] H. unfold build_note. kcs. Qed.

Record novel_texts (n : novel) : Prop := {
  nt_title : text_ok (s "Title") (nv_title n);
  nt_desc : text_ok (s "Desc") (nv_desc n);
  nt_author : text_ok (s "AuthorName") (nv_authorName n);
  nt_bio : text_ok (s "Bio") (nv_authorBio n);
  nt_f1 : text_ok (s "FieldTitle1") (nv_fieldTitle1 n);
  nt_f2 : text_ok (s "FieldTitle2") (nv_fieldTitle2 n);
  nt_f3 : text_ok (s "FieldTitle3") (nv_fieldTitle3 n);
  nt_f4 : text_ok (s "FieldTitle4") (nv_fieldTitle4 n);
  nt_kw : forall f, In f PRJ_KWVAR -> kw_text f (nv_kw n);
  nt_locations : ids_plain (nv_srtLocations n) /\ forall i a, dget i (nv_locations n) = Some a -> In i (nv_srtLocations n) -> world_texts LOC_KWVAR a;
  nt_items : ids_plain (nv_srtItems n) /\ forall i a, dget i (nv_items n) = Some a -> In i (nv_srtItems n) -> world_texts ITM_KWVAR a;
  nt_characters : ids_plain (nv_srtCharacters n) /\ forall i a, dget i (nv_characters n) = Some a -> In i (nv_srtCharacters n) -> character_texts a;
  nt_notes : ids_plain (nv_srtPrjNotes n) /\ forall i a, dget i (nv_projectNotes n) = Some a -> In i (nv_srtPrjNotes n) -> note_texts a;
  nt_scenes : ids_plain (dkeys (nv_scenes n)) /\ forall i x, In (i, x) (nv_scenes n) -> scene_texts x;
  nt_chapters : ids_plain (nv_srtChapters n) /\ forall i c, dget i (nv_chapters n) = Some c -> In i (nv_srtChapters n) -> chapter_texts c;
  nt_langs : forall ls c, nv_languages n = Some ls -> In c ls -> line_ok c
}.

Lemma kc_build_project : forall n k, novel_texts n -> kc k -> kc (build_project n k).
Proof.
  intros n k [] H. unfold build_project. apply kc_remove, kc_remove. apply kc_put_kws; [apply kc_mk_fields | |].
  - intros f Hf. split; [|apply nt_kw0; exact Hf]. destruct Hf as [<- | [<- | []]]; reflexivity.
  - assert (H1 : text_ok (s "WordCountStart") (option_map str_of_Z (nv_wordCountStart n))) by (destruct (nv_wordCountStart n); [apply text_safe; apply str_of_Z_safe | exact I]).
    assert (H2 : text_ok (s "WordTarget") (option_map str_of_Z (nv_wordTarget n))) by (destruct (nv_wordTarget n); [apply text_safe; apply str_of_Z_safe | exact I]).
    assert (H3 : text_ok (s "Ver") (Some (s "7"))) by (apply text_safe; split; [discriminate | reflexivity]). kcs.
Qed.

Lemma kc_in_section : forall t x f r r1, cd t = false -> (forall k k1, kc k -> f k = Ok k1 -> kc k1) -> kc r -> in_section t x f r = Ok r1 -> kc r1.
Proof.
  intros t x f r r1 Hc Hf H Hb. unfold in_section in Hb. destruct (find t r) as [e|] eqn:E; [|discriminate]. apply bind_ok in Hb. destruct Hb as (k & Hk & Hb). injection Hb as <-.
  assert (He : clean e /\ e_tag e = t).
  { clear -E H. induction H as [|a r Ha H IH]; [discriminate|]. cbn [find] in E. destruct (str_eqb (e_tag a) t) eqn:Et; [injection E as <-; split; [exact Ha | apply str_eqb_eq; exact Et] | apply IH; exact E]. }
  destruct He as [He Ht]. apply Hf in Hk; [|apply clean_kids; exact He]. apply kc_upd; [|exact H]. intros a _ Ha Hca. apply (clean_with_kids t); assumption.
Qed.

Lemma mapM_Forall : forall {A B} (f : A -> res B) l l1 (P : B -> Prop), (forall a b, In a l -> f a = Ok b -> P b) -> mapM f l = Ok l1 -> Forall P l1.
Proof.
  intros A B f l l1 P Hf H. apply mapM_Forall2 in H. induction H as [|a b l l1 Hab H IH]; [constructor|].
  constructor; [apply (Hf a); [left; reflexivity | exact Hab] | apply IH; intros; eapply Hf; [right; eassumption | eassumption]].
Qed.

Lemma kc_rebuild : forall {A} t (bd : A -> list elem -> list elem) ids d (P : A -> Prop) k k1, name_ok t = true -> cd t = false ->
  (forall a l, P a -> kc l -> kc (bd a l)) -> ids_plain ids -> (forall i a, dget i d = Some a -> In i ids -> P a) -> kc k -> rebuild t bd ids d k = Ok k1 -> kc k1.
Proof.
  intros A t bd ids d P k k1 Hn Hc Hbd Hi HP H Hb. unfold rebuild in Hb. apply bind_ok in Hb. destruct Hb as (new & Hm & Hb). injection Hb as <-.
  apply kc_app; [apply kc_filter; exact H|]. refine (mapM_Forall _ _ _ _ _ Hm). intros i e Hin He. apply bind_ok in He. destruct He as (a & Ha & He). injection He as <-.
  unfold element_with_id. constructor; [exact Hn | exact I | right; exact Hc|]. apply Hbd.
  - apply (HP i); [|exact Hin]. unfold dindex in Ha. destruct (dget i d); [injection Ha as <-; reflexivity | discriminate].
  - constructor; [|constructor]. apply kc_leaf; [reflexivity|]. apply Hi. exact Hin.
Qed.

Lemma save_elems_in : forall t k d, save_elems t k = Ok d -> forall i e, dget i d = Some e -> In e k /\ e_tag e = t.
Proof.
  intros t k d H. unfold save_elems in H.
  assert (G : forall es d0 d1, (forall e, In e es -> In e k /\ e_tag e = t) -> (forall i e, dget i d0 = Some e -> In e k /\ e_tag e = t) ->
    foldM (fun d e => match find (s "ID") (e_kids e) with None => Err AttributeError | Some i => match e_text i with Some v => Ok (dset v e d) | None => Ok d end end) es d0 = Ok d1 ->
    forall i e, dget i d1 = Some e -> In e k /\ e_tag e = t).
  { induction es as [|e es IH]; intros d0 d1 Hes Hd0 Hf; cbn [foldM] in Hf; [injection Hf as <-; exact Hd0|].
    destruct (find (s "ID") (e_kids e)) as [y|]; [|discriminate]. destruct (e_text y) as [v|]; cbn [bind] in Hf.
    - apply (IH (dset v e d0) d1); [intros; apply Hes; right; assumption | | exact Hf]. intros i a Ha. destruct (str_eq_dec i v) as [-> | Ne].
      + rewrite dget_dset_same in Ha. injection Ha as <-. apply Hes. left. reflexivity.
      + rewrite dget_dset_other in Ha by exact Ne. apply (Hd0 i). exact Ha.
    - apply (IH d0 d1); [intros; apply Hes; right; assumption | exact Hd0 | exact Hf]. }
  refine (G _ _ _ _ _ H); [|intros i e E; discriminate E]. intros e He. unfold findall in He. apply filter_In in He. destruct He as [He E]. apply str_eqb_eq in E. auto.
Qed.

Lemma clean_renew : forall {A} t (bd : A -> list elem -> res (list elem)) saved i a e, name_ok t = true -> cd t = false -> plain_ok i ->
  (forall k k1, kc k -> bd a k = Ok k1 -> kc k1) -> (forall i e, dget i saved = Some e -> clean e /\ e_tag e = t) -> renew t bd saved i a = Ok e -> clean e.
Proof.
  intros A t bd saved i a e Hn Hc Hi Hbd Hs H. unfold renew in H. destruct (dget i saved) as [e0|] eqn:E.
  - destruct (Hs i e0 E) as [He Ht]. apply bind_ok in H. destruct H as (k & Hk & H). injection H as <-. apply (clean_with_kids t); try assumption. apply (Hbd (e_kids e0)); [apply clean_kids; exact He | exact Hk].
  - apply bind_ok in H. destruct H as (k & Hk & H). injection H as <-. constructor; [exact Hn | exact I | right; exact Hc|]. apply (Hbd [leaf (s "ID") (Some i)]); [|exact Hk].
    constructor; [|constructor]. apply kc_leaf; [reflexivity | exact Hi].
Qed.

Lemma kc_finish : forall n k k1, (forall i x, In (i, x) (nv_scenes n) -> scene_texts x) -> kc k -> mapM (finish_scene n) k = Ok k1 -> (forall e, In e k -> cd (e_tag e) = false) -> kc k1.
Proof.
  intros n k k1 Hx H Hb Ht. refine (mapM_Forall _ _ _ _ _ Hb). intros e e1 Hin He. rewrite Forall_forall in H. pose proof (H e Hin) as Hce.
  unfold finish_scene in He. destruct (find (s "ID") (e_kids e)) as [y|]; [|discriminate]. destruct (e_text y) as [scId|]; [|discriminate].
  apply bind_ok in He. destruct He as (x & Hxx & He). apply bind_ok in He. destruct He as (k2 & Hk2 & He). injection He as <-.
  assert (St : scene_texts x). { apply (Hx scId). unfold dindex in Hxx. destruct (dget scId (nv_scenes n)) eqn:E; [injection Hxx as <-; apply dget_In; exact E | discriminate]. }
  assert (K2 : kc k2). { pose proof (te_content x St) as Tc. destruct (sc_content x) as [c|]; [|injection Hk2 as <-; apply clean_kids; exact Hce].
    destruct (has (s "SceneContent") (e_kids e)); [|discriminate]. injection Hk2 as <-. apply kc_set_text; [exact Tc | apply clean_kids; exact Hce]. }
  apply (clean_with_kids (e_tag e)); [reflexivity | apply Ht; exact Hin | kcs | exact Hce].
Qed.

(** ** Project variables *)
Lemma line_app : forall a b, line_ok a -> line_ok b -> line_ok (a ++ b).
Proof.
  intros a b (A1 & A2 & A3) (B1 & B2 & B3). split; [apply Forall_app; auto|]. split; intro E; apply in_app_or in E; tauto.
Qed.
Definition line_b (c : N) : bool := ((32 <=? c) && (c <=? 126) && negb (N.eqb c 124) && negb (N.eqb c 93))%N%bool.
Lemma line_lit : forall v, forallb line_b v = true -> line_ok v.
Proof.
  intros v H. rewrite forallb_forall in H.
  assert (Q : forall c, In c v -> (32 <= c <= 126 /\ c <> 124 /\ c <> 93)%N).
  { intros c Hc. apply H in Hc. unfold line_b in Hc. rewrite !andb_true_iff, !negb_true_iff, !N.leb_le, !N.eqb_neq in Hc. lia. }
  split; [apply Forall_forall; intros c Hc; apply Q in Hc; unfold file_char; lia|]. split; intro E; apply Q in E; lia.
Qed.
Lemma text_line : forall t v, cd t = true -> line_ok v -> text_ok t (Some v).
Proof. intros t v Hc H. apply text_long; [exact Hc | apply line_long; exact H]. Qed.

Lemma new_id_plain : forall l, plain_ok (new_id l).
Proof.
  intro l. destruct (create_id_spec l) as (k & Hk). unfold new_id. destruct Hk as (Hk & _). rewrite Hk. apply plain_plain, safe_plain, str_of_N_safe.
Qed.

Lemma kc_add_var : forall title desc st, text_ok (s "Title") (Some title) -> text_ok (s "Desc") desc -> kc (snd st) -> kc (snd (add_projectvar title desc st)).
Proof.
  intros title desc st Ht Hd H. unfold add_projectvar. cbn [snd]. apply kc_app; [exact H|]. constructor; [|constructor]. constructor; [reflexivity | exact I | right; reflexivity|].
  repeat (constructor; [apply kc_leaf; [reflexivity|] |]); [apply new_id_plain | exact Ht | exact Hd | | constructor]. apply text_safe. split; [discriminate | reflexivity].
Qed.

Lemma kc_scan : forall n k st st1 k1, text_ok (s "Desc") (nv_languageCode n) -> text_ok (s "Desc") (nv_countryCode n) ->
  (forall c, In c (ps_langs st) -> line_ok c) -> kc k -> scan_projectvars n st k = Ok (st1, k1) -> kc k1 /\ (forall c, In c (ps_langs st1) -> line_ok c).
Proof.
  intros n k st st1 k1 HL HC. revert st st1 k1. induction k as [|e k IH]; intros st st1 k1 Hl H Hs; cbn [scan_projectvars] in Hs; [injection Hs as <- <-; auto|].
  apply bind_ok in Hs. destruct Hs as ([sa ea] & Ha & Hs). apply bind_ok in Hs. destruct Hs as ([sb kb] & Hb & Hs). injection Hs as <- <-. cbn [fst snd] in *.
  inversion H as [|? ? He Hk]; subst.
  assert (Q : clean ea /\ (forall c, In c (ps_langs sa) -> line_ok c)).
  { unfold scan_projectvar in Ha. destruct (str_eqb (e_tag e) (s "PROJECTVAR")) eqn:Et; cbn [negb] in Ha; [|injection Ha as <- <-; auto]. apply str_eqb_eq in Et.
    destruct (find (s "ID") (e_kids e)) as [y|]; [|discriminate]. destruct (find (s "Title") (e_kids e)) as [z|]; [|discriminate]. destruct (e_text z) as [title|]; [|discriminate].
    assert (Hd : forall d, text_ok (s "Desc") d -> clean (on_kids (set_text (s "Desc") d) e)).
    { intros d Hd. apply (clean_on_kids (s "PROJECTVAR")); [exact Et | reflexivity | intro Hk2; apply kc_set_text; assumption | exact He]. }
    destruct (prefixb (s "lang=") title).
    - destruct (split (s "=") title) as [|a [|b [|c l]]]; injection Ha as <- <-; cbn [ps_langs]; (split; [exact He|]); try exact Hl.
      intros c Hc. apply Hl. revert Hc. generalize (ps_langs st). intro l. induction l as [|y0 l IHl]; [intros []|]. cbn [remove_str]. destruct (str_eqb y0 b); [right; assumption|]. intros [-> | Hc]; [left; reflexivity | right; apply IHl; exact Hc].
    - destruct (str_eqb title (s "Language")); [destruct (has (s "Desc") (e_kids e)); [|discriminate]; injection Ha as <- <-; split; [apply Hd; exact HL | exact Hl]|].
      destruct (str_eqb title (s "Country")); [destruct (has (s "Desc") (e_kids e)); [|discriminate]; injection Ha as <- <-; split; [apply Hd; exact HC | exact Hl]|].
      injection Ha as <- <-. split; [exact He | exact Hl]. }
  destruct Q as [Q1 Q2]. destruct (IH _ _ _ Q2 Hk Hb) as [R1 R2]. split; [constructor; assumption | exact R2].
Qed.

Lemma kc_vars : forall n ls k k1, text_ok (s "Desc") (nv_languageCode n) -> text_ok (s "Desc") (nv_countryCode n) -> (forall c, In c ls -> line_ok c) ->
  kc k -> build_projectvars n ls k = Ok k1 -> kc k1.
Proof.
  intros n ls k k1 HL HC Hl H Hb. unfold build_projectvars in Hb. apply bind_ok in Hb. destruct Hb as ([ps k2] & Hs & Hb). injection Hb as <-.
  destruct (kc_scan n k (mkPvscan [] ls false false) ps k2 HL HC Hl H Hs) as [K2 L2].
  set (st0 := (ps_ids ps, k2)). assert (K0 : kc (snd st0)) by exact K2.
  set (st1 := if ps_hasLang ps then st0 else add_projectvar (s "Language") (nv_languageCode n) st0).
  assert (K1 : kc (snd st1)). { unfold st1. destruct (ps_hasLang ps); [exact K0|]. apply kc_add_var; [apply text_safe; split; [discriminate | reflexivity] | exact HL | exact K0]. }
  set (st2 := if ps_hasCountry ps then st1 else add_projectvar (s "Country") (nv_countryCode n) st1).
  assert (K3 : kc (snd st2)). { unfold st2. destruct (ps_hasCountry ps); [exact K1|]. apply kc_add_var; [apply text_safe; split; [discriminate | reflexivity] | exact HC | exact K1]. }
  clearbody st2. clear -L2 K3. revert st2 K3. induction (ps_langs ps) as [|c l IH]; intros st K; [exact K|]. cbn [fold_left]. apply IH; [intros; apply L2; right; assumption|].
  assert (Hc : line_ok c) by (apply L2; left; reflexivity). unfold add_langvars.
  apply kc_add_var; [apply text_line; [reflexivity|]; apply line_app; [apply line_lit; reflexivity | exact Hc] | apply text_line; [reflexivity|]; apply line_lit; reflexivity|].
  apply kc_add_var; [apply text_line; [reflexivity|]; apply line_app; [apply line_lit; reflexivity | exact Hc] | | exact K].
  apply text_line; [reflexivity|]. apply line_app; [apply line_lit; reflexivity|]. apply line_app; [exact Hc | apply line_lit; reflexivity].
Qed.

(** ** The whole tree *)
Definition locale_codes_ok (loc : option str) : Prop := forall a b, locale_pair loc = Some (a, b) -> line_ok a /\ line_ok b.

Lemma check_locale_texts : forall loc dloc n n1, locale_codes_ok loc -> locale_codes_ok dloc -> text_ok (s "Desc") (nv_languageCode n) -> text_ok (s "Desc") (nv_countryCode n) ->
  check_locale loc dloc n = Ok n1 -> text_ok (s "Desc") (nv_languageCode n1) /\ text_ok (s "Desc") (nv_countryCode n1).
Proof.
  intros loc dloc n n1 H1 H2 H3 H4 H. unfold check_locale in H. destruct (negb (otruthy (nv_languageCode n))).
  - destruct (locale_pair loc) as [[a b]|] eqn:E; [injection H as <-; destruct (H1 a b E); split; apply text_line; try reflexivity; assumption|].
    destruct (locale_pair dloc) as [[a b]|] eqn:E2; [injection H as <-; destruct (H2 a b E2); split; apply text_line; try reflexivity; assumption | discriminate].
  - match type of H with (if ?b then _ else _) = _ => destruct b end; injection H as <-; [auto|]. split; apply text_line; try reflexivity; apply line_lit; reflexivity.
Qed.

Theorem build_tree_clean : forall loc dloc n r0 n1 r1, locale_codes_ok loc -> locale_codes_ok dloc ->
  text_ok (s "Desc") (nv_languageCode n) -> text_ok (s "Desc") (nv_countryCode n) ->
  novel_texts n -> kc r0 -> (forall k, sec (s "SCENES") r0 = Some k -> only (s "SCENE") k) -> build_tree loc dloc n (Some r0) = Ok (n1, r1) -> kc r1.
Proof.
  intros loc dloc n r0 n1 r1 HL1 HL2 HLC HCC T H Hon Hb. pose proof (build_tree_inv loc dloc n r0 n1 r1 Hb) as Inv. unfold build_tree in Hb.
  apply bind_ok in Hb. destruct Hb as (ra & Ha & Hb). apply kc_in_section in Ha; [|reflexivity | intros k k1 Hk E; injection E as <-; apply kc_build_project; assumption | exact H].
  apply bind_ok in Hb. destruct Hb as (rb & Hb1 & Hb). apply kc_in_section in Hb1; [|reflexivity | | exact Ha].
  2: { intros k k1 Hk E. destruct (nt_locations n T) as [T1 T2]. refine (kc_rebuild _ _ _ _ (world_texts LOC_KWVAR) k k1 _ _ _ T1 T2 Hk E); [reflexivity | reflexivity | intros; apply kc_build_world; assumption]. }
  apply bind_ok in Hb. destruct Hb as (rc & Hc1 & Hb). apply kc_in_section in Hc1; [|reflexivity | | exact Hb1].
  2: { intros k k1 Hk E. destruct (nt_items n T) as [T1 T2]. refine (kc_rebuild _ _ _ _ (world_texts ITM_KWVAR) k k1 _ _ _ T1 T2 Hk E); [reflexivity | reflexivity | intros; apply kc_build_world; assumption]. }
  apply bind_ok in Hb. destruct Hb as (rd & Hd1 & Hb). apply kc_in_section in Hd1; [|reflexivity | | exact Hc1].
  2: { intros k k1 Hk E. destruct (nt_characters n T) as [T1 T2]. refine (kc_rebuild _ _ _ _ character_texts k k1 _ _ _ T1 T2 Hk E); [reflexivity | reflexivity | intros; apply kc_build_character; assumption]. }
  apply bind_ok in Hb. destruct Hb as (re & He1 & Hb).
  assert (Ke : kc re).
  { unfold build_notes in He1. destruct (nv_srtPrjNotes n) as [|i l] eqn:En; [injection He1 as <-; apply kc_remove; exact Hd1|].
    apply kc_in_section in He1; [exact He1 | reflexivity | |].
    - intros k k1 Hk E. destruct (nt_notes n T) as [T1 T2]. rewrite En in T1, T2. refine (kc_rebuild _ _ _ _ note_texts k k1 _ _ _ T1 T2 Hk E); [reflexivity | reflexivity | intros; apply kc_build_note; assumption].
    - destruct (has (s "PROJECTNOTES") rd); [exact Hd1 | apply kc_sub; [reflexivity | exact I | exact Hd1]]. }
  apply bind_ok in Hb. destruct Hb as ([n2 rf] & Hf1 & Hb).
  assert (Kf : kc rf /\ nv_scenes n2 = nv_scenes n /\ nv_chapters n2 = nv_chapters n /\ nv_srtChapters n2 = nv_srtChapters n).
  { destruct (has_language n); [|injection Hf1 as <- <-; auto]. apply bind_ok in Hf1. destruct Hf1 as (n3 & Hn3 & Hf1).
    destruct (check_locale_texts loc dloc n n3 HL1 HL2 HLC HCC Hn3) as [C1 C2].
    assert (Ls : nv_languages n3 = nv_languages n /\ nv_scenes n3 = nv_scenes n /\ nv_chapters n3 = nv_chapters n /\ nv_srtChapters n3 = nv_srtChapters n).
    { clear -Hn3. unfold check_locale in Hn3. destruct (negb (otruthy (nv_languageCode n))).
      - destruct (locale_pair loc) as [[a b]|]; [injection Hn3 as <-; auto|]. destruct (locale_pair dloc) as [[a b]|]; [injection Hn3 as <-; auto | discriminate].
      - match type of Hn3 with (if ?b then _ else _) = _ => destruct b end; injection Hn3 as <-; auto. }
    destruct (nv_languages n3) as [ls|] eqn:El; [|discriminate]. apply bind_ok in Hf1. destruct Hf1 as (r5 & H5 & Hf1). injection Hf1 as <- <-. split; [|tauto].
    apply kc_in_section in H5; [exact H5 | reflexivity | |].
    - intros k k1 Hk E. refine (kc_vars n3 ls k k1 C1 C2 _ Hk E). intros c Hc. destruct Ls as [Ls _]. symmetry in Ls. exact (nt_langs n T ls c Ls Hc).
    - destruct (has (s "PROJECTVARS") re); [exact Ke | apply kc_sub; [reflexivity | exact I | exact Ke]]. }
  destruct Kf as (Kf & Nsc & Nch & Nsr).
  apply bind_ok in Hb. destruct Hb as (rg & Hg1 & Hb). apply kc_in_section in Hg1; [|reflexivity | | exact Kf].
  2: { intros k k1 Hk E. unfold build_scenes in E. apply bind_ok in E. destruct E as (saved & Hs & E). apply bind_ok in E. destruct E as (new & Hm & E). injection E as <-.
       apply kc_app; [apply kc_filter; exact Hk|]. refine (mapM_Forall _ _ _ _ _ Hm). intros [i x] e Hin He. rewrite Nsc in Hin. destruct (nt_scenes n T) as [T1 T2]. cbn [fst snd] in He.
       refine (clean_renew (s "SCENE") build_scene saved i x e eq_refl eq_refl _ _ _ He).
       - apply T1. apply in_map_iff. exists (i, x). auto.
       - intros l l1 Hl. apply kc_build_scene; [apply (T2 i); exact Hin | exact Hl].
       - intros j y Hy. apply (save_elems_in _ _ _ Hs) in Hy. destruct Hy as [Hy Ht]. rewrite Forall_forall in Hk. auto. }
  apply bind_ok in Hb. destruct Hb as (rh & Hh1 & Hb). apply kc_in_section in Hh1; [|reflexivity | | exact Hg1].
  2: { intros k k1 Hk E. unfold build_chapters in E. apply bind_ok in E. destruct E as (saved & Hs & E). apply bind_ok in E. destruct E as (new & Hm & E). injection E as <-.
       apply kc_app; [apply kc_filter; exact Hk|]. refine (mapM_Forall _ _ _ _ _ Hm). intros i e Hin He. rewrite Nsr in Hin. destruct (nt_chapters n T) as [T1 T2].
       apply bind_ok in He. destruct He as (c & Hc & He). refine (clean_renew (s "CHAPTER") build_chapter saved i c e eq_refl eq_refl _ _ _ He).
       - apply T1. exact Hin.
       - intros l l1 Hl. apply kc_build_chapter; [|exact Hl]. apply (T2 i); [|exact Hin]. unfold dindex in Hc. rewrite Nch in Hc. destruct (dget i (nv_chapters n)); [injection Hc as <-; reflexivity | discriminate].
       - intros j y Hy. apply (save_elems_in _ _ _ Hs) in Hy. destruct Hy as [Hy Ht]. rewrite Forall_forall in Hk. auto. }
  apply bind_ok in Hb. destruct Hb as (ri & Hi1 & Hb). injection Hb as <- <-.
  destruct Inv as (Hloc & _ & _ & _ & _ & _ & _ & _ & _ & (kS & kS1 & kS2 & S0 & S1 & S2 & S3) & _).
  unfold in_section in Hi1. destruct (find (s "SCENES") rh) as [e|] eqn:E; [|discriminate]. apply bind_ok in Hi1. destruct Hi1 as (k & Hk & Hi). injection Hi as <-.
  assert (Fe : clean e /\ e_tag e = s "SCENES").
  { clear -E Hh1. induction Hh1 as [|a r Ha H IH]; [discriminate|]. cbn [find] in E. destruct (str_eqb (e_tag a) (s "SCENES")) eqn:Et; [injection E as <-; split; [exact Ha | apply str_eqb_eq; exact Et] | apply IH; exact E]. }
  destruct Fe as [Fe Ft]. apply kc_upd; [|exact Hh1]. intros a _ Hta Hca. apply (clean_with_kids (s "SCENES")); [exact Hta | reflexivity | | exact Hca].
  destruct (nt_scenes n T) as [T1 T2]. refine (kc_finish n2 (e_kids e) k _ (clean_kids e Fe) Hk _); [rewrite Nsc; exact T2|].
  intros x Hx. unfold finish_scene in Hk.
  assert (Only : only (s "SCENE") k).
  { assert (Ek : kS2 = k).
    { unfold sec in S3. destruct (find (s "SCENES") (upd (s "SCENES") (with_kids k) rh)) as [z|] eqn:Ez; [|discriminate S3]. cbn in S3. injection S3 as <-.
      clear -E Ez. induction rh as [|a r IH]; [discriminate|]. cbn [find upd] in *. destruct (str_eqb (e_tag a) (s "SCENES")) eqn:Et.
      - cbn [find] in Ez. replace (str_eqb (e_tag (with_kids k a)) (s "SCENES")) with true in Ez by (symmetry; exact Et). injection Ez as <-. reflexivity.
      - cbn [find] in Ez. rewrite Et in Ez. apply IH; assumption. }
    subst kS2. intros y Hy.
    assert (O1 : only (s "SCENE") kS1).
    { unfold build_scenes in S1. apply bind_ok in S1. destruct S1 as (sv & Hsv & S1). apply bind_ok in S1. destruct S1 as (new & Hm & S1). injection S1 as <-.
      rewrite (only_filter _ _ (Hon kS S0)). cbn [app]. unfold only. apply Forall_forall. apply (mapM_Forall _ _ _ (fun e => e_tag e = s "SCENE") ) in Hm; [exact Hm|].
      intros [i x0] b _ Hb. unfold renew in Hb. cbn [fst snd] in Hb. destruct (dget i sv) as [e0|] eqn:E0; apply bind_ok in Hb; destruct Hb as (kk & _ & Hb); injection Hb as <-; [|reflexivity].
      apply (save_elems_in _ _ _ Hsv) in E0. apply E0. }
    apply mapM_Forall2 in S2. clear -S2 O1 Hy. induction S2 as [|a b l l1 Hab S2 IH]; [destruct Hy|]. destruct Hy as [<- | Hy]; [|apply IH; first [exact Hy | intros z Hz; apply O1; right; exact Hz]].
    assert (Hta : e_tag a = s "SCENE") by (apply O1; left; reflexivity). unfold finish_scene in Hab. destruct (find (s "ID") (e_kids a)) as [w|]; [|discriminate]. destruct (e_text w); [|discriminate].
    apply bind_ok in Hab. destruct Hab as (x1 & _ & Hab). apply bind_ok in Hab. destruct Hab as (x2 & _ & Hab). injection Hab as <-. exact Hta. }
  (* the tags are the same before the last step *)
  apply mapM_Forall2 in Hk. apply In_nth_error in Hx. destruct Hx as (m & Hx).
  clear -Hk Hx Only. revert m Hx. induction Hk as [|a b l l1 Hab Hk IH]; intros m Hx; [destruct m; discriminate|].
  destruct m as [|m]; [|apply (IH (fun z Hz => Only z (or_intror Hz)) m Hx)]. injection Hx as ->.
  assert (Hb : e_tag b = s "SCENE") by (apply Only; left; reflexivity).
  destruct (find (s "ID") (e_kids x)) as [w|]; [|discriminate]. destruct (e_text w); [|discriminate].
  apply bind_ok in Hab. destruct Hab as (x1 & _ & Hab). apply bind_ok in Hab. destruct Hab as (x2 & _ & Hab). injection Hab as <-. cbn in Hb. rewrite Hb. reflexivity.
Qed.
