(** The project file after any number of saves and openings. *)
From Coq Require Import String List NArith ZArith Bool Lia Arith.
From Verif Require Import PyStr PyDict Spec Globals GlobalsProofs NovelModel NovelOps NovelOpsProofs YwTree IsoDate Yw7Build Yw7Read YwTreeProofs Yw7SceneProofs
  Yw7StartProofs Yw7SceneRT Yw7ChapterRT Yw7ElemRT Yw7ListRT Yw7TreeInv Yw7ProjRT Yw7SecRT Yw7TreeRT YwText YwTextProofs SpecYw7 Yw7Clean Yw7Clean2 Yw7Repr Yw7Repr2 Yw7Repr3
  Yw7Strict Yw7Reopen Yw7Reopen2 Yw7Session SpecSession SessionTree SessionTotal SessionAgain.
Import ListNotations.

Lemma over_long : forall t x o y, cd t = true -> same_text o y -> same_text (over x o) (keep out_text t x y).
Proof. intros t [v|] o y Hc H; [apply same_long; exact Hc | exact H]. Qed.
Lemma over_plain : forall t x o y, cd t = false -> opt_ok plain_text x -> same_text o y -> same_text (over x o) (keep out_text t x y).
Proof. intros t [v|] o y Hc H1 H; [apply same_plain; assumption | exact H]. Qed.
Lemma over_start_new : forall x o y, start_text (sc_date x) (sc_time x) (sc_day x) -> (sc_date y, sc_time y, sc_day y) = (sc_date o, sc_time o, sc_day o) ->
  new_start (sc_date x) (sc_time x) (sc_day x) (sc_date y, sc_time y, sc_day y) = over_start x o.
Proof.
  intros x o y H E. rewrite E. unfold over_start. destruct H as [d t Hd Ht | | | |]; try reflexivity.
  destruct d; [discriminate Hd|]. reflexivity.
Qed.

Lemma scene_over : forall cs ls x o old, scene_ok cs ls x -> same_scene o old -> same_scene (over_scene x o) (custom_vars (merged_scene out_text cs ls (prepare_scene x) old)).
Proof.
  intros cs ls x o old H S. pose proof (scene_same cs ls x H) as [P1 P2 P3 P4 P5 P6 P7 P8 P9 P10 P11 P12 P13 P14 P15 P16 P17 P18 P19]. destruct H.
  destruct S as [S1 S2 S3 S4 S5 S6 S7 S8 (S91 & S92 & S93 & S94) (S101 & S102 & S103) S11 S12 S13 (S141 & S142 & S143 & S144) S15 S16 S17 S18 S19].
  pose proof (over_start_new x o old so_start S15) as HS. pose proof (prepare_eq x) as (kw & Ex & Ha & Hm). rewrite Ex in *. unfold custom_vars, merged_scene, over_scene in *.
  destruct (over_start x o) as [[d t] y].
  constructor; cbn [set_sc_scnArcs set_sc_scnMode set_sc_kw sc_title sc_desc sc_content sc_notes sc_tags sc_field1 sc_field2 sc_field3 sc_field4
   sc_lastsDays sc_lastsHours sc_lastsMinutes sc_goal sc_conflict sc_outcome sc_image sc_kw sc_date sc_time sc_day sc_characters sc_locations sc_items
   sc_type sc_status sc_appendToPrev sc_isReactionScene sc_isSubPlot sc_doNotExport sc_scnArcs sc_scnMode fst snd] in *;
   try (apply over_long; [reflexivity | assumption]).
  - apply over_plain; [reflexivity | assumption | assumption].
  - repeat split; apply over_plain; try reflexivity; assumption.
  - repeat split; apply over_plain; try reflexivity; assumption.
  - exact P11.
  - rewrite S12. destruct (sc_status x); reflexivity.
  - destruct (sc_tags x) as [l|]; [exact P13 | exact S13].
  - destruct P14 as (Q1 & Q2 & Q3 & Q4). repeat split; try assumption. destruct (sc_doNotExport x); [exact Q4 | exact S144].
  - rewrite HS. reflexivity.
  - exact P16.
  - exact P17.
  - exact P18.
  - exact P19.
Qed.

Lemma chapter_over : forall scs c o old, chapter_ok (dkeys scs) c -> same_chapter o old -> same_chapter (over_chapter c o) (merged_chapter out_text scs c old).
Proof.
  intros scs c o old H S. pose proof (chapter_same scs c H) as [P1 P2 P3 P4 P5 P6 P7 P8]. destruct H. destruct S as [S1 S2 S3 S4 S5 S6 S7 S8]. unfold merged_chapter, over_chapter in *.
  constructor; cbn [ch_title ch_desc ch_type ch_level ch_isTrash ch_suppressBreak ch_suppressTitle ch_srtScenes] in *.
  - apply over_long; [reflexivity | exact S1].
  - apply over_long; [reflexivity | exact S2].
  - reflexivity.
  - destruct co_level as [-> | [-> | ->]]; [exact S4 | reflexivity | reflexivity].
  - destruct (ch_suppressTitle c) as [[]|], (ch_suppressBreak c) as [[]|], (ch_isTrash c) as [[]|], (ch_isTrash old); reflexivity.
  - destruct (ch_suppressTitle c) as [[]|], (ch_suppressBreak c) as [[]|], (ch_isTrash c) as [[]|], (ch_isTrash old); reflexivity.
  - assert (Q : at_sign (keep out_text (s "Title") (ch_title c) (ch_title old)) = prefixb (s "@") (text_of (over (ch_title c) (ch_title o)))).
    { unfold keep. destruct (ch_title c) as [v|]; [rewrite out_long by reflexivity; destruct v; reflexivity|].
      unfold over, same_text in *. rewrite S1. destruct (ch_title old) as [[|]|]; reflexivity. }
    rewrite Q. generalize (prefixb (s "@") (text_of (over (ch_title c) (ch_title o)))). intro b. unfold flag. rewrite orb_comm. destruct (ch_suppressTitle c) as [[]|]; destruct b; reflexivity.
  - exact P8.
Qed.

(** ** One save *)
Record holds (c n0 : novel) : Prop := { ho_story : same_story c n0; ho_world : same_world_data c n0; ho_chapters : dkeys (nv_chapters c) = nv_srtChapters c; ho_nodup : NoDup (nv_srtChapters c) }.

Lemma cover_get : forall {A} (f : A -> A -> A) o d i, dget i (map (cover f o) d) = option_map (fun x => match dget i o with Some y => f x y | None => x end) (dget i d).
Proof.
  intros A f o d i. induction d as [|[j x] d IH]; [reflexivity|]. cbn [map cover dget fst snd]. destruct (str_eqb i j) eqn:E; [|exact IH]. apply str_eqb_eq in E. subst j. reflexivity.
Qed.
Lemma cover_keys : forall {A} (f : A -> A -> A) o d, dkeys (map (cover f o) d) = dkeys d.
Proof. intros. unfold dkeys. rewrite map_map. reflexivity. Qed.

Lemma same_keys_none : forall i c n0, same_story c n0 -> dget i (nv_scenes c) = None -> dget i (nv_scenes n0) = None.
Proof. intros i c n0 [H _ _] E. apply dget_None. rewrite H. apply dget_None. exact E. Qed.

Theorem saved_holds : forall n n1 n0 n' c, representable n -> holds c n0 -> saved out_text (prepare n) n1 n0 n' -> holds (over_novel c n) n'.
Proof.
  intros n n1 n0 n' c R [HS HW HK HN] S. destruct (prepare_shape n) as (ls & sc & kw & Epr & Esc & Els & _).
  destruct S. rewrite Epr in *. clear sv_langs sv_nolangs.
  cbn [set_nv_kw set_nv_scenes set_nv_languages nv_title nv_desc nv_authorName nv_authorBio nv_fieldTitle1 nv_fieldTitle2 nv_fieldTitle3 nv_fieldTitle4 nv_kw nv_wordTarget nv_wordCountStart
    nv_srtLocations nv_locations nv_srtItems nv_items nv_srtCharacters nv_characters nv_srtPrjNotes nv_projectNotes nv_scenes nv_chapters nv_srtChapters nv_languages] in *.
  constructor; unfold over_novel.
  - constructor; cbn [set_nv_title set_nv_desc set_nv_authorName set_nv_authorBio set_nv_fieldTitle1 set_nv_fieldTitle2 set_nv_fieldTitle3 set_nv_fieldTitle4 set_nv_wordTarget set_nv_wordCountStart
      set_nv_scenes set_nv_chapters nv_scenes nv_chapters nv_srtChapters].
    + rewrite cover_keys, sv_scenes, Esc. unfold dkeys. rewrite !map_map. reflexivity.
    + intros i x Hx. rewrite cover_get in Hx. destruct (dget i (nv_scenes n)) as [x0|] eqn:E0; [|discriminate]. cbn [option_map] in Hx. injection Hx as <-.
      exists (custom_vars (merged_scene out_text (nv_srtCharacters n) (nv_srtLocations n) (prepare_scene x0) (or_else (dget i (nv_scenes n0)) blank_scene))). split.
      * rewrite sv_scenes, Esc. clear -E0. induction (nv_scenes n) as [|[j y] d IH]; [discriminate|]. cbn [map dget fst snd] in *.
        destruct (str_eqb i j) eqn:E; [apply str_eqb_eq in E; injection E0 as ->; subst j; reflexivity | apply IH; exact E0].
      * pose proof (proj2 (re_scenes n R) i x0 E0) as Ok0. destruct (dget i (nv_scenes c)) as [o|] eqn:Ec.
        -- destruct (sn_scenes c n0 HS i o Ec) as (y & Ey & Hy). rewrite Ey. cbn [or_else]. apply scene_over; assumption.
        -- rewrite (same_keys_none i c n0 HS Ec). cbn [or_else]. apply scene_same. exact Ok0.
    + destruct sv_srtChapters as [C1 C2]. split; [exact C1|]. split; [exact C2|]. intros i Hi. destruct (sv_chapters i Hi) as (d & Hd & Hd'). rewrite cover_get, Hd. cbn [option_map].
      eexists. eexists. split; [reflexivity|]. split; [exact Hd'|].
      pose proof (proj2 (proj2 (re_chapters n R)) i d Hd) as Ok0. rewrite (merged_chapter_keys out_text sc (nv_scenes n)) by (rewrite Esc; unfold dkeys; rewrite map_map; reflexivity).
      destruct (sn_chapters c n0 HS) as (K1 & K2 & K3). destruct (dget i (nv_chapters c)) as [o|] eqn:Ec.
      * assert (Hin : In i (nv_srtChapters c)) by (rewrite <- HK; apply dget_Some_key; exists o; exact Ec). destruct (K3 i Hin) as (a & b & A1 & A2 & A3). rewrite Ec in A1. injection A1 as <-. rewrite A2. cbn [or_else].
        apply chapter_over; assumption.
      * assert (Z : dget i (nv_chapters n0) = None) by (apply dget_None; rewrite K2, <- HK; apply dget_None; exact Ec). rewrite Z. cbn [or_else]. apply chapter_same. exact Ok0.
  - destruct HW as [W1 W2 W3 W4 (W51 & W52 & W53 & W54) W6 W7 _ _ _ _].
    constructor; cbn [set_nv_title set_nv_desc set_nv_authorName set_nv_authorBio set_nv_fieldTitle1 set_nv_fieldTitle2 set_nv_fieldTitle3 set_nv_fieldTitle4 set_nv_wordTarget set_nv_wordCountStart
      set_nv_scenes set_nv_chapters nv_title nv_desc nv_authorName nv_authorBio nv_fieldTitle1 nv_fieldTitle2 nv_fieldTitle3 nv_fieldTitle4 nv_wordTarget nv_wordCountStart
      nv_srtLocations nv_locations nv_srtItems nv_items nv_srtCharacters nv_characters nv_srtPrjNotes nv_projectNotes].
    + rewrite sv_title. apply over_long; [reflexivity | exact W1].
    + rewrite sv_desc. apply over_long; [reflexivity | exact W2].
    + rewrite sv_author. apply over_long; [reflexivity | exact W3].
    + rewrite sv_bio. apply over_long; [reflexivity | exact W4].
    + rewrite sv_f1, sv_f2, sv_f3, sv_f4. repeat split; apply over_long; try reflexivity; assumption.
    + rewrite sv_target, W6. destruct (nv_wordTarget n); reflexivity.
    + rewrite sv_start, W7. destruct (nv_wordCountStart n); reflexivity.
    + exact (listing_same _ _ _ _ _ _ _ (re_locations n R) world_same sv_locations).
    + exact (listing_same _ _ _ _ _ _ _ (re_items n R) world_same sv_items).
    + exact (listing_same _ _ _ _ _ _ _ (re_characters n R) character_same sv_characters).
    + exact (listing_same _ _ _ _ _ _ _ (re_notes n R) note_same sv_notes).
  - cbn [set_nv_title set_nv_desc set_nv_authorName set_nv_authorBio set_nv_fieldTitle1 set_nv_fieldTitle2 set_nv_fieldTitle3 set_nv_fieldTitle4 set_nv_wordTarget set_nv_wordCountStart
      set_nv_scenes set_nv_chapters nv_chapters nv_srtChapters]. rewrite cover_keys. apply re_chapters. exact R.
  - apply (re_chapters n R).
Qed.

(** ** The invariant *)
(** [P]: all novels saved so far have plain language tags.  Then what is in the file can be saved again. *)
Section Plain.
Variable P : Prop.
Definition lasting (c n0 : novel) : Prop := holds c n0 /\ (P -> representable n0 /\ plain_tags n0).
Record good (m r' : list elem) (c : novel) : Prop := {
  gd_clean : kc (wipe3 m);
  gd_strict : ks (wipe3 m);
  gd_wf : tree_wf out_text m;
  gd_old : old_ok out_text m r';
  gd_read : forall ext, exists n0, read_tree ext r' new_novel = Ok n0 /\ lasting c n0
}.

Lemma kc_wipe3 : forall r, kc r -> kc (wipe3 r).
Proof. intros r H. rewrite wipe3_wipes. apply wipes_clean. exact H. Qed.
Lemma scenes_only : forall m, tree_wf out_text m -> forall k, sec (s "SCENES") m = Some k -> only (s "SCENE") k.
Proof.
  intros m [_ _ _ _ _ _ (kS & lS & ES & (EM & _ & F) & _) _] k E. rewrite ES in E. injection E as <-. subst kS.
  intros e He. apply in_map_iff in He. destruct He as (p & <- & Hp). rewrite Forall_forall in F. apply (F p Hp).
Qed.
Lemma settled_self : forall k, Forall again k -> Forall2 (settled out_text) k k.
Proof. intros k H. induction H as [|e k He H IH]; constructor; [apply He | exact IH]. Qed.

Lemma new_good : good new_root new_root new_novel.
Proof.
  constructor.
  - apply kc_wipe3, new_root_clean.
  - rewrite wipe3_wipes. unfold new_root. repeat (constructor; [constructor; [exact I | constructor]|]). constructor.
  - exact new_root_wf.
  - apply settled_old, new_root_settled.
  - intro ext. eexists. split; [vm_compute; reflexivity|]. split; [|intros _; apply (new_again ext); vm_compute; reflexivity]. constructor.
    + constructor; [reflexivity | intros i x E; discriminate E | split; [reflexivity|]; split; [reflexivity | intros i []]].
    + constructor; try reflexivity; try (repeat split; reflexivity); (split; [reflexivity|]; split; [reflexivity | intros i []]).
    + reflexivity.
    + constructor.
Qed.

Theorem save_good : forall ent loc dloc n m r' c n1 r1 t, representable n -> (P -> plain_tags n) -> locale_text loc -> locale_text dloc -> good m r' c ->
  write_text ent loc dloc n (Some m) = Ok (n1, r1, t) ->
  (vars_full m -> vars_full r1) /\ kc r1 /\ ks (wipe3 r1) /\ tree_wf out_text r1 /\ exists root, parse_xml (filter kept (unl t)) = Some root /\ Forall2 (settled out_text) r1 (e_kids root) /\
    forall ext, exists n0, read_tree ext (e_kids root) new_novel = Ok n0 /\ lasting (over_novel c n) n0.
Proof.
  intros ent loc dloc n m r' c n1 r1 t R T L1 L2 [G1 G2 G3 G4 G5] Hw. unfold write_text in Hw. apply bind_ok in Hw. destruct Hw as ([n1' r1'] & Hw & E). cbn [fst snd] in E. injection E as -> -> <-.
  unfold write_tree in Hw.
  assert (K : kc r1).
  { refine (build_tree_clean loc dloc (prepare n) (wipe3 m) n1 r1 (locale_ok _ L1) (locale_ok _ L2) _ _ (prepared_texts n R) G1 _ (build_wiped _ _ _ _ _ _ G3 Hw)).
    - destruct (prepare_shape n) as (ls & sc & kw & -> & _). apply text_long; [reflexivity | exact (re_code n R)].
    - destruct (prepare_shape n) as (ls & sc & kw & -> & _). apply text_long; [reflexivity | exact (re_country n R)].
    - intros k E. rewrite sec_wipe3_other in E by reflexivity. exact (scenes_only m G3 k E). }
  assert (KS : ks (wipe3 r1)) by exact (build_strict _ _ _ _ _ _ (prepared_amp n R) G2 Hw).
  destruct (file_parses ent (match nv_chapters n with [] => true | _ => false end) r1 K) as (root & Hp & Hs & _).
  assert (KW : get_kw (s "Field_LanguageCode") (nv_kw (prepare n)) = None /\ get_kw (s "Field_CountryCode") (nv_kw (prepare n)) = None).
  { destruct (prepare_shape n) as (ls & sc & kw & -> & _ & _ & K1 & K2). split; assumption. }
  assert (Q : forall ext, tree_wf out_text r1 /\ exists n0, read_tree ext (e_kids root) new_novel = Ok n0 /\ lasting (over_novel c n) n0).
  { intro ext. destruct (G5 ext) as (n0 & Hn0 & Hh & Ha).
    destruct (tree_roundtrip out_text oc_None oc_nil oc_safe ext loc dloc (prepare n) m r' n0 n1 r1 (e_kids root) G3 G4 Hn0 (prepared_storable n R) (proj1 KW) (proj2 KW) Hw Hs) as (W & n' & Hr & S).
    split; [exact W|]. exists n'. split; [exact Hr|]. split; [exact (saved_holds n n1 n0 n' c R Hh S)|]. intro HP. destruct (Ha HP) as [A1 A2]. apply (saved_again loc dloc n n1 n0 n' R (T HP) A1 A2 L1 L2); [|exact S].
    intro Hl. destruct (build_tree_inv _ _ _ _ _ _ Hw) as (_ & _ & _ & _ & _ & _ & _ & _ & V & _). rewrite Hl in V. apply V. }
  split; [exact (tree_full _ _ _ _ _ _ Hw)|]. split; [exact K|]. split; [exact KS|]. split; [exact (proj1 (Q (fun _ => None)))|]. exists root. split; [exact Hp|]. split; [exact Hs|]. intro ext. apply (Q ext).
Qed.

Lemma memory_good : forall r r' c, kc r -> ks (wipe3 r) -> tree_wf out_text r -> Forall2 (settled out_text) r r' ->
  (forall ext, exists n0, read_tree ext r' new_novel = Ok n0 /\ lasting c n0) -> good (map (indented 1) r) r' c.
Proof.
  intros r r' c K KS W H Hr. constructor.
  - apply kc_wipe3. apply Forall_forall. intros e He. apply in_map_iff in He. destruct He as (e0 & <- & He). apply indented_clean. exact (proj1 (Forall_forall _ _) K e0 He).
  - apply wipe3_strict; assumption.
  - apply indented_wf. exact W.
  - apply settled_old. apply indented_out_list. exact H.
  - exact Hr.
Qed.
Lemma opened_good : forall r r' c, kc r -> ks (wipe3 r) -> tree_wf out_text r -> Forall2 (settled out_text) r r' ->
  (forall ext, exists n0, read_tree ext r' new_novel = Ok n0 /\ lasting c n0) -> good r' r' c.
Proof.
  intros r r' c K KS W H Hr. pose proof (wipe3_again r r' H K KS) as A.
  assert (W' : tree_wf out_text r') by (apply (tree_settled out_text (fun i E => E) (fun i E => E) r); assumption).
  constructor; try assumption.
  - revert A. apply Forall_impl. intros e E. apply E.
  - revert A. apply Forall_impl. intros e E. apply E.
  - assert (Q : forall t, other t = true -> sec_ok out_text t r' r').
    { intros t Ht. unfold sec_ok. rewrite <- (sec_wipe3_other t r' Ht). destruct (sec t (wipe3 r')) as [k|] eqn:E; [|reflexivity]. exists k. split; [reflexivity|].
      apply settled_self. unfold sec in E. destruct (find t (wipe3 r')) as [e|] eqn:Ef; [|discriminate]. injection E as <-.
      assert (He : again e). { apply (proj1 (Forall_forall _ _) A). clear -Ef. induction (wipe3 r') as [|a q IH]; [discriminate|]. cbn [find] in Ef. destruct (str_eqb (e_tag a) t); [injection Ef as ->; left; reflexivity | right; apply IH; exact Ef]. }
      destruct He as (H1 & H2 & H3). destruct e as [t0 x k]. cbn [e_kids]. inversion H1 as [? ? ? _ _ _ C]; subst. inversion H2 as [? ? ? _ D]; subst. pose proof (settled_kids out_text _ _ H3) as F. cbn [e_kids] in F.
      clear -C D F. induction k as [|a k IH]; [constructor|]. inversion C; inversion D; inversion F; subst. constructor; [split; [assumption | split; assumption] | apply IH; assumption]. }
    split; [intros t [<- | [<- | [<- | [<- | []]]]]; apply Q; reflexivity|]. intros t _ Hn. destruct (sec t r') as [k|]; [exists k; reflexivity | congruence].
Qed.

(** the state of the project and the contents *)
Inductive state : project -> novel -> Prop :=
| st_new : state new_project new_novel
| st_file : forall m r root t c, vars_full r -> vars_full m -> kc r -> ks (wipe3 r) -> tree_wf out_text r -> parse_xml (filter kept (unl t)) = Some root -> Forall2 (settled out_text) r (e_kids root) ->
    (forall ext, exists n0, read_tree ext (e_kids root) new_novel = Ok n0 /\ lasting c n0) -> good m (e_kids root) c ->
    state {| p_tree := Some m; p_file := Some t |} c.

Lemma new_full : vars_full new_root.
Proof. constructor. Qed.
Lemma memory_full : forall r, vars_full r -> vars_full (map (indented 1) r).
Proof. intros r. apply (full_settled same_leaf). apply indented_settled_list. Qed.
Lemma act_state : forall ent p c a p1, state p c -> fits a -> (P -> plain_save a) -> act ent p a = Ok p1 -> state p1 (fold_left over_novel (saves [a]) c).
Proof.
  intros ent p c a p1 H F PS Ha. destruct a as [loc dloc n|]; cbn [saves flat_map app fold_left act] in *.
  - apply bind_ok in Ha. destruct Ha as ([[n1 r1] t] & Hw & E). cbn [fst snd] in E. injection E as <-. destruct F as (F1 & F2 & F3).
    assert (Q : exists m r', good m r' c /\ vars_full m /\ write_text ent loc dloc n (Some m) = Ok (n1, r1, t)).
    { destruct H as [|m r root t0 c V1 V2]; [exists new_root, new_root; split; [exact new_good | split; [exact new_full | exact Hw]] | exists m, (e_kids root); split; [assumption | split; assumption]]. }
    destruct Q as (m & r' & G & V & Hw'). destruct (save_good ent loc dloc n m r' c n1 r1 t F1 PS F2 F3 G Hw') as (V1 & K & KS & W & root & Hp & Hs & Hr). apply V1 in V. clear V1.
    apply (st_file _ r1 root); try assumption; [apply memory_full; exact V|]. apply memory_good; assumption.
  - destruct H as [|m r root t0 c V1 V2 K KS W Hp Hs Hr G]; [discriminate Ha|]. cbn [p_file] in Ha. rewrite Hp in Ha. injection Ha as <-.
    apply (st_file _ r root); try assumption; [exact (full_settled out_text r _ Hs V1)|]. apply (opened_good r); assumption.
Qed.

(** nothing fails once there is a file *)
Lemma locale_pair_known : forall x, locale_name x -> locale_pair x <> None.
Proof.
  intros x (a & b & -> & H1 & H2). unfold locale_pair. change (s "_") with [95%N]. rewrite split_splitc. change ([95%N] ++ b) with (95%N :: b). rewrite splitc_app_sep by exact H1.
  rewrite (splitc_nosep 95 b H2). discriminate.
Qed.
Lemma act_total : forall ent p c a, state p c -> fits a -> known a -> (a = Open -> p <> new_project) -> exists p1, act ent p a = Ok p1.
Proof.
  intros ent p c a H F Kn Hn. destruct a as [loc dloc n|]; cbn [act].
  - destruct F as (F1 & F2 & F3).
    assert (Q : exists m, (write_text ent loc dloc n (p_tree p) = write_text ent loc dloc n (Some m)) /\ tree_wf out_text m /\ vars_full m).
    { destruct H as [|m r root t0 c V1 V2 K KS W Hp Hs Hr G]; [exists new_root; split; [reflexivity | split; [exact new_root_wf | exact new_full]]|]. exists m. split; [reflexivity|]. split; [apply G | exact V2]. }
    destruct Q as (m & -> & W & V). destruct (write_succeeds_old ent loc dloc n m F1 W V) as (n1 & r1 & t & ->); [|eexists; reflexivity].
    intros _. destruct Kn as [(v & -> & Hv) | [Kn | Kn]]; [left; destruct v; [congruence | reflexivity] | right; left; apply locale_pair_known; exact Kn | right; right; apply locale_pair_known; exact Kn].
  - destruct H as [|m r root t0 c V1 V2 K KS W Hp Hs Hr G]; [contradiction (Hn eq_refl eq_refl)|]. cbn [p_file]. rewrite Hp. eexists. reflexivity.
Qed.
Lemma run_state : forall ent l p c p1, state p c -> Forall fits l -> (P -> Forall plain_save l) -> run ent p l = Ok p1 -> state p1 (fold_left over_novel (saves l) c).
Proof.
  intros ent l. induction l as [|a l IH]; intros p c p1 H F PS Hr; cbn [run] in Hr; [injection Hr as <-; exact H|]. apply bind_ok in Hr. destruct Hr as (p0 & Ha & Hr).
  inversion F as [|? ? Fa Fl]; subst. pose proof (act_state ent p c a p0 H Fa (fun z => Forall_inv (PS z)) Ha) as H0. replace (saves (a :: l)) with (saves [a] ++ saves l) by (unfold saves; cbn [flat_map]; rewrite app_nil_r; reflexivity).
  rewrite fold_left_app. apply (IH p0); [assumption | assumption | intro z; exact (Forall_inv_tail (PS z)) | assumption].
Qed.
End Plain.

Theorem session : forall ent l p, Forall fits l -> saves l <> [] -> run ent new_project l = Ok p ->
  exists t, p_file p = Some t /\ forall ext, exists n', read_text ext t new_novel = Ok n' /\ same_story (contents (saves l)) n' /\ same_world_data (contents (saves l)) n'.
Proof.
  intros ent l p F Hs Hr. pose proof (run_state False ent l _ _ p (st_new False) F (fun z => match z with end) Hr) as H. fold (contents (saves l)) in H.
  assert (Q : exists t, p_file p = Some t).
  { clear -Hs Hr. destruct p as [m [t|]]; [exists t; reflexivity|]. exfalso. apply Hs. clear Hs.
    assert (Z : forall l q, run ent q l = Ok {| p_tree := m; p_file := None |} -> saves l = [] /\ p_file q = None).
    { clear. intro l. induction l as [|a l IH]; intros q H; cbn [run] in H; [injection H as ->; split; reflexivity|]. apply bind_ok in H. destruct H as (q1 & Ha & H). destruct (IH q1 H) as [H1 H2].
      destruct a as [loc dloc n|]; cbn [act] in Ha.
      - apply bind_ok in Ha. destruct Ha as ([[n1 r1] t] & _ & E). injection E as <-. discriminate H2.
      - destruct (p_file q) as [t|]; [|discriminate]. destruct (parse_xml _); [|discriminate]. injection Ha as <-. discriminate H2. }
    apply (Z l new_project Hr). }
  destruct Q as (t & Et). exists t. split; [exact Et|]. intro ext. inversion H as [E1 E2 | m r root t0 c V1 V2 K KS W Hp Hse Hrd G E1 E2]; subst; [discriminate Et|]. cbn [p_file] in Et. injection Et as ->.
  destruct (Hrd ext) as (n0 & Hn0 & [H1 H2 _ _] & _). exists n0. split; [unfold read_text; rewrite Hp; exact Hn0|]. split; assumption.
Qed.

Lemma act_not_new : forall ent p a p1, act ent p a = Ok p1 -> p1 <> new_project.
Proof.
  intros ent p a p1 H E. subst p1. destruct a as [loc dloc n|]; cbn [act] in H.
  - apply bind_ok in H. destruct H as (q & _ & H). discriminate H.
  - destruct (p_file p); [|discriminate]. destruct (parse_xml _); discriminate H.
Qed.
Lemma run_total : forall ent l p c, state False p c -> p <> new_project -> Forall fits l -> Forall known l -> exists p1, run ent p l = Ok p1.
Proof.
  intros ent l. induction l as [|a l IH]; intros p c H Hn F Kn; [eexists; reflexivity|]. inversion F as [|? ? Fa Fl]; subst. inversion Kn as [|? ? Ka Kl]; subst.
  destruct (act_total False ent p c a H Fa Ka (fun _ => Hn)) as (p1 & Ha). cbn [run]. rewrite Ha. cbn [bind].
  exact (IH p1 _ (act_state False ent p c a p1 H Fa (fun z => match z with end) Ha) (act_not_new ent p a p1 Ha) Fl Kl).
Qed.
Theorem session_total : forall ent loc dloc n l, Forall fits (Save loc dloc n :: l) -> Forall known (Save loc dloc n :: l) -> exists p, run ent new_project (Save loc dloc n :: l) = Ok p.
Proof.
  intros ent loc dloc n l F Kn. inversion F as [|? ? Fa Fl]; subst. inversion Kn as [|? ? Ka Kl]; subst.
  destruct (act_total False ent new_project new_novel (Save loc dloc n) (st_new False) Fa Ka) as (p1 & Ha); [discriminate|]. cbn [run]. rewrite Ha. cbn [bind].
  exact (run_total ent l p1 _ (act_state False ent _ _ _ p1 (st_new False) Fa (fun z => match z with end) Ha) (act_not_new ent _ _ p1 Ha) Fl Kl).
Qed.
