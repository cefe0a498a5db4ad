(** Opening a project and saving it unchanged changes nothing. *)
From Coq Require Import String List NArith ZArith Bool Lia Arith.
From Verif Require Import PyStr PyDict Spec Globals GlobalsProofs NovelModel NovelOps NovelOpsProofs YwTree IsoDate Yw7Build Yw7Read YwTreeProofs Yw7SceneProofs
  Yw7StartProofs Yw7SceneRT Yw7ChapterRT Yw7ElemRT Yw7ListRT Yw7TreeInv Yw7ProjRT Yw7SecRT Yw7TreeRT YwText YwTextProofs SpecYw7 Yw7Clean Yw7Clean2 Yw7Repr Yw7Repr2 Yw7Repr3
  Yw7Strict Yw7Reopen Yw7Reopen2 Yw7Session SpecSession SessionTree SessionTotal SessionAgain SessionProofs.
Import ListNotations.

Lemma over_text : forall x o y, same_text o x -> same_text (over x o) y -> same_text x y.
Proof. intros [v|] o y H1 H2; [exact H2|]. unfold same_text, over in *. congruence. Qed.
Lemma over_same : forall {A} (x o : option A), x = o -> over x o = x.
Proof. intros A [v|] o <-; reflexivity. Qed.
Lemma over_start_same : forall x o, start_text (sc_date x) (sc_time x) (sc_day x) -> (sc_date x, sc_time x, sc_day x) = (sc_date o, sc_time o, sc_day o) ->
  over_start x o = (sc_date x, sc_time x, sc_day x).
Proof.
  intros x o H E. injection E as E1 E2 E3. unfold over_start. rewrite <- E1, <- E2, <- E3. destruct H; reflexivity.
Qed.
Lemma scene_unchanged : forall x o y, start_text (sc_date x) (sc_time x) (sc_day x) -> same_scene o x -> same_scene (over_scene x o) y -> same_scene x y.
Proof.
  intros x o y HS [S1 S2 S3 S4 S5 S6 S7 S8 (S91 & S92 & S93 & S94) (S101 & S102 & S103) S11 S12 S13 (S141 & S142 & S143 & S144) S15 S16 S17 S18 S19] H.
  pose proof (over_start_same x o HS S15) as EQ. destruct H as [H1 H2 H3 H4 H5 H6 H7 H8 (H91 & H92 & H93 & H94) (H101 & H102 & H103) H11 H12 H13 (H141 & H142 & H143 & H144) H15 H16 H17 H18 H19].
  unfold over_scene in *. rewrite EQ in *.
  cbn [sc_title sc_desc sc_content sc_notes sc_tags sc_field1 sc_field2 sc_field3 sc_field4
   sc_lastsDays sc_lastsHours sc_lastsMinutes sc_goal sc_conflict sc_outcome sc_image sc_kw sc_date sc_time sc_day sc_characters sc_locations sc_items
   sc_type sc_status sc_appendToPrev sc_isReactionScene sc_isSubPlot sc_doNotExport sc_scnArcs sc_scnMode] in *.
  constructor; try (eapply over_text; eassumption); try assumption.
  - repeat split; eapply over_text; eassumption.
  - repeat split; eapply over_text; eassumption.
  - rewrite H12. apply over_same. exact S12.
  - destruct (sc_tags x) as [l|]; [exact H13|]. unfold same_list, over in *. congruence.
  - repeat split; try assumption. destruct (sc_doNotExport x); [exact H144|]. unfold over in H144. congruence.
Qed.
Lemma chapter_unchanged : forall c o d, same_chapter o c -> same_chapter (over_chapter c o) d -> same_chapter c d.
Proof.
  intros c o d [S1 S2 S3 S4 S5 S6 S7 S8] [H1 H2 H3 H4 H5 H6 H7 H8]. unfold over_chapter in *. cbn [ch_title ch_desc ch_type ch_level ch_isTrash ch_suppressBreak ch_suppressTitle ch_srtScenes] in *.
  constructor; try (eapply over_text; eassumption); try assumption.
  - destruct (ch_level c); [exact H4|]. unfold over in H4. congruence.
  - assert (Q : text_of (over (ch_title c) (ch_title o)) = text_of (ch_title c)) by (destruct (ch_title c); [reflexivity | exact S1]). rewrite Q in H7. exact H7.
Qed.

Theorem novel_unchanged : forall c n n2, representable n -> holds c n -> holds (over_novel c n) n2 -> same_story n n2 /\ same_world_data n n2.
Proof.
  intros c n n2 R [A1 A2 A3 A4] [B1 B2 B3 B4]. unfold over_novel in *.
  cbn [set_nv_title set_nv_desc set_nv_authorName set_nv_authorBio set_nv_fieldTitle1 set_nv_fieldTitle2 set_nv_fieldTitle3 set_nv_fieldTitle4 set_nv_wordTarget set_nv_wordCountStart
      set_nv_scenes set_nv_chapters nv_chapters nv_srtChapters] in *. split.
  - destruct A1 as [P1 P2 (P3 & P4 & P5)]. destruct B1 as [Q1 Q2 (Q3 & Q4 & Q5)].
    cbn [set_nv_title set_nv_desc set_nv_authorName set_nv_authorBio set_nv_fieldTitle1 set_nv_fieldTitle2 set_nv_fieldTitle3 set_nv_fieldTitle4 set_nv_wordTarget set_nv_wordCountStart
      set_nv_scenes set_nv_chapters nv_chapters nv_srtChapters nv_scenes] in *. constructor.
    + rewrite Q1. apply cover_keys.
    + intros i x Hx. assert (Hk : In i (dkeys (nv_scenes c))) by (rewrite <- P1; apply dget_Some_key; exists x; exact Hx). apply dget_Some_key in Hk. destruct Hk as (o & Ho).
      destruct (P2 i o Ho) as (x' & Hx' & Hs). rewrite Hx in Hx'. injection Hx' as <-. destruct (Q2 i (over_scene x o)) as (y & Hy & Hys); [rewrite cover_get, Hx; cbn [option_map]; rewrite Ho; reflexivity|].
      exists y. split; [exact Hy|]. apply (scene_unchanged x o y); [|exact Hs | exact Hys]. exact (so_start _ _ _ (proj2 (re_scenes n R) i x Hx)).
    + split; [exact Q3|]. split; [exact Q4|]. intros i Hi. destruct (Q5 i Hi) as (a & b & Ha & Hb & Hab). rewrite cover_get in Ha. rewrite P3 in Hi. destruct (P5 i Hi) as (o & x & Ho & Hx & Hs).
      rewrite Hx, Ho in Ha. cbn [option_map] in Ha. injection Ha as <-. exists x, b. split; [exact Hx|]. split; [exact Hb|]. exact (chapter_unchanged x o b Hs Hab).
  - destruct A2 as [W1 W2 W3 W4 (W51 & W52 & W53 & W54) W6 W7 _ _ _ _]. destruct B2 as [V1 V2 V3 V4 (V51 & V52 & V53 & V54) V6 V7 V8 V9 V10 V11].
    cbn [set_nv_title set_nv_desc set_nv_authorName set_nv_authorBio set_nv_fieldTitle1 set_nv_fieldTitle2 set_nv_fieldTitle3 set_nv_fieldTitle4 set_nv_wordTarget set_nv_wordCountStart
      set_nv_scenes set_nv_chapters nv_title nv_desc nv_authorName nv_authorBio nv_fieldTitle1 nv_fieldTitle2 nv_fieldTitle3 nv_fieldTitle4 nv_wordTarget nv_wordCountStart
      nv_srtLocations nv_locations nv_srtItems nv_items nv_srtCharacters nv_characters nv_srtPrjNotes nv_projectNotes] in *.
    constructor; try (eapply over_text; eassumption); try assumption.
    + repeat split; eapply over_text; eassumption.
    + rewrite V6. apply over_same. exact W6.
    + rewrite V7. apply over_same. exact W7.
Qed.

Lemma run_app : forall ent l1 l2 p, run ent p (l1 ++ l2) = do q <- run ent p l1; run ent q l2.
Proof.
  intros ent l1 l2. induction l1 as [|a l1 IH]; intro p; [reflexivity|]. change ((a :: l1) ++ l2) with (a :: (l1 ++ l2)). cbn [run]. destruct (act ent p a); [cbn [bind]; apply IH | reflexivity].
Qed.

Theorem unchanged : forall ent ext l p t n', Forall fits l -> Forall plain_save l -> run ent new_project l = Ok p -> p_file p = Some t -> read_text ext t new_novel = Ok n' ->
  representable n' /\ plain_tags n' /\
  (forall loc dloc, locale_text loc -> locale_text dloc -> language_known loc dloc n' -> exists p', run ent p [Open; Save loc dloc n'] = Ok p') /\
  (forall loc dloc p', locale_text loc -> locale_text dloc -> run ent p [Open; Save loc dloc n'] = Ok p' ->
    exists t' n2, p_file p' = Some t' /\ read_text ext t' new_novel = Ok n2 /\ same_story n' n2 /\ same_world_data n' n2).
Proof.
  intros ent ext l p t n' F PS Hr Ht Hn. pose proof (run_state True ent l _ _ p (st_new True) F (fun _ => PS) Hr) as H. fold (contents (saves l)) in H.
  assert (Q : holds (contents (saves l)) n' /\ representable n' /\ plain_tags n').
  { destruct H as [|m r root t0 c V1 V2 K KS W Hp Hse Hrd G]; [discriminate Ht|]. cbn [p_file] in Ht. injection Ht as ->. destruct (Hrd ext) as (n0 & Hn0 & H1 & H2). unfold read_text in Hn. rewrite Hp in Hn. rewrite Hn0 in Hn. injection Hn as ->.
    split; [exact H1 | apply H2; exact I]. }
  destruct Q as (Q1 & Q2 & Q3). split; [exact Q2|]. split; [exact Q3|]. split.
  - intros loc dloc L1 L2 LK. destruct (act_total True ent p (contents (saves l)) Open H I I) as (p1 & Hp1); [intros _ ->; discriminate Ht|].
    pose proof (act_state True ent p (contents (saves l)) Open p1 H I (fun _ => I) Hp1) as H1. destruct (act_total True ent p1 _ (Save loc dloc n') H1) as (p2 & Hp2); [split; [exact Q2 | split; assumption] | exact LK | discriminate|].
    exists p2. cbn [run]. rewrite Hp1. cbn [bind]. rewrite Hp2. reflexivity.
  - intros loc dloc p' L1 L2 Hr'. pose proof (run_state True ent [Open; Save loc dloc n'] p _ p' H) as H2. cbn [saves flat_map app fold_left] in H2.
    assert (H3 : state True p' (over_novel (contents (saves l)) n')).
    { apply H2; [constructor; [exact I|]; constructor; [split; [exact Q2 | split; assumption] | constructor] | intros _; constructor; [exact I|]; constructor; [exact Q3 | constructor] | exact Hr']. }
    clear H2. assert (Z : exists t', p_file p' = Some t').
    { cbn [run] in Hr'. apply bind_ok in Hr'. destruct Hr' as (p1 & Hp1 & Hr'). apply bind_ok in Hr'. destruct Hr' as (p2 & Hp2 & Hr'). injection Hr' as ->. cbn [act] in Hp2. apply bind_ok in Hp2. destruct Hp2 as ([[a b] t'] & _ & Hp2).
      injection Hp2 as <-. exists t'. reflexivity. }
    destruct Z as (t' & Et). remember (over_novel (contents (saves l)) n') as cc eqn:Ec. destruct H3 as [|m r root t0 c V1 V2 K KS W Hp Hse Hrd G]; [discriminate Et|]. cbn [p_file] in Et. injection Et as ->.
    destruct (Hrd ext) as (n2 & Hn2 & Hh & _). exists t', n2. split; [reflexivity|]. split; [unfold read_text; rewrite Hp; exact Hn2|]. rewrite Ec in Hh. exact (novel_unchanged _ _ _ Q2 Q1 Hh).
Qed.
