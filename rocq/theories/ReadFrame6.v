From Coq Require Import String List NArith ZArith Bool Lia Arith Sorting.Permutation.
From Verif Require Import PyStr PyDict NovelModel NovelOps WordCount Splitter SpecNovel SpecSplit SplitterProofs OdfXml OdtRead SpecRead ReadFrame ReadFrame2 ReadFrame3 ReadFrame4 ReadFrame5.
Import ListNotations.

#[local] Arguments dkeys {A} d : simpl never.
#[local] Arguments dset {A} k v d : simpl never.
#[local] Arguments dget {A} k d : simpl never.
#[local] Arguments dmem {A} k d : simpl never.

Lemma manuscript_frame : forall TYPE styles title author desc es n n', NoDup (dkeys (nv_chapters n)) ->
  feed (manuscript_reader TYPE) (opening_calls styles title author desc) es n = Ok n' ->
  framed (marked (s "ScID") es) (marked (s "ChID") es) ms_scene ms_chapter titled n n'.
Proof.
  intros. apply framed_changes; [intros c d Hd; unfold titled; now rewrite Hd | reflexivity | assumption |]. eapply feed_changes with (D := any); [apply manuscript_ok | intros ? Hm; exact Hm | intros ? Hm; exact Hm | intros; exact Logic.I | intros; exact Logic.I | eassumption].
Qed.
Lemma scenedesc_frame : forall styles title author desc es n n', NoDup (dkeys (nv_chapters n)) ->
  feed scenedesc_reader (opening_calls styles title author desc) es n = Ok n' ->
  framed (marked (s "ScID") es) (marked (s "ChID") es) sd_scene ms_chapter has_text n n'.
Proof.
  intros. apply framed_changes; [intros c d Hd; unfold has_text; now rewrite Hd | reflexivity | assumption |]. eapply feed_changes with (D := any); [apply scenedesc_ok | intros ? Hm; exact Hm | intros ? Hm; exact Hm | intros; exact Logic.I | intros; exact Logic.I | eassumption].
Qed.
Lemma chapterdesc_frame : forall styles title author desc es n n', NoDup (dkeys (nv_chapters n)) ->
  feed chapterdesc_reader (opening_calls styles title author desc) es n = Ok n' ->
  framed (marked (s "ScID") es) (marked (s "ChID") es) cd_scene cd_chapter has_text n n'.
Proof.
  intros. apply framed_changes; [intros c d Hd; unfold has_text; now rewrite Hd | reflexivity | assumption |]. eapply feed_changes with (D := any); [apply chapterdesc_ok | intros ? Hm; exact Hm | intros ? Hm; exact Hm | intros; exact Logic.I | intros; exact Logic.I | eassumption].
Qed.
(** sections do not matter in the proof document *)
Lemma proof_frame0 : forall tr styles title author desc es n n', feed (proof_reader tr) (opening_calls styles title author desc) es n = Ok n' ->
  changes (tagged (texts_of title es)) (fun _ => False) pf_scene id (fun _ => true) n n'.
Proof.
  intros tr styles title author desc es n n' H.
  set (SM := tagged (texts_of title es)).
  assert (X : exists st, (changes SM (fun _ => False) pf_scene id (fun _ => true) n (r_novel st) /\ good SM (fun _ => False) st) /\ n' = r_novel st).
  { unfold feed in H. okstep H. okstep H. apply ok_eq in H. subst n'. exists (snd y0). split; [|reflexivity].
    assert (HD : forall t, In t (texts_of title es) -> containsb (s "[ScID") t = true -> forall i, first_number t = Some i -> SM i) by (intros t It C i F; exists t; auto).
    set (D := fun t => containsb (s "[ScID") t = true -> forall i, first_number t = Some i -> SM i).
    assert (Hst : forall c st st', call_ok SM (fun _ => False) D (match c with CStart _ a => CStart (s "p") a | _ => c end) -> handle (proof_reader tr) st c = Ok st' -> step SM (fun _ => False) pf_scene id (fun _ => true) st st').
    { intros c st st' Hc E1. destruct c as [tag a|tag|t|t]; try (eapply (proof_ok SM tr); [exact Hc | exact E1]).
      cbn [handle proof_reader h_start] in E1. unfold pf_start in E1. repeat match type of E1 with (if ?b then _ else _) = _ => destruct b; [first [apply ok_eq in E1; subst; first [fin | eapply step_trans; [apply step_put | apply step_open]] | eapply step_body, E1]|] end. apply ok_eq in E1; subst; fin. }
    assert (S1 : step SM (fun _ => False) pf_scene id (fun _ => true) (new_rs n) y).
    { eapply step_foldM; [|exact E]. intros s1 s2 c I Ec. eapply Hst; [|exact Ec]. pose proof (opening_ok SM (fun _ => False) D _ _ _ _ _ I) as O. destruct c as [tag a|tag|t|t]; cbn; try exact Logic.I; [intro T; discriminate|].
      apply O. intros u Hu. unfold D. apply HD. unfold texts_of. rewrite Hu. now left. }
    assert (S2 : forall l, incl l es -> forall p r p' r', foldM (feed_event (proof_reader tr)) l (p, r) = Ok (p', r') -> step SM (fun _ => False) pf_scene id (fun _ => true) r r').
    { induction l as [|e l IH]; intros Hl p r p' r' El; cbn [foldM] in El; [apply ok_eq in El; injection El as <- <-; apply step_refl|].
      okstep El. destruct y1 as [p1 r1]. unfold feed_event in E1. cbn [fst snd] in E1. okstep E1. destruct y1 as [p2 calls]. okstep E1. apply ok_eq in E1. injection E1 as <- <-.
      eapply step_trans; [|eapply (IH (fun x Hx => Hl x (or_intror Hx))); exact El].
      eapply step_foldM; [|exact E3]. intros s1 s2 c I Ec. eapply Hst; [|exact Ec]. destruct c as [tag a|tag|t|t]; cbn; try exact Logic.I; [intro T; discriminate|].
      apply (parser_data _ _ _ _ _ E2) in I. subst e. unfold D. apply HD. unfold texts_of. apply in_or_app. right. unfold data_of. apply in_flat_map. exists (Data t). split; [apply Hl; now left | now left]. }
    destruct y0 as [p' r']. cbn [snd]. assert (G0 : good SM (fun _ => False) (new_rs n)) by (split; discriminate). destruct (S1 G0) as [C1 G1]. destruct (S2 es (fun x Hx => Hx) _ _ _ _ E0 G1) as [C2 G2]. split; [eapply changes_trans; eassumption | exact G2]. }
  destruct X as (st & [C _] & ->). exact C.
Qed.
(** the proof document creates nothing and changes no chapter *)
Definition no_language (n : novel) : novel := set_nv_languageCode None (set_nv_countryCode None (set_nv_languages None (set_nv_scenes [] n))).
Lemma proof_frame : forall tr styles title author desc es n n', feed (proof_reader tr) (opening_calls styles title author desc) es n = Ok n' ->
  no_language n' = no_language n /\ dkeys (nv_scenes n') = dkeys (nv_scenes n) /\
  (forall i, ~ tagged (texts_of title es) i -> dget i (nv_scenes n') = dget i (nv_scenes n)) /\
  (forall i x, dget i (nv_scenes n') = Some x -> exists x0, dget i (nv_scenes n) = Some x0 /\ pf_scene x = pf_scene x0).
Proof.
  intros tr styles title author desc es n n' H. apply proof_frame0 in H. induction H as [n | a b c H IH K]; [repeat split; eauto|]. destruct IH as (I1 & I2 & I3 & I4). destruct K; try contradiction.
  - split; [exact I1|]. split; [cbn; rewrite dkeys_dset_in by (eapply dget_dmem; eassumption); exact I2|]. split.
    + intros i Hi. cbn. rewrite dget_dset. destruct (str_eqb i id) eqn:E; [apply str_eqb_eq in E; subst; contradiction | now apply I3].
    + intros i z. cbn. rewrite dget_dset. destruct (str_eqb i id) eqn:E; [|apply I4]. apply str_eqb_eq in E. subst. intro Hz. injection Hz as <-. destruct (I4 _ _ H1) as (x0 & X1 & X2). exists x0. split; [exact X1|]. congruence.
  - repeat split; assumption.
  - repeat split; assumption.
  - repeat split; assumption.
Qed.
Lemma proof_structure : forall (n n' : novel), structure_ok n -> nv_srtChapters n' = nv_srtChapters n -> nv_chapters n' = nv_chapters n -> dkeys (nv_scenes n') = dkeys (nv_scenes n) -> structure_ok n'.
Proof. intros n n' (A & B & C & D) E1 E2 E3. unfold structure_ok, all_scenes, chapter_scenes in *. rewrite E1, E2, E3. auto. Qed.

(** the structure is still consistent behind the parser *)
Lemma nodup_app : forall {A} (a b : list A), NoDup a -> NoDup b -> (forall x, In x a -> ~ In x b) -> NoDup (a ++ b).
Proof. intros A a b Ha Hb H. induction Ha; cbn; [exact Hb|]. constructor; [rewrite in_app_iff; intros [I|I]; [contradiction | now apply (H x (or_introl eq_refl))]|]. apply IHHa. intros; apply H; now right. Qed.
Lemma changes_nodup : forall SM CM sc cc ht n m, changes SM CM sc cc ht n m -> NoDup (dkeys (nv_scenes n)) -> NoDup (dkeys (nv_scenes m)).
Proof. intros SM CM sc cc ht n m H. induction H as [|a b c H IH K]; intro Nd; [exact Nd|]. specialize (IH Nd). destruct K; cbn; try assumption; now apply NoDup_dset. Qed.
Lemma all_scenes_in : forall n c d, In c (nv_srtChapters n) -> dget c (nv_chapters n) = Some d -> incl (ch_srtScenes d) (all_scenes n).
Proof. intros n c d H Hd x Hx. unfold all_scenes. apply in_flat_map. exists c. split; [exact H|]. unfold chapter_scenes. now rewrite Hd. Qed.
Lemma perm_ext : forall {A} (l : list A) (f g : A -> list str), Permutation (flat_map (fun c => f c ++ g c) l) (flat_map f l ++ flat_map g l).
Proof.
  intros A l f g. induction l as [|a l IH]; [constructor|]. cbn [flat_map]. rewrite <- app_assoc. rewrite IH. rewrite <- app_assoc. apply Permutation_app_head. rewrite !app_assoc. apply Permutation_app_tail. apply Permutation_app_comm.
Qed.
Lemma flat_map_sub : forall {A} (f : str -> list A) (l m : list str), NoDup l -> incl l m -> NoDup (flat_map f m) -> NoDup (flat_map f l).
Proof.
  intros A f l m Nl Hi Nm. revert m Hi Nm. induction Nl as [|a l Ha Nl IH]; intros m Hi Nm; [constructor|]. destruct (in_split a m (Hi a (or_introl eq_refl))) as (m1 & m2 & ->). rewrite flat_map_app in Nm. cbn [flat_map] in Nm.
  assert (P : Permutation (flat_map f m1 ++ f a ++ flat_map f m2) (f a ++ flat_map f (m1 ++ m2))) by (rewrite flat_map_app, !app_assoc; apply Permutation_app_tail, Permutation_app_comm).
  apply (Permutation_NoDup P) in Nm. cbn [flat_map]. assert (Hi2 : incl l (m1 ++ m2)). { intros x Hx. assert (I := Hi x (or_intror Hx)). rewrite in_app_iff in *. destruct I as [I|[I|I]]; auto. subst. contradiction. }
  apply nodup_app.
  - clear - Nm. induction (f a); [constructor|]. inversion Nm; subst. constructor; [intro; apply H1; apply in_or_app; now left | auto].
  - apply (IH (m1 ++ m2)); [exact Hi2|]. clear - Nm. induction (f a); [exact Nm|]. inversion Nm; auto.
  - intros x Hx I. assert (J : In x (flat_map f (m1 ++ m2))) by (apply in_flat_map in I as (c & Hc & Hx2); apply in_flat_map; eauto). clear - Nm Hx J. induction (f a); [destruct Hx|]. inversion Nm; subst. destruct Hx as [->|Hx]; [apply H1; apply in_or_app; now right | auto].
Qed.
Lemma framed_structure : forall SM CM sc cc ht n n', NoDup (dkeys (nv_chapters n)) -> NoDup (dkeys (nv_scenes n)) -> structure_ok n ->
  framed SM CM sc cc ht n n' -> NoDup (dkeys (nv_scenes n')) -> NoDup (dkeys (nv_chapters n')) -> structure_ok n'.
Proof.
  intros SM CM sc cc ht n n' Nc Ns (A1 & A2 & A3 & A4) [_ _ _ _ _ (NS & NC & added & E1 & E2 & E3 & E4 & E5)] Ns' Nc'.
  assert (Hincl : incl (nv_srtChapters n') (dkeys (nv_chapters n'))). { rewrite E3, E2. intros x Hx. rewrite in_app_iff in *. destruct Hx as [Hx|Hx]; [left; now apply A2 | now right]. }
  assert (Hnd : NoDup (nv_srtChapters n')). { rewrite E3. apply nodup_app; [exact A1 | rewrite E2 in Nc'; clear - Nc'; induction (dkeys (nv_chapters n)); [exact Nc' | inversion Nc'; auto] |]. intros x Hx Hy. apply A2 in Hx. rewrite E2 in Nc'. clear - Nc' Hx Hy. induction (dkeys (nv_chapters n)); [destruct Hx|]. inversion Nc'; subst. destruct Hx as [->|Hx]; [apply H1; apply in_or_app; now right | auto]. }
  (* the scenes of a chapter: the old ones and those added *)
  set (old := fun c => ch_srtScenes (origin new_chapter (dget c (nv_chapters n)))).
  assert (Hsc : all_scenes n' = flat_map (fun c => old c ++ added c) (nv_srtChapters n')).
  { unfold all_scenes. apply SplitterProofs.flat_map_ext_in. intros c Hc. unfold chapter_scenes. apply Hincl in Hc. destruct (dget c (nv_chapters n')) as [d|] eqn:D; [now apply E4|]. apply dget_None in D. contradiction. }
  assert (Hold : flat_map old (nv_srtChapters n') = all_scenes n).
  { rewrite E3, flat_map_app. assert (Z : flat_map old NC = []). { assert (K : forall c, In c NC -> old c = []). { intros c Hc. unfold old. destruct (dget c (nv_chapters n)) as [d|] eqn:D; [|reflexivity]. exfalso. assert (D' : In c (dkeys (nv_chapters n))) by (apply dget_Some_key; eauto). clear D. rename D' into D. rewrite E2 in Nc'. clear - Nc' Hc D. induction (dkeys (nv_chapters n)); [destruct D|]. inversion Nc'; subst. destruct D as [->|D]; [apply H1; apply in_or_app; now right | auto]. }
      clear - K. induction NC; [reflexivity|]. cbn [flat_map]. rewrite K by now left. apply IHNC. intros; apply K; now right. }
    rewrite Z, app_nil_r. unfold all_scenes. apply SplitterProofs.flat_map_ext_in. intros c Hc. unfold old, chapter_scenes. destruct (dget c (nv_chapters n)) as [d|] eqn:D; [reflexivity|]. reflexivity. }
  assert (Hper : Permutation (all_scenes n') (all_scenes n ++ flat_map added (nv_srtChapters n'))) by (rewrite Hsc, <- Hold; apply perm_ext).
  assert (NoDup NS) by (rewrite E1 in Ns'; clear - Ns'; induction (dkeys (nv_scenes n)); [exact Ns' | inversion Ns'; auto]).
  assert (Hadd : forall x, In x (flat_map added (nv_srtChapters n')) -> In x NS). { intros x Hx. eapply Permutation_in; [exact E5|]. apply in_flat_map in Hx as (c & Hc & Hx). apply in_flat_map. exists c. split; [now apply Hincl | exact Hx]. }
  split; [exact Hnd|]. split; [exact Hincl|]. split.
  - eapply Permutation_NoDup; [symmetry; exact Hper|]. apply nodup_app; [exact A3 | | ].
    + eapply flat_map_sub; [exact Hnd | exact Hincl |]. eapply Permutation_NoDup; [symmetry; exact E5 | assumption].
    + intros x Hx Hy. apply A4 in Hx. apply Hadd in Hy. rewrite E1 in Ns'. clear - Ns' Hx Hy. induction (dkeys (nv_scenes n)); [destruct Hx|]. inversion Ns'; subst. destruct Hx as [->|Hx]; [apply H1; apply in_or_app; now right | auto].
  - intros x Hx. apply (Permutation_in _ Hper) in Hx. rewrite E1. apply in_app_iff in Hx as [Hx|Hx]; apply in_or_app; [left; now apply A4 | right; now apply Hadd].
Qed.

(** read(), with the splitting of scenes *)
Definition no_separator (x : scene) : Prop := forall t, sc_content x = Some t -> forall l, In l (text_lines t) -> is_separator l = false.
Definition no_counts (x : scene) : scene := set_sc_letterCount 0 (set_sc_wordCount 0 x).
Lemma split_after : forall tr (SM : str -> Prop) n n1 n' flag, structure_ok n1 -> split_scenes tr n1 = Ok (n', flag) ->
  (forall id, ~ SM id -> dget id (nv_scenes n1) = dget id (nv_scenes n)) ->
  forall id x, dget id (nv_scenes n) = Some x -> ~ SM id -> no_separator x -> exists y, dget id (nv_scenes n') = Some y /\ no_counts y = no_counts x.
Proof.
  intros tr SM n n1 n' flag Hs Hsp Hf id x Hx Hm Hsep. destruct (split_elements tr n1 n' flag Hs Hsp) as (_ & S2 & S3 & S4 & _). rewrite <- (Hf id Hm) in Hx.
  destruct (in_dec str_eq_dec id (all_scenes n1)) as [I|I]; [|exists x; split; [now apply S2 | reflexivity]].
  destruct (sc_content x) as [[|c t]|] eqn:Ec; [exists x; split; [apply S3; auto | reflexivity] | | exists x; split; [apply S3; auto | reflexivity]].
  exists (set_sceneContent (c :: t) x). split; [apply S4; auto; [discriminate | now apply Hsep]|]. unfold no_counts, set_sceneContent. destruct x. cbn in *. now rewrite Ec.
Qed.
Lemma manuscript_read : forall tr TYPE styles title author desc es n n' flag,
  structure_ok n -> NoDup (dkeys (nv_chapters n)) -> NoDup (dkeys (nv_scenes n)) ->
  read_formatted tr (manuscript_reader TYPE) (opening_calls styles title author desc) es n = Ok (n', flag) ->
  doc_rest n' = doc_rest n /\ structure_ok n' /\
  (forall id x, dget id (nv_scenes n) = Some x -> ~ marked (s "ScID") es id -> no_separator x -> exists y, dget id (nv_scenes n') = Some y /\ no_counts y = no_counts x) /\
  (forall id x, dget id (nv_scenes n) = Some x -> exists y, dget id (nv_scenes n') = Some y /\ scene_core (ms_scene y) = scene_core (ms_scene x)) /\
  (forall id c, dget id (nv_chapters n) = Some c -> exists d, dget id (nv_chapters n') = Some d /\
     (if titled c then ch_title d = ch_title c else True) /\ chapter_core (ms_chapter d) = chapter_core (ms_chapter c) /\ (~ marked (s "ChID") es id -> chapter_core d = chapter_core c)).
Proof.
  intros tr TYPE styles title author desc es n n' flag Hs Nc Ns H. unfold read_formatted in H. okstep H. rename y into n1.
  set (n0 := set_nv_languages (Some []) n) in *. assert (C : changes (marked (s "ScID") es) (marked (s "ChID") es) ms_scene ms_chapter titled n0 n1).
  { eapply feed_changes with (D := any); [apply manuscript_ok | intros ? Hm; exact Hm | intros ? Hm; exact Hm | intros; exact Logic.I | intros; exact Logic.I | exact E]. }
  assert (F := manuscript_frame _ _ _ _ _ _ n0 n1 Nc E). assert (Hs1 : structure_ok n1).
  { eapply (framed_structure _ _ _ _ _ n0 n1); [exact Nc | exact Ns | exact Hs | exact F | eapply changes_nodup; [exact C | exact Ns] |]. destruct F as [_ _ _ _ _ (NS & NC & added & E1 & E2 & E3 & E4 & E5)]. clear - C Nc. assert (Nc0 : NoDup (dkeys (nv_chapters n0))) by exact Nc. clearbody n0. clear Nc. induction C as [|a b c C IH K]; [exact Nc0|]. eapply change_nodup; [apply IH; exact Nc0 | exact K]. }
  destruct (split_structure tr n1 n' flag Hs1 H) as (T1 & T2 & _). destruct (split_elements tr n1 n' flag Hs1 H) as (S1 & _ & _ & _ & S5 & _). destruct F as [R F1 F2 F3 F4 (NS & NC & added & E1 & E2 & E3 & E4 & E5)].
  split; [|split; [exact T1|]]. { transitivity (doc_rest n1); [|exact R]. unfold doc_rest. unfold novel_rest in T2. now rewrite T2. }
  assert (KS : forall id x, dget id (nv_scenes n) = Some x -> exists z, dget id (nv_scenes n1) = Some z /\ ms_scene z = ms_scene x).
  { intros id x Hx. assert (I : In id (dkeys (nv_scenes n1))). { rewrite E1. apply in_or_app. left. apply dget_Some_key. now exists x. } apply dget_Some_key in I as [z Hz]. exists z. split; [exact Hz|]. rewrite (F2 id z Hz). change (nv_scenes n0) with (nv_scenes n). rewrite Hx. reflexivity. }
  split; [|split].
  - intros id x Hx Hm Hsep. eapply (split_after tr (marked (s "ScID") es) n n1); eauto.
  - intros id x Hx. destruct (KS id x Hx) as (z & Hz & Ez). destruct (S1 id z Hz) as (y & Hy & Ey). exists y. split; [exact Hy|]. rewrite <- Ez. assert (C1 : forall w, scene_core (ms_scene w) = ms_scene (scene_core w)) by reflexivity. exact (eq_trans (C1 y) (eq_trans (f_equal ms_scene Ey) (eq_sym (C1 z)))).
  - intros id c Hc. assert (I : In id (dkeys (nv_chapters n1))). { rewrite E2. apply in_or_app. left. apply dget_Some_key. now exists c. } apply dget_Some_key in I as [z Hz]. destruct (F4 id z Hz) as [G1 G2]. change (nv_chapters n0) with (nv_chapters n) in G1, G2. rewrite Hc in G1, G2. cbn [origin] in G1, G2.
    destruct (S5 id z Hz) as (d & Hd & Ed). exists d. split; [exact Hd|]. unfold chapter_core in Ed. split; [|split].
    + destruct (titled c) eqn:Tt; [|exact Logic.I]. rewrite <- (G2 eq_refl). transitivity (ch_title (set_ch_srtScenes [] d)); [reflexivity|]. now rewrite Ed.
    + rewrite <- G1. unfold chapter_core, ms_chapter. transitivity (set_ch_title None (set_ch_type None (set_ch_srtScenes [] (set_ch_srtScenes [] d)))); [reflexivity|]. rewrite Ed. reflexivity.
    + intro Hm. rewrite (F3 id Hm) in Hz. change (nv_chapters n0) with (nv_chapters n) in Hz. rewrite Hc in Hz. injection Hz as <-. exact Ed.
Qed.
Lemma proof_read : forall tr styles title author desc es n n' flag, structure_ok n ->
  read_formatted tr (proof_reader tr) (opening_calls styles title author desc) es n = Ok (n', flag) ->
  doc_rest n' = doc_rest n /\ structure_ok n' /\
  (forall id x, dget id (nv_scenes n) = Some x -> ~ tagged (texts_of title es) id -> no_separator x -> exists y, dget id (nv_scenes n') = Some y /\ no_counts y = no_counts x) /\
  (forall id x, dget id (nv_scenes n) = Some x -> exists y, dget id (nv_scenes n') = Some y /\ scene_core y = scene_core x) /\
  (forall id c, dget id (nv_chapters n) = Some c -> exists d, dget id (nv_chapters n') = Some d /\ chapter_core d = chapter_core c).
Proof.
  intros tr styles title author desc es n n' flag Hs H. unfold read_formatted in H. okstep H. rename y into n1. set (n0 := set_nv_languages (Some []) n) in *.
  destruct (proof_frame _ _ _ _ _ _ _ _ E) as (P1 & P2 & P3 & P4). assert (Ec : nv_chapters n1 = nv_chapters n) by (change (nv_chapters n1) with (nv_chapters (no_language n1)); rewrite P1; reflexivity).
  assert (Hs1 : structure_ok n1). { apply (proof_structure n n1 Hs); [change (nv_srtChapters n1) with (nv_srtChapters (no_language n1)); rewrite P1; reflexivity | exact Ec | exact P2]. }
  destruct (split_structure tr n1 n' flag Hs1 H) as (T1 & T2 & _). destruct (split_elements tr n1 n' flag Hs1 H) as (S1 & _ & _ & _ & S5 & _).
  split; [|split; [exact T1|]]. { transitivity (doc_rest n1); [unfold doc_rest; unfold novel_rest in T2; now rewrite T2|]. unfold doc_rest. transitivity (set_nv_srtChapters [] (set_nv_chapters [] (no_language n1))); [reflexivity|]. rewrite P1. reflexivity. }
  split; [|split].
  - intros id x Hx Hm Hsep. eapply (split_after tr (tagged (texts_of title es)) n n1); eauto.
  - intros id x Hx. assert (I : In id (dkeys (nv_scenes n1))). { rewrite P2. apply dget_Some_key. now exists x. } apply dget_Some_key in I as [z Hz]. destruct (P4 id z Hz) as (x0 & X1 & X2). change (nv_scenes n0) with (nv_scenes n) in X1. rewrite Hx in X1. injection X1 as <-.
    destruct (S1 id z Hz) as (y & Hy & Ey). exists y. split; [exact Hy|]. rewrite Ey. assert (C1 : forall w, scene_core w = scene_core (pf_scene w)) by reflexivity. exact (eq_trans (C1 z) (eq_trans (f_equal scene_core X2) (eq_sym (C1 x)))).
  - intros id c Hc. rewrite <- Ec in Hc. exact (S5 id c Hc).
Qed.
