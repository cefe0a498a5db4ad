(** Round trip of the SCENES and CHAPTERS sections. *)
From Coq Require Import String List NArith ZArith Bool Lia Arith.
From Verif Require Import PyStr PyDict Globals GlobalsProofs WordCount NovelModel NovelOps YwTree IsoDate Yw7Build Yw7Read YwTreeProofs Yw7SceneProofs Yw7StartProofs Yw7SceneRT Yw7ChapterRT Yw7ListRT.
Import ListNotations.

(** ** Sub-elements PyWriter does not handle *)
Definition scene_tags : list str :=
  [s "Title"; s "Desc"; s "SceneContent"; s "WordCount"; s "LetterCount"; s "Unused"; s "Fields"; s "ExportCondSpecific"; s "ExportWhenRTF";
   s "Status"; s "Notes"; s "Tags"; s "Field1"; s "Field2"; s "Field3"; s "Field4"; s "AppendToPrev"; s "SpecificDateTime"; s "SpecificDateMode";
   s "Day"; s "Hour"; s "Minute"; s "LastsDays"; s "LastsHours"; s "LastsMinutes"; s "ReactionScene"; s "SubPlot"; s "Goal"; s "Conflict"; s "Outcome";
   s "ImageFile"; s "Characters"; s "Locations"; s "Items"; s "RTFFile"; s "BelongsToChID"].
Definition chapter_tags : list str :=
  [s "Title"; s "Desc"; s "Unused"; s "SortOrder"; s "Fields"; s "SectionStart"; s "Type"; s "ChapterType"; s "Scenes"].

Lemma build_scene_frame : forall x k k1 c, build_scene x k = Ok k1 ->
  filt (fun t => negb (smem t scene_tags)) (finish_kids c k1) = filt (fun t => negb (smem t scene_tags)) k.
Proof.
  intros x k k1 c H. apply build_scene_inv in H. destruct H as (p & ka & kb & _ & Ha & Hs & ->). subst ka. unfold finish_kids.
  rewrite !filt_remove by reflexivity. destruct c as [v|]; [rewrite filt_set_text by reflexivity|]; peel; reflexivity.
Qed.
Lemma build_scene_id : forall x k k1 c, build_scene x k = Ok k1 -> findall (s "ID") (finish_kids c k1) = findall (s "ID") k /\ findall (s "ID") k1 = findall (s "ID") k.
Proof.
  intros x k k1 c H. apply build_scene_inv in H. destruct H as (p & ka & kb & _ & Ha & Hs & ->). subst ka. unfold finish_kids. split.
  - rewrite !findall_filt. rewrite !filt_remove by reflexivity. destruct c as [v|]; [rewrite filt_set_text by reflexivity|]; peel; reflexivity.
  - rewrite !findall_filt. peel. reflexivity.
Qed.

Lemma build_chapter_frame : forall x k k1, build_chapter x k = Ok k1 ->
  filt (fun t => negb (smem t chapter_tags)) k1 = filt (fun t => negb (smem t chapter_tags)) k.
Proof. intros x k k1 H. apply build_chapter_inv in H. destruct H as (u & ty & ct & i1 & i2 & i3 & i4 & _ & ->). peel. reflexivity. Qed.
Lemma build_chapter_id : forall x k k1, build_chapter x k = Ok k1 -> findall (s "ID") k1 = findall (s "ID") k.
Proof. intros x k k1 H. apply build_chapter_inv in H. destruct H as (u & ty & ct & i1 & i2 & i3 & i4 & _ & ->). rewrite !findall_filt. peel. reflexivity. Qed.

Section S.
Variable out : str -> option str -> option str.
Hypothesis out_None : forall t, out t None = None.
Hypothesis out_nil : forall t, out t (Some []) = None.
Hypothesis out_safe : forall t v, safe v -> out t (Some v) = Some v.
Notation R := (Forall2 (settled out)).
Notation id_ok := (id_ok out).
Notation section_ids := (section_ids out).

(** the element that is modified for ID i: the existing one, or a new one *)
Definition orig (t i : str) (l : dict elem) : elem := match dget i l with Some e => e | None => Elem t None [leaf (s "ID") (Some i)] end.

(** what the existing elements read as *)
Definition old_values {B} (rd0 : list elem -> res B) (l : dict elem) (d0 : dict B) : Prop :=
  (forall i e, dget i l = Some e -> exists e' y, settled out e e' /\ rd0 (e_kids e') = Ok y /\ dget i d0 = Some y) /\
  (forall i, dget i l = None -> dget i d0 = None).
Definition or_else {B} (x : option B) (b : B) : B := match x with Some y => y | None => b end.

Lemma section_roundtrip : forall {A B} t (bd : A -> list elem -> res (list elem)) (rd0 rd : list elem -> res B) (wf : list elem -> Prop)
    (mg : A -> B -> B) (good : A -> Prop) (blank : B),
  (forall x k k1, bd x k = Ok k1 -> findall (s "ID") k1 = findall (s "ID") k) ->
  (forall x k0 k0' old k1 k1', wf k0 -> R k0 k0' -> rd0 k0' = Ok old -> bd x k0 = Ok k1 -> R k1 k1' -> good x -> rd k1' = Ok (mg x old) /\ wf k1) ->
  (forall i, wf [leaf (s "ID") (Some i)] /\ exists k0', R [leaf (s "ID") (Some i)] k0' /\ rd0 k0' = Ok blank) ->
  forall (l : dict elem) (d0 : dict B) k, section_ids t k l -> Forall (fun p => wf (e_kids (snd p))) l -> old_values rd0 l d0 ->
  forall (xs : list (str * A)) k2 k2',
  Forall2 (fun p e => exists kb, bd (snd p) (e_kids (orig t (fst p) l)) = Ok kb /\ e = with_kids kb (orig t (fst p) l)) xs k2 -> R k2 k2' ->
  (forall p, In p xs -> good (snd p) /\ id_ok (fst p)) ->
  (exists d : dict B, Forall2 (fun p e => read_id e = Ok (fst p) /\ rd (e_kids e) = Ok (snd p)) d k2' /\
     d = map (fun p => (fst p, mg (snd p) (or_else (dget (fst p) d0) blank))) xs) /\
  (exists l2, map snd l2 = k2 /\ map fst l2 = map fst xs /\
     Forall (fun p => (e_tag (snd p) = t /\ has_id (fst p) (e_kids (snd p)) /\ id_ok (fst p)) /\ wf (e_kids (snd p))) l2).
Proof.
  intros A B t bd rd0 rd wf mg good blank Hid RT Hbl l d0 k (K1 & K2 & K3) HW [O1 O2] xs k2 k2' H. revert k2'.
  induction H as [|[i x] e xs k2 (kb & Hb & ->) H IH]; intros k2' HR Hg.
  - inversion HR. split; exists []; repeat constructor.
  - inversion HR as [|? e' ? k3 Hs Hr]; subst. cbn [fst snd] in *.
    destruct (IH k3 Hr (fun p Hp => Hg p (or_intror Hp))) as [(d & D1 & D2) (l2 & L1 & L2 & L3)].
    destruct (Hg _ (or_introl eq_refl)) as [Gx Gi]. cbn [fst snd] in *.
    assert (Ho : e_tag (orig t i l) = t /\ has_id i (e_kids (orig t i l)) /\ wf (e_kids (orig t i l)) /\
       exists k0', R (e_kids (orig t i l)) k0' /\ rd0 k0' = Ok (or_else (dget i d0) blank)).
    { unfold orig. destruct (dget i l) as [e|] eqn:E.
      - pose proof (dget_In _ _ _ E) as Hin. rewrite Forall_forall in K3, HW. destruct (K3 _ Hin) as (T1 & T2 & _).
        split; [exact T1|]. split; [exact T2|]. split; [apply (HW _ Hin)|]. destruct (O1 i e E) as (e0 & y & S1 & S2 & S3).
        exists (e_kids e0). rewrite S3. split; [apply settled_kids; exact S1 | exact S2].
      - cbn [e_tag e_kids]. split; [reflexivity|]. split; [reflexivity|]. destruct (Hbl i) as [W (k0' & B1 & B2)]. split; [exact W|].
        exists k0'. rewrite (O2 i E). split; [exact B1 | exact B2]. }
    destruct Ho as (T1 & T2 & T3 & k0' & T4 & T5).
    assert (T6 : has_id i kb) by (unfold has_id in *; rewrite (Hid _ _ _ Hb); exact T2).
    pose proof (settled_kids out _ _ Hs) as HK. cbn [with_kids e_kids] in HK.
    destruct (RT x _ _ _ _ _ T3 T4 T5 Hb HK Gx) as [Q1 Q2]. split.
    + eexists. split; [|reflexivity]. cbn [map fst snd]. constructor; [|rewrite <- D2; exact D1]. cbn [fst snd]. split; [|exact Q1].
      exact (read_id_settled out i (with_kids kb (orig t i l)) e' T6 Hs Gi).
    + exists ((i, with_kids kb (orig t i l)) :: l2). cbn [map fst snd]. split; [rewrite L1; reflexivity|]. split; [rewrite L2; reflexivity|].
      constructor; [|exact L3]. cbn [fst snd with_kids e_tag e_kids]. tauto.
Qed.

(** reading a section *)
Definition read_section {B} (rd : list elem -> res B) (es : list elem) (d : dict B) : res (dict B) :=
  foldM (fun d e => do i <- read_id e; do x <- rd (e_kids e); Ok (dset i x d)) es d.

Lemma read_section_ok : forall {B} (rd : list elem -> res B) (l : dict B) es,
  Forall2 (fun p e => read_id e = Ok (fst p) /\ rd (e_kids e) = Ok (snd p)) l es ->
  forall d : dict B, NoDup (dkeys d ++ map fst l) -> read_section rd es d = Ok (d ++ l).
Proof.
  intros B rd l es H. induction H as [|[i v] e l es [H1 H2] H IH]; intros d Hn.
  - cbn. rewrite app_nil_r. reflexivity.
  - unfold read_section in *. cbn [foldM fst snd] in *. rewrite H1. cbn [bind]. rewrite H2. cbn [bind].
    assert (Hi : ~ In i (dkeys d)).
    { cbn [map fst] in Hn. apply NoDup_remove_2 in Hn. rewrite in_app_iff in Hn. tauto. }
    rewrite (dset_new i v d Hi). rewrite IH.
    + rewrite <- app_assoc. reflexivity.
    + unfold dkeys in *. rewrite map_app, <- app_assoc. exact Hn.
Qed.

Lemma read_section_old : forall {B} (rd : list elem -> res B) (l : dict elem) es,
  Forall (fun p => has_id (fst p) (e_kids (snd p)) /\ id_ok (fst p)) l -> R (map snd l) es -> 
  forall d d0 : dict B, NoDup (map fst l) -> read_section rd es d = Ok d0 ->
  (forall i e, dget i l = Some e -> exists e' y, settled out e e' /\ rd (e_kids e') = Ok y /\ dget i d0 = Some y) /\
  (forall i, dget i l = None -> dget i d0 = dget i d).
Proof.
  intros B rd l. induction l as [|[i e] l IH]; intros es HF HR d d0 Hn H; cbn [map snd] in HR; inversion HR as [|? e' ? es2 Hs Hr]; subst.
  - cbn in H. injection H as <-. split; [intros ? ? E; discriminate E|]. reflexivity.
  - inversion HF as [|? ? [Hi Ho] HF']; subst. cbn [fst snd map] in *. inversion Hn as [|? ? Hni Hn']; subst.
    unfold read_section in H. cbn [foldM] in H. rewrite (read_id_settled out i e e' Hi Hs Ho) in H. cbn [bind] in H.
    destruct (rd (e_kids e')) as [y|] eqn:Ey; [|discriminate]. cbn [bind] in H. fold (read_section rd es2 (dset i y d)) in H.
    destruct (IH es2 HF' Hr _ _ Hn' H) as (A1 & A2). split.
    + intros j ej Hj. cbn [dget] in Hj. destruct (str_eqb j i) eqn:E.
      * apply str_eqb_eq in E. subst j. injection Hj as <-. exists e', y. split; [exact Hs|]. split; [exact Ey|].
        rewrite A2; [apply dget_dset_same|]. apply dget_None. exact Hni.
      * apply A1. exact Hj.
    + intros j Hj. cbn [dget] in Hj. destruct (str_eqb j i) eqn:E; [discriminate|]. rewrite (A2 j Hj). apply dget_dset_other.
      intro H2. subst j. rewrite str_eqb_refl in E. discriminate.
Qed.

(** ** Scenes *)
Definition build_scene_all (x : scene) (k : list elem) : res (list elem) := do k1 <- build_scene x k; Ok (finish_kids (sc_content x) k1).
Definition blank_scene : scene := scene_of None (None, None, None) [] [] [] [].

Lemma read_blank_scene : forall ext cs ls is x, read_scene ext cs ls is [leaf (s "ID") x] = Ok blank_scene.
Proof. intros. rewrite read_scene_of. reflexivity. Qed.

Lemma scene_wf_blank : forall x, scene_wf [leaf (s "ID") x].
Proof.
  intro x. split; [|split; [|split]].
  - intros t Ht. left. unfold scene_leaf_tags in Ht. cbn [In] in Ht. repeat (destruct Ht as [<- | Ht]; [reflexivity|]). destruct Ht.
  - intros t Ht. left. unfold scene_uniq_tags in Ht. cbn [In] in Ht. repeat (destruct Ht as [<- | Ht]; [reflexivity|]). destruct Ht.
  - split; [left; reflexivity|]. intros F HF. discriminate HF.
  - repeat split; first [left; reflexivity | intro H; discriminate H | idtac].
Qed.

(** a merged scene does not depend on the old scene's references *)
Lemma read_scene_refs : forall ext cs ls is cs0 ls0 is0 k y, read_scene ext cs0 ls0 is0 k = Ok y ->
  exists y2, read_scene ext cs ls is k = Ok y2 /\ forall cs1 ls1 x, merged_scene out cs1 ls1 x y2 = merged_scene out cs1 ls1 x y.
Proof.
  intros ext cs ls is cs0 ls0 is0 k y H. rewrite read_scene_of in *. destruct (read_status k); [|discriminate]. cbn [bind] in *.
  destruct (read_start ext k); [|discriminate]. cbn [bind] in *. injection H as <-. eexists. split; reflexivity.
Qed.

Definition scene_good (x : scene) : Prop :=
  start_ok (sc_date x) (sc_time x) (sc_day x) /\ storable_ids out (s "CharID") (sc_characters x) /\ storable_ids out (s "LocID") (sc_locations x).

Lemma build_scenes_elems : forall n k l k1 k2, section_ids (s "SCENE") k l -> NoDup (dkeys (nv_scenes n)) ->
  build_scenes n k = Ok k1 -> mapM (finish_scene n) k1 = Ok k2 ->
  Forall2 (fun p e => exists kb, build_scene_all (snd p) (e_kids (orig (s "SCENE") (fst p) l)) = Ok kb /\ e = with_kids kb (orig (s "SCENE") (fst p) l)) (nv_scenes n) k2.
Proof.
  intros n k l k1 k2 HS Hn Hb Hf. unfold build_scenes in Hb. rewrite (save_elems_ok out _ _ _ HS) in Hb. cbn [bind] in Hb.
  apply bind_ok in Hb. destruct Hb as (new & Hm & Hb). injection Hb as <-.
  rewrite (only_filter _ _ (section_only out _ _ _ HS)) in Hf. cbn [app] in Hf.
  apply mapM_Forall2 in Hm. apply mapM_Forall2 in Hf.
  assert (Hin : forall p, In p (nv_scenes n) -> dget (fst p) (nv_scenes n) = Some (snd p)) by (intros [i x] Hp; apply In_dget; assumption).
  assert (Hid : forall i, has_id i (e_kids (orig (s "SCENE") i l))).
  { intro i. unfold orig. destruct (dget i l) as [e|] eqn:E; [|reflexivity]. apply dget_In in E. destruct HS as (_ & _ & HF).
    rewrite Forall_forall in HF. apply (HF _ E). }
  assert (Hg : forall xs new, Forall2 (fun p e => renew (s "SCENE") build_scene l (fst p) (snd p) = Ok e) xs new ->
     forall k2, Forall2 (fun e e2 => finish_scene n e = Ok e2) new k2 -> (forall p, In p xs -> dget (fst p) (nv_scenes n) = Some (snd p)) ->
     Forall2 (fun p e => exists kb, build_scene_all (snd p) (e_kids (orig (s "SCENE") (fst p) l)) = Ok kb /\ e = with_kids kb (orig (s "SCENE") (fst p) l)) xs k2).
  { clear -Hid. intros xs new H. induction H as [|[i x] e xs new He H IH]; intros k2 H2 Hx; inversion H2 as [|? e2 ? k3 H3 H4]; subst; [constructor|].
    constructor; [|apply IH; [exact H4 | intros p Hp; apply Hx; right; exact Hp]].
    cbn [fst snd] in *. unfold renew in He. cbv zeta in He. fold (orig (s "SCENE") i l) in He. apply bind_ok in He. destruct He as (kb & Hb & He). injection He as <-.
    exists (finish_kids (sc_content x) kb). unfold build_scene_all. rewrite Hb. split; [reflexivity|].
    unfold finish_scene in H3. cbn [with_kids e_kids] in H3. rewrite find_findall in H3.
    destruct (build_scene_id _ _ _ None Hb) as [_ E]. rewrite E in H3. specialize (Hid i). unfold has_id in Hid. rewrite Hid in H3. cbn [hd_error leaf e_text] in H3.
    specialize (Hx (i, x) (or_introl eq_refl)). cbn [fst snd] in Hx. unfold dindex in H3. rewrite Hx in H3. cbn [bind] in H3.
    unfold finish_kids. destruct (sc_content x) as [c|].
    - destruct (has (s "SceneContent") kb); [|discriminate]. cbn [bind] in H3. injection H3 as <-. reflexivity.
    - cbn [bind] in H3. injection H3 as <-. reflexivity. }
  exact (Hg _ _ Hm _ Hf Hin).
Qed.

Theorem scenes_roundtrip : forall ext cs0 ls0 is0 cs ls is n k k' l d0 k1 k2 k2',
  section_ids (s "SCENE") k l -> Forall (fun p => scene_wf (e_kids (snd p))) l -> R k k' ->
  read_section (read_scene ext cs0 ls0 is0) k' [] = Ok d0 ->
  build_scenes n k = Ok k1 -> mapM (finish_scene n) k1 = Ok k2 -> R k2 k2' -> NoDup (dkeys (nv_scenes n)) ->
  (forall p, In p (nv_scenes n) -> scene_good (snd p) /\ id_ok (fst p)) ->
  read_section (read_scene ext cs ls is) k2' [] =
    Ok (map (fun p => (fst p, merged_scene out cs ls (snd p) (or_else (dget (fst p) d0) blank_scene))) (nv_scenes n)) /\
  exists l2, section_ids (s "SCENE") k2 l2 /\ map fst l2 = dkeys (nv_scenes n) /\ Forall (fun p => scene_wf (e_kids (snd p))) l2.
Proof.
  intros ext cs0 ls0 is0 cs ls is n k k' l d0 k1 k2 k2' HS HW HR H0 Hb Hf HR2 Hn Hg.
  pose proof (build_scenes_elems n k l k1 k2 HS Hn Hb Hf) as HE.
  assert (HO : old_values (read_scene ext cs0 ls0 is0) l d0).
  { destruct HS as (<- & HN & HF). destruct (read_section_old (read_scene ext cs0 ls0 is0) l k') with (d := @nil (str * scene)) (d0 := d0) as [A1 A2]; try assumption.
    - apply Forall_forall. intros p Hp. rewrite Forall_forall in HF. destruct (HF p Hp) as (_ & P1 & P2). split; assumption.
    - split; [exact A1 | exact A2]. }
  destruct (section_roundtrip (s "SCENE") build_scene_all (read_scene ext cs0 ls0 is0) (read_scene ext cs ls is) scene_wf
     (fun x old => merged_scene out cs ls x old) scene_good blank_scene) with (l := l) (d0 := d0) (k := k) (xs := nv_scenes n) (k2 := k2) (k2' := k2')
     as [(d & D1 & ->) (l2 & L1 & L2 & L3)]; try assumption.
  - intros x ka kb Hx. unfold build_scene_all in Hx. apply bind_ok in Hx. destruct Hx as (kc & Hx & E). injection E as <-. apply (build_scene_id x ka kc _ Hx).
  - intros x ka ka' old kb kb' W Ra Hrd Hx Rb (G1 & G2 & G3). unfold build_scene_all in Hx. apply bind_ok in Hx. destruct Hx as (kc & Hx & E). injection E as <-.
    destruct (read_scene_refs ext cs ls is _ _ _ _ _ Hrd) as (y2 & Hy & Em). rewrite <- Em.
    exact (scene_roundtrip out out_None out_nil out_safe ext cs ls is x y2 ka ka' kc kb' W Ra Hy Hx Rb G1 G2 G3).
  - intro i. split; [apply scene_wf_blank|]. exists [leaf (s "ID") (out (s "ID") (Some i))]. split; [constructor; [constructor | constructor] | apply read_blank_scene].
  - split.
    + apply (read_section_ok _ _ _ D1 []). cbn [dkeys map app]. rewrite map_map. cbn [fst]. exact Hn.
    + exists l2. split; [|split; [exact L2|]].
      * split; [exact L1|]. split; [rewrite L2; exact Hn|]. apply Forall_forall. intros p Hp. rewrite Forall_forall in L3. apply (L3 p Hp).
      * apply Forall_forall. intros p Hp. rewrite Forall_forall in L3. apply (L3 p Hp).
Qed.

(** ** Chapters *)
Definition blank_chapter : chapter := read_chapter [] [].
Lemma read_blank_chapter : forall scs x, read_chapter scs [leaf (s "ID") x] = blank_chapter.
Proof. reflexivity. Qed.
Lemma chapter_wf_blank : forall x, chapter_wf [leaf (s "ID") x].
Proof.
  intro x. split; [|split].
  - intros t Ht. left. unfold chapter_leaf_tags in Ht. cbn [In] in Ht. repeat (destruct Ht as [<- | Ht]; [reflexivity|]). destruct Ht.
  - intros t Ht. left. unfold chapter_uniq_tags in Ht. cbn [In] in Ht. repeat (destruct Ht as [<- | Ht]; [reflexivity|]). destruct Ht.
  - split; [left; reflexivity|]. intros F HF. discriminate HF.
Qed.

Definition chapter_good (c : chapter) : Prop := forall a, In a (ch_srtScenes c) -> out (s "ScID") (Some a) = Some a.

Lemma read_into_section : forall {B} (rd : list elem -> B) es a d a1 d1, read_into rd es (a, d) = Ok (a1, d1) ->
  read_section (fun k => Ok (rd k)) es d = Ok d1.
Proof.
  intros B rd es. induction es as [|e es IH]; intros a d a1 d1 H; unfold read_into, read_section in *; cbn [foldM] in *.
  - injection H as <- <-. reflexivity.
  - destruct (read_id e); [|discriminate]. cbn [bind] in *. cbn [fst snd] in H. apply IH in H. exact H.
Qed.

Theorem chapters_roundtrip : forall scs0 scs n k k' l ids0 d0 k1 k1',
  section_ids (s "CHAPTER") k l -> Forall (fun p => chapter_wf (e_kids (snd p))) l -> R k k' ->
  read_into (read_chapter scs0) k' ([], []) = Ok (ids0, d0) ->
  build_chapters n k = Ok k1 -> R k1 k1' -> NoDup (nv_srtChapters n) ->
  (forall i c, In i (nv_srtChapters n) -> dget i (nv_chapters n) = Some c -> chapter_good c /\ id_ok i) ->
  exists d, read_into (read_chapter scs) k1' ([], []) = Ok (nv_srtChapters n, d) /\ dkeys d = nv_srtChapters n /\
    (forall i, In i (nv_srtChapters n) -> exists c, dget i (nv_chapters n) = Some c /\
       dget i d = Some (merged_chapter out scs c (or_else (dget i d0) blank_chapter))) /\
  exists l2, section_ids (s "CHAPTER") k1 l2 /\ map fst l2 = nv_srtChapters n /\ Forall (fun p => chapter_wf (e_kids (snd p))) l2.
Proof.
  intros scs0 scs n k k' l ids0 d0 k1 k1' HS HW HR H0 Hb HR1 Hn Hg.
  unfold build_chapters in Hb. rewrite (save_elems_ok out _ _ _ HS) in Hb. cbn [bind] in Hb.
  apply bind_ok in Hb. destruct Hb as (new & Hm & Hb). injection Hb as <-.
  rewrite (only_filter _ _ (section_only out _ _ _ HS)) in *. cbn [app] in *. apply mapM_Forall2 in Hm.
  assert (HO : old_values (fun k => Ok (read_chapter scs0 k)) l d0).
  { apply read_into_section in H0. destruct HS as (<- & HN & HF).
    destruct (read_section_old (fun k => Ok (read_chapter scs0 k)) l k') with (d := @nil (str * chapter)) (d0 := d0) as [A1 A2]; try assumption.
    - apply Forall_forall. intros p Hp. rewrite Forall_forall in HF. destruct (HF p Hp) as (_ & P1 & P2). split; assumption.
    - split; [exact A1 | exact A2]. }
  assert (HX : exists xs, map fst xs = nv_srtChapters n /\ Forall (fun p => dget (fst p) (nv_chapters n) = Some (snd p)) xs /\
     Forall2 (fun p e => exists kb, build_chapter (snd p) (e_kids (orig (s "CHAPTER") (fst p) l)) = Ok kb /\ e = with_kids kb (orig (s "CHAPTER") (fst p) l)) xs new).
  { clear -Hm. induction Hm as [|i e is new He Hm IH]; [exists []; repeat constructor|]. destruct IH as (xs & X1 & X2 & X3).
    apply bind_ok in He. destruct He as (c & Hc & He). unfold renew in He. cbv zeta in He. fold (orig (s "CHAPTER") i l) in He.
    apply bind_ok in He. destruct He as (kb & Hb & He). injection He as <-. exists ((i, c) :: xs). cbn [map fst]. split; [rewrite X1; reflexivity|].
    split; [constructor; [|exact X2]|]. { unfold dindex in Hc. cbn [fst snd]. destruct (dget i (nv_chapters n)); [injection Hc as ->; reflexivity | discriminate]. }
    constructor; [|exact X3]. exists kb. split; [exact Hb | reflexivity]. }
  destruct HX as (xs & X1 & X2 & X3). rewrite Forall_forall in X2.
  destruct (section_roundtrip (s "CHAPTER") build_chapter (fun k => Ok (read_chapter scs0 k)) (fun k => Ok (read_chapter scs k)) chapter_wf
     (fun c old => merged_chapter out scs c old) chapter_good blank_chapter) with (l := l) (d0 := d0) (k := k) (xs := xs) (k2 := new) (k2' := k1')
     as [(d & D1 & D2) (l2 & L1 & L2 & L3)]; try assumption.
  - apply build_chapter_id.
  - intros c ka ka' old kb kb' W Ra Hrd Hx Rb G. injection Hrd as <-.
    destruct (chapter_roundtrip out out_safe scs scs0 c ka ka' kb kb' W Ra Hx Rb G) as [Q1 Q2]. split; [rewrite Q1; reflexivity | exact Q2].
  - intro i. split; [apply chapter_wf_blank|]. exists [leaf (s "ID") (out (s "ID") (Some i))]. split; [constructor; [constructor | constructor] | reflexivity].
  - intros p Hp. apply Hg; [rewrite <- X1; apply in_map; exact Hp | apply X2; exact Hp].
  - assert (K : map fst d = nv_srtChapters n) by (rewrite D2, map_map; cbn [fst]; exact X1).
    exists d. split; [|split; [exact K | split]].
    + assert (D1' : Forall2 (fun p e => read_id e = Ok (fst p) /\ read_chapter scs (e_kids e) = snd p) d k1').
      { clear -D1. induction D1 as [|p e d k1' [P1 P2] D1 IH]; constructor; [|exact IH]. injection P2 as P2. split; assumption. }
      assert (Hn' : NoDup (dkeys (@nil (str * chapter)) ++ map fst d)) by (cbn [app dkeys map]; rewrite K; exact Hn).
      pose proof (read_into_ok (read_chapter scs) d k1' D1' [] [] Hn') as H. cbn [app] in H. rewrite K in H. exact H.
    + intros i Hi. rewrite <- X1 in Hi. apply in_map_iff in Hi. destruct Hi as ([j c] & <- & Hi). cbn [fst]. exists c. split; [exact (X2 _ Hi)|].
      apply In_dget; [unfold dkeys; rewrite K; exact Hn|]. rewrite D2. apply in_map_iff. exists (j, c). split; [reflexivity | exact Hi].
    + exists l2. rewrite X1 in L2. split; [|split; [exact L2|]].
      * split; [exact L1|]. split; [rewrite L2; exact Hn|]. apply Forall_forall. intros p Hp. rewrite Forall_forall in L3. apply (L3 p Hp).
      * apply Forall_forall. intros p Hp. rewrite Forall_forall in L3. apply (L3 p Hp).
Qed.
End S.
