From Coq Require Import List NArith ZArith Bool Lia Arith.
From Verif Require Import PyStr PyDict NovelModel XRef SpecNovel.
Import ListNotations.

(** the list stored under a key, [] if there is none *)
Definition lk (k : str) (d : dict (list str)) : list str := match dget k d with Some l => l | None => [] end.

(** no key is bound to an empty list *)
Definition no_empty (d : dict (list str)) : Prop := forall k, dget k d <> Some [].

Lemma lk_dset : forall k k' v d, lk k' (dset k v d) = if str_eqb k' k then v else lk k' d.
Proof. intros. unfold lk. rewrite dget_dset. destruct (str_eqb k' k); reflexivity. Qed.

Lemma lk_dadd : forall v d k k', lk k' (dadd v d k) = lk k' d ++ (if str_eqb k' k then [v] else []).
Proof.
  intros v d k k'. unfold dadd. destruct (dget k d) as [l|] eqn:E; rewrite lk_dset;
    destruct (str_eqb k' k) eqn:Ek; try (rewrite app_nil_r; reflexivity);
    apply str_eqb_eq in Ek; subst k'; unfold lk; rewrite E; reflexivity.
Qed.

Lemma dadd_no_empty : forall v d k, no_empty d -> no_empty (dadd v d k).
Proof.
  intros v d k H k'. unfold dadd. destruct (dget k d) as [l|] eqn:E; rewrite dget_dset;
    destruct (str_eqb k' k); try apply H; intro Hc; injection Hc as Hc; [destruct l; discriminate | discriminate].
Qed.

Lemma repeat_count : forall (v : str) (tags : list str) (k k0 : str),
  (if str_eqb k k0 then [v] else []) ++ repeat v (count_occ str_eq_dec tags k) = repeat v (count_occ str_eq_dec (k0 :: tags) k).
Proof.
  intros v tags k k0. cbn [count_occ]. destruct (str_eq_dec k0 k) as [-> | Hne].
  - rewrite str_eqb_refl. reflexivity.
  - assert (E : str_eqb k k0 = false) by (apply str_eqb_neq; congruence). rewrite E. reflexivity.
Qed.

Lemma lk_dadds : forall v tags d k,
  lk k (fold_left (dadd v) tags d) = lk k d ++ repeat v (count_occ str_eq_dec tags k).
Proof.
  intros v tags. induction tags as [|k0 tags IH]; intros d k; cbn [fold_left].
  - rewrite app_nil_r. reflexivity.
  - rewrite IH, lk_dadd, <- app_assoc, repeat_count. reflexivity.
Qed.

Lemma dadds_no_empty : forall v tags d, no_empty d -> no_empty (fold_left (dadd v) tags d).
Proof.
  intros v tags. induction tags as [|k0 tags IH]; intros d H; cbn [fold_left]; [exact H|].
  apply IH, dadd_no_empty, H.
Qed.

Lemma dappend_ok : forall k v d d', dappend k v d = Ok d' ->
  In k (dkeys d) /\ dkeys d' = dkeys d /\ forall k', lk k' d' = lk k' d ++ (if str_eqb k' k then [v] else []).
Proof.
  intros k v d d' H. unfold dappend, dindex in H. destruct (dget k d) as [l|] eqn:E; [|discriminate].
  cbn in H. injection H as <-. assert (Hk : In k (dkeys d)) by (apply dget_Some_key; exists l; exact E).
  split; [exact Hk|]. split; [apply dkeys_dset_in; exact Hk|].
  intro k'. rewrite lk_dset. destruct (str_eqb k' k) eqn:Ek; [|rewrite app_nil_r; reflexivity].
  apply str_eqb_eq in Ek. subst. unfold lk. rewrite E. reflexivity.
Qed.

Lemma dappends_ok : forall v ids d d', foldM (fun d id => dappend id v d) ids d = Ok d' ->
  (forall id, In id ids -> In id (dkeys d)) /\ dkeys d' = dkeys d /\
  forall k, lk k d' = lk k d ++ repeat v (count_occ str_eq_dec ids k).
Proof.
  intros v ids. induction ids as [|k0 ids IH]; intros d d' H; cbn [foldM] in H.
  - injection H as <-. split; [intros _ []|]. split; [reflexivity|]. intro k. rewrite app_nil_r. reflexivity.
  - apply bind_ok in H as [d1 [H1 H2]]. apply dappend_ok in H1 as [Hk [Hd Hl]].
    apply IH in H2 as [Hi [Hd2 Hl2]]. split; [|split].
    + intros id [<- | Hid]; [exact Hk|]. rewrite <- Hd. apply Hi. exact Hid.
    + congruence.
    + intro k. rewrite Hl2, Hl, <- app_assoc, repeat_count. reflexivity.
Qed.

Lemma dappends_total : forall v ids d, (forall id, In id ids -> In id (dkeys d)) ->
  exists d', foldM (fun d id => dappend id v d) ids d = Ok d' /\ dkeys d' = dkeys d.
Proof.
  intros v ids. induction ids as [|k0 ids IH]; intros d H; cbn [foldM].
  - exists d. auto.
  - assert (Hk : In k0 (dkeys d)) by (apply H; left; reflexivity).
    pose proof Hk as Hk'. apply dget_Some_key in Hk' as [l Hl].
    unfold dappend at 1, dindex. rewrite Hl. cbn [bind].
    destruct (IH (dset k0 (l ++ [v]) d)) as [d' [Hd Hk2]].
    + intros id Hid. rewrite dkeys_dset_in by exact Hk. apply H. right; exact Hid.
    + exists d'. split; [exact Hd|]. rewrite Hk2. apply dkeys_dset_in. exact Hk.
Qed.

(** ** elements *)
Definition tags_at {A} (tags : A -> option (list str)) (elems : dict A) (id : str) : list str :=
  match dget id elems with Some e => olist (tags e) | None => [] end.

Lemma xref_elems_ok : forall {A} tags (elems : dict A) ids scn tg scn' tg',
  foldM (xref_elem tags elems) ids (scn, tg) = Ok (scn', tg') ->
  (forall id, In id ids -> In id (dkeys elems)) /\
  (forall id, In id (dkeys scn') <-> In id ids \/ In id (dkeys scn)) /\
  (forall k, lk k scn' = if smem k ids then [] else lk k scn) /\
  (forall k, lk k tg' = lk k tg ++ flat_map (fun id => repeat id (count_occ str_eq_dec (tags_at tags elems id) k)) ids) /\
  (no_empty tg -> no_empty tg').
Proof.
  intros A tags elems ids. induction ids as [|id ids IH]; intros scn tg scn' tg' H; cbn [foldM] in H.
  - injection H as <- <-. split; [intros ? []|]. split; [intro; cbn; tauto|].
    split; [intro; reflexivity|]. split; [|tauto].
    intro k. cbn [flat_map]. rewrite app_nil_r. reflexivity.
  - apply bind_ok in H as [[s1 t1] [H1 H2]]. unfold xref_elem in H1.
    apply bind_ok in H1 as [e [He H1]]. injection H1 as <- <-.
    unfold dindex in He. destruct (dget id elems) as [e0|] eqn:E; [|discriminate]. injection He as ->.
    apply IH in H2 as [I1 [I2 [I3 [I4 I5]]]]. repeat split.
    + intros i [<- | Hi]; [apply dget_Some_key; exists e; exact E | auto].
    + intro Hi. apply I2 in Hi as [Hi | Hi]; [left; right; exact Hi|].
      apply dkeys_dset in Hi as [-> | Hi]; [left; left; reflexivity | right; exact Hi].
    + intro Hi. apply I2. destruct Hi as [[<- | Hi] | Hi].
      * right. apply dkeys_dset. left; reflexivity.
      * left; exact Hi.
      * right. apply dkeys_dset. right; exact Hi.
    + intro k. rewrite I3, lk_dset. cbn [smem existsb]. fold (smem k ids).
      destruct (smem k ids), (str_eqb k id); reflexivity.
    + intro k. rewrite I4, lk_dadds. cbn [flat_map]. unfold tags_at at 2. rewrite E, <- app_assoc. reflexivity.
    + intro Hn. apply I5, dadds_no_empty, Hn.
Qed.

Lemma xref_elems_total : forall {A} tags (elems : dict A) ids acc,
  (forall id, In id ids -> In id (dkeys elems)) -> exists r, foldM (xref_elem tags elems) ids acc = Ok r.
Proof.
  intros A tags elems ids. induction ids as [|id ids IH]; intros [scn tg] H; cbn [foldM].
  - exists (scn, tg). reflexivity.
  - assert (Hk : In id (dkeys elems)) by (apply H; left; reflexivity).
    apply dget_Some_key in Hk as [e He]. unfold xref_elem at 1, dindex. rewrite He. cbn [bind].
    apply IH. intros i Hi. apply H. right; exact Hi.
Qed.

(** ** scenes *)
Definition refs (f : scene -> option (list str)) (n : novel) (scId : str) : list str :=
  match dget scId (nv_scenes n) with Some sc => olist (f sc) | None => [] end.

(** scIds repeated as often as the scene refers to k *)
Definition hits (f : scene -> option (list str)) (n : novel) (k : str) (scIds : list str) : list str :=
  flat_map (fun scId => repeat scId (count_occ str_eq_dec (refs f n scId) k)) scIds.

Definition xok (n : novel) (x x' : xref) (scs : list (str * str)) : Prop :=
  (forall scId, In scId (map fst scs) -> In scId (dkeys (nv_scenes n)) /\
     (forall k, In k (refs sc_characters n scId) -> In k (dkeys (scnPerChr x))) /\
     (forall k, In k (refs sc_locations n scId) -> In k (dkeys (scnPerLoc x))) /\
     (forall k, In k (refs sc_items n scId) -> In k (dkeys (scnPerItm x)))) /\
  dkeys (scnPerChr x') = dkeys (scnPerChr x) /\ dkeys (scnPerLoc x') = dkeys (scnPerLoc x) /\
  dkeys (scnPerItm x') = dkeys (scnPerItm x) /\
  (forall k, lk k (scnPerChr x') = lk k (scnPerChr x) ++ hits sc_characters n k (map fst scs)) /\
  (forall k, lk k (scnPerLoc x') = lk k (scnPerLoc x) ++ hits sc_locations n k (map fst scs)) /\
  (forall k, lk k (scnPerItm x') = lk k (scnPerItm x) ++ hits sc_items n k (map fst scs)) /\
  (forall k, lk k (scnPerTag x') = lk k (scnPerTag x) ++ hits sc_tags n k (map fst scs)) /\
  (no_empty (scnPerTag x) -> no_empty (scnPerTag x')) /\
  chrPerTag x' = chrPerTag x /\ locPerTag x' = locPerTag x /\ itmPerTag x' = itmPerTag x /\
  chpPerScn x' = fold_left (fun d p => dset (fst p) (snd p) d) scs (chpPerScn x) /\
  xrSrtScenes x' = xrSrtScenes x ++ map fst scs.

Lemma xok_nil : forall n x, xok n x x [].
Proof.
  intros n x. repeat split; try reflexivity; try tauto; try contradiction;
    try (intro k; cbn; rewrite app_nil_r; reflexivity). cbn. rewrite app_nil_r. reflexivity.
Qed.

Lemma hits_app : forall f n k a b, hits f n k (a ++ b) = hits f n k a ++ hits f n k b.
Proof. intros. apply flat_map_app. Qed.

Lemma xok_app : forall n x y z a b, xok n x y a -> xok n y z b -> xok n x z (a ++ b).
Proof.
  intros n x y z a b [A1 [A2 [A3 [A4 [A5 [A6 [A7 [A8 [A9 [A10 [A11 [A12 [A13 A14]]]]]]]]]]]]]
    [B1 [B2 [B3 [B4 [B5 [B6 [B7 [B8 [B9 [B10 [B11 [B12 [B13 B14]]]]]]]]]]]]].
  split.
  { intros scId Hi. rewrite map_app in Hi. apply in_app_or in Hi as [Hi | Hi]; [exact (A1 _ Hi)|].
    destruct (B1 _ Hi) as [H1 [H2 [H3 H4]]]. rewrite A2 in H2. rewrite A3 in H3. rewrite A4 in H4. auto. }
  split; [congruence|]. split; [congruence|]. split; [congruence|].
  split; [intro k; rewrite B5, A5, map_app, hits_app, app_assoc; reflexivity|].
  split; [intro k; rewrite B6, A6, map_app, hits_app, app_assoc; reflexivity|].
  split; [intro k; rewrite B7, A7, map_app, hits_app, app_assoc; reflexivity|].
  split; [intro k; rewrite B8, A8, map_app, hits_app, app_assoc; reflexivity|].
  split; [auto|]. split; [congruence|]. split; [congruence|]. split; [congruence|].
  split; [rewrite B13, A13, fold_left_app; reflexivity|].
  rewrite B14, A14, map_app, app_assoc. reflexivity.
Qed.

Lemma hits_one : forall f n k scId, hits f n k [scId] = repeat scId (count_occ str_eq_dec (refs f n scId) k).
Proof. intros. unfold hits. cbn [flat_map]. apply app_nil_r. Qed.

Lemma xref_scene_ok : forall n chId x scId x', xref_scene n chId x scId = Ok x' -> xok n x x' [(scId, chId)].
Proof.
  intros n chId x scId x' H. unfold xref_scene in H.
  apply bind_ok in H as [sc [Hsc H]]. apply bind_ok in H as [pc [Hpc H]].
  apply bind_ok in H as [pl [Hpl H]]. apply bind_ok in H as [pi [Hpi H]]. injection H as <-.
  unfold dindex in Hsc. destruct (dget scId (nv_scenes n)) as [sc0|] eqn:E; [|discriminate]. injection Hsc as ->.
  apply dappends_ok in Hpc as [C1 [C2 C3]]. apply dappends_ok in Hpl as [L1 [L2 L3]].
  apply dappends_ok in Hpi as [I1 [I2 I3]].
  assert (Hr : forall f, refs f n scId = olist (f sc)) by (intro f; unfold refs; rewrite E; reflexivity).
  unfold xok. cbn [scnPerChr scnPerLoc scnPerItm scnPerTag chrPerTag locPerTag itmPerTag chpPerScn xrSrtScenes
                   map fst snd fold_left].
  repeat split; try assumption.
  - destruct H as [<- | []]. apply dget_Some_key. exists sc. exact E.
  - destruct H as [<- | []]. rewrite Hr. exact C1.
  - destruct H as [<- | []]. rewrite Hr. exact L1.
  - destruct H as [<- | []]. rewrite Hr. exact I1.
  - intro k. rewrite C3, hits_one, Hr. reflexivity.
  - intro k. rewrite L3, hits_one, Hr. reflexivity.
  - intro k. rewrite I3, hits_one, Hr. reflexivity.
  - intro k. rewrite lk_dadds, hits_one, Hr. reflexivity.
  - apply dadds_no_empty.
Qed.

Lemma xref_scenes_ok : forall n chId ids x x',
  foldM (xref_scene n chId) ids x = Ok x' -> xok n x x' (map (fun i => (i, chId)) ids).
Proof.
  intros n chId ids. induction ids as [|i ids IH]; intros x x' H; cbn [foldM] in H.
  - injection H as <-. apply xok_nil.
  - apply bind_ok in H as [y [H1 H2]]. apply xref_scene_ok in H1. apply IH in H2.
    apply (xok_app n x y x' [(i, chId)] _ H1 H2).
Qed.

Lemma xref_chapters_ok : forall n chs x x',
  foldM (xref_chapter n) chs x = Ok x' ->
  (forall chId, In chId chs -> In chId (dkeys (nv_chapters n))) /\
  xok n x x' (flat_map (fun c => map (fun i => (i, c)) (chapter_scenes n c)) chs).
Proof.
  intros n chs. induction chs as [|c chs IH]; intros x x' H; cbn [foldM] in H.
  - injection H as <-. split; [intros _ [] | apply xok_nil].
  - apply bind_ok in H as [y [H1 H2]]. unfold xref_chapter in H1. apply bind_ok in H1 as [ch [Hch H1]].
    unfold dindex in Hch. destruct (dget c (nv_chapters n)) as [ch0|] eqn:E; [|discriminate]. injection Hch as ->.
    apply xref_scenes_ok in H1. apply IH in H2 as [H2a H2b]. split.
    + intros i [<- | Hi]; [apply dget_Some_key; exists ch; exact E | auto].
    + cbn [flat_map]. eapply xok_app; [|exact H2b].
      unfold chapter_scenes. rewrite E. exact H1.
Qed.

Lemma xref_scenes_total : forall n chId ids x,
  (forall scId, In scId ids -> In scId (dkeys (nv_scenes n)) /\
     (forall k, In k (refs sc_characters n scId) -> In k (dkeys (scnPerChr x))) /\
     (forall k, In k (refs sc_locations n scId) -> In k (dkeys (scnPerLoc x))) /\
     (forall k, In k (refs sc_items n scId) -> In k (dkeys (scnPerItm x)))) ->
  exists x', foldM (xref_scene n chId) ids x = Ok x'.
Proof.
  intros n chId ids. induction ids as [|i ids IH]; intros x H; cbn [foldM].
  - exists x. reflexivity.
  - destruct (H i (or_introl eq_refl)) as [H1 [H2 [H3 H4]]].
    assert (Hy : exists y, xref_scene n chId x i = Ok y).
    { unfold xref_scene, dindex. unfold refs in *. apply dget_Some_key in H1 as [sc Hsc]. rewrite Hsc in *. cbn [bind].
      destruct (dappends_total i (olist (sc_characters sc)) (scnPerChr x) H2) as [pc [-> _]]. cbn [bind].
      destruct (dappends_total i (olist (sc_locations sc)) (scnPerLoc x) H3) as [pl [-> _]]. cbn [bind].
      destruct (dappends_total i (olist (sc_items sc)) (scnPerItm x) H4) as [pi [-> _]]. cbn [bind].
      eexists. reflexivity. }
    destruct Hy as [y Hy]. rewrite Hy. cbn [bind]. apply IH.
    apply xref_scene_ok in Hy as [_ [K1 [K2 [K3 _]]]]. rewrite K1, K2, K3.
    intros scId Hi. apply H. right; exact Hi.
Qed.

Lemma xref_chapters_total : forall n chs x,
  (forall chId, In chId chs -> In chId (dkeys (nv_chapters n)) /\
   forall scId, In scId (chapter_scenes n chId) -> In scId (dkeys (nv_scenes n)) /\
     (forall k, In k (refs sc_characters n scId) -> In k (dkeys (scnPerChr x))) /\
     (forall k, In k (refs sc_locations n scId) -> In k (dkeys (scnPerLoc x))) /\
     (forall k, In k (refs sc_items n scId) -> In k (dkeys (scnPerItm x)))) ->
  exists x', foldM (xref_chapter n) chs x = Ok x'.
Proof.
  intros n chs. induction chs as [|c chs IH]; intros x H; cbn [foldM].
  - exists x. reflexivity.
  - destruct (H c (or_introl eq_refl)) as [H1 H2].
    apply dget_Some_key in H1 as [ch Hch]. unfold chapter_scenes in H2. rewrite Hch in H2.
    destruct (xref_scenes_total n c (ch_srtScenes ch) x H2) as [y Hy].
    assert (Hc : xref_chapter n x c = Ok y) by (unfold xref_chapter, dindex; rewrite Hch; exact Hy).
    rewrite Hc. cbn [bind]. apply IH.
    apply xref_scenes_ok in Hy as [_ [K1 [K2 [K3 _]]]]. rewrite K1, K2, K3.
    intros chId Hi. apply H. right; exact Hi.
Qed.

Lemma last_chapter : forall (scs : list (str * str)) d scId chId,
  (forall c, In (scId, c) scs -> c = chId) -> In (scId, chId) scs ->
  dget scId (fold_left (fun d p => dset (fst p) (snd p) d) scs d) = Some chId.
Proof.
  induction scs as [|[i c] scs IH] using rev_ind; intros d scId chId Hu Hi; [contradiction|].
  rewrite fold_left_app. cbn [fold_left fst snd]. rewrite dget_dset.
  destruct (str_eqb scId i) eqn:E.
  - apply str_eqb_eq in E. subst i. f_equal. apply Hu. apply in_or_app. right; left; reflexivity.
  - apply IH.
    + intros c' Hc'. apply Hu. apply in_or_app. left; exact Hc'.
    + apply in_app_or in Hi as [Hi | [Hi | []]]; [exact Hi|]. injection Hi as -> ->.
      rewrite str_eqb_refl in E. discriminate.
Qed.

Lemma lk_dget_elem : forall k d, In k (dkeys d) -> dget k d = Some (lk k d).
Proof. intros k d H. apply dget_Some_key in H as [l Hl]. unfold lk. rewrite Hl. reflexivity. Qed.

Lemma lk_dget_tag : forall k d, no_empty d -> dget k d = tag_entry (lk k d).
Proof.
  intros k d H. unfold lk. specialize (H k). destruct (dget k d) as [[|x l]|]; [congruence | reflexivity | reflexivity].
Qed.

Lemma map_fst_pairs : forall (n : novel) chs,
  map fst (flat_map (fun c => map (fun i => (i, c)) (chapter_scenes n c)) chs) = flat_map (chapter_scenes n) chs.
Proof.
  intros n chs. induction chs as [|c chs IH]; [reflexivity|]. cbn [flat_map].
  rewrite map_app, IH, map_map. cbn [fst]. rewrite map_id. reflexivity.
Qed.

Lemma no_empty_nil : no_empty [].
Proof. intros k. discriminate. Qed.

Lemma hits_references : forall f n k ids, hits f n k ids = references f n k ids.
Proof.
  intros f n k ids. unfold hits, references. apply flat_map_ext. intro a.
  unfold refs, scene_refs, olist. destruct (dget a (nv_scenes n)) as [x|]; [|reflexivity].
  destruct (f x); reflexivity.
Qed.

Lemma generate_xref_ok : forall n x, generate_xref n = Ok x ->
  xrSrtScenes x = all_scenes n /\
  (forall id, dget id (scnPerChr x) = if smem id (nv_srtCharacters n) then Some (references sc_characters n id (all_scenes n)) else None) /\
  (forall id, dget id (scnPerLoc x) = if smem id (nv_srtLocations n) then Some (references sc_locations n id (all_scenes n)) else None) /\
  (forall id, dget id (scnPerItm x) = if smem id (nv_srtItems n) then Some (references sc_items n id (all_scenes n)) else None) /\
  (forall t, dget t (scnPerTag x) = tag_entry (references sc_tags n t (all_scenes n))) /\
  (forall t, dget t (chrPerTag x) = tag_entry (tagged cr_tags (nv_characters n) t (nv_srtCharacters n))) /\
  (forall t, dget t (locPerTag x) = tag_entry (tagged we_tags (nv_locations n) t (nv_srtLocations n))) /\
  (forall t, dget t (itmPerTag x) = tag_entry (tagged we_tags (nv_items n) t (nv_srtItems n))) /\
  (forall chId scId, In chId (nv_srtChapters n) -> In scId (chapter_scenes n chId) ->
     (forall c, In c (nv_srtChapters n) -> In scId (chapter_scenes n c) -> c = chId) ->
     dget scId (chpPerScn x) = Some chId) /\
  refs_exist n.
Proof.
  intros n x H. unfold generate_xref in H.
  apply bind_ok in H as [[pc ct] [Hc H]]. apply bind_ok in H as [[pl lt] [Hl H]].
  apply bind_ok in H as [[pi it] [Hi H]].
  apply xref_elems_ok in Hc as [C1 [C2 [C3 [C4 C5]]]].
  apply xref_elems_ok in Hl as [L1 [L2 [L3 [L4 L5]]]].
  apply xref_elems_ok in Hi as [I1 [I2 [I3 [I4 I5]]]].
  apply xref_chapters_ok in H as [Hch [X1 [X2 [X3 [X4 [X5 [X6 [X7 [X8 [X9 [X10 [X11 [X12 [X13 X14]]]]]]]]]]]]]].
  cbn [scnPerChr scnPerLoc scnPerItm scnPerTag chrPerTag locPerTag itmPerTag chpPerScn xrSrtScenes app] in *.
  rewrite map_fst_pairs in *. fold (all_scenes n) in *.
  assert (Hgen : forall d d0 srt f, dkeys d = dkeys d0 ->
            (forall id, In id (dkeys d0) <-> In id srt \/ In id (dkeys (@nil (str * list str)))) ->
            (forall k, lk k d = lk k d0 ++ hits f n k (all_scenes n)) ->
            (forall k, lk k d0 = if smem k srt then [] else lk k []) ->
            forall id, dget id d = if smem id srt then Some (references f n id (all_scenes n)) else None).
  { intros d d0 srt f Hk Hin Hlk Hlk0 id. destruct (smem id srt) eqn:E.
    - assert (Hid : In id (dkeys d)).
      { rewrite Hk. apply Hin. left. apply smem_In. exact E. }
      rewrite (lk_dget_elem id d Hid), Hlk, Hlk0, E. cbn [app]. rewrite hits_references. reflexivity.
    - apply dget_None. rewrite Hk. intro Hid. apply Hin in Hid as [Hid | Hid]; [|exact Hid].
      apply smem_In in Hid. congruence. }
  assert (Htag : forall {A} (tags : A -> option (list str)) (es : dict A) d srt, no_empty d ->
            (forall k, lk k d = lk k [] ++ flat_map (fun id => repeat id (count_occ str_eq_dec (tags_at tags es id) k)) srt) ->
            forall t, dget t d = tag_entry (tagged tags es t srt)).
  { intros A tags es d srt Hne Hlk t. rewrite (lk_dget_tag t d Hne), Hlk. cbn [lk dget app].
    reflexivity. }
  split; [exact X14|].
  split; [eapply Hgen; eassumption|].
  split; [eapply Hgen; eassumption|].
  split; [eapply Hgen; eassumption|].
  split.
  { intro t. rewrite lk_dget_tag by (apply X9, no_empty_nil). rewrite X8. cbn [lk dget app].
    rewrite hits_references. reflexivity. }
  split; [rewrite X10; apply (Htag _ cr_tags (nv_characters n)); [apply C5, no_empty_nil | exact C4]|].
  split; [rewrite X11; apply (Htag _ we_tags (nv_locations n)); [apply L5, no_empty_nil | exact L4]|].
  split; [rewrite X12; apply (Htag _ we_tags (nv_items n)); [apply I5, no_empty_nil | exact I4]|].
  split.
  { intros chId scId Hc Hs Hu. rewrite X13. apply last_chapter.
    - intros c Hin. apply in_flat_map in Hin as [c' [Hc' Hin]]. apply in_map_iff in Hin as [i [Heq Hin]].
      injection Heq as -> ->. apply Hu; assumption.
    - apply in_flat_map. exists chId. split; [exact Hc|]. apply in_map_iff. exists scId. auto. }
  assert (Hrf : forall f scId, refs f n scId = scene_refs f n scId).
  { intros f scId. unfold refs, scene_refs, olist. destruct (dget scId (nv_scenes n)) as [y|]; [|reflexivity].
    destruct (f y); reflexivity. }
  assert (Hsimp : forall id srt, In id srt \/ In id (dkeys (@nil (str * list str))) -> In id srt)
    by (intros id srt [Hx | []]; exact Hx).
  split; [exact Hch|]. split.
  { intros scId Hs. destruct (X1 scId Hs) as [Y1 [Y2 [Y3 Y4]]]. split; [exact Y1|].
    rewrite <- !Hrf. split; [|split]; intros k Hk.
    - apply Hsimp, C2, Y2, Hk.
    - apply Hsimp, L2, Y3, Hk.
    - apply Hsimp, I2, Y4, Hk. }
  auto.
Qed.

Lemma generate_xref_total : forall n, refs_exist n -> exists x, generate_xref n = Ok x.
Proof.
  intros n [Hch [Hsc [Hc [Hl Hi]]]]. unfold generate_xref.
  destruct (xref_elems_total cr_tags (nv_characters n) (nv_srtCharacters n) ([], []) Hc) as [[pc ct] Ec].
  destruct (xref_elems_total we_tags (nv_locations n) (nv_srtLocations n) ([], []) Hl) as [[pl lt] El].
  destruct (xref_elems_total we_tags (nv_items n) (nv_srtItems n) ([], []) Hi) as [[pi it] Ei].
  rewrite Ec, El, Ei. cbn [bind].
  apply xref_elems_ok in Ec as [_ [C2 _]]. apply xref_elems_ok in El as [_ [L2 _]]. apply xref_elems_ok in Ei as [_ [I2 _]].
  apply xref_chapters_total. intros chId Hid. split; [apply Hch; exact Hid|].
  intros scId Hs. assert (Ha : In scId (all_scenes n)) by (apply in_flat_map; exists chId; auto).
  destruct (Hsc scId Ha) as [Y1 [Y2 [Y3 Y4]]].
  assert (Hrf : forall f scId, refs f n scId = scene_refs f n scId).
  { intros f i. unfold refs, scene_refs, olist. destruct (dget i (nv_scenes n)) as [y|]; [|reflexivity].
    destruct (f y); reflexivity. }
  rewrite !Hrf. cbn [scnPerChr scnPerLoc scnPerItm]. split; [exact Y1|].
  split; [|split]; intros k Hk.
  - apply C2. left. auto.
  - apply L2. left. auto.
  - apply I2. left. auto.
Qed.
