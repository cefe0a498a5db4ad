(** The cross reference document contains exactly the lines of SpecXref. *)
From Coq Require Import List NArith ZArith Bool Lia Arith.
From Verif Require Import SpecExport PyStr PyDict Globals NovelModel Template SpecTemplate TemplateProofs Export ExportProofs ExportProofs2 OdtText Templates Descriptions XRef SpecNovel XRefProofs XRefWrite SpecShow ShowProofs SpecXref.
Import ListNotations.

(** * Keys in the order of their first use *)
Definition addk (l : list str) (k : str) : list str := if smem k l then l else l ++ [k].
Lemma dkeys_dset_addk : forall {A} k (v : A) d, dkeys (dset k v d) = addk (dkeys d) k.
Proof.
  intros A k v d. unfold addk. destruct (smem k (dkeys d)) eqn:E.
  - apply dkeys_dset_in. now apply smem_In.
  - apply dkeys_dset_new. intro H. apply smem_In in H. congruence.
Qed.
Lemma dkeys_dadd : forall v d k, dkeys (dadd v d k) = addk (dkeys d) k.
Proof. intros v d k. unfold dadd. destruct (dget k d); apply dkeys_dset_addk. Qed.
Lemma dkeys_dadds : forall v tags d, dkeys (fold_left (dadd v) tags d) = fold_left addk tags (dkeys d).
Proof. induction tags as [|t tags IH]; intro d; cbn [fold_left]; [reflexivity|]. now rewrite IH, dkeys_dadd. Qed.
Definition out (a : list str) (y : str) : bool := negb (smem y a).
Lemma filter_filter : forall {A} (f g : A -> bool) l, filter f (filter g l) = filter (fun x => g x && f x) l.
Proof. induction l as [|x l IH]; cbn [filter]; [reflexivity|]. destruct (g x); cbn [filter andb]; [destruct (f x); now rewrite IH|exact IH]. Qed.
Lemma smem_app : forall x a b, smem x (a ++ b) = smem x a || smem x b.
Proof.
  intros x a b. destruct (smem x (a ++ b)) eqn:E.
  - apply smem_In, in_app_iff in E. symmetry. apply orb_true_iff. destruct E as [E|E]; [left|right]; now apply smem_In.
  - destruct (smem x a) eqn:Ea.
    + assert (smem x (a ++ b) = true) by (apply smem_In, in_app_iff; left; now apply smem_In). congruence.
    + destruct (smem x b) eqn:Eb; [|reflexivity]. assert (smem x (a ++ b) = true) by (apply smem_In, in_app_iff; right; now apply smem_In). congruence.
Qed.
Lemma smem_one : forall y x, smem y [x] = str_eqb y x.
Proof. intros y x. destruct (str_eqb y x) eqn:E; [apply str_eqb_eq in E; subst; apply smem_In; now left|]. destruct (smem y [x]) eqn:F; [|reflexivity]. apply smem_In in F as [F|[]]. subst. rewrite str_eqb_refl in E. discriminate E. Qed.
Lemma addks : forall l a, fold_left addk l a = a ++ filter (out a) (firsts l).
Proof.
  induction l as [|x l IH]; intro a; cbn [fold_left firsts filter]; [now rewrite app_nil_r|]. rewrite IH. unfold addk, out. destruct (smem x a) eqn:E; cbn [negb].
  - rewrite filter_filter. f_equal. apply filter_ext. intro y. destruct (str_eqb y x) eqn:F; [apply str_eqb_eq in F; subst; now rewrite E|reflexivity].
  - rewrite <- app_assoc. cbn [app]. do 2 f_equal. rewrite filter_filter. apply filter_ext. intro y. rewrite smem_app, smem_one. destruct (str_eqb y x), (smem y a); reflexivity.
Qed.
Lemma addks_nil : forall l, fold_left addk l [] = firsts l.
Proof. intro l. rewrite addks. cbn [app]. erewrite filter_ext; [|intro y; exact (eq_refl true)]. induction (firsts l) as [|x r IH]; cbn [filter]; [reflexivity|now rewrite IH]. Qed.
Lemma firsts_in : forall l x, In x (firsts l) <-> In x l.
Proof.
  induction l as [|y l IH]; intro x; cbn [firsts]; [reflexivity|]. cbn [In]. rewrite filter_In, IH. split; [tauto|]. intros [H|H]; [now left|].
  destruct (str_eqb x y) eqn:E; [apply str_eqb_eq in E; left; now symmetry|right; now split].
Qed.
Lemma firsts_nodup : forall l, NoDup (firsts l).
Proof.
  induction l as [|y l IH]; cbn [firsts]; constructor; [|now apply NoDup_filter]. rewrite filter_In. intros [_ H]. rewrite str_eqb_refl in H. discriminate H.
Qed.
Lemma flat_fold : forall {A} (f : A -> list str) l a, fold_left (fun a x => fold_left addk (f x) a) l a = fold_left addk (flat_map f l) a.
Proof. induction l as [|x l IH]; intro a; cbn [fold_left flat_map]; [reflexivity|]. now rewrite IH, fold_left_app. Qed.

(** * The dictionaries *)
Lemma elems_keys : forall {A} tags (elems : dict A) ids scn tg scn' tg', foldM (xref_elem tags elems) ids (scn, tg) = Ok (scn', tg') ->
  dkeys scn' = fold_left addk ids (dkeys scn) /\ dkeys tg' = fold_left addk (flat_map (elem_tags tags elems) ids) (dkeys tg).
Proof.
  intros A tags elems. induction ids as [|i ids IH]; intros scn tg scn' tg' H; cbn [foldM] in H; [injection H as <- <-; now split|].
  apply bind_ok in H as [[s1 t1] [H1 H]]. unfold xref_elem, dindex in H1. destruct (dget i elems) as [e|] eqn:E; cbn [bind] in H1; [|discriminate H1]. injection H1 as <- <-.
  apply IH in H as [Hs Ht]. rewrite Hs, Ht, dkeys_dset_addk, dkeys_dadds. cbn [fold_left flat_map]. split; [reflexivity|].
  rewrite fold_left_app. do 2 f_equal. unfold elem_tags. rewrite E. reflexivity.
Qed.
Lemma scenes_tag_keys : forall n c ids x x', foldM (xref_scene n c) ids x = Ok x' -> dkeys (scnPerTag x') = fold_left addk (flat_map (scene_refs sc_tags n) ids) (dkeys (scnPerTag x)).
Proof.
  intros n c. induction ids as [|i ids IH]; intros x x' H; cbn [foldM] in H; [injection H as <-; reflexivity|]. apply bind_ok in H as [x1 [H1 H]]. apply IH in H. rewrite H. clear H IH.
  unfold xref_scene, dindex in H1. destruct (dget i (nv_scenes n)) as [sc|] eqn:E; cbn [bind] in H1; [|discriminate H1].
  apply bind_ok in H1 as [pc [_ H1]]. apply bind_ok in H1 as [pl [_ H1]]. apply bind_ok in H1 as [pi [_ H1]]. injection H1 as <-. cbn [scnPerTag flat_map].
  rewrite dkeys_dadds, fold_left_app. do 2 f_equal. unfold scene_refs. now rewrite E.
Qed.
Lemma chapters_tag_keys : forall n chs x x', foldM (xref_chapter n) chs x = Ok x' ->
  dkeys (scnPerTag x') = fold_left addk (flat_map (scene_refs sc_tags n) (flat_map (chapter_scenes n) chs)) (dkeys (scnPerTag x)).
Proof.
  intros n. induction chs as [|c chs IH]; intros x x' H; cbn [foldM] in H; [injection H as <-; reflexivity|]. apply bind_ok in H as [x1 [H1 H]]. apply IH in H. rewrite H. clear H IH.
  unfold xref_chapter, dindex in H1. destruct (dget c (nv_chapters n)) as [ch|] eqn:E; cbn [bind] in H1; [|discriminate H1]. apply scenes_tag_keys in H1. rewrite H1. cbn [flat_map].
  rewrite flat_map_app, fold_left_app. unfold chapter_scenes at 3. rewrite E. reflexivity.
Qed.
(** a dictionary is its keys with their values *)
Lemma dict_map : forall (d : dict (list str)) (f : str -> list str), NoDup (dkeys d) -> (forall k, In k (dkeys d) -> dget k d = Some (f k)) -> d = map (fun k => (k, f k)) (dkeys d).
Proof.
  induction d as [|[k v] d IH]; intros f N H; [reflexivity|]. inversion N as [|? ? N1 N2]; subst. cbn [dkeys map fst]. change (map fst d) with (dkeys d).
  assert (E : v = f k) by (specialize (H k (or_introl eq_refl)); cbn [dget] in H; rewrite str_eqb_refl in H; congruence). subst v. f_equal. apply IH; [exact N2|].
  intros k' Hk. specialize (H k' (or_intror Hk)). cbn [dget] in H. destruct (str_eqb k' k) eqn:F; [apply str_eqb_eq in F; subst; contradiction|exact H].
Qed.
Lemma dict_firsts : forall (d : dict (list str)) l (f : str -> list str), dkeys d = firsts l -> (forall k, In k l -> dget k d = Some (f k)) -> d = map (fun k => (k, f k)) (firsts l).
Proof.
  intros d l f E H. rewrite <- E. apply dict_map; [rewrite E; apply firsts_nodup|]. intros k Hk. rewrite E in Hk. apply H. now apply firsts_in.
Qed.
Lemma repeat_in : forall (x : str) l, In x l -> forall y : str, repeat y (count_occ str_eq_dec l x) <> [].
Proof. intros x l H y. apply (count_occ_In str_eq_dec) in H. destruct (count_occ str_eq_dec l x); [lia|discriminate]. Qed.
Lemma refd : forall f n t ids, In t (flat_map (scene_refs f n) ids) -> references f n t ids <> [].
Proof.
  intros f n t ids H. apply in_flat_map in H as [i [Hi Ht]]. apply in_split in Hi as [a [b ->]]. unfold references. rewrite flat_map_app. cbn [flat_map].
  intro E. apply app_eq_nil in E as [_ E]. apply app_eq_nil in E as [E _]. now apply (repeat_in t _ Ht i).
Qed.
Lemma taggd : forall {A} (tags : A -> option (list str)) es t ids, In t (flat_map (elem_tags tags es) ids) -> tagged tags es t ids <> [].
Proof.
  intros A tags es t ids H. apply in_flat_map in H as [i [Hi Ht]]. apply in_split in Hi as [a [b ->]]. unfold tagged. rewrite flat_map_app. cbn [flat_map].
  intro E. apply app_eq_nil in E as [_ E]. apply app_eq_nil in E as [E _]. now apply (repeat_in t _ Ht i).
Qed.
Lemma entry : forall l, l <> [] -> tag_entry l = Some l.
Proof. intros [|x l] H; [now elim H|reflexivity]. Qed.

(** the last value written for a key *)
Lemma last_written : forall (scs : list (str * str)) d k,
  dget k (fold_left (fun d p => dset (fst p) (snd p) d) scs d) =
  match filter (fun p => str_eqb (fst p) k) scs with [] => dget k d | (_ :: _) as l => Some (snd (last l ([], []))) end.
Proof.
  induction scs as [|[a c] scs IH]; intros d k; cbn [fold_left filter fst snd]; [reflexivity|]. rewrite IH. destruct (str_eqb a k) eqn:E.
  - apply str_eqb_eq in E. subst. destruct (filter (fun p => str_eqb (fst p) k) scs) as [|q l] eqn:F; [apply dget_dset_same|reflexivity].
  - destruct (filter (fun p => str_eqb (fst p) k) scs) as [|q l]; [|reflexivity]. apply dget_dset_other. intro H. subst. rewrite str_eqb_refl in E. discriminate E.
Qed.
Lemma filter_flat : forall {A B} (f : B -> bool) (g : A -> list B) l, filter f (flat_map g l) = flat_map (fun x => filter f (g x)) l.
Proof. induction l as [|x l IH]; cbn [flat_map]; [reflexivity|]. now rewrite filter_app, IH. Qed.
Lemma last_app_ne : forall {A} (a b : list A) d, b <> [] -> last (a ++ b) d = last b d.
Proof.
  induction a as [|x a IH]; intros b d H; [reflexivity|]. cbn [app]. destruct (a ++ b) as [|y r] eqn:E; [apply app_eq_nil in E as [_ E]; contradiction|].
  change (last (y :: r) d = last b d). rewrite <- E. now apply IH.
Qed.
Lemma one_chapter : forall (i c : str) ids, filter (fun p : str * str => str_eqb (fst p) i) (map (fun j => (j, c)) ids) = map (fun j => (j, c)) (filter (fun j => str_eqb j i) ids).
Proof. induction ids as [|j ids IH]; cbn [map filter fst]; [reflexivity|]. destruct (str_eqb j i); cbn [map]; now rewrite IH. Qed.
Lemma none_in : forall i ids, filter (fun j => str_eqb j i) ids = [] <-> smem i ids = false.
Proof.
  intros i ids. split; intro H.
  - destruct (smem i ids) eqn:E; [|reflexivity]. apply smem_In in E. assert (In i (filter (fun j => str_eqb j i) ids)) by (apply filter_In; split; [exact E|apply str_eqb_refl]). rewrite H in H0. destruct H0.
  - destruct (filter (fun j => str_eqb j i) ids) as [|j r] eqn:E; [reflexivity|]. assert (Hj : In j (filter (fun j => str_eqb j i) ids)) by (rewrite E; now left).
    apply filter_In in Hj as [Hj Hs]. apply str_eqb_eq in Hs. subst. apply smem_In in Hj. congruence.
Qed.
Lemma last_map_const : forall (c : str) l d, l <> [] -> snd (last (map (fun j : str => (j, c)) l) d) = c.
Proof. induction l as [|x l IH]; intros d H; [now elim H|]. destruct l as [|y l]; [reflexivity|]. change (snd (last (map (fun j : str => (j, c)) (y :: l)) d) = c). now apply IH. Qed.
Lemma its_chapter_written : forall n i chs,
  match filter (fun p => str_eqb (fst p) i) (flat_map (fun c => map (fun j => (j, c)) (chapter_scenes n c)) chs) with
  | [] => filter (fun ch => smem i (chapter_scenes n ch)) chs = []
  | (_ :: _) as l => filter (fun ch => smem i (chapter_scenes n ch)) chs <> [] /\ snd (last l ([], [])) = last (filter (fun ch => smem i (chapter_scenes n ch)) chs) []
  end.
Proof.
  intros n i. induction chs as [|c chs IH]; cbn [flat_map filter]; [reflexivity|]. rewrite filter_app, one_chapter.
  set (rest := filter (fun p => str_eqb (fst p) i) (flat_map (fun c => map (fun j => (j, c)) (chapter_scenes n c)) chs)) in *.
  destruct (smem i (chapter_scenes n c)) eqn:E.
  - destruct (filter (fun j => str_eqb j i) (chapter_scenes n c)) as [|j l] eqn:F; [apply none_in in F; congruence|]. cbn [map app]. split; [discriminate|].
    change ((j, c) :: map (fun j => (j, c)) l ++ rest) with (map (fun j => (j, c)) (j :: l) ++ rest). destruct rest as [|p rest].
    + rewrite app_nil_r, IH. cbn [last]. now apply last_map_const.
    + destruct IH as [Hn IH]. rewrite last_app_ne by discriminate. rewrite IH. destruct (filter (fun ch => smem i (chapter_scenes n ch)) chs); [now elim Hn|reflexivity].
  - apply none_in in E. rewrite E. cbn [map app]. exact IH.
Qed.
Lemma chapter_found : forall n i d, In i (all_scenes n) ->
  dget i (fold_left (fun d p => dset (fst p) (snd p) d) (flat_map (fun c => map (fun j => (j, c)) (chapter_scenes n c)) (nv_srtChapters n)) d) = Some (its_chapter n i) /\
  In (its_chapter n i) (nv_srtChapters n).
Proof.
  intros n i d H. rewrite last_written. pose proof (its_chapter_written n i (nv_srtChapters n)) as W. apply in_flat_map in H as [c [Hc Hi]].
  assert (N : filter (fun ch => smem i (chapter_scenes n ch)) (nv_srtChapters n) <> []).
  { intro E. assert (In c (filter (fun ch => smem i (chapter_scenes n ch)) (nv_srtChapters n))) by (apply filter_In; split; [exact Hc|now apply smem_In]). rewrite E in H. destruct H. }
  destruct (filter (fun p => str_eqb (fst p) i) (flat_map (fun c => map (fun j => (j, c)) (chapter_scenes n c)) (nv_srtChapters n))) as [|p l]; [contradiction|].
  destruct W as [_ W]. split; [unfold its_chapter; now rewrite W|]. unfold its_chapter.
  destruct (exists_last N) as [a [b E]]. rewrite E, last_last. assert (B : In b (filter (fun ch => smem i (chapter_scenes n ch)) (nv_srtChapters n))) by (rewrite E; apply in_app_iff; right; now left).
  now apply filter_In in B.
Qed.
Lemma index_position : forall x l, In x l -> exists k, index_in x l = Ok k /\ S k = position x l.
Proof.
  induction l as [|y l IH]; intro H; [destruct H|]. cbn [index_in position]. rewrite (str_eqb_sym x y). destruct (str_eqb y x) eqn:E; [exists 0; now split|].
  destruct H as [->|H]; [rewrite str_eqb_refl in E; discriminate E|]. destruct (IH H) as [k [Ek Ep]]. rewrite Ek. cbn [bind]. exists (S k). split; [reflexivity|now rewrite Ep].
Qed.
(** all about the dictionaries *)
Lemma generated : forall n x, generate_xref n = Ok x ->
  scnPerChr x = map (fun k => (k, references sc_characters n k (all_scenes n))) (firsts (nv_srtCharacters n)) /\
  scnPerLoc x = map (fun k => (k, references sc_locations n k (all_scenes n))) (firsts (nv_srtLocations n)) /\
  scnPerItm x = map (fun k => (k, references sc_items n k (all_scenes n))) (firsts (nv_srtItems n)) /\
  scnPerTag x = map (fun t => (t, references sc_tags n t (all_scenes n))) (firsts (flat_map (scene_refs sc_tags n) (all_scenes n))) /\
  chrPerTag x = map (fun t => (t, tagged cr_tags (nv_characters n) t (nv_srtCharacters n))) (firsts (flat_map (elem_tags cr_tags (nv_characters n)) (nv_srtCharacters n))) /\
  locPerTag x = map (fun t => (t, tagged we_tags (nv_locations n) t (nv_srtLocations n))) (firsts (flat_map (elem_tags we_tags (nv_locations n)) (nv_srtLocations n))) /\
  itmPerTag x = map (fun t => (t, tagged we_tags (nv_items n) t (nv_srtItems n))) (firsts (flat_map (elem_tags we_tags (nv_items n)) (nv_srtItems n))) /\
  xrSrtScenes x = all_scenes n /\
  (forall i, In i (all_scenes n) -> dget i (chpPerScn x) = Some (its_chapter n i) /\ In (its_chapter n i) (nv_srtChapters n)).
Proof.
  intros n x G. pose proof (generate_xref_ok n x G) as [S [Dc [Dl [Di [Dt [Tc [Tl [Ti _]]]]]]]].
  unfold generate_xref in G. apply bind_ok in G as [[pc ct] [Hc G]]. apply bind_ok in G as [[pl lt] [Hl G]]. apply bind_ok in G as [[pi it] [Hi G]].
  apply elems_keys in Hc as [Kc Kct]. apply elems_keys in Hl as [Kl Klt]. apply elems_keys in Hi as [Ki Kit]. pose proof (chapters_tag_keys _ _ _ _ G) as Kt.
  apply xref_chapters_ok in G as [_ [_ [Ec [El [Ei [_ [_ [_ [_ [_ [Fc [Fl [Fi [P _]]]]]]]]]]]]]].
  cbn [scnPerChr scnPerLoc scnPerItm scnPerTag chrPerTag locPerTag itmPerTag chpPerScn xrSrtScenes] in *. change (dkeys (@nil (str * list str))) with (@nil str) in *.
  rewrite addks_nil in Kc, Kct, Kl, Klt, Ki, Kit. unfold all_scenes in *. rewrite addks_nil in Kt.
  repeat split.
  - apply dict_firsts; [congruence|]. intros k Hk. rewrite Dc. apply smem_In in Hk. now rewrite Hk.
  - apply dict_firsts; [congruence|]. intros k Hk. rewrite Dl. apply smem_In in Hk. now rewrite Hk.
  - apply dict_firsts; [congruence|]. intros k Hk. rewrite Di. apply smem_In in Hk. now rewrite Hk.
  - apply dict_firsts; [exact Kt|]. intros k Hk. rewrite Dt. apply entry. now apply refd.
  - apply dict_firsts; [congruence|]. intros k Hk. rewrite Tc. apply entry. now apply taggd.
  - apply dict_firsts; [congruence|]. intros k Hk. rewrite Tl. apply entry. now apply taggd.
  - apply dict_firsts; [congruence|]. intros k Hk. rewrite Ti. apply entry. now apply taggd.
  - exact S.
  - rewrite P. now apply chapter_found.
  - now apply (chapter_found n i []).
Qed.

(** * Lines *)
Lemma conv_total : forall t q, exists v, odt_conv t q = Ok v.
Proof. intros t q. now eexists. Qed.
Lemma mapM_lines : forall (f : str -> res (list str)) (g : str -> list line) ids, (forall i, In i ids -> exists ts, f i = Ok ts /\ Forall2 line_shown (g i) ts) ->
  exists r, mapM f ids = Ok r /\ Forall2 line_shown (flat_map g ids) (concat r).
Proof.
  intros f g. induction ids as [|i ids IH]; intro H; [exists []; split; [reflexivity|constructor]|]. destruct (H i (or_introl eq_refl)) as [t [Et Pt]].
  destruct IH as [r [Er Pr]]; [intros j Hj; apply H; now right|]. exists (t :: r). cbn [mapM]. rewrite Et. cbn [bind]. rewrite Er. split; [reflexivity|].
  cbn [flat_map concat]. now apply Forall2_app.
Qed.
Lemma mapM_line : forall (f : str -> res str) (g : str -> list line) ids, (forall i, In i ids -> exists t l, f i = Ok t /\ g i = [l] /\ line_shown l t) ->
  exists r, mapM f ids = Ok r /\ Forall2 line_shown (flat_map g ids) r /\ (ids <> [] -> flat_map g ids <> []).
Proof.
  intros f g. induction ids as [|i ids IH]; intro H; [exists []; split; [reflexivity|split; [constructor|now intro N]]|]. destruct (H i (or_introl eq_refl)) as [t [l [Et [El Pt]]]].
  destruct IH as [r [Er [Pr _]]]; [intros j Hj; apply H; now right|]. exists (t :: r). cbn [mapM]. rewrite Et. cbn [bind]. rewrite Er. split; [reflexivity|].
  cbn [flat_map]. rewrite El. split; [now constructor|discriminate].
Qed.
Lemma flat_map_single : forall {A B} (f : A -> B) l, flat_map (fun x => [f x]) l = map f l.
Proof. induction l as [|x l IH]; [reflexivity|]. cbn [flat_map map]. cbn [app]. now rewrite IH. Qed.
Lemma mapM_map : forall {A B C} (g : A -> B) (f : B -> res C) l, mapM f (map g l) = mapM (fun x => f (g x)) l.
Proof. induction l as [|x l IH]; [reflexivity|]. cbn [map mapM]. now rewrite IH. Qed.
(** a loop over a dictionary *)
Lemma groups_shown : forall (head : str -> res str) (entries : list str -> res (list str)) (val : str -> list str) (hl : str -> list line) (el : list str -> list line) ids,
  (forall i, In i ids -> exists t l, head i = Ok t /\ hl i = [l] /\ line_shown l t) ->
  (forall i, In i ids -> exists r, entries (val i) = Ok r /\ Forall2 line_shown (el (val i)) r /\ (val i <> [] -> el (val i) <> [])) -> el [] = [] ->
  exists r, xref_groups head entries (map (fun k => (k, val k)) ids) = Ok r /\ Forall2 line_shown (flat_map (fun i => section (hl i) (el (val i))) ids) r.
Proof.
  intros head entries val hl el ids H E N. unfold xref_groups. rewrite mapM_map.
  destruct (mapM_lines (fun k => xref_group head entries (k, val k)) (fun i => section (hl i) (el (val i))) ids) as [r [Er Pr]].
  - intros i Hi. destruct (H i Hi) as [t [l [Et [El Pt]]]]. destruct (E i Hi) as [q [Eq [Pq Nq]]]. unfold xref_group. cbn [fst snd]. destruct (val i) as [|a v] eqn:V.
    + exists []. rewrite N. split; [reflexivity|constructor].
    + rewrite Et. cbn [bind]. rewrite Eq. cbn [bind]. exists (t :: q). split; [reflexivity|]. unfold section. rewrite El.
      destruct (el (a :: v)); [now elim Nq|]. cbn [app]. now constructor.
  - rewrite Er. cbn [bind]. now exists (concat r).
Qed.

Section Lines.
Variables (tr : str -> str) (pn pp : option str) (n : novel).
Hypothesis R : SpecNovel.refs_exist n.
Hypothesis St : forall i x, In i (all_scenes n) -> dget i (nv_scenes n) = Some x -> exists z, sc_status x = Some z /\ (0 <= z <= 5)%Z.
Variable x : xref.
Hypothesis G : generate_xref n = Ok x.

Lemma has : forall {A} (d : dict A) i, In i (dkeys d) -> exists a, dget i d = Some a.
Proof. intros A d i H. destruct (dget i d) as [a|] eqn:E; [now exists a|]. apply dget_None in E. contradiction. Qed.
Lemma scene_line_shown : forall i, In i (all_scenes n) -> exists t, xref_scene_line tr pn pp n x i = Ok t /\ line_shown (scene_line tr pn pp n i) t.
Proof.
  intros i Hi. destruct R as [_ [Rs [_ [Rl Ri]]]]. destruct (Rs i Hi) as [Hk [_ [Hl Ht]]]. destruct (has _ _ Hk) as [sc Hsc].
  pose proof (generated n x G) as [_ [_ [_ [_ [_ [_ [_ [So C]]]]]]]]. destruct (C i Hi) as [Ci Cn].
  destruct (index_position i (all_scenes n) Hi) as [k [Ek Pk]]. destruct (index_position _ _ Cn) as [c [Ec Pc]].
  assert (Ol : orefs_exist (nv_locations n) (sc_locations sc)).
  { destruct (sc_locations sc) as [l|] eqn:E; [|exact I]. intros j Hj. apply has, Rl, Hl. unfold scene_refs. now rewrite Hsc, E. }
  assert (Oi : orefs_exist (nv_items n) (sc_items sc)).
  { destruct (sc_items sc) as [l|] eqn:E; [|exact I]. intros j Hj. apply has, Ri, Ht. unfold scene_refs. now rewrite Hsc, E. }
  destruct (scene_mapped odt_conv pn pp n conv_total i (S k) 0 0 sc Hsc Ol Oi (St i sc Hi Hsc)) as [m [Em Sm]].
  unfold xref_scene_line, xref_sceneMapping, odt_scene, dindex. rewrite Hsc. cbn [bind]. rewrite So, Ek. cbn [bind]. rewrite Em. cbn [bind]. rewrite Ci. cbn [bind]. rewrite Ec. cbn [bind]. unfold fill. cbn [bind].
  eexists. split; [reflexivity|]. unfold line_shown, scene_line. cbn [fst snd]. unfold scene_of. rewrite Hsc.
  assert (Ht' : forall a b : str, a = b -> forall tb t, rendered tb a t -> rendered tb b t) by (intros a b ->; auto).
  eapply Ht'; [|apply shown_rendered].
  - unfold is_type. destruct (sc_type sc) as [[|[[p|p|]|[p|p|]|]]|]; reflexivity.
  - unfold xref_scene_table. apply shows_dset; [|reflexivity|unfold number, nat_str; now rewrite Pc]. apply shows_dset; [rewrite <- Pk; exact Sm|reflexivity|reflexivity].
Qed.
Lemma scene_lines_shown : forall ids, (forall i, In i ids -> In i (all_scenes n)) ->
  exists r, xref_scene_lines tr pn pp n x ids = Ok r /\ Forall2 line_shown (map (scene_line tr pn pp n) ids) r /\ (ids <> [] -> map (scene_line tr pn pp n) ids <> []).
Proof.
  intros ids H. rewrite <- flat_map_single. apply mapM_line. intros i Hi. destruct (scene_line_shown i (H i Hi)) as [t [Et Pt]]. exists t, (scene_line tr pn pp n i). now repeat split.
Qed.
Lemma references_in : forall f k ids i, In i (references f n k ids) -> In i ids.
Proof. intros f k ids i H. apply in_flat_map in H as [j [Hj H]]. apply repeat_spec in H. now subst. Qed.
Lemma tagged_in : forall {A} (tags : A -> option (list str)) es t ids i, In i (tagged tags es t ids) -> In i ids.
Proof. intros A tags es t ids i H. apply in_flat_map in H as [j [Hj H]]. apply repeat_spec in H. now subst. Qed.
Lemma tag_line_shown : forall tpl t, exists v l, fill tpl (tagMapping t) = Ok v /\ tag_line tpl t = [l] /\ line_shown l v.
Proof.
  intros tpl t. eexists. eexists. split; [reflexivity|split; [reflexivity|]]. apply shown_rendered. unfold fst, tag_table. apply (shows_dset [] [] (s "Tag") t); [|reflexivity|reflexivity].
  split; [intros ? ? []|discriminate].
Qed.
Lemma character_line_shown : forall tpl i, In i (nv_srtCharacters n) -> exists v l, fill tpl (m_chr pn pp n i) = Ok v /\ character_line pn pp n tpl i = [l] /\ line_shown l v.
Proof.
  intros tpl i Hi. destruct R as [_ [_ [Rc _]]]. destruct (has _ _ (Rc i Hi)) as [c Hc]. destruct (character_shown odt_conv pn pp n conv_total tpl i c Hc) as [t [Et Pt]].
  exists t. unfold character_line. rewrite Hc. eexists. split; [exact Et|split; [reflexivity|exact Pt]].
Qed.
Lemma world_line_shown : forall d tpl i, In i (dkeys d) -> exists v l, fill tpl (worldMapping odt_conv pn pp d i) = Ok v /\ world_line pn pp d tpl i = [l] /\ line_shown l v.
Proof.
  intros d tpl i Hi. destruct (has _ _ Hi) as [w Hw]. destruct (world_shown odt_conv pn pp conv_total d tpl i w Hw) as [t [Et Pt]].
  exists t. unfold world_line. rewrite Hw. eexists. split; [exact Et|split; [reflexivity|exact Pt]].
Qed.
Lemma heads : scnPerChrTemplate = heading2 (s "Scenes with Character $Title") /\ scnPerLocTemplate = heading2 (s "Scenes with Location $Title") /\ scnPerItmTemplate = heading2 (s "Scenes with Item $Title") /\ scnPerTagTemplate = heading2 (s "Scenes tagged $Tag") /\ chrPerTagTemplate = heading2 (s "Characters tagged $Tag") /\ locPerTagTemplate = heading2 (s "Locations tagged $Tag") /\ itmPerTagTemplate = heading2 (s "Items tagged $Tag").
Proof. repeat split; reflexivity. Qed.
Theorem lines_shown : exists header texts, xref_text tr pn pp n = Ok (header ++ concat texts ++ OdtWXref_fileFooter) /\
  rendered (header_table odt_conv n) OdtWXref_fileHeader header /\ Forall2 line_shown (xref_lines tr pn pp n) texts.
Proof.
  pose proof (generated n x G) as [D1 [D2 [D3 [D4 [D5 [D6 [D7 _]]]]]]]. pose proof R as [_ [_ [_ [Rl Ri]]]].
  destruct (header_shown odt_conv n conv_total OdtWXref_fileHeader) as [h [Eh Ph]].
  assert (Sc : forall f k, exists r, xref_scene_lines tr pn pp n x (references f n k (all_scenes n)) = Ok r /\
     Forall2 line_shown (map (scene_line tr pn pp n) (references f n k (all_scenes n))) r /\ (references f n k (all_scenes n) <> [] -> map (scene_line tr pn pp n) (references f n k (all_scenes n)) <> [])).
  { intros f k. apply scene_lines_shown. intros i Hi. now apply references_in in Hi. }
  destruct (groups_shown (fun i => fill (heading2 (s "Scenes with Character $Title")) (m_chr pn pp n i)) (xref_scene_lines tr pn pp n x) (fun k => references sc_characters n k (all_scenes n))
    (character_line pn pp n (heading2 (s "Scenes with Character $Title"))) (map (scene_line tr pn pp n)) (firsts (nv_srtCharacters n))) as [t1 [E1 P1]];
    [intros i Hi; apply (proj1 (firsts_in _ _)) in Hi; now apply character_line_shown|intros i _; apply Sc|reflexivity|].
  destruct (groups_shown (fun i => fill (heading2 (s "Scenes with Location $Title")) (m_loc pn pp n i)) (xref_scene_lines tr pn pp n x) (fun k => references sc_locations n k (all_scenes n))
    (world_line pn pp (nv_locations n) (heading2 (s "Scenes with Location $Title"))) (map (scene_line tr pn pp n)) (firsts (nv_srtLocations n))) as [t2 [E2 P2]];
    [intros i Hi; apply (proj1 (firsts_in _ _)) in Hi; apply world_line_shown; now apply Rl|intros i _; apply Sc|reflexivity|].
  destruct (groups_shown (fun i => fill (heading2 (s "Scenes with Item $Title")) (m_itm pn pp n i)) (xref_scene_lines tr pn pp n x) (fun k => references sc_items n k (all_scenes n))
    (world_line pn pp (nv_items n) (heading2 (s "Scenes with Item $Title"))) (map (scene_line tr pn pp n)) (firsts (nv_srtItems n))) as [t3 [E3 P3]];
    [intros i Hi; apply (proj1 (firsts_in _ _)) in Hi; apply world_line_shown; now apply Ri|intros i _; apply Sc|reflexivity|].
  destruct (groups_shown (fun t => fill (heading2 (s "Scenes tagged $Tag")) (tagMapping t)) (xref_scene_lines tr pn pp n x) (fun k => references sc_tags n k (all_scenes n))
    (tag_line (heading2 (s "Scenes tagged $Tag"))) (map (scene_line tr pn pp n)) (firsts (flat_map (scene_refs sc_tags n) (all_scenes n)))) as [t4 [E4 P4]];
    [intros i _; apply tag_line_shown|intros i _; apply Sc|reflexivity|].
  destruct (groups_shown (fun t => fill (heading2 (s "Characters tagged $Tag")) (tagMapping t)) (mapM (fun i => fill OdtWXref_character (m_chr pn pp n i))) (fun t => tagged cr_tags (nv_characters n) t (nv_srtCharacters n))
    (tag_line (heading2 (s "Characters tagged $Tag"))) (flat_map (character_line pn pp n OdtWXref_character)) (firsts (flat_map (elem_tags cr_tags (nv_characters n)) (nv_srtCharacters n)))) as [t5 [E5 P5]];
    [intros i _; apply tag_line_shown|intros i _; apply mapM_line; intros j Hj; apply tagged_in in Hj; now apply character_line_shown|reflexivity|].
  destruct (groups_shown (fun t => fill (heading2 (s "Locations tagged $Tag")) (tagMapping t)) (mapM (fun i => fill OdtWXref_location (m_loc pn pp n i))) (fun t => tagged we_tags (nv_locations n) t (nv_srtLocations n))
    (tag_line (heading2 (s "Locations tagged $Tag"))) (flat_map (world_line pn pp (nv_locations n) OdtWXref_location)) (firsts (flat_map (elem_tags we_tags (nv_locations n)) (nv_srtLocations n)))) as [t6 [E6 P6]];
    [intros i _; apply tag_line_shown|intros i _; apply mapM_line; intros j Hj; apply tagged_in in Hj; apply world_line_shown; now apply Rl|reflexivity|].
  destruct (groups_shown (fun t => fill (heading2 (s "Items tagged $Tag")) (tagMapping t)) (mapM (fun i => fill OdtWXref_item (m_itm pn pp n i))) (fun t => tagged we_tags (nv_items n) t (nv_srtItems n))
    (tag_line (heading2 (s "Items tagged $Tag"))) (flat_map (world_line pn pp (nv_items n) OdtWXref_item)) (firsts (flat_map (elem_tags we_tags (nv_items n)) (nv_srtItems n)))) as [t7 [E7 P7]];
    [intros i _; apply tag_line_shown|intros i _; apply mapM_line; intros j Hj; apply tagged_in in Hj; apply world_line_shown; now apply Ri|reflexivity|].
  exists h, (t1 ++ t2 ++ t3 ++ t4 ++ t5 ++ t6 ++ t7). split; [|split; [exact Ph|]].
  - unfold xref_text. destruct heads as [Q1 [Q2 [Q3 [Q4 [Q5 [Q6 Q7]]]]]]. rewrite Q1, Q2, Q3, Q4, Q5, Q6, Q7, G. cbn [bind]. rewrite Eh. cbn [bind]. rewrite D1, E1. cbn [bind]. rewrite D2, E2. cbn [bind]. rewrite D3, E3. cbn [bind]. rewrite D4, E4. cbn [bind].
    rewrite D5, E5. cbn [bind]. rewrite D6, E6. cbn [bind]. rewrite D7, E7. cbn [bind]. f_equal. rewrite !concat_app. cbn [concat]. rewrite !app_nil_r, <- !app_assoc. reflexivity.
  - repeat (apply Forall2_app; [assumption|]). assumption.
Qed.
End Lines.
Theorem xref_document : forall tr pn pp n, SpecNovel.refs_exist n ->
  (forall i x, In i (all_scenes n) -> dget i (nv_scenes n) = Some x -> exists z, sc_status x = Some z /\ (0 <= z <= 5)%Z) ->
  exists header texts, xref_text tr pn pp n = Ok (header ++ concat texts ++ OdtWXref_fileFooter) /\
    rendered (header_table odt_conv n) OdtWXref_fileHeader header /\ Forall2 line_shown (xref_lines tr pn pp n) texts.
Proof. intros tr pn pp n R St. destruct (generate_xref_total n R) as [x G]. now apply (lines_shown tr pn pp n R St x). Qed.

(** * The lines leave no choice *)
From Verif Require Import ShowUnique.
Lemma rendered_unique : forall tb tpl t u, no_choice tb -> rendered tb tpl t -> rendered tb tpl u -> t = u.
Proof.
  intros tb tpl t u N [m [M1 [M2 M3]]] [m' [M1' [M2' M3']]]. destruct (segments_exist tpl) as [l [E U]]. rewrite (M3 l E U), (M3' l E U).
  assert (D : forall k, dget k m = dget k m').
  { intro k. destruct (smem k (map fst tb)) eqn:S.
    - apply smem_In, in_map_iff in S as [[k' a] [<- Hi]]. cbn [fst]. destruct (M1 _ _ Hi) as [v [Hv Av]]. destruct (M1' _ _ Hi) as [w [Hw Aw]].
      rewrite Hv, Hw. f_equal. unfold no_choice in N. rewrite Forall_forall in N. exact (N _ Hi v w Av Aw).
    - destruct (dget k m) as [v|] eqn:V; [apply M2, smem_In in V; congruence|]. destruct (dget k m') as [v|] eqn:W; [apply M2', smem_In in W; congruence|reflexivity]. }
  apply flat_map_ext. intros [c| |k|k|]; cbn [seg_value]; try reflexivity; now rewrite D.
Qed.
Lemma lines_no_choice : forall tr pn pp n, Forall (fun l => no_choice (fst l)) (xref_lines tr pn pp n).
Proof.
  intros tr pn pp n.
  pose proof (tables_unique odt_conv pn pp n) as [_ [_ [Tc [Tw [_ Ts]]]]].
  assert (Sc : forall ids, Forall (fun l => no_choice (fst l)) (map (scene_line tr pn pp n) ids)).
  { induction ids as [|i ids IH]; cbn [map]; constructor; [|exact IH]. cbn [fst scene_line]. unfold xref_scene_table. constructor; [apply one_number|constructor; [apply one_exactly|apply Ts]]. }
  assert (Cc : forall tpl i, Forall (fun l : line => no_choice (fst l)) (character_line pn pp n tpl i)).
  { intros tpl i. unfold character_line. destruct (dget i (nv_characters n)); constructor; [apply Tc|constructor]. }
  assert (Ww : forall d tpl i, Forall (fun l : line => no_choice (fst l)) (world_line pn pp d tpl i)).
  { intros d tpl i. unfold world_line. destruct (dget i d); constructor; [apply Tw|constructor]. }
  assert (Tt : forall tpl t, Forall (fun l : line => no_choice (fst l)) (tag_line tpl t)).
  { intros tpl t. constructor; [|constructor]. cbn [fst]. constructor; [apply one_exactly|constructor]. }
  assert (F : forall (g : str -> list line) ids, (forall i, Forall (fun l : line => no_choice (fst l)) (g i)) -> Forall (fun l : line => no_choice (fst l)) (flat_map g ids)).
  { intros g ids H. induction ids as [|i ids IH]; cbn [flat_map]; [constructor|]. apply Forall_app. now split. }
  assert (Se : forall h e, Forall (fun l : line => no_choice (fst l)) h -> Forall (fun l : line => no_choice (fst l)) e -> Forall (fun l : line => no_choice (fst l)) (section h e)).
  { intros h [|a e] Hh He; [constructor|]. unfold section. apply Forall_app. now split. }
  unfold xref_lines. repeat (apply Forall_app; split); apply F; intro i; apply Se; auto.
Qed.
Theorem lines_determined : forall tr pn pp n ts us, Forall2 line_shown (xref_lines tr pn pp n) ts -> Forall2 line_shown (xref_lines tr pn pp n) us -> ts = us.
Proof.
  intros tr pn pp n. pose proof (lines_no_choice tr pn pp n) as N. induction (xref_lines tr pn pp n) as [|l ls IH]; intros ts us F1 F2; inversion F1; inversion F2; subst; [reflexivity|].
  inversion N; subst. f_equal; [|now apply IH]. unfold line_shown in *. eapply rendered_unique; eassumption.
Qed.
