From Coq Require Import String List NArith ZArith Bool Lia Arith Sorting.Permutation.
From Verif Require Import PyStr PyDict NovelModel NovelOps SpecNovel SpecSplit OdfXml OdtRead SpecRead.
Import ListNotations.

Lemma dkeys_dset_in : forall {A} k (v : A) d, dmem k d = true -> dkeys (dset k v d) = dkeys d.
Proof.
  intros A k v d H. induction d as [|[j w] d IH]; [discriminate|]. cbn [dset]. unfold dmem, smem, dkeys in H. cbn [map existsb fst] in H. destruct (str_eqb k j) eqn:E; [apply str_eqb_eq in E; subst; reflexivity|].
  cbn [orb] in H. unfold dkeys in *. cbn [map fst]. now rewrite IH.
Qed.
Lemma dkeys_dset_new : forall {A} k (v : A) d, dmem k d = false -> dkeys (dset k v d) = dkeys d ++ [k].
Proof.
  intros A k v d H. induction d as [|[j w] d IH]; [reflexivity|]. cbn [dset]. unfold dmem, smem, dkeys in H. cbn [map existsb fst] in H. destruct (str_eqb k j); [discriminate|]. cbn [orb] in H.
  unfold dkeys in *. cbn [map fst app]. now rewrite IH.
Qed.
Lemma dget_dmem : forall {A} k (d : dict A) v, dget k d = Some v -> dmem k d = true.
Proof. intros A k d v H. unfold dmem. apply smem_In. apply dget_In in H. apply in_map_iff. now exists (k, v). Qed.
Lemma dmem_false : forall {A} k (d : dict A), dmem k d = false <-> dget k d = None.
Proof.
  intros A k d. rewrite dget_None. unfold dmem. split; intro H; [intro I; apply smem_In in I; congruence|]. destruct (smem k (dkeys d)) eqn:E; [|reflexivity]. now apply smem_In in E.
Qed.

#[local] Arguments dkeys {A} d : simpl never.
#[local] Arguments dset {A} k v d : simpl never.
#[local] Arguments dget {A} k d : simpl never.
#[local] Arguments doc_rest n : simpl nomatch.

Section Frame.
Variables (SM CM : str -> Prop) (sc : scene -> scene) (cc : chapter -> chapter) (ht : chapter -> bool).
Hypothesis ht_title : forall c d, ch_title c = ch_title d -> ht c = ht d.
Hypothesis cc_scenes : forall c l, cc (set_ch_srtScenes l c) = cc c.
(** the changes a reader makes *)
Inductive change : novel -> novel -> Prop :=
| ch_scene : forall n id x y, SM id -> dget id (nv_scenes n) = Some x -> sc y = sc x -> change n (set_nv_scenes (dset id y (nv_scenes n)) n)
| ch_chapter : forall n id c d, CM id -> dget id (nv_chapters n) = Some c -> cc d = cc c -> ch_srtScenes d = ch_srtScenes c -> (ht c = true -> ch_title d = ch_title c) ->
    change n (set_nv_chapters (dset id d (nv_chapters n)) n)
| ch_new_scene : forall n id k c, SM id -> CM k -> dmem id (nv_scenes n) = false -> dget k (nv_chapters n) = Some c ->
    change n (set_nv_chapters (dset k (list_scene id c) (nv_chapters n)) (set_nv_scenes (dset id new_scene (nv_scenes n)) n))
| ch_new_chapter : forall n id, CM id -> dmem id (nv_chapters n) = false ->
    change n (set_nv_srtChapters (nv_srtChapters n ++ [id]) (set_nv_chapters (dset id new_chapter (nv_chapters n)) n))
| ch_languages : forall n l, change n (set_nv_languages l n)
| ch_languageCode : forall n l, change n (set_nv_languageCode l n)
| ch_countryCode : forall n l, change n (set_nv_countryCode l n).
Inductive changes : novel -> novel -> Prop := cs_nil : forall n, changes n n | cs_step : forall n m k, changes n m -> change m k -> changes n k.
Lemma changes_one : forall n m, change n m -> changes n m.
Proof. intros n m H. eapply cs_step; [apply cs_nil | exact H]. Qed.
Lemma changes_trans : forall a b c, changes a b -> changes b c -> changes a c.
Proof. intros a b c H K. induction K; [exact H|]. eapply cs_step; [apply IHK, H | assumption]. Qed.

Definition FR (n0 n : novel) : Prop := framed SM CM sc cc ht n0 n.
Lemma framed_refl : forall n, FR n n.
Proof.
  intro n. constructor; try reflexivity.
  - intros id x H. now rewrite H.
  - intros id c H. rewrite H. cbn. auto.
  - exists [], [], (fun _ => []). rewrite !app_nil_r. repeat split.
    + intros id c H. rewrite H. cbn. now rewrite app_nil_r.
    + induction (dkeys (nv_chapters n)); [constructor | assumption].
Qed.
Lemma flat_map_ext_in : forall {A B} (f g : A -> list B) l, (forall x, In x l -> f x = g x) -> flat_map f l = flat_map g l.
Proof. intros A B f g l H. induction l as [|a l IH]; [reflexivity|]. cbn [flat_map]. rewrite (H a (or_introl eq_refl)). f_equal. apply IH. intros; apply H; now right. Qed.
(** adding x to the value at k, where k is in the list once *)
Lemma flat_map_add : forall (f : str -> list str) k x l, NoDup l -> In k l -> Permutation (flat_map (fun i => if str_eqb i k then f i ++ [x] else f i) l) (flat_map f l ++ [x]).
Proof.
  intros f k x l Nd H. induction l as [|a l IH]; [destruct H|]. inversion Nd as [|? ? N1 N2]; subst. cbn [flat_map]. destruct (str_eqb a k) eqn:E.
  - apply str_eqb_eq in E. subst a. rewrite (flat_map_ext_in _ f l).
    + rewrite <- !app_assoc. apply Permutation_app_head. apply Permutation_cons_append.
    + intros y Hy. destruct (str_eqb y k) eqn:E; [apply str_eqb_eq in E; subst; contradiction | reflexivity].
  - destruct H as [->|H]; [rewrite str_eqb_refl in E; discriminate|]. rewrite <- app_assoc. apply Permutation_app_head. now apply IH.
Qed.
Lemma framed_change : forall n0 n m, NoDup (dkeys (nv_chapters n)) -> FR n0 n -> change n m -> FR n0 m.
Proof.
  intros n0 n m Nd [R S1 S2 C1 C2 (NS & NC & added & E1 & E2 & E3 & E4 & E5)] H. destruct H.
  - (* a scene *)
    constructor; cbn.
    + exact R.
    + intros i Hi. rewrite dget_dset. destruct (str_eqb i id) eqn:E; [apply str_eqb_eq in E; subst; contradiction | now apply S1].
    + intros i z Hz. rewrite dget_dset in Hz. destruct (str_eqb i id) eqn:E; [|now apply S2]. apply str_eqb_eq in E. subst. injection Hz as <-. rewrite H1. now apply S2.
    + exact C1.
    + exact C2.
    + exists NS, NC, added. rewrite dkeys_dset_in by (eapply dget_dmem; eassumption). auto.
  - (* a chapter *)
    constructor; cbn.
    + exact R.
    + exact S1.
    + exact S2.
    + intros i Hi. rewrite dget_dset. destruct (str_eqb i id) eqn:E; [apply str_eqb_eq in E; subst; contradiction | now apply C1].
    + intros i z Hz. rewrite dget_dset in Hz. destruct (str_eqb i id) eqn:E; [|now apply C2]. apply str_eqb_eq in E. subst. injection Hz as <-. destruct (C2 id c H0) as [A B]. split; [now rewrite H1|]. intro T.
      rewrite H3; [now apply B|]. rewrite (ht_title c (origin new_chapter (dget id (nv_chapters n0)))) by (now apply B). exact T.
    + exists NS, NC, added. rewrite dkeys_dset_in by (eapply dget_dmem; eassumption). repeat split; try assumption. intros i z Hz. rewrite dget_dset in Hz. destruct (str_eqb i id) eqn:E; [|now apply E4]. apply str_eqb_eq in E. subst. injection Hz as <-. rewrite H2. now apply E4.
  - (* a new scene *)
    assert (Hn : dget id (nv_scenes n0) = None). { apply dmem_false. apply dmem_false in H1. destruct (dmem id (nv_scenes n0)) eqn:D; [|reflexivity]. exfalso. unfold dmem in *. apply smem_In in D. apply dget_None in H1. apply H1. rewrite E1. apply in_or_app. now left. }
    constructor; cbn.
    + exact R.
    + intros i Hi. rewrite dget_dset. destruct (str_eqb i id) eqn:E; [apply str_eqb_eq in E; subst; contradiction | now apply S1].
    + intros i z Hz. rewrite dget_dset in Hz. destruct (str_eqb i id) eqn:E; [|now apply S2]. apply str_eqb_eq in E. subst. injection Hz as <-. now rewrite Hn.
    + intros i Hi. rewrite dget_dset. destruct (str_eqb i k) eqn:E; [apply str_eqb_eq in E; subst; contradiction | now apply C1].
    + intros i z Hz. rewrite dget_dset in Hz. destruct (str_eqb i k) eqn:E; [|now apply C2]. apply str_eqb_eq in E. subst. injection Hz as <-. destruct (C2 k c H2) as [A B]. unfold list_scene. rewrite cc_scenes. split; [exact A|]. intro T. cbn. now apply B.
    + exists (NS ++ [id]), NC, (fun i => if str_eqb i k then added i ++ [id] else added i). assert (Dk : dmem k (nv_chapters n) = true) by (eapply dget_dmem; eassumption).
      rewrite (dkeys_dset_in k) by exact Dk. rewrite dkeys_dset_new by exact H1. rewrite E1, app_assoc. repeat split; try assumption.
      * intros i z Hz. rewrite dget_dset in Hz. destruct (str_eqb i k) eqn:E; [|now apply E4]. apply str_eqb_eq in E. subst. injection Hz as <-. cbn. rewrite (E4 k c H2). now rewrite app_assoc.
      * rewrite flat_map_add; [now apply Permutation_app_tail | exact Nd | unfold dmem in Dk; now apply smem_In].
  - (* a new chapter *)
    assert (Hn : dget id (nv_chapters n0) = None). { apply dmem_false. apply dmem_false in H0. destruct (dmem id (nv_chapters n0)) eqn:D; [|reflexivity]. exfalso. unfold dmem in *. apply smem_In in D. apply dget_None in H0. apply H0. rewrite E2. apply in_or_app. now left. }
    constructor; cbn.
    + exact R.
    + exact S1.
    + exact S2.
    + intros i Hi. rewrite dget_dset. destruct (str_eqb i id) eqn:E; [apply str_eqb_eq in E; subst; contradiction | now apply C1].
    + intros i z Hz. rewrite dget_dset in Hz. destruct (str_eqb i id) eqn:E; [|now apply C2]. apply str_eqb_eq in E. subst. injection Hz as <-. rewrite Hn. cbn. auto.
    + exists NS, (NC ++ [id]), (fun i => if str_eqb i id then [] else added i). rewrite dkeys_dset_new by exact H0. rewrite E2, E3, !app_assoc. repeat split; try assumption.
      * intros i z Hz. rewrite dget_dset in Hz. destruct (str_eqb i id) eqn:E; [|now apply E4]. apply str_eqb_eq in E. subst. injection Hz as <-. rewrite Hn. reflexivity.
      * rewrite flat_map_app. cbn [flat_map]. rewrite str_eqb_refl, !app_nil_r. rewrite (flat_map_ext_in _ added); [rewrite <- E2; exact E5|]. intros y Hy. destruct (str_eqb y id) eqn:E; [|reflexivity]. apply str_eqb_eq in E. subst. exfalso.
        apply dmem_false in H0. apply dget_None in H0. apply H0. rewrite E2. exact Hy.
  - constructor; cbn; try assumption. exists NS, NC, added. auto.
  - constructor; cbn; try assumption. exists NS, NC, added. auto.
  - constructor; cbn; try assumption. exists NS, NC, added. auto.
Qed.
Lemma change_nodup : forall n m, NoDup (dkeys (nv_chapters n)) -> change n m -> NoDup (dkeys (nv_chapters m)).
Proof. intros n m Nd H. destruct H; cbn; try assumption; now apply NoDup_dset. Qed.
Lemma framed_changes : forall n0 n, NoDup (dkeys (nv_chapters n0)) -> changes n0 n -> FR n0 n.
Proof.
  intros n0 n Nd H. enough (G : FR n0 n /\ NoDup (dkeys (nv_chapters n))) by apply G. induction H as [|a b c H IH K]; [split; [apply framed_refl | exact Nd]|].
  destruct (IH Nd) as [F N]. split; [eapply framed_change; eassumption | eapply change_nodup; eassumption].
Qed.
End Frame.
