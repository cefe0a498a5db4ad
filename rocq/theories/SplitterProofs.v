(** Proofs about Splitter.v *)
From Coq Require Import List NArith ZArith Bool Lia Arith.
From Verif Require Import PyStr PyDict Spec Globals GlobalsProofs NovelModel WordCount NovelOps SpecNovel SpecSplit Splitter.
Import ListNotations.

Section P.
Variable tr : str -> str.

Lemma NoDup_snoc : forall {A} (l : list A) x, NoDup l -> ~ In x l -> NoDup (l ++ [x]).
Proof.
  intros A l x H Hx. apply NoDup_Add with (a := x) (l := l).
  - rewrite <- (app_nil_r l) at 1. apply Add_app.
  - auto.
Qed.
Lemma NoDup_mid : forall {A} (l r : list A) x, NoDup (l ++ r) -> ~ In x (l ++ r) -> NoDup (l ++ x :: r).
Proof. intros A l r x H Hx. apply NoDup_Add with (a := x) (l := l ++ r); [apply Add_app|auto]. Qed.

Lemma incl_dkeys_dset : forall {A} k (v : A) d l, incl l (dkeys d) -> incl l (dkeys (dset k v d)).
Proof. intros A k v d l H x Hx. apply dkeys_dset. right. apply H, Hx. Qed.

(** chapter_scenes depends on the chapters only *)
Lemma chapter_scenes_ext : forall n n' c, dget c (nv_chapters n) = dget c (nv_chapters n') -> chapter_scenes n c = chapter_scenes n' c.
Proof. intros n n' c H. unfold chapter_scenes. rewrite H. reflexivity. Qed.
Lemma flat_map_ext_in : forall {A B} (f g : A -> list B) l, (forall x, In x l -> f x = g x) -> flat_map f l = flat_map g l.
Proof. intros A B f g l H. induction l as [|x l IH]; cbn; [reflexivity|]. rewrite H by (left; reflexivity). rewrite IH; [reflexivity|]. intros; apply H; right; assumption. Qed.

(** ** the structural invariant.  n0: the novel at the beginning; P: scenes of n0 processed; F: scenes to come;
    D: chapters finished, chId: current chapter, G: chapters of n0 to come; sr: scenes of the current chapter *)
Record SInv (n0 : novel) (P F D : list str) (chId : str) (G : list str) (n : novel) (sr : list str) (flag : bool) : Prop := {
  s_chnd : NoDup (D ++ chId :: G);
  s_chin : incl (D ++ chId :: G) (dkeys (nv_chapters n));
  s_nd : NoDup (flat_map (chapter_scenes n) D ++ sr ++ F);
  s_in : incl (flat_map (chapter_scenes n) D ++ sr ++ F) (dkeys (nv_scenes n));
  s_rest : novel_rest n = novel_rest n0;
  s_keyc : exists NC, dkeys (nv_chapters n) = dkeys (nv_chapters n0) ++ NC;
  s_keys : exists NS, dkeys (nv_scenes n) = dkeys (nv_scenes n0) ++ NS;
  s_core : forall k x, dget k (nv_scenes n0) = Some x -> exists y, dget k (nv_scenes n) = Some y /\ scene_core y = scene_core x;
  s_frame : forall k, In k (dkeys (nv_scenes n0)) -> ~ In k P -> dget k (nv_scenes n) = dget k (nv_scenes n0);
  s_chcore : forall k x, dget k (nv_chapters n0) = Some x -> exists y, dget k (nv_chapters n) = Some y /\ chapter_core y = chapter_core x;
  s_chframe : forall k, In k (dkeys (nv_chapters n0)) -> ~ In k (D ++ [chId]) -> dget k (nv_chapters n) = dget k (nv_chapters n0);
  s_oldsc : filter (fun k => dmem k (nv_scenes n0)) (flat_map (chapter_scenes n) D ++ sr) = P;
  s_oldch : filter (fun k => dmem k (nv_chapters n0)) (D ++ [chId]) ++ G = nv_srtChapters n0;
  s_newch : forall k y, ~ In k (dkeys (nv_chapters n0)) -> dget k (nv_chapters n) = Some y ->
              In k (D ++ [chId]) /\ ch_type y = Some 0%N /\ (ch_level y = Some 0%N \/ ch_level y = Some 1%N);
  s_newsc : forall k, ~ In k (dkeys (nv_scenes n0)) -> In k (dkeys (nv_scenes n)) -> In k (flat_map (chapter_scenes n) D ++ sr);
  s_flag : flag = true <-> (exists k, In k (flat_map (chapter_scenes n) D ++ sr) /\ ~ In k (dkeys (nv_scenes n0))) \/
                           (exists k y, ~ In k (dkeys (nv_chapters n0)) /\ dget k (nv_chapters n) = Some y /\ ch_level y = Some 0%N)
}.

Lemma dget_dset_keep : forall {A} k k' (v : A) d, In k' (dkeys d) -> k' <> k -> dget k' (dset k v d) = dget k' d.
Proof. intros. apply dget_dset_other. assumption. Qed.

(** A: the scene k of the reading order is changed, its core kept *)
Lemma SInv_upd : forall n0 P F D chId G n sr flag k x x',
  SInv n0 P F D chId G n sr flag -> In k (flat_map (chapter_scenes n) D ++ sr) ->
  dget k (nv_scenes n) = Some x -> scene_core x' = scene_core x ->
  SInv n0 P F D chId G (set_nv_scenes (dset k x' (nv_scenes n)) n) sr flag.
Proof.
  intros n0 P F D chId G n sr flag k x x' H Hk Hx Hc. destruct H as [C1 C2 C3 C4 C5 C6 C7 C8 C9 C10 C11 C12 C13 C14 C15 C16].
  assert (Hkeys : dkeys (dset k x' (nv_scenes n)) = dkeys (nv_scenes n)).
  { apply dkeys_dset_in. apply dget_Some_key. eauto. }
  constructor; cbn [nv_chapters nv_scenes set_nv_scenes]; try assumption.
  - intros y Hy. rewrite Hkeys. apply C4, Hy.
  - destruct C7 as [NS HN]. exists NS. rewrite Hkeys. exact HN.
  - intros k' y Hy. rewrite dget_dset. destruct (str_eqb k' k) eqn:E.
    + apply str_eqb_eq in E as ->. exists x'. split; [reflexivity|]. destruct (C8 k y Hy) as [y' [Hy' Hyc]]. congruence.
    + apply C8, Hy.
  - intros k' Hk' Hn. rewrite dget_dset. destruct (str_eqb k' k) eqn:E.
    + apply str_eqb_eq in E as ->. elim Hn. rewrite <- C12. apply filter_In. split; [exact Hk|]. apply dmem_key, Hk'.
    + apply C9; assumption.
  - intros k' Hk' Hin. rewrite Hkeys in Hin. apply C15; assumption.
Qed.

(** B: a new scene is appended to the current chapter *)
Lemma SInv_add : forall n0 P F D chId G n sr flag k x,
  SInv n0 P F D chId G n sr flag -> ~ In k (dkeys (nv_scenes n)) ->
  SInv n0 P F D chId G (set_nv_scenes (dset k x (nv_scenes n)) n) (sr ++ [k]) true.
Proof.
  intros n0 P F D chId G n sr flag k x H Hk. destruct H as [C1 C2 C3 C4 C5 C6 C7 C8 C9 C10 C11 C12 C13 C14 C15 C16].
  assert (Hkeys : dkeys (dset k x (nv_scenes n)) = dkeys (nv_scenes n) ++ [k]) by (apply dkeys_dset_new; exact Hk).
  assert (Hold : ~ In k (dkeys (nv_scenes n0))).
  { destruct C7 as [NS HN]. intro Hi. apply Hk. rewrite HN. apply in_or_app. left. exact Hi. }
  assert (HV : flat_map (chapter_scenes (set_nv_scenes (dset k x (nv_scenes n)) n)) D = flat_map (chapter_scenes n) D)
    by reflexivity.
  constructor; cbn [nv_chapters nv_scenes set_nv_scenes]; rewrite ?HV; try assumption.
  - rewrite <- app_assoc. cbn [app]. rewrite app_assoc in C3 |- *. apply NoDup_mid; [exact C3|].
    intro Hi. apply Hk, C4. rewrite app_assoc. exact Hi.
  - intros y Hy. apply dkeys_dset. rewrite !in_app_iff in Hy. cbn [In] in Hy.
    destruct (str_eq_dec y k) as [-> | Hne]; [left; reflexivity|]. right. apply C4. rewrite !in_app_iff.
    intuition congruence.
  - destruct C7 as [NS HN]. exists (NS ++ [k]). rewrite Hkeys, HN, app_assoc. reflexivity.
  - intros k' y Hy. assert (k' <> k). { intros ->. apply Hold, dget_Some_key. eauto. }
    rewrite dget_dset_other by assumption. apply C8, Hy.
  - intros k' Hk' Hn. assert (k' <> k) by (intros ->; contradiction).
    rewrite dget_dset_other by assumption. apply C9; assumption.
  - rewrite app_assoc, filter_app, C12. cbn [filter]. replace (dmem k (nv_scenes n0)) with false.
    + apply app_nil_r.
    + symmetry. apply dmem_false, dget_None, Hold.
  - intros k' Hk' Hin. apply dkeys_dset in Hin as [-> | Hin].
    + rewrite !in_app_iff. cbn [In]. auto.
    + rewrite app_assoc. apply in_or_app. left. apply C15; assumption.
  - split; [intros _|reflexivity]. left. exists k. rewrite !in_app_iff. cbn [In]. auto.
Qed.

(** C: the current chapter is finished and a new one started *)
Lemma SInv_chap : forall n0 P F D chId G n sr flag c k lvl flag' ti de,
  SInv n0 P F D chId G n sr flag -> dget chId (nv_chapters n) = Some c ->
  k = new_id (dkeys (dset chId (set_ch_srtScenes sr c) (nv_chapters n))) ->
  (lvl = 0%N /\ flag' = true \/ lvl = 1%N /\ flag' = flag) ->
  SInv n0 P F (D ++ [chId]) k G
    (create_chapter k ti de lvl (set_nv_chapters (dset chId (set_ch_srtScenes sr c) (nv_chapters n)) n)) [] flag'.
Proof.
  intros n0 P F D chId G n sr flag c k lvl flag' ti de H Hc Hk Hl.
  destruct H as [C1 C2 C3 C4 C5 C6 C7 C8 C9 C10 C11 C12 C13 C14 C15 C16].
  assert (HchIn : In chId (dkeys (nv_chapters n))) by (apply dget_Some_key; eauto).
  assert (Hfresh : ~ In k (dkeys (nv_chapters n))).
  { rewrite Hk. rewrite (dkeys_dset_in chId _ (nv_chapters n) HchIn). apply new_id_fresh. }
  assert (Hkch : k <> chId) by (intros ->; contradiction).
  assert (Hold : ~ In k (dkeys (nv_chapters n0))).
  { destruct C6 as [NC HN]. intro Hi. apply Hfresh. rewrite HN. apply in_or_app. left. exact Hi. }
  unfold create_chapter. set (newc := set_ch_type _ _).
  set (n' := set_nv_chapters (dset k newc (nv_chapters (set_nv_chapters (dset chId (set_ch_srtScenes sr c) (nv_chapters n)) n)))
                (set_nv_chapters (dset chId (set_ch_srtScenes sr c) (nv_chapters n)) n)).
  assert (Hget : forall j, dget j (nv_chapters n') = if str_eqb j k then Some newc
                   else if str_eqb j chId then Some (set_ch_srtScenes sr c) else dget j (nv_chapters n)).
  { intro j. unfold n'. cbn [nv_chapters set_nv_chapters]. rewrite !dget_dset. reflexivity. }
  assert (Hkeys : dkeys (nv_chapters n') = dkeys (nv_chapters n) ++ [k]).
  { unfold n'. cbn [nv_chapters set_nv_chapters]. rewrite dkeys_dset_new.
    - rewrite dkeys_dset_in by exact HchIn. reflexivity.
    - rewrite dkeys_dset_in by exact HchIn. exact Hfresh. }
  assert (HcD : ~ In chId D). { intro Hi. apply NoDup_remove_2 in C1. apply C1, in_or_app. left. exact Hi. }
  assert (HV : flat_map (chapter_scenes n') (D ++ [chId]) = flat_map (chapter_scenes n) D ++ sr).
  { rewrite flat_map_app. cbn [flat_map]. rewrite app_nil_r. f_equal.
    - apply flat_map_ext_in. intros j Hj. apply chapter_scenes_ext. rewrite Hget.
      assert (j <> k). { intros ->. apply Hfresh, C2, in_or_app. left. exact Hj. }
      assert (j <> chId) by (intros ->; contradiction).
      apply str_eqb_neq in H, H0. rewrite H, H0. reflexivity.
    - unfold chapter_scenes. rewrite Hget. apply not_eq_sym, str_eqb_neq in Hkch. rewrite Hkch, str_eqb_refl. reflexivity. }
  assert (Hn : nv_scenes n' = nv_scenes n) by reflexivity.
  constructor; rewrite ?HV, ?Hn, ?app_nil_r; cbn [app].
  - rewrite <- app_assoc. cbn [app]. change (D ++ chId :: k :: G) with (D ++ ([chId] ++ k :: G)). rewrite app_assoc. apply NoDup_mid.
    + rewrite <- app_assoc. exact C1.
    + rewrite <- app_assoc. intro Hi. apply Hfresh, C2, Hi.
  - rewrite Hkeys. intros j Hj. rewrite !in_app_iff in Hj. cbn [In] in Hj. apply in_or_app.
    destruct (str_eq_dec j k) as [-> | Hne]; [right; left; reflexivity|]. left. apply C2.
    rewrite in_app_iff. cbn [In]. intuition congruence.
  - rewrite <- app_assoc. exact C3.
  - rewrite <- app_assoc. exact C4.
  - rewrite <- C5. reflexivity.
  - destruct C6 as [NC HN]. exists (NC ++ [k]). rewrite Hkeys, HN, app_assoc. reflexivity.
  - exact C7.
  - exact C8.
  - exact C9.
  - intros j y Hj. rewrite Hget. destruct (str_eqb j k) eqn:E1.
    { apply str_eqb_eq in E1 as ->. elim Hold. apply dget_Some_key. eauto. }
    destruct (str_eqb j chId) eqn:E2.
    { apply str_eqb_eq in E2 as ->. destruct (C10 chId y Hj) as [y' [Hy' Hc']]. rewrite Hc in Hy'. injection Hy' as <-.
      exists (set_ch_srtScenes sr c). split; [reflexivity|]. rewrite <- Hc'. reflexivity. }
    apply C10, Hj.
  - intros j Hj Hn'. rewrite Hget. rewrite !in_app_iff in Hn'. cbn [In] in Hn'.
    destruct (str_eqb j k) eqn:E1. { apply str_eqb_eq in E1 as ->. contradiction. }
    destruct (str_eqb j chId) eqn:E2. { apply str_eqb_eq in E2 as ->. tauto. }
    apply C11; [exact Hj|]. rewrite in_app_iff. cbn [In]. tauto.
  - exact C12.
  - rewrite filter_app. cbn [filter]. replace (dmem k (nv_chapters n0)) with false.
    + rewrite app_nil_r. exact C13.
    + symmetry. apply dmem_false, dget_None, Hold.
  - intros j y Hj. rewrite Hget. destruct (str_eqb j k) eqn:E1.
    { intro E. injection E as <-. apply str_eqb_eq in E1 as ->. split; [rewrite !in_app_iff; cbn [In]; auto|].
      split; [reflexivity|]. destruct Hl as [[-> _] | [-> _]]; [left|right]; reflexivity. }
    destruct (str_eqb j chId) eqn:E2.
    { intro E. injection E as <-. apply str_eqb_eq in E2 as ->. split; [rewrite !in_app_iff; cbn [In]; auto|].
      destruct (C14 chId c Hj Hc) as [_ [Ht Hl']]. auto. }
    intro E. destruct (C14 j y Hj E) as [Hi Ht]. split; [|exact Ht]. rewrite in_app_iff. auto.
  - exact C15.
  - destruct Hl as [[-> ->] | [-> ->]].
    + split; [intros _ | reflexivity]. right. exists k, newc. split; [exact Hold|]. rewrite Hget, str_eqb_refl. auto.
    + rewrite C16. apply or_iff_compat_l. split.
      * intros [j [y [H1 [H2 H3]]]].
        assert (Hjk : str_eqb j k = false). { apply str_eqb_neq. intros ->. apply Hfresh, dget_Some_key. eauto. }
        destruct (str_eq_dec j chId) as [-> | Hne].
        -- exists chId, (set_ch_srtScenes sr c). rewrite Hget, Hjk, str_eqb_refl.
           rewrite Hc in H2. injection H2 as <-. auto.
        -- exists j, y. apply str_eqb_neq in Hne. rewrite Hget, Hjk, Hne. auto.
      * intros [j [y [H1 [H2 H3]]]]. rewrite Hget in H2. destruct (str_eqb j k) eqn:E1.
        { injection H2 as <-. discriminate. }
        destruct (str_eqb j chId) eqn:E2.
        { apply str_eqb_eq in E2 as ->. injection H2 as <-. exists chId, c. auto. }
        exists j, y. auto.
Qed.

Definition VV (D : list str) (st : sp) : list str := flat_map (chapter_scenes (sp_n st)) D ++ sp_srtSc st.

Definition SL (n0 : novel) (P F G : list str) (scId : str) (D : list str) (st : sp) : Prop :=
  SInv n0 P F D (sp_chId st) G (sp_n st) (sp_srtSc st) (sp_split st) /\
  sp_srtCh st = D ++ [sp_chId st] /\ In (sp_scId st) (VV D st) /\ In scId (VV D st).

(** contents: of the scenes before the one being collected *)
Definition CI (D : list str) (C : list (option str)) (st : sp) : Prop :=
  if sp_in st then exists V0, VV D st = V0 ++ [sp_scId st] /\ map (content_at (sp_n st)) V0 = C
  else map (content_at (sp_n st)) (VV D st) = C /\ sp_new st = [].

Definition out (g : list (list str)) : list (option str) := map (fun l => Some (join [10%N] l)) g.

Lemma mark_parent_core : forall p p', mark_parent p = Ok p' -> scene_core p' = scene_core p /\ sc_content p' = sc_content p
  /\ sc_status p' <> None.
Proof.
  intros p p' H. unfold mark_parent in H. destruct (sc_status p) as [z|]; [|discriminate]. injection H as <-.
  split; [reflexivity|]. split; [reflexivity|]. discriminate.
Qed.

Lemma content_at_upd : forall n k x j, content_at (set_nv_scenes (dset k x (nv_scenes n)) n) j =
  if str_eqb j k then sc_content x else content_at n j.
Proof.
  intros n k x j. unfold content_at. cbn [nv_scenes set_nv_scenes]. rewrite dget_dset.
  destruct (str_eqb j k); reflexivity.
Qed.

Lemma put_content_inv : forall n0 P F D chId G n sr flag k ls n',
  SInv n0 P F D chId G n sr flag -> In k (flat_map (chapter_scenes n) D ++ sr) -> put_content k ls n = Ok n' ->
  SInv n0 P F D chId G n' sr flag /\ nv_chapters n' = nv_chapters n /\
  (forall j, content_at n' j = if str_eqb j k then Some (join [10%N] ls) else content_at n j) /\
  dkeys (nv_scenes n') = dkeys (nv_scenes n).
Proof.
  intros n0 P F D chId G n sr flag k ls n' H Hk Hp. unfold put_content in Hp.
  apply bind_ok in Hp as [x [Hx Hp]]. injection Hp as <-. unfold dindex in Hx.
  destruct (dget k (nv_scenes n)) as [x'|] eqn:E; [|discriminate]. injection Hx as ->.
  split; [|split; [reflexivity|]].
  - eapply SInv_upd; [exact H | exact Hk | exact E | reflexivity].
  - split; [intro j; rewrite content_at_upd; reflexivity|].
    cbn. apply dkeys_dset_in, dget_Some_key. eauto.
Qed.

Lemma create_scene_inv : forall n0 P F D chId G n sr flag par cnt ti de n',
  SInv n0 P F D chId G n sr flag -> In par (flat_map (chapter_scenes n) D ++ sr) ->
  create_scene tr (new_id (dkeys (nv_scenes n))) par cnt ti de n = Ok n' ->
  let k := new_id (dkeys (nv_scenes n)) in
  SInv n0 P F D chId G n' (sr ++ [k]) true /\ nv_chapters n' = nv_chapters n /\
  (forall j, In j (dkeys (nv_scenes n)) -> content_at n' j = content_at n j).
Proof.
  intros n0 P F D chId G n sr flag par cnt ti de n' H Hpar Hc k. unfold create_scene in Hc.
  apply bind_ok in Hc as [x [Hx Hc]]. apply bind_ok in Hc as [x' [Hx' Hc]]. injection Hc as <-.
  unfold dindex in Hx. destruct (dget par (nv_scenes n)) as [y|] eqn:E; [|discriminate]. injection Hx as ->.
  apply mark_parent_core in Hx' as [Hcore [Hcont _]].
  pose proof (SInv_upd _ _ _ _ _ _ _ _ _ _ _ x' H Hpar E Hcore) as H1.
  assert (Hkeys : dkeys (dset par x' (nv_scenes n)) = dkeys (nv_scenes n)) by (apply dkeys_dset_in, dget_Some_key; eauto).
  split; [|split; [reflexivity|]].
  - eapply (SInv_add _ _ _ _ _ _ _ _ _ k) in H1; [exact H1|]. cbn [nv_scenes set_nv_scenes]. rewrite Hkeys. apply new_id_fresh.
  - intros j Hj. unfold content_at. cbn [nv_scenes set_nv_scenes]. fold k.
    assert (j <> k) by (intros ->; exact (new_id_fresh _ Hj)). rewrite dget_dset_other by assumption.
    rewrite dget_dset. destruct (str_eqb j par) eqn:Ej; [|reflexivity]. apply str_eqb_eq in Ej as ->. rewrite E. exact Hcont.
Qed.

Lemma map_content_ext : forall n n' l, (forall j, In j l -> content_at n' j = content_at n j) -> map (content_at n') l = map (content_at n) l.
Proof. intros n n' l H. apply map_ext_in. exact H. Qed.

Lemma VV_chapters : forall D n n', nv_chapters n' = nv_chapters n -> flat_map (chapter_scenes n') D = flat_map (chapter_scenes n) D.
Proof. intros D n n' H. apply flat_map_ext_in. intros c _. apply chapter_scenes_ext. rewrite H. reflexivity. Qed.

(** starting a new chapter *)
Lemma start_chapter_inv : forall n0 P F G scId D C st ti de lvl df flag' st',
  SL n0 P F G scId D st -> (lvl = 0%N /\ flag' = true \/ lvl = 1%N /\ flag' = sp_split st) ->
  start_chapter tr ti de lvl df flag' st = Ok st' ->
  SL n0 P F G scId (D ++ [sp_chId st]) st' /\ sp_in st' = false /\
  (CI D C st -> exists C', CI (D ++ [sp_chId st]) C' st' /\
     C' = C ++ (if sp_in st then [Some (join [10%N] (sp_new st))] else [])).
Proof.
  intros n0 P F G scId D C st ti de lvl df flag' st' [HS [Hsrt [Hcur Hpar]]] Hl H.
  unfold start_chapter in H. apply bind_ok in H as [[[n new] cnt] [H1 H]].
  apply bind_ok in H as [n2 [H2 H]]. injection H as <-.
  assert (Hn : SInv n0 P F D (sp_chId st) G n (sp_srtSc st) (sp_split st) /\ nv_chapters n = nv_chapters (sp_n st) /\
               (CI D C st -> new = [] /\ map (content_at n) (VV D st) =
                  C ++ (if sp_in st then [Some (join [10%N] (sp_new st))] else []))).
  { destruct (sp_in st) eqn:Ein.
    - apply bind_ok in H1 as [n1 [H1 E]]. injection E as <- <- <-.
      pose proof (s_nd _ _ _ _ _ _ _ _ _ HS) as Hnd.
      apply put_content_inv with (1 := HS) (2 := Hcur) in H1 as [H1 [Hch [Hcont Hkeys]]].
      split; [exact H1|]. split; [exact Hch|]. unfold CI. rewrite Ein. intros [V0 [HV HC]].
      split; [reflexivity|]. rewrite HV, map_app. cbn [map]. rewrite Hcont, str_eqb_refl. f_equal.
      rewrite <- HC. apply map_content_ext. intros j Hj. rewrite Hcont.
      replace (str_eqb j (sp_scId st)) with false; [reflexivity|]. symmetry. apply str_eqb_neq. intros ->.
      rewrite app_assoc in Hnd. fold (VV D st) in Hnd. rewrite HV, <- app_assoc in Hnd. cbn [app] in Hnd.
      apply NoDup_remove_2 in Hnd. apply Hnd, in_or_app. left. exact Hj.
    - injection H1 as <- <- <-. split; [exact HS|]. split; [reflexivity|]. unfold CI. rewrite Ein.
      intros [HV HN]. split; [exact HN|]. rewrite app_nil_r. exact HV. }
  destruct Hn as [HSn [Hch HC]]. unfold put_srtScenes in H2. apply bind_ok in H2 as [c [Hc H2]]. injection H2 as <-.
  unfold dindex in Hc. destruct (dget (sp_chId st) (nv_chapters n)) as [c'|] eqn:E; [|discriminate]. injection Hc as ->.
  cbn [nv_chapters set_nv_chapters].
  set (k := new_id (dkeys (dset (sp_chId st) (set_ch_srtScenes (sp_srtSc st) c) (nv_chapters n)))).
  set (ti' := if truthy ti then ti else tr df).
  pose proof (SInv_chap _ _ _ _ _ _ _ _ _ c k lvl flag' ti' de HSn E eq_refl Hl) as HS'.
  assert (HVV : flat_map (chapter_scenes (create_chapter k ti' de lvl
      (set_nv_chapters (dset (sp_chId st) (set_ch_srtScenes (sp_srtSc st) c) (nv_chapters n)) n))) (D ++ [sp_chId st]) = VV D st).
  { assert (HchIn : In (sp_chId st) (dkeys (nv_chapters n))) by (apply dget_Some_key; eauto).
    assert (Hfresh : ~ In k (dkeys (nv_chapters n))).
    { unfold k. rewrite (dkeys_dset_in _ _ (nv_chapters n) HchIn). apply new_id_fresh. }
    pose proof (s_chnd _ _ _ _ _ _ _ _ _ HSn) as Hnd. pose proof (s_chin _ _ _ _ _ _ _ _ _ HSn) as Hin.
    unfold VV. rewrite flat_map_app. cbn [flat_map]. rewrite app_nil_r. rewrite <- (VV_chapters D _ _ Hch). f_equal.
    - apply flat_map_ext_in. intros j Hj. apply chapter_scenes_ext. cbn. rewrite !dget_dset_other; [reflexivity| |].
      + intros ->. apply NoDup_remove_2 in Hnd. apply Hnd, in_or_app. left. exact Hj.
      + intros ->. apply Hfresh, Hin, in_or_app. left. exact Hj.
    - unfold chapter_scenes. cbn. rewrite dget_dset_other; [rewrite dget_dset_same; reflexivity|].
      intros Heq. rewrite Heq in HchIn. contradiction. }
  split.
  - unfold SL, VV. cbn [sp_n sp_chId sp_srtSc sp_split sp_srtCh sp_scId]. split; [exact HS'|].
    split; [rewrite Hsrt, <- app_assoc; reflexivity|]. rewrite HVV, app_nil_r. auto.
  - split; [reflexivity|]. intro HCI. destruct (HC HCI) as [Hnew Hmap]. eexists. split; [|reflexivity].
    unfold CI, VV. cbn [sp_in sp_n sp_srtSc sp_new]. rewrite HVV, app_nil_r. split; [|exact Hnew].
    rewrite <- Hmap. apply map_content_ext. intros j _. reflexivity.
Qed.

Lemma app_snoc_inj : forall {A} (a b : list A) x y, a ++ [x] = b ++ [y] -> a = b /\ x = y.
Proof. intros. apply app_inj_tail. assumption. Qed.

(** one line *)
Lemma split_line_inv : forall n0 P F G scId D C st line rest st',
  SL n0 P F G scId D st -> split_line tr scId st line = Ok st' ->
  exists D', SL n0 P F G scId D' st' /\
    (sp_in st' = false -> is_separator line = true /\ is_scene_separator line = false) /\
    (CI D C st -> (sp_in st = false -> is_scene_separator line = false) ->
     exists C', CI D' C' st' /\
       C ++ out (groups (sp_new st) (sp_in st) (line :: rest)) = C' ++ out (groups (sp_new st') (sp_in st') rest)).
Proof.
  intros n0 P F G scId D C st line rest st' HSL H. pose proof HSL as [HS [Hsrt [Hcur Hpar]]].
  unfold split_line in H. destruct (heading line) as [ti de]. cbn [groups]. unfold SCENE_SEPARATOR, CHAPTER_SEPARATOR, PART_SEPARATOR in H.
  unfold is_scene_separator, is_separator.
  destruct (prefixb (s "###") line) eqn:E3.
  { apply bind_ok in H as [n1 [H1 H]]. apply bind_ok in H as [n2 [H2 H]]. injection H as <-.
    pose proof (s_nd _ _ _ _ _ _ _ _ _ HS) as Hnd. pose proof (s_in _ _ _ _ _ _ _ _ _ HS) as Hin.
    apply put_content_inv with (1 := HS) (2 := Hcur) in H1 as [H1 [Hch1 [Hcont1 Hkeys1]]].
    pose proof (VV_chapters D _ _ Hch1) as HV1.
    apply create_scene_inv with (1 := H1) in H2; [|rewrite HV1; exact Hpar].
    destruct H2 as [H2 [Hch2 Hcont2]]. pose proof (VV_chapters D _ _ Hch2) as HV2.
    set (k := new_id (dkeys (nv_scenes n1))) in *.
    exists D. split; [|split; [discriminate|]].
    - unfold SL, VV. cbn [sp_n sp_chId sp_srtSc sp_split sp_srtCh sp_scId]. split; [exact H2|]. split; [exact Hsrt|].
      rewrite HV2, HV1, app_assoc. split; apply in_or_app; [right; left; reflexivity | left; exact Hpar].
    - intros HC Hin3. destruct (sp_in st) eqn:Ein; [|specialize (Hin3 eq_refl); discriminate]. unfold CI in HC. rewrite Ein in HC.
      destruct HC as [V0 [HV HC]]. exists (C ++ [Some (join [10%N] (sp_new st))]). split.
      + unfold CI, VV. cbn [sp_in sp_n sp_srtSc sp_scId]. exists (VV D st). split; [rewrite HV2, HV1, app_assoc; reflexivity|].
        rewrite (map_content_ext n1 n2).
        * rewrite HV, map_app. cbn [map]. rewrite Hcont1, str_eqb_refl. f_equal. rewrite <- HC.
          apply map_content_ext. intros j Hj. rewrite Hcont1. replace (str_eqb j (sp_scId st)) with false; [reflexivity|].
          symmetry. apply str_eqb_neq. intros ->. rewrite app_assoc in Hnd. fold (VV D st) in Hnd.
          rewrite HV, <- app_assoc in Hnd. apply NoDup_remove_2 in Hnd. apply Hnd, in_or_app. left. exact Hj.
        * intros j Hj. apply Hcont2. rewrite Hkeys1. apply Hin. rewrite app_assoc. apply in_or_app. left. exact Hj.
      + cbn [sp_new sp_in orb]. unfold out. rewrite map_app. cbn [map app]. rewrite <- app_assoc. reflexivity. }
  destruct (prefixb (s "##") line) eqn:E2.
  { assert (E1 : prefixb (s "#") line = true).
    { apply prefixb_spec in E2 as [r ->]. reflexivity. }
    rewrite E1. apply (start_chapter_inv n0 P F G scId D C) with (1 := HSL) in H as [H [Hin HC]]; [|left; auto].
    exists (D ++ [sp_chId st]). split; [exact H|]. split; [auto|]. intros HCI _. destruct (HC HCI) as [C' [HC' ->]].
    eexists. split; [exact HC'|]. unfold CI in HC'. rewrite Hin in HC' |- *. destruct HC' as [_ ->].
    unfold CI in HCI. destruct (sp_in st).
    - cbn [orb]. unfold out. rewrite map_app, <- app_assoc. reflexivity.
    - destruct HCI as [_ ->]. cbn [orb]. rewrite app_nil_r. reflexivity. }
  destruct (prefixb (s "#") line) eqn:E1.
  { apply (start_chapter_inv n0 P F G scId D C) with (1 := HSL) in H as [H [Hin HC]]; [|right; auto].
    exists (D ++ [sp_chId st]). split; [exact H|]. split; [auto|]. intros HCI _. destruct (HC HCI) as [C' [HC' ->]].
    eexists. split; [exact HC'|]. unfold CI in HC'. rewrite Hin in HC' |- *. destruct HC' as [_ ->].
    unfold CI in HCI. destruct (sp_in st).
    - cbn [orb]. unfold out. rewrite map_app, <- app_assoc. reflexivity.
    - destruct HCI as [_ ->]. cbn [orb]. rewrite app_nil_r. reflexivity. }
  destruct (sp_in st) eqn:Ein; cbn [negb] in H.
  - injection H as <-. exists D. split; [exact HSL|]. split; [discriminate|]. intros HC _. exists C.
    split; [|reflexivity]. unfold CI, VV in *. rewrite Ein in HC. exact HC.
  - apply bind_ok in H as [n2 [H2 H]]. injection H as <-.
    pose proof (s_in _ _ _ _ _ _ _ _ _ HS) as Hin.
    apply create_scene_inv with (1 := HS) (2 := Hpar) in H2 as [H2 [Hch2 Hcont2]]. pose proof (VV_chapters D _ _ Hch2) as HV2.
    set (k := new_id (dkeys (nv_scenes (sp_n st)))) in *.
    exists D. split; [|split; [discriminate|]].
    + unfold SL, VV. cbn [sp_n sp_chId sp_srtSc sp_split sp_srtCh sp_scId]. split; [exact H2|]. split; [exact Hsrt|].
      rewrite HV2, app_assoc. split; apply in_or_app; [right; left; reflexivity | left; exact Hpar].
    + unfold CI at 1. rewrite Ein. intros [HV HN] _. exists C. split.
      * unfold CI, VV. cbn [sp_in sp_n sp_srtSc sp_scId]. exists (VV D st). split; [rewrite HV2, app_assoc; reflexivity|].
        rewrite <- HV. apply map_content_ext. intros j Hj. apply Hcont2, Hin. rewrite app_assoc. apply in_or_app. left. exact Hj.
      * cbn [sp_new sp_in]. rewrite HN. cbn [app].
        assert (HG : forall ls cur, cur <> [] -> groups cur true ls = groups cur false ls).
        { clear. induction ls as [|l ls IH]; intros cur Hc; destruct cur as [|c cur]; try congruence; cbn [groups orb].
          - reflexivity.
          - destruct (is_scene_separator l); [reflexivity|]. destruct (is_separator l); [reflexivity|].
            apply IH. discriminate. }
        rewrite HG by discriminate. reflexivity.
Qed.

Lemma split_lines_inv : forall n0 P F G scId lines D C st st',
  SL n0 P F G scId D st -> foldM (split_line tr scId) lines st = Ok st' ->
  exists D', SL n0 P F G scId D' st' /\
    (CI D C st -> no_bare_chapter lines = true ->
     (sp_in st = false -> match lines with l :: _ => is_scene_separator l = false | [] => True end) ->
     exists C', CI D' C' st' /\
       C ++ out (groups (sp_new st) (sp_in st) lines) = C' ++ out (groups (sp_new st') (sp_in st') [])).
Proof.
  intros n0 P F G scId lines. induction lines as [|l lines IH]; intros D C st st' HSL H; cbn [foldM] in H.
  - injection H as <-. exists D. split; [exact HSL|]. intros HC _ _. exists C. auto.
  - apply bind_ok in H as [st1 [H1 H]].
    destruct (split_line_inv n0 P F G scId D C st l lines st1 HSL H1) as [D1 [HSL1 [Hin1 Hc1]]].
    assert (HIH : forall C1, exists D', SL n0 P F G scId D' st' /\
      (CI D1 C1 st1 -> no_bare_chapter lines = true ->
     (sp_in st1 = false -> match lines with l :: _ => is_scene_separator l = false | [] => True end) ->
     exists C', CI D' C' st' /\
       C1 ++ out (groups (sp_new st1) (sp_in st1) lines) = C' ++ out (groups (sp_new st') (sp_in st') []))).
    { intro C1. exact (IH D1 C1 st1 st' HSL1 H). }
    destruct (sp_in st) eqn:Ein.
    + (* decide whether CI holds: use classical-free trick by giving C1 depending on it *)
      destruct (HIH (match sp_in st1 with _ => map (content_at (sp_n st1)) (VV D1 st1) end)) as [D' [HSL' _]].
      clear HIH. 
      (* D' must not depend on C: show uniqueness through sp_srtCh *)
      exists D'. split; [exact HSL'|]. intros HCI Hnb Hg.
      destruct (Hc1 HCI) as [C1 [HCI1 Heq1]]; [intro E; discriminate|].
      destruct (IH D1 C1 st1 st' HSL1 H) as [D'' [HSL'' Hc'']].
      assert (D'' = D').
      { destruct HSL' as [_ [E1 _]], HSL'' as [_ [E2 _]]. rewrite E1 in E2. apply app_inj_tail in E2 as [E2 _]. auto. }
      subst D''. destruct Hc'' as [C' [HC' Heq']]; [exact HCI1| | |].
      * destruct lines; [reflexivity|]. cbn [no_bare_chapter] in Hnb. apply andb_true_iff in Hnb. apply Hnb.
      * intro E. destruct (Hin1 E) as [Hs1 Hs2]. destruct lines as [|l2 lines]; [exact I|].
        cbn [no_bare_chapter] in Hnb. apply andb_true_iff in Hnb as [Hnb _]. rewrite Hs1, Hs2 in Hnb. cbn [negb andb] in Hnb.
        destruct (is_scene_separator l2); [discriminate|reflexivity].
      * exists C'. split; [exact HC'|]. rewrite Heq1. exact Heq'.
    + destruct (HIH (map (content_at (sp_n st1)) (VV D1 st1))) as [D' [HSL' _]]. clear HIH.
      exists D'. split; [exact HSL'|]. intros HCI Hnb Hg.
      destruct (Hc1 HCI) as [C1 [HCI1 Heq1]]; [intros _; apply (Hg eq_refl)|].
      destruct (IH D1 C1 st1 st' HSL1 H) as [D'' [HSL'' Hc'']].
      assert (D'' = D').
      { destruct HSL' as [_ [E1 _]], HSL'' as [_ [E2 _]]. rewrite E1 in E2. apply app_inj_tail in E2 as [E2 _]. auto. }
      subst D''. destruct Hc'' as [C' [HC' Heq']]; [exact HCI1| | |].
      * destruct lines; [reflexivity|]. cbn [no_bare_chapter] in Hnb. apply andb_true_iff in Hnb. apply Hnb.
      * intro E. destruct (Hin1 E) as [Hs1 Hs2]. destruct lines as [|l2 lines]; [exact I|].
        cbn [no_bare_chapter] in Hnb. apply andb_true_iff in Hnb as [Hnb _]. rewrite Hs1, Hs2 in Hnb. cbn [negb andb] in Hnb.
        destruct (is_scene_separator l2); [discriminate|reflexivity].
      * exists C'. split; [exact HC'|]. rewrite Heq1. exact Heq'.
Qed.

(** the next scene of n0 enters the reading order *)
Lemma SInv_next : forall n0 P F D chId G n sr flag k,
  SInv n0 P (k :: F) D chId G n sr flag -> In k (dkeys (nv_scenes n0)) ->
  SInv n0 (P ++ [k]) F D chId G n (sr ++ [k]) flag.
Proof.
  intros n0 P F D chId G n sr flag k H Hk. destruct H as [C1 C2 C3 C4 C5 C6 C7 C8 C9 C10 C11 C12 C13 C14 C15 C16].
  constructor; try assumption.
  - rewrite <- (app_assoc sr). exact C3.
  - rewrite <- (app_assoc sr). exact C4.
  - intros j Hj Hn. apply C9; [exact Hj|]. intro Hi. apply Hn, in_or_app. left. exact Hi.
  - rewrite app_assoc, filter_app, C12. cbn [filter]. apply dmem_key in Hk. rewrite Hk. reflexivity.
  - intros j Hj Hi. rewrite app_assoc. apply in_or_app. left. apply C15; assumption.
  - rewrite C16. apply or_iff_compat_r. split; intros [j [Hj Hn]].
    + exists j. split; [|exact Hn]. rewrite app_assoc. apply in_or_app. left. exact Hj.
    + exists j. split; [|exact Hn]. rewrite app_assoc in Hj. apply in_app_or in Hj as [Hj | [<- | []]]; [exact Hj|contradiction].
Qed.

(** frame: which scenes a line can change *)
Lemma dindex_ok : forall {A} k (d : dict A) x, dindex k d = Ok x -> dget k d = Some x.
Proof. intros A k d x H. unfold dindex in H. destruct (dget k d); congruence. Qed.

Lemma put_content_frame : forall k ls n n' j, put_content k ls n = Ok n' -> j <> k -> dget j (nv_scenes n') = dget j (nv_scenes n).
Proof.
  intros k ls n n' j H Hj. unfold put_content in H. apply bind_ok in H as [x [_ H]]. injection H as <-.
  cbn. apply dget_dset_other, Hj.
Qed.
Lemma create_scene_frame : forall k par cnt ti de n n' j, create_scene tr k par cnt ti de n = Ok n' -> j <> k -> j <> par ->
  dget j (nv_scenes n') = dget j (nv_scenes n).
Proof.
  intros k par cnt ti de n n' j H Hj Hp. unfold create_scene in H. apply bind_ok in H as [x [_ H]].
  apply bind_ok in H as [x' [_ H]]. injection H as <-. cbn. rewrite !dget_dset_other by assumption. reflexivity.
Qed.
Lemma put_content_keys : forall k ls n n', put_content k ls n = Ok n' -> dkeys (nv_scenes n') = dkeys (nv_scenes n).
Proof.
  intros k ls n n' H. unfold put_content in H. apply bind_ok in H as [x [Hx H]]. injection H as <-.
  cbn. apply dkeys_dset_in, dget_Some_key. apply dindex_ok in Hx. eauto.
Qed.
Lemma create_scene_keys : forall k par cnt ti de n n', create_scene tr k par cnt ti de n = Ok n' ->
  incl (dkeys (nv_scenes n)) (dkeys (nv_scenes n')).
Proof.
  intros k par cnt ti de n n' H. unfold create_scene in H. apply bind_ok in H as [x [_ H]].
  apply bind_ok in H as [x' [_ H]]. injection H as <-. cbn. intros j Hj. apply dkeys_dset. right. apply dkeys_dset. right. exact Hj.
Qed.

(** K: scene IDs that existed when the scene was begun *)
Definition untouched (K : list str) (scId : str) (st : sp) : Prop :=
  incl K (dkeys (nv_scenes (sp_n st))) /\ (sp_scId st = scId \/ ~ In (sp_scId st) K).

Lemma split_line_frame : forall K scId st line st', split_line tr scId st line = Ok st' -> untouched K scId st ->
  untouched K scId st' /\ forall j, In j K -> j <> scId -> dget j (nv_scenes (sp_n st')) = dget j (nv_scenes (sp_n st)).
Proof.
  intros K scId st line st' H [HK Hid]. unfold split_line in H. destruct (heading line) as [ti de].
  assert (Hchap : forall lvl df fl, start_chapter tr ti de lvl df fl st = Ok st' ->
    untouched K scId st' /\ forall j, In j K -> j <> scId -> dget j (nv_scenes (sp_n st')) = dget j (nv_scenes (sp_n st))).
  { clear H. intros lvl df fl H. unfold start_chapter in H. apply bind_ok in H as [[[n new] cnt] [H1 H]].
    apply bind_ok in H as [n2 [H2 H]]. injection H as <-.
    assert (Hn2 : nv_scenes n2 = nv_scenes n).
    { unfold put_srtScenes in H2. apply bind_ok in H2 as [c [_ H2]]. injection H2 as <-. reflexivity. }
    unfold untouched. cbn [sp_n sp_scId create_chapter nv_scenes set_nv_chapters]. rewrite Hn2.
    destruct (sp_in st).
    - apply bind_ok in H1 as [n1 [H1 E]]. injection E as <- <- <-. rewrite (put_content_keys _ _ _ _ H1).
      split; [auto|]. intros j Hj Hne. apply (put_content_frame _ _ _ _ _ H1). destruct Hid as [-> | Hid]; [exact Hne|].
      intros ->. contradiction.
    - injection H1 as <- <- <-. auto. }
  destruct (prefixb SCENE_SEPARATOR line).
  - clear Hchap. apply bind_ok in H as [n1 [H1 H]]. apply bind_ok in H as [n2 [H2 H]]. injection H as <-.
    pose proof (put_content_keys _ _ _ _ H1) as Hk1. pose proof (create_scene_keys _ _ _ _ _ _ _ H2) as Hk2.
    unfold untouched. cbn [sp_n sp_scId]. split; [split|].
    + intros j Hj. apply Hk2. rewrite Hk1. apply HK, Hj.
    + right. intro Hi. apply (new_id_fresh (dkeys (nv_scenes n1))). rewrite Hk1 at 2. apply HK, Hi.
    + intros j Hj Hne. rewrite (create_scene_frame _ _ _ _ _ _ _ j H2); [|intros -> | exact Hne].
      * apply (put_content_frame _ _ _ _ _ H1). destruct Hid as [-> | Hid]; [exact Hne|]. intros ->. contradiction.
      * apply (new_id_fresh (dkeys (nv_scenes n1))). rewrite Hk1 at 2. apply HK, Hj.
  - destruct (prefixb CHAPTER_SEPARATOR line); [exact (Hchap _ _ _ H)|].
    destruct (prefixb PART_SEPARATOR line); [exact (Hchap _ _ _ H)|]. clear Hchap. destruct (negb (sp_in st)).
    + apply bind_ok in H as [n2 [H2 H]]. injection H as <-. pose proof (create_scene_keys _ _ _ _ _ _ _ H2) as Hk2.
      unfold untouched. cbn [sp_n sp_scId]. split; [split|].
      * intros j Hj. apply Hk2, HK, Hj.
      * right. intro Hi. apply (new_id_fresh (dkeys (nv_scenes (sp_n st)))). apply HK, Hi.
      * intros j Hj Hne. apply (create_scene_frame _ _ _ _ _ _ _ j H2); [intros ->|exact Hne].
        apply (new_id_fresh (dkeys (nv_scenes (sp_n st)))). apply HK, Hj.
    + injection H as <-. unfold untouched. cbn [sp_n sp_scId]. auto.
Qed.

Lemma split_lines_frame : forall K scId lines st st', foldM (split_line tr scId) lines st = Ok st' -> untouched K scId st ->
  untouched K scId st' /\ forall j, In j K -> j <> scId -> dget j (nv_scenes (sp_n st')) = dget j (nv_scenes (sp_n st)).
Proof.
  intros K scId. induction lines as [|l lines IH]; intros st st' H Hu; cbn [foldM] in H.
  - injection H as <-. auto.
  - apply bind_ok in H as [st1 [H1 H]]. destruct (split_line_frame K scId _ _ _ H1 Hu) as [Hu1 Hf1].
    destruct (IH _ _ H Hu1) as [Hu' Hf']. split; [exact Hu'|]. intros j Hj Hne. rewrite Hf' by assumption. apply Hf1; assumption.
Qed.

(** lines without separators are just collected *)
Lemma split_lines_plain : forall scId lines st, sp_in st = true -> forallb (fun l => negb (is_separator l)) lines = true ->
  foldM (split_line tr scId) lines st =
  Ok (mkSp (sp_n st) (sp_srtCh st) (sp_chId st) (sp_srtSc st) (sp_scId st) (sp_new st ++ lines) true (sp_cnt st) (sp_split st)).
Proof.
  intros scId. induction lines as [|l lines IH]; intros st Hin Hp; cbn [foldM].
  - rewrite app_nil_r. destruct st; cbn in *. subst. reflexivity.
  - cbn [forallb] in Hp. apply andb_true_iff in Hp as [Hl Hp]. unfold is_separator in Hl. apply negb_true_iff in Hl.
    unfold split_line at 1. destruct (heading l) as [ti de]. unfold SCENE_SEPARATOR, CHAPTER_SEPARATOR, PART_SEPARATOR.
    assert (E3 : prefixb (s "###") l = false).
    { destruct (prefixb (s "###") l) eqn:E; [|reflexivity]. apply prefixb_spec in E as [r ->]. discriminate. }
    assert (E2 : prefixb (s "##") l = false).
    { destruct (prefixb (s "##") l) eqn:E; [|reflexivity]. apply prefixb_spec in E as [r ->]. discriminate. }
    rewrite E3, E2, Hl, Hin. cbn [negb bind]. rewrite IH; [|exact eq_refl | exact Hp].
    cbn [sp_n sp_srtCh sp_chId sp_srtSc sp_scId sp_new sp_cnt sp_split]. rewrite <- app_assoc. reflexivity.
Qed.

(** ** one scene *)
Definition untouched_or_same (n0 n : novel) (k : str) : Prop :=
  forall x, dget k (nv_scenes n0) = Some x ->
  match sc_content x with
  | Some (c :: t) => forallb (fun l => negb (is_separator l)) (text_lines (c :: t)) = true ->
                     dget k (nv_scenes n) = Some (set_sceneContent (c :: t) x)
  | _ => dget k (nv_scenes n) = Some x
  end.

Lemma split_scene_inv : forall n0 P F G D C st scId st',
  SInv n0 P (scId :: F) D (sp_chId st) G (sp_n st) (sp_srtSc st) (sp_split st) -> sp_srtCh st = D ++ [sp_chId st] ->
  In scId (dkeys (nv_scenes n0)) -> ~ In scId P -> split_scene tr st scId = Ok st' ->
  exists D', SInv n0 (P ++ [scId]) F D' (sp_chId st') G (sp_n st') (sp_srtSc st') (sp_split st') /\
    sp_srtCh st' = D' ++ [sp_chId st'] /\
    (map (content_at (sp_n st)) (VV D st) = C ->
     (forall t, content_at n0 scId = Some t -> no_bare_chapter (text_lines t) = true) ->
     map (content_at (sp_n st')) (VV D' st') = C ++ parts_of (content_at n0 scId)) /\
    (forall j, In j (dkeys (nv_scenes (sp_n st))) -> j <> scId -> dget j (nv_scenes (sp_n st')) = dget j (nv_scenes (sp_n st))) /\
    untouched_or_same n0 (sp_n st') scId.
Proof.
  intros n0 P F G D C st scId st' HS Hsrt Hold HnP H. unfold split_scene in H.
  cbn [sp_n sp_srtCh sp_chId sp_srtSc sp_scId sp_new sp_in sp_cnt sp_split] in H.
  apply bind_ok in H as [x [Hx H]]. apply dindex_ok in Hx.
  pose proof (s_frame _ _ _ _ _ _ _ _ _ HS scId Hold HnP) as Hfr. rewrite Hx in Hfr. symmetry in Hfr.
  assert (Hcont0 : content_at n0 scId = sc_content x) by (unfold content_at; rewrite Hfr; reflexivity).
  assert (Hcontn : content_at (sp_n st) scId = sc_content x) by (unfold content_at; rewrite Hx; reflexivity).
  apply SInv_next in HS as HS1; [|exact Hold].
  assert (Hskip : forall z, z = x -> (sc_content x = None \/ sc_content x = Some []) ->
     Ok {| sp_n := sp_n st; sp_srtCh := sp_srtCh st; sp_chId := sp_chId st; sp_srtSc := sp_srtSc st ++ [scId];
           sp_scId := sp_scId st; sp_new := sp_new st; sp_in := sp_in st; sp_cnt := sp_cnt st; sp_split := sp_split st |} = Ok st' ->
     exists D' : list str,
    SInv n0 (P ++ [scId]) F D' (sp_chId st') G (sp_n st') (sp_srtSc st') (sp_split st') /\
    sp_srtCh st' = D' ++ [sp_chId st'] /\
    (map (content_at (sp_n st)) (VV D st) = C ->
     (forall t, content_at n0 scId = Some t -> no_bare_chapter (text_lines t) = true) ->
     map (content_at (sp_n st')) (VV D' st') = C ++ parts_of (content_at n0 scId)) /\
    (forall j, In j (dkeys (nv_scenes (sp_n st))) -> j <> scId -> dget j (nv_scenes (sp_n st')) = dget j (nv_scenes (sp_n st))) /\
    untouched_or_same n0 (sp_n st') scId).
  { intros z _ Hemp E. injection E as <-. exists D. cbn [sp_n sp_srtCh sp_chId sp_srtSc sp_split].
    split; [exact HS1|]. split; [exact Hsrt|]. split; [|split].
    - intros HC _. unfold VV in *. cbn [sp_n sp_srtSc]. rewrite app_assoc, map_app, HC. cbn [map]. rewrite Hcontn, Hcont0.
      destruct Hemp as [-> | ->]; reflexivity.
    - auto.
    - intros y Hy. rewrite Hfr in Hy. injection Hy as <-. destruct Hemp as [-> | ->]; exact Hx. }
  destruct (sc_content x) as [[|c t]|] eqn:Ec.
  - apply (Hskip x); auto.
  - clear Hskip. apply bind_ok in H as [st1 [H1 H]].
    set (st0 := {| sp_n := sp_n st; sp_srtCh := sp_srtCh st; sp_chId := sp_chId st; sp_srtSc := sp_srtSc st ++ [scId];
                   sp_scId := scId; sp_new := []; sp_in := true; sp_cnt := 0; sp_split := sp_split st |}) in *.
    rewrite split_splitc in H1.
    assert (HSL0 : SL n0 (P ++ [scId]) F G scId D st0).
    { unfold SL, VV, st0. cbn [sp_n sp_srtCh sp_chId sp_srtSc sp_split sp_scId]. split; [exact HS1|]. split; [exact Hsrt|].
      split; rewrite !in_app_iff; cbn [In]; auto. }
    destruct (split_lines_inv n0 _ F G scId _ D C st0 st1 HSL0 H1) as [D' [HSL1 HC1]].
    destruct HSL1 as [HS' [Hsrt' [Hcur' Hpar']]].
    assert (Hut0 : untouched (dkeys (nv_scenes (sp_n st))) scId st0).
    { split; [apply incl_refl | left; reflexivity]. }
    destruct (split_lines_frame _ scId _ _ _ H1 Hut0) as [Hut1 Hf1]. destruct Hut1 as [_ Hid1].
    assert (Hplain : forallb (fun l => negb (is_separator l)) (text_lines (c :: t)) = true ->
              st1 = mkSp (sp_n st) (sp_srtCh st) (sp_chId st) (sp_srtSc st ++ [scId]) scId (text_lines (c :: t)) true 0 (sp_split st)).
    { intro Hp. unfold text_lines in Hp. rewrite (split_lines_plain scId (splitc 10 (c :: t)) st0 eq_refl Hp) in H1. injection H1 as <-. reflexivity. }
    destruct (sp_in st1) eqn:Ein.
    + apply bind_ok in H as [n2 [H2 H]]. injection H as <-. cbn [sp_n sp_srtCh sp_chId sp_srtSc sp_split].
      pose proof (s_nd _ _ _ _ _ _ _ _ _ HS') as Hnd.
      pose proof H2 as H2'.
      apply put_content_inv with (1 := HS') (2 := Hcur') in H2 as [H2 [Hch2 [Hcont2 Hk2]]].
      exists D'. split; [exact H2|]. split; [exact Hsrt'|]. split; [|split].
      * intros HC Hg. rewrite Hcont0. destruct HC1 as [C' [HC' Heq]].
        { unfold CI, st0, VV. cbn [sp_in sp_n sp_srtSc sp_scId]. exists (VV D st). split; [apply app_assoc|exact HC]. }
        { apply Hg. exact Hcont0. }
        { discriminate. }
        unfold CI in HC'. rewrite Ein in HC'. destruct HC' as [V0 [HV HC']].
        unfold VV in *. cbn [sp_n sp_srtSc]. rewrite (VV_chapters D' _ _ Hch2), HV, map_app. cbn [map].
        rewrite Hcont2, str_eqb_refl.
        assert (Hm : map (content_at n2) V0 = C').
        { rewrite <- HC'. apply map_content_ext. intros j Hj. rewrite Hcont2.
          replace (str_eqb j (sp_scId st1)) with false; [reflexivity|]. symmetry. apply str_eqb_neq. intros ->.
          rewrite app_assoc, HV, <- app_assoc in Hnd. apply NoDup_remove_2 in Hnd. apply Hnd, in_or_app. left. exact Hj. }
        rewrite Hm. cbn [groups orb] in Heq. unfold out at 2 in Heq. cbn [map] in Heq. rewrite <- Heq. reflexivity.
      * intros j Hj Hne. rewrite (put_content_frame _ _ _ _ j H2'); [apply Hf1; assumption|].
        destruct Hid1 as [-> | Hid1]; [exact Hne|]. intros ->. contradiction.
      * intros y Hy. rewrite Hfr in Hy. injection Hy as <-. rewrite Ec. intro Hp. specialize (Hplain Hp).
        rewrite Hplain in H2'. cbn [sp_scId sp_new sp_n] in H2'. unfold put_content in H2'.
        apply bind_ok in H2' as [y [Hy H2']]. injection H2' as <-. apply dindex_ok in Hy. rewrite Hx in Hy. injection Hy as <-.
        cbn [nv_scenes set_nv_scenes]. rewrite dget_dset_same. unfold text_lines. rewrite join_splitc. reflexivity.
    + injection H as <-. exists D'. split; [exact HS'|]. split; [exact Hsrt'|]. split; [|split].
      * intros HC Hg. rewrite Hcont0. destruct HC1 as [C' [HC' Heq]].
        { unfold CI, st0, VV. cbn [sp_in sp_n sp_srtSc sp_scId]. exists (VV D st). split; [apply app_assoc|exact HC]. }
        { apply Hg. exact Hcont0. }
        { discriminate. }
        unfold CI in HC'. rewrite Ein in HC'. destruct HC' as [HV HN]. rewrite HV.
        rewrite HN in Heq. cbn [groups orb] in Heq. unfold out at 2 in Heq. cbn [map] in Heq. rewrite app_nil_r in Heq.
        rewrite <- Heq. reflexivity.
      * intros j Hj Hne. apply Hf1; assumption.
      * intros y Hy. rewrite Hfr in Hy. injection Hy as <-. rewrite Ec. intro Hp. specialize (Hplain Hp).
        rewrite Hplain in Ein. discriminate.
  - apply (Hskip x); auto.
Qed.

(** ** the invariant between chapters: DA: all chapters so far, V: all scenes so far *)
Record BInv (n0 : novel) (P F DA G : list str) (n : novel) (V : list str) (flag : bool) : Prop := {
  b_chnd : NoDup (DA ++ G);
  b_chin : incl (DA ++ G) (dkeys (nv_chapters n));
  b_nd : NoDup (V ++ F);
  b_in : incl (V ++ F) (dkeys (nv_scenes n));
  b_rest : novel_rest n = novel_rest n0;
  b_keyc : exists NC, dkeys (nv_chapters n) = dkeys (nv_chapters n0) ++ NC;
  b_keys : exists NS, dkeys (nv_scenes n) = dkeys (nv_scenes n0) ++ NS;
  b_core : forall k x, dget k (nv_scenes n0) = Some x -> exists y, dget k (nv_scenes n) = Some y /\ scene_core y = scene_core x;
  b_frame : forall k, In k (dkeys (nv_scenes n0)) -> ~ In k P -> dget k (nv_scenes n) = dget k (nv_scenes n0);
  b_chcore : forall k x, dget k (nv_chapters n0) = Some x -> exists y, dget k (nv_chapters n) = Some y /\ chapter_core y = chapter_core x;
  b_chframe : forall k, In k (dkeys (nv_chapters n0)) -> ~ In k DA -> dget k (nv_chapters n) = dget k (nv_chapters n0);
  b_oldsc : filter (fun k => dmem k (nv_scenes n0)) V = P;
  b_oldch : filter (fun k => dmem k (nv_chapters n0)) DA ++ G = nv_srtChapters n0;
  b_newch : forall k y, ~ In k (dkeys (nv_chapters n0)) -> dget k (nv_chapters n) = Some y ->
              In k DA /\ ch_type y = Some 0%N /\ (ch_level y = Some 0%N \/ ch_level y = Some 1%N);
  b_newsc : forall k, ~ In k (dkeys (nv_scenes n0)) -> In k (dkeys (nv_scenes n)) -> In k V;
  b_flag : flag = true <-> (exists k, In k V /\ ~ In k (dkeys (nv_scenes n0))) \/
                           (exists k y, ~ In k (dkeys (nv_chapters n0)) /\ dget k (nv_chapters n) = Some y /\ ch_level y = Some 0%N)
}.

Lemma SInv_BInv : forall n0 P F D chId G n sr flag,
  SInv n0 P F D chId G n sr flag <-> BInv n0 P F (D ++ [chId]) G n (flat_map (chapter_scenes n) D ++ sr) flag.
Proof.
  intros. split; intros [C1 C2 C3 C4 C5 C6 C7 C8 C9 C10 C11 C12 C13 C14 C15 C16];
    constructor; try assumption; try (rewrite <- !app_assoc; assumption); try (rewrite <- !app_assoc in *; assumption).
Qed.

(** the next chapter of n0 *)
Lemma BInv_next : forall n0 P F DA G n V flag c, BInv n0 P F DA (c :: G) n V flag -> In c (dkeys (nv_chapters n0)) ->
  BInv n0 P F (DA ++ [c]) G n V flag.
Proof.
  intros n0 P F DA G n V flag c [C1 C2 C3 C4 C5 C6 C7 C8 C9 C10 C11 C12 C13 C14 C15 C16] Hc.
  constructor; try assumption.
  - rewrite <- app_assoc. exact C1.
  - rewrite <- app_assoc. exact C2.
  - intros k Hk Hn. apply C11; [exact Hk|]. intro Hi. apply Hn, in_or_app. left. exact Hi.
  - rewrite filter_app. cbn [filter]. apply dmem_key in Hc. rewrite Hc, <- app_assoc. exact C13.
  - intros k y Hk Hy. destruct (C14 k y Hk Hy) as [Hi Hr]. split; [apply in_or_app; left; exact Hi|exact Hr].
Qed.

(** the scene list of a chapter of DA is stored *)
Lemma BInv_store : forall n0 P F DA G n V flag k c sr, BInv n0 P F DA G n V flag -> In k DA ->
  dget k (nv_chapters n) = Some c ->
  BInv n0 P F DA G (set_nv_chapters (dset k (set_ch_srtScenes sr c) (nv_chapters n)) n) V flag.
Proof.
  intros n0 P F DA G n V flag k c sr [C1 C2 C3 C4 C5 C6 C7 C8 C9 C10 C11 C12 C13 C14 C15 C16] Hk Hc.
  assert (Hkeys : dkeys (dset k (set_ch_srtScenes sr c) (nv_chapters n)) = dkeys (nv_chapters n)).
  { apply dkeys_dset_in, dget_Some_key. eauto. }
  constructor; cbn [nv_chapters nv_scenes set_nv_chapters]; rewrite ?Hkeys; try assumption.
  - intros j y Hj. rewrite dget_dset. destruct (str_eqb j k) eqn:E; [|apply C10, Hj].
    apply str_eqb_eq in E as ->. destruct (C10 k y Hj) as [y' [Hy' Hc']]. rewrite Hc in Hy'. injection Hy' as <-.
    exists (set_ch_srtScenes sr c). split; [reflexivity|]. rewrite <- Hc'. reflexivity.
  - intros j Hj Hn. rewrite dget_dset. destruct (str_eqb j k) eqn:E; [|apply C11; assumption].
    apply str_eqb_eq in E as ->. contradiction.
  - intros j y Hj. rewrite dget_dset. destruct (str_eqb j k) eqn:E; [|apply C14; assumption].
    intro E2. injection E2 as <-. apply str_eqb_eq in E as ->. destruct (C14 k c Hj Hc) as [_ Hr]. split; [exact Hk|exact Hr].
  - rewrite C16. apply or_iff_compat_l. split; intros [j [y [H1 [H2 H3]]]].
    + destruct (str_eq_dec j k) as [-> | Hne].
      * exists k, (set_ch_srtScenes sr c). rewrite dget_dset_same. rewrite Hc in H2. injection H2 as <-. auto.
      * exists j, y. rewrite dget_dset_other by exact Hne. auto.
    + rewrite dget_dset in H2. destruct (str_eqb j k) eqn:E.
      * apply str_eqb_eq in E as ->. injection H2 as <-. exists k, c. auto.
      * exists j, y. auto.
Qed.

Lemma split_scenes_of_chapter : forall n0 G l P F D C st st',
  SInv n0 P (l ++ F) D (sp_chId st) G (sp_n st) (sp_srtSc st) (sp_split st) -> sp_srtCh st = D ++ [sp_chId st] ->
  incl l (dkeys (nv_scenes n0)) -> NoDup (P ++ l) -> (forall k, In k P -> untouched_or_same n0 (sp_n st) k) ->
  foldM (split_scene tr) l st = Ok st' ->
  exists D', SInv n0 (P ++ l) F D' (sp_chId st') G (sp_n st') (sp_srtSc st') (sp_split st') /\
    sp_srtCh st' = D' ++ [sp_chId st'] /\
    (forall k, In k (P ++ l) -> untouched_or_same n0 (sp_n st') k) /\
    (map (content_at (sp_n st)) (VV D st) = C ->
     (forall k t, In k l -> content_at n0 k = Some t -> no_bare_chapter (text_lines t) = true) ->
     map (content_at (sp_n st')) (VV D' st') = C ++ flat_map (fun k => parts_of (content_at n0 k)) l).
Proof.
  intros n0 G. induction l as [|k l IH]; intros P F D C st st' HS Hsrt Hl Hnd Hun H; cbn [foldM] in H.
  - injection H as <-. exists D. rewrite app_nil_r. split; [exact HS|]. split; [exact Hsrt|]. split; [exact Hun|].
    intros HC _. cbn. rewrite app_nil_r. exact HC.
  - apply bind_ok in H as [st1 [H1 H]]. cbn [app] in HS.
    assert (HnP : ~ In k P). { apply NoDup_remove_2 in Hnd. intro Hi. apply Hnd, in_or_app. left. exact Hi. }
    destruct (split_scene_inv n0 P (l ++ F) G D C st k st1 HS Hsrt (Hl k (or_introl eq_refl)) HnP H1)
      as [D1 [HS1 [Hsrt1 [HC1 [Hf1 Hu1]]]]].
    assert (Hun1 : forall j, In j (P ++ [k]) -> untouched_or_same n0 (sp_n st1) j).
    { intros j Hj. apply in_app_or in Hj as [Hj | [<- | []]]; [|exact Hu1].
      assert (Hne : j <> k) by (intros ->; contradiction).
      pose proof (Hun j Hj) as Huj. unfold untouched_or_same in *. intros x Hx. specialize (Huj x Hx).
      assert (Hin : In j (dkeys (nv_scenes (sp_n st)))).
      { destruct (s_keys _ _ _ _ _ _ _ _ _ HS) as [NS HN]. rewrite HN. apply in_or_app. left. apply dget_Some_key. eauto. }
      rewrite (Hf1 j Hin Hne). exact Huj. }
    assert (Hnd1 : NoDup ((P ++ [k]) ++ l)) by (rewrite <- app_assoc; exact Hnd).
    assert (Hl1 : incl l (dkeys (nv_scenes n0))) by (intros j Hj; apply Hl; right; exact Hj).
    destruct (IH (P ++ [k]) F D1 (C ++ parts_of (content_at n0 k)) st1 st' HS1 Hsrt1 Hl1 Hnd1 Hun1 H)
      as [D' [HS' [Hsrt' [Hun' HC']]]].
    rewrite <- app_assoc in HS', Hun'. cbn [app] in HS', Hun'. exists D'. split; [exact HS'|]. split; [exact Hsrt'|].
    split; [exact Hun'|]. intros HC Hg. cbn [flat_map]. rewrite app_assoc. apply HC'.
    + apply HC1; [exact HC|]. intros t Ht. apply (Hg k); [left; reflexivity|exact Ht].
    + intros j t Hj. apply Hg. right. exact Hj.
Qed.

Lemma split_chapter_inv : forall n0 P F DA G C st c st',
  BInv n0 P (chapter_scenes n0 c ++ F) DA (c :: G) (sp_n st) (flat_map (chapter_scenes (sp_n st)) DA) (sp_split st) ->
  sp_srtCh st = DA -> structure_ok n0 -> incl (c :: G) (nv_srtChapters n0) ->
  incl (chapter_scenes n0 c) (all_scenes n0) -> NoDup (P ++ chapter_scenes n0 c) ->
  (forall k, In k P -> untouched_or_same n0 (sp_n st) k) ->
  split_chapter tr st c = Ok st' ->
  exists DA', BInv n0 (P ++ chapter_scenes n0 c) F DA' G (sp_n st') (flat_map (chapter_scenes (sp_n st')) DA') (sp_split st') /\
    sp_srtCh st' = DA' /\
    (forall k, In k (P ++ chapter_scenes n0 c) -> untouched_or_same n0 (sp_n st') k) /\
    (map (content_at (sp_n st)) (flat_map (chapter_scenes (sp_n st)) DA) = C -> splittable n0 ->
     map (content_at (sp_n st')) (flat_map (chapter_scenes (sp_n st')) DA') =
       C ++ flat_map (fun k => parts_of (content_at n0 k)) (chapter_scenes n0 c)).
Proof.
  intros n0 P F DA G C st c st' HB Hsrt [Hch1 [Hch2 [Hsc1 Hsc2]]] HG Hcs HndP Hun H. unfold split_chapter in H.
  cbn [sp_n sp_srtCh sp_chId sp_srtSc sp_scId sp_new sp_in sp_cnt sp_split] in H.
  apply bind_ok in H as [ch [Hch H]]. apply bind_ok in H as [st1 [H1 H]]. apply bind_ok in H as [n2 [H2 H]]. injection H as <-.
  apply dindex_ok in Hch.
  assert (Hc0 : In c (dkeys (nv_chapters n0))) by (apply Hch2, HG; left; reflexivity).
  assert (HcD : ~ In c DA).
  { pose proof (b_chnd _ _ _ _ _ _ _ _ HB) as Hn. apply NoDup_remove_2 in Hn. intro Hi. apply Hn, in_or_app. left. exact Hi. }
  pose proof (b_chframe _ _ _ _ _ _ _ _ HB c Hc0 HcD) as Hfr. rewrite Hch in Hfr.
  assert (Hl : ch_srtScenes ch = chapter_scenes n0 c) by (unfold chapter_scenes; rewrite <- Hfr; reflexivity).
  rewrite Hl in H1.
  apply BInv_next in HB; [|exact Hc0].
  rewrite <- (app_nil_r (flat_map (chapter_scenes (sp_n st)) DA)) in HB. apply SInv_BInv in HB.
  set (st0 := mkSp (sp_n st) (sp_srtCh st ++ [c]) c [] (sp_scId st) (sp_new st) (sp_in st) (sp_cnt st) (sp_split st)) in *.
  destruct (split_scenes_of_chapter n0 G (chapter_scenes n0 c) P F DA C st0 st1) as [D' [HS' [Hsrt' [Hun' HC']]]];
    [exact HB | unfold st0; cbn; rewrite Hsrt; reflexivity | intros j Hj; apply Hsc2, Hcs, Hj | exact HndP | exact Hun | exact H1 |].
  pose proof HS' as HB'. apply SInv_BInv in HB'.
  unfold put_srtScenes in H2. apply bind_ok in H2 as [c2 [Hc2 H2]]. injection H2 as <-. apply dindex_ok in Hc2.
  exists (D' ++ [sp_chId st1]). cbn [sp_n sp_srtCh sp_split].
  assert (HVV : flat_map (chapter_scenes (set_nv_chapters (dset (sp_chId st1) (set_ch_srtScenes (sp_srtSc st1) c2)
             (nv_chapters (sp_n st1))) (sp_n st1))) (D' ++ [sp_chId st1]) = VV D' st1).
  { pose proof (s_chnd _ _ _ _ _ _ _ _ _ HS') as Hnd. unfold VV. rewrite flat_map_app. cbn [flat_map]. rewrite app_nil_r. f_equal.
    - apply flat_map_ext_in. intros j Hj. apply chapter_scenes_ext. cbn. apply dget_dset_other. intros ->.
      apply NoDup_remove_2 in Hnd. apply Hnd, in_or_app. left. exact Hj.
    - unfold chapter_scenes. cbn. rewrite dget_dset_same. reflexivity. }
  rewrite HVV. split; [|split; [exact Hsrt'|split]].
  - apply BInv_store; [exact HB' | apply in_or_app; right; left; reflexivity | exact Hc2].
  - exact Hun'.
  - intros HC Hg. specialize (HC'). unfold VV in HC' at 1. unfold st0 in HC'. cbn [sp_n sp_srtSc] in HC'. rewrite app_nil_r in HC'.
    rewrite <- (HC' HC).
    + apply map_content_ext. intros j _. reflexivity.
    + intros k t Hk Ht. apply (Hg k t); [apply Hcs, Hk | exact Ht].
Qed.

Lemma split_chapters_inv : forall n0 G, structure_ok n0 -> forall P DA C st st',
  BInv n0 P (flat_map (chapter_scenes n0) G) DA G (sp_n st) (flat_map (chapter_scenes (sp_n st)) DA) (sp_split st) ->
  sp_srtCh st = DA -> incl G (nv_srtChapters n0) ->
  NoDup (P ++ flat_map (chapter_scenes n0) G) -> (forall k, In k P -> untouched_or_same n0 (sp_n st) k) ->
  foldM (split_chapter tr) G st = Ok st' ->
  BInv n0 (P ++ flat_map (chapter_scenes n0) G) [] (sp_srtCh st') [] (sp_n st') (flat_map (chapter_scenes (sp_n st')) (sp_srtCh st')) (sp_split st') /\
    (forall k, In k (P ++ flat_map (chapter_scenes n0) G) -> untouched_or_same n0 (sp_n st') k) /\
    (map (content_at (sp_n st)) (flat_map (chapter_scenes (sp_n st)) DA) = C -> splittable n0 ->
     map (content_at (sp_n st')) (flat_map (chapter_scenes (sp_n st')) (sp_srtCh st')) =
       C ++ flat_map (fun k => parts_of (content_at n0 k)) (flat_map (chapter_scenes n0) G)).
Proof.
  intros n0 G Hok. induction G as [|c G IH]; intros P DA C st st' HB Hsrt HG Hnd Hun H; cbn [foldM] in H.
  - injection H as <-. cbn [flat_map]. rewrite !app_nil_r. subst DA. split; [exact HB|]. split; [exact Hun|]. intros HC _. exact HC.
  - apply bind_ok in H as [st1 [H1 H]]. cbn [flat_map] in *.
    assert (Hcs : incl (chapter_scenes n0 c) (all_scenes n0)).
    { intros k Hk. apply in_flat_map. exists c. split; [apply HG; left; reflexivity | exact Hk]. }
    assert (Hnd1 : NoDup (P ++ chapter_scenes n0 c)).
    { rewrite app_assoc in Hnd. clear -Hnd. revert Hnd. generalize (P ++ chapter_scenes n0 c) as a. intros a Ha.
      induction a as [|y a IHa]; [constructor|]. cbn in Ha. inversion Ha; subst. constructor; [|auto].
      intro Hi. apply H1, in_or_app. left. exact Hi. }
    destruct (split_chapter_inv n0 P _ DA G C st c st1 HB Hsrt Hok HG Hcs Hnd1 Hun H1) as [DA1 [HB1 [Hsrt1 [Hun1 HC1]]]].
    destruct (IH (P ++ chapter_scenes n0 c) DA1 (C ++ flat_map (fun k => parts_of (content_at n0 k)) (chapter_scenes n0 c)) st1 st')
      as [HB' [Hun' HC']].
    + exact HB1.
    + exact Hsrt1.
    + intros j Hj. apply HG. right. exact Hj.
    + rewrite <- app_assoc. exact Hnd.
    + exact Hun1.
    + exact H.
    + rewrite <- app_assoc in HB', Hun'. split; [exact HB'|]. split; [exact Hun'|]. intros HC Hg.
      rewrite HC'; [|apply HC1; assumption | exact Hg]. rewrite flat_map_app, app_assoc. reflexivity.
Qed.

Lemma structure_BInv : forall n0, structure_ok n0 -> BInv n0 [] (all_scenes n0) [] (nv_srtChapters n0) n0 [] false.
Proof.
  intros n0 [H1 [H2 [H3 H4]]]. constructor; cbn [app filter]; try assumption; try reflexivity.
  - exists []. rewrite app_nil_r. reflexivity.
  - exists []. rewrite app_nil_r. reflexivity.
  - eauto.
  - eauto.
  - intros k y Hk Hy. elim Hk. apply dget_Some_key. eauto.
  - intros k Hk Hi. contradiction.
  - split; [discriminate|]. intros [[k [[] _]] | [k [y [Hk [Hy _]]]]]. elim Hk. apply dget_Some_key. eauto.
Qed.

Lemma split_scenes_main : forall n n' flag, structure_ok n -> split_scenes tr n = Ok (n', flag) ->
  BInv n (all_scenes n) [] (nv_srtChapters n') [] n' (all_scenes n') flag /\
  (forall k, In k (all_scenes n) -> untouched_or_same n n' k) /\
  (splittable n -> map (content_at n') (all_scenes n') = flat_map (fun k => parts_of (content_at n k)) (all_scenes n)).
Proof.
  intros n n' flag Hok H. unfold split_scenes in H. apply bind_ok in H as [st [H1 H]]. injection H as <- <-.
  pose proof (structure_BInv n Hok) as HB0.
  assert (Hall : NoDup ([] ++ all_scenes n)) by apply Hok.
  destruct (split_chapters_inv n (nv_srtChapters n) Hok [] [] [] (mkSp n [] [] [] [] [] false 0 false) st HB0 eq_refl (incl_refl _) Hall
    ltac:(intros k []) H1) as [HB [Hun HC]].
  cbn [app] in *. fold (all_scenes n) in *. split; [|split].
  - destruct HB as [C1 C2 C3 C4 C5 C6 C7 C8 C9 C10 C11 C12 C13 C14 C15 C16].
    constructor; try assumption.
  - exact Hun.
  - intro Hg. specialize (HC eq_refl Hg). rewrite <- HC. apply map_content_ext. intros j _. reflexivity.
Qed.

(** ** lines are kept *)
Lemma filter_flat_map : forall {A B} (f : B -> bool) (g : A -> list B) l, filter f (flat_map g l) = flat_map (fun x => filter f (g x)) l.
Proof. intros. induction l as [|x l IH]; [reflexivity|]. cbn. rewrite filter_app, IH. reflexivity. Qed.
Lemma flat_map_map : forall {A B C} (f : A -> B) (g : B -> list C) l, flat_map g (map f l) = flat_map (fun x => g (f x)) l.
Proof. intros. induction l as [|x l IH]; [reflexivity|]. cbn. rewrite IH. reflexivity. Qed.
Lemma flat_map_flat_map : forall {A B C} (f : A -> list B) (g : B -> list C) l,
  flat_map g (flat_map f l) = flat_map (fun x => flat_map g (f x)) l.
Proof. intros. induction l as [|x l IH]; [reflexivity|]. cbn. rewrite flat_map_app, IH. reflexivity. Qed.

Definition clines (c : option str) : list str := match c with Some t => filter truthy (text_lines t) | None => [] end.

Lemma clines_join : forall g, (forall l, In l g -> ~ In 10%N l) -> clines (Some (join [10%N] g)) = filter truthy g.
Proof.
  intros g Hg. cbn [clines]. unfold text_lines. destruct g as [|x g]; [reflexivity|].
  rewrite splitc_join; [reflexivity | discriminate | exact Hg].
Qed.

Lemma groups_lines : forall (ls cur : list str) keep, (forall l : str, In l (cur ++ ls) -> ~ In 10%N l) ->
  flat_map clines (out (groups cur keep ls)) = filter truthy (cur ++ filter (fun l => negb (is_separator l)) ls).
Proof.
  induction ls as [|l ls IH]; intros cur keep Hl.
  - cbn [groups filter]. rewrite app_nil_r in *. destruct (keep || _) eqn:E.
    + cbn [out map flat_map]. rewrite app_nil_r. apply clines_join, Hl.
    + destruct cur; [reflexivity|]. rewrite orb_true_r in E. discriminate.
  - cbn [groups filter].
    assert (Hlf : forall x : str, In x ([] ++ ls) -> ~ In 10%N x).
    { intros x Hx. apply Hl, in_or_app. right. right. exact Hx. }
    assert (Hout : forall b, flat_map clines (out ((if keep || match cur with [] => false | _ => true end then [cur] else []) ++ groups [] b ls))
              = filter truthy cur ++ filter truthy (filter (fun l => negb (is_separator l)) ls)).
    { intro b. pose proof (IH [] b Hlf) as HI. unfold out in *. rewrite map_app, flat_map_app, HI. cbn [app]. f_equal.
      destruct (keep || _) eqn:E.
      - cbn [map flat_map]. rewrite app_nil_r. apply clines_join. intros x Hx. apply Hl, in_or_app. left. exact Hx.
      - destruct cur; [reflexivity|]. rewrite orb_true_r in E. discriminate. }
    destruct (is_scene_separator l) eqn:E3.
    + assert (E1 : is_separator l = true). { unfold is_scene_separator, is_separator in *. apply prefixb_spec in E3 as [r ->]. reflexivity. }
      rewrite E1. cbn [negb]. rewrite Hout, filter_app. reflexivity.
    + destruct (is_separator l) eqn:E1; cbn [negb].
      * rewrite Hout, filter_app. reflexivity.
      * rewrite IH; [rewrite <- app_assoc; reflexivity|]. intros x Hx. apply Hl. rewrite <- app_assoc in Hx. exact Hx.
Qed.

Lemma parts_lines : forall c, flat_map clines (parts_of c) = filter (fun l => negb (is_separator l)) (clines c).
Proof.
  intros [[|x t]|]; [reflexivity| |reflexivity]. cbn [parts_of].
  change (map (fun g => Some (join [10%N] g))) with out. rewrite groups_lines.
  - cbn [app clines]. generalize (text_lines (x :: t)). intro l. induction l as [|y l IH]; [reflexivity|].
    cbn [filter]. destruct (negb (is_separator y)) eqn:E1, (truthy y) eqn:E2; cbn [filter]; rewrite ?E1, ?E2, ?IH; reflexivity.
  - intros l Hl. cbn [app] in Hl. exact (splitc_pieces _ _ _ Hl).
Qed.

Lemma split_keeps_lines : forall n n' flag, structure_ok n -> splittable n -> split_scenes tr n = Ok (n', flag) ->
  novel_lines n' = filter (fun l => negb (is_separator l)) (novel_lines n).
Proof.
  intros n n' flag Hok Hg H. destruct (split_scenes_main n n' flag Hok H) as [_ [_ HC]]. specialize (HC Hg).
  unfold novel_lines.
  assert (E : forall m l, flat_map (scene_lines m) l = flat_map clines (map (content_at m) l)).
  { intros m l. rewrite flat_map_map. reflexivity. }
  rewrite !E, HC, flat_map_flat_map, filter_flat_map, flat_map_map.
  apply flat_map_ext_in. intros k _. apply parts_lines.
Qed.

(** ** structure *)
Lemma split_structure : forall n n' flag, structure_ok n -> split_scenes tr n = Ok (n', flag) ->
  structure_ok n' /\ novel_rest n' = novel_rest n /\
  (exists NC, dkeys (nv_chapters n') = dkeys (nv_chapters n) ++ NC) /\
  (exists NS, dkeys (nv_scenes n') = dkeys (nv_scenes n) ++ NS) /\
  filter (fun k => dmem k (nv_chapters n)) (nv_srtChapters n') = nv_srtChapters n /\
  filter (fun k => dmem k (nv_scenes n)) (all_scenes n') = all_scenes n /\
  (forall k, ~ In k (dkeys (nv_chapters n)) -> In k (dkeys (nv_chapters n')) -> In k (nv_srtChapters n')) /\
  (forall k, ~ In k (dkeys (nv_scenes n)) -> In k (dkeys (nv_scenes n')) -> In k (all_scenes n')).
Proof.
  intros n n' flag Hok H. destruct (split_scenes_main n n' flag Hok H) as [HB _].
  destruct HB as [C1 C2 C3 C4 C5 C6 C7 C8 C9 C10 C11 C12 C13 C14 C15 C16]. rewrite !app_nil_r in *.
  split; [repeat split; assumption|]. split; [exact C5|]. split; [exact C6|]. split; [exact C7|]. split; [exact C13|].
  split; [exact C12|]. split; [|exact C15].
  intros k Hk Hi. apply dget_Some_key in Hi as [y Hy]. destruct (C14 k y Hk Hy) as [Hin _]. exact Hin.
Qed.

Lemma split_elements : forall n n' flag, structure_ok n -> split_scenes tr n = Ok (n', flag) ->
  (forall k x, dget k (nv_scenes n) = Some x -> exists y, dget k (nv_scenes n') = Some y /\ scene_core y = scene_core x) /\
  (forall k x, dget k (nv_scenes n) = Some x -> ~ In k (all_scenes n) -> dget k (nv_scenes n') = Some x) /\
  (forall k x, dget k (nv_scenes n) = Some x -> In k (all_scenes n) ->
     (sc_content x = None \/ sc_content x = Some []) -> dget k (nv_scenes n') = Some x) /\
  (forall k x t, dget k (nv_scenes n) = Some x -> In k (all_scenes n) -> sc_content x = Some t -> t <> [] ->
     (forall l, In l (text_lines t) -> is_separator l = false) ->
     dget k (nv_scenes n') = Some (set_sceneContent t x)) /\
  (forall k x, dget k (nv_chapters n) = Some x -> exists y, dget k (nv_chapters n') = Some y /\ chapter_core y = chapter_core x) /\
  (forall k y, ~ In k (dkeys (nv_chapters n)) -> dget k (nv_chapters n') = Some y ->
     ch_type y = Some 0%N /\ (ch_level y = Some 0%N \/ ch_level y = Some 1%N)).
Proof.
  intros n n' flag Hok H. destruct (split_scenes_main n n' flag Hok H) as [HB [Hun _]].
  destruct HB as [C1 C2 C3 C4 C5 C6 C7 C8 C9 C10 C11 C12 C13 C14 C15 C16].
  split; [exact C8|]. split; [|split; [|split; [|split; [exact C10|]]]].
  - intros k x Hx Hn. rewrite C9; [exact Hx | apply dget_Some_key; eauto | exact Hn].
  - intros k x Hx Hi Hc. specialize (Hun k Hi x Hx). destruct Hc as [E | E]; rewrite E in Hun; exact Hun.
  - intros k x t Hx Hi Hc Hne Hs. specialize (Hun k Hi x Hx). rewrite Hc in Hun. destruct t as [|c t]; [congruence|].
    apply Hun. apply forallb_forall. intros l Hl. rewrite (Hs l Hl). reflexivity.
  - intros k y Hk Hy. apply (C14 k y Hk Hy).
Qed.

Lemma split_flag : forall n n' flag, structure_ok n -> split_scenes tr n = Ok (n', flag) ->
  (flag = true <->
   (exists k, In k (all_scenes n') /\ ~ In k (dkeys (nv_scenes n))) \/
   (exists k y, ~ In k (dkeys (nv_chapters n)) /\ dget k (nv_chapters n') = Some y /\ ch_level y = Some 0%N)).
Proof. intros n n' flag Hok H. destruct (split_scenes_main n n' flag Hok H) as [HB _]. apply HB. Qed.

(** ** it never fails on a well-formed novel whose scenes have a status *)
Definition all_status (n : novel) : Prop := forall k x, dget k (nv_scenes n) = Some x -> sc_status x <> None.

Lemma all_status_upd : forall n k x, all_status n -> sc_status x <> None -> all_status (set_nv_scenes (dset k x (nv_scenes n)) n).
Proof.
  intros n k x H Hx j y. cbn [nv_scenes set_nv_scenes]. rewrite dget_dset. destruct (str_eqb j k).
  - intro E. injection E as <-. exact Hx.
  - apply H.
Qed.

Lemma put_content_total : forall n k ls, all_status n -> In k (dkeys (nv_scenes n)) ->
  exists n', put_content k ls n = Ok n' /\ all_status n'.
Proof.
  intros n k ls Hs Hk. apply dget_Some_key in Hk as [x Hx]. unfold put_content, dindex. rewrite Hx. cbn [bind].
  eexists. split; [reflexivity|]. apply all_status_upd; [exact Hs|]. exact (Hs k x Hx).
Qed.

Lemma create_scene_total : forall n k par cnt ti de, all_status n -> In par (dkeys (nv_scenes n)) ->
  exists n', create_scene tr k par cnt ti de n = Ok n' /\ all_status n'.
Proof.
  intros n k par cnt ti de Hs Hk. apply dget_Some_key in Hk as [x Hx]. unfold create_scene, dindex. rewrite Hx. cbn [bind].
  pose proof (Hs _ _ Hx) as Hst. unfold mark_parent. destruct (sc_status x) as [z|] eqn:E; [|congruence]. cbn [bind].
  eexists. split; [reflexivity|]. intros j y. cbn [nv_scenes set_nv_scenes]. rewrite !dget_dset.
  destruct (str_eqb j k); [intro Ej; injection Ej as <-; discriminate|].
  destruct (str_eqb j par); [intro Ej; injection Ej as <-; discriminate|]. apply Hs.
Qed.

Lemma split_line_total : forall n0 P F G scId D st line, SL n0 P F G scId D st -> all_status (sp_n st) ->
  exists st', split_line tr scId st line = Ok st' /\ all_status (sp_n st').
Proof.
  intros n0 P F G scId D st line [HS [Hsrt [Hcur Hpar]]] Hst.
  pose proof (s_in _ _ _ _ _ _ _ _ _ HS) as Hin. pose proof (s_chin _ _ _ _ _ _ _ _ _ HS) as Hchin.
  assert (Hkc : In (sp_scId st) (dkeys (nv_scenes (sp_n st)))).
  { apply Hin. rewrite app_assoc. apply in_or_app. left. exact Hcur. }
  assert (Hkp : In scId (dkeys (nv_scenes (sp_n st)))).
  { apply Hin. rewrite app_assoc. apply in_or_app. left. exact Hpar. }
  assert (Hch : In (sp_chId st) (dkeys (nv_chapters (sp_n st)))).
  { apply Hchin. apply in_or_app. right. left. reflexivity. }
  assert (Hchap : forall ti de lvl df fl, exists st', start_chapter tr ti de lvl df fl st = Ok st' /\ all_status (sp_n st')).
  { intros ti de lvl df fl. unfold start_chapter. destruct (sp_in st).
    - destruct (put_content_total (sp_n st) (sp_scId st) (sp_new st) Hst Hkc) as [n1 [H1 Hs1]]. rewrite H1. cbn [bind].
      assert (Hc1 : nv_chapters n1 = nv_chapters (sp_n st)).
      { unfold put_content in H1. apply bind_ok in H1 as [x [_ H1]]. injection H1 as <-. reflexivity. }
      unfold put_srtScenes. rewrite Hc1. apply dget_Some_key in Hch as [c Hc]. unfold dindex. rewrite Hc. cbn [bind].
      eexists. split; [reflexivity|]. exact Hs1.
    - cbn [bind]. unfold put_srtScenes. apply dget_Some_key in Hch as [c Hc]. unfold dindex. rewrite Hc. cbn [bind].
      eexists. split; [reflexivity|]. exact Hst. }
  unfold split_line. destruct (heading line) as [ti de].
  destruct (prefixb SCENE_SEPARATOR line).
  - destruct (put_content_total (sp_n st) (sp_scId st) (sp_new st) Hst Hkc) as [n1 [H1 Hs1]]. rewrite H1. cbn [bind].
    rewrite <- (put_content_keys _ _ _ _ H1) in Hkp.
    destruct (create_scene_total n1 (new_id (dkeys (nv_scenes n1))) scId (N.succ (sp_cnt st)) ti de Hs1 Hkp) as [n2 [H2 Hs2]].
    rewrite H2. cbn [bind]. eexists. split; [reflexivity|]. exact Hs2.
  - destruct (prefixb CHAPTER_SEPARATOR line); [apply Hchap|]. destruct (prefixb PART_SEPARATOR line); [apply Hchap|].
    destruct (negb (sp_in st)).
    + destruct (create_scene_total (sp_n st) (new_id (dkeys (nv_scenes (sp_n st)))) scId (N.succ (sp_cnt st)) [] [] Hst Hkp) as [n2 [H2 Hs2]].
      rewrite H2. cbn [bind]. eexists. split; [reflexivity|]. exact Hs2.
    + eexists. split; [reflexivity|]. exact Hst.
Qed.

Lemma split_lines_total : forall n0 P F G scId lines D st, SL n0 P F G scId D st -> all_status (sp_n st) ->
  exists st', foldM (split_line tr scId) lines st = Ok st' /\ all_status (sp_n st').
Proof.
  intros n0 P F G scId. induction lines as [|l lines IH]; intros D st HSL Hs; cbn [foldM].
  - eauto.
  - destruct (split_line_total n0 P F G scId D st l HSL Hs) as [st1 [H1 Hs1]]. rewrite H1. cbn [bind].
    destruct (split_line_inv n0 P F G scId D [] st l lines st1 HSL H1) as [D1 [HSL1 _]]. exact (IH D1 st1 HSL1 Hs1).
Qed.

Lemma split_scene_total : forall n0 P F G D st scId,
  SInv n0 P (scId :: F) D (sp_chId st) G (sp_n st) (sp_srtSc st) (sp_split st) -> sp_srtCh st = D ++ [sp_chId st] ->
  In scId (dkeys (nv_scenes n0)) -> all_status (sp_n st) ->
  exists st', split_scene tr st scId = Ok st' /\ all_status (sp_n st').
Proof.
  intros n0 P F G D st scId HS Hsrt Hold Hs. unfold split_scene.
  cbn [sp_n sp_srtCh sp_chId sp_srtSc sp_scId sp_new sp_in sp_cnt sp_split].
  assert (Hk : In scId (dkeys (nv_scenes (sp_n st)))).
  { apply (s_in _ _ _ _ _ _ _ _ _ HS). rewrite !in_app_iff. right. right. left. reflexivity. }
  apply dget_Some_key in Hk as [x Hx]. unfold dindex at 1. rewrite Hx. cbn [bind].
  destruct (sc_content x) as [[|c t]|]; [eexists; split; [reflexivity|exact Hs] | | eexists; split; [reflexivity|exact Hs]].
  set (st0 := mkSp _ _ _ _ _ _ _ _ _).
  assert (HSL0 : SL n0 (P ++ [scId]) F G scId D st0).
  { unfold SL, VV, st0. cbn [sp_n sp_srtCh sp_chId sp_srtSc sp_split sp_scId]. split; [apply SInv_next; assumption|].
    split; [exact Hsrt|]. split; rewrite !in_app_iff; cbn [In]; auto. }
  destruct (split_lines_total n0 _ F G scId (split [10%N] (c :: t)) D st0 HSL0 Hs) as [st1 [H1 Hs1]]. rewrite H1. cbn [bind].
  destruct (split_lines_inv n0 _ F G scId _ D [] st0 st1 HSL0 H1) as [D' [[HS1 [_ [Hcur _]]] _]].
  destruct (sp_in st1); [|eauto].
  destruct (put_content_total (sp_n st1) (sp_scId st1) (sp_new st1) Hs1) as [n2 [H2 Hs2]].
  - apply (s_in _ _ _ _ _ _ _ _ _ HS1). rewrite app_assoc. apply in_or_app. left. exact Hcur.
  - rewrite H2. cbn [bind]. eexists. split; [reflexivity|exact Hs2].
Qed.

Lemma split_scenes_of_chapter_total : forall n0 G l P F D st,
  SInv n0 P (l ++ F) D (sp_chId st) G (sp_n st) (sp_srtSc st) (sp_split st) -> sp_srtCh st = D ++ [sp_chId st] ->
  incl l (dkeys (nv_scenes n0)) -> NoDup (P ++ l) -> all_status (sp_n st) ->
  exists st', foldM (split_scene tr) l st = Ok st' /\ all_status (sp_n st').
Proof.
  intros n0 G. induction l as [|k l IH]; intros P F D st HS Hsrt Hl Hnd Hs; cbn [foldM].
  - eauto.
  - cbn [app] in HS. destruct (split_scene_total n0 P (l ++ F) G D st k HS Hsrt (Hl k (or_introl eq_refl)) Hs) as [st1 [H1 Hs1]].
    rewrite H1. cbn [bind].
    assert (HnP : ~ In k P). { apply NoDup_remove_2 in Hnd. intro Hi. apply Hnd, in_or_app. left. exact Hi. }
    destruct (split_scene_inv n0 P (l ++ F) G D [] st k st1 HS Hsrt (Hl k (or_introl eq_refl)) HnP H1) as [D1 [HS1 [Hsrt1 _]]].
    apply (IH (P ++ [k]) F D1 st1 HS1 Hsrt1); [intros j Hj; apply Hl; right; exact Hj | rewrite <- app_assoc; exact Hnd | exact Hs1].
Qed.

Lemma NoDup_app_l : forall {A} (a b : list A), NoDup (a ++ b) -> NoDup a.
Proof.
  induction a as [|x a IH]; intros b H; [constructor|]. cbn in H. inversion H; subst. constructor; [|eauto].
  intro Hi. apply H2, in_or_app. left. exact Hi.
Qed.

Lemma split_chapters_total : forall n0 G, structure_ok n0 -> forall P DA st,
  BInv n0 P (flat_map (chapter_scenes n0) G) DA G (sp_n st) (flat_map (chapter_scenes (sp_n st)) DA) (sp_split st) ->
  sp_srtCh st = DA -> incl G (nv_srtChapters n0) -> NoDup (P ++ flat_map (chapter_scenes n0) G) ->
  (forall k, In k P -> untouched_or_same n0 (sp_n st) k) -> all_status (sp_n st) ->
  exists st', foldM (split_chapter tr) G st = Ok st'.
Proof.
  intros n0 G Hok. induction G as [|c G IH]; intros P DA st HB Hsrt HG Hnd Hun Hs; cbn [foldM]; [eauto|].
  cbn [flat_map] in *.
  assert (Hcs : incl (chapter_scenes n0 c) (all_scenes n0)).
  { intros k Hk. apply in_flat_map. exists c. split; [apply HG; left; reflexivity | exact Hk]. }
  assert (Hnd1 : NoDup (P ++ chapter_scenes n0 c)) by (rewrite app_assoc in Hnd; apply NoDup_app_l in Hnd; exact Hnd).
  assert (HT : exists st1, split_chapter tr st c = Ok st1 /\ all_status (sp_n st1)).
  { destruct Hok as [Hch1 [Hch2 [Hsc1 Hsc2]]].
    assert (Hc0 : In c (dkeys (nv_chapters n0))) by (apply Hch2, HG; left; reflexivity).
    assert (HcD : ~ In c DA).
    { pose proof (b_chnd _ _ _ _ _ _ _ _ HB) as Hn. apply NoDup_remove_2 in Hn. intro Hi. apply Hn, in_or_app. left. exact Hi. }
    pose proof (b_chframe _ _ _ _ _ _ _ _ HB c Hc0 HcD) as Hfr.
    apply dget_Some_key in Hc0 as Hc1. destruct Hc1 as [ch Hch]. rewrite Hch in Hfr.
    unfold split_chapter. cbn [sp_n sp_srtCh sp_chId sp_srtSc sp_scId sp_new sp_in sp_cnt sp_split].
    unfold dindex at 1. rewrite Hfr. cbn [bind].
    assert (Hl : ch_srtScenes ch = chapter_scenes n0 c) by (unfold chapter_scenes; rewrite Hch; reflexivity).
    rewrite Hl. apply BInv_next in HB; [|exact Hc0].
    rewrite <- (app_nil_r (flat_map (chapter_scenes (sp_n st)) DA)) in HB. apply SInv_BInv in HB.
    set (st0 := mkSp (sp_n st) (sp_srtCh st ++ [c]) c [] (sp_scId st) (sp_new st) (sp_in st) (sp_cnt st) (sp_split st)) in *.
    assert (Hsrt0 : sp_srtCh st0 = DA ++ [sp_chId st0]) by (unfold st0; cbn; rewrite Hsrt; reflexivity).
    assert (Hinl : incl (chapter_scenes n0 c) (dkeys (nv_scenes n0))) by (intros j Hj; apply Hsc2, Hcs, Hj).
    destruct (split_scenes_of_chapter_total n0 G (chapter_scenes n0 c) P _ DA st0 HB Hsrt0 Hinl Hnd1 Hs) as [st1 [H1 Hs1]].
    rewrite H1. cbn [bind].
    destruct (split_scenes_of_chapter n0 G (chapter_scenes n0 c) P _ DA [] st0 st1 HB Hsrt0 Hinl Hnd1 Hun H1) as [D' [HS' _]].
    assert (Hck : In (sp_chId st1) (dkeys (nv_chapters (sp_n st1)))).
    { apply (s_chin _ _ _ _ _ _ _ _ _ HS'). apply in_or_app. right. left. reflexivity. }
    apply dget_Some_key in Hck as [c2 Hc2]. unfold put_srtScenes, dindex. rewrite Hc2. cbn [bind].
    eexists. split; [reflexivity|]. exact Hs1. }
  destruct HT as [st1 [H1 Hs1]]. rewrite H1. cbn [bind].
  destruct (split_chapter_inv n0 P _ DA G [] st c st1 HB Hsrt Hok HG Hcs Hnd1 Hun H1) as [DA1 [HB1 [Hsrt1 [Hun1 _]]]].
  apply (IH (P ++ chapter_scenes n0 c) DA1 st1 HB1 Hsrt1).
  - intros j Hj. apply HG. right. exact Hj.
  - rewrite <- app_assoc. exact Hnd.
  - exact Hun1.
  - exact Hs1.
Qed.

Lemma split_scenes_total : forall n, structure_ok n ->
  (forall k x, dget k (nv_scenes n) = Some x -> sc_status x <> None) ->
  exists n' flag, split_scenes tr n = Ok (n', flag).
Proof.
  intros n Hok Hs. unfold split_scenes.
  assert (Hall : NoDup ([] ++ all_scenes n)) by apply Hok.
  destruct (split_chapters_total n (nv_srtChapters n) Hok [] [] (mkSp n [] [] [] [] [] false 0 false)
    (structure_BInv n Hok) eq_refl (incl_refl _) Hall ltac:(intros k []) Hs) as [st' H].
  rewrite H. cbn [bind]. eauto.
Qed.
End P.
