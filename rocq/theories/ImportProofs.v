From Coq Require Import String List NArith ZArith Bool Lia Arith.
From Verif Require Import PyStr PyDict NovelModel NovelOps WordCount Splitter SpecNovel SpecSplit OdfXml OdtRead SpecRead ReadFrame2 SpecImport.
Import ListNotations.

Lemma id_inj : forall i j, id_of i = id_of j -> i = j.
Proof. intros i j H. unfold id_of in H. apply str_of_N_inj in H. lia. Qed.
Lemma ids_len : forall k, length (ids k) = k.
Proof. intro k. unfold ids. now rewrite map_length, seq_length. Qed.
Lemma ids_snoc : forall k, ids (S k) = ids k ++ [id_of (S k)].
Proof. intro k. unfold ids. rewrite seq_S, map_app. reflexivity. Qed.
Lemma ids_in : forall x k, In x (ids k) <-> exists i, 1 <= i <= k /\ x = id_of i.
Proof.
  intros x k. unfold ids. rewrite in_map_iff. split.
  - intros (i & <- & I). apply in_seq in I. exists i. split; [lia | reflexivity].
  - intros (i & H & ->). exists i. split; [reflexivity|]. apply in_seq. lia.
Qed.
Lemma ids_nodup : forall k, NoDup (ids k).
Proof. intro k. unfold ids. apply FinFun.Injective_map_NoDup; [intros i j; apply id_inj | apply seq_NoDup]. Qed.
Lemma numbered_keys : forall {A} (l : list A), dkeys (numbered l) = ids (length l).
Proof.
  intros A l. unfold numbered, dkeys. generalize (ids_len (length l)). generalize (ids (length l)). intros k. revert l. induction k as [|x k IH]; intros [|y l] H; try discriminate; [reflexivity|]. cbn [combine map fst]. f_equal. apply IH. now injection H.
Qed.
Lemma numbered_snoc : forall {A} (l : list A) x, numbered (l ++ [x]) = numbered l ++ [(id_of (S (length l)), x)].
Proof.
  intros A l x. unfold numbered. rewrite app_length, Nat.add_1_r, ids_snoc. generalize (ids_len (length l)). generalize (ids (length l)) as k. generalize (id_of (S (length l))) as i. intros i k. revert l. induction k as [|y k IH]; intros [|z l] H; try discriminate; [reflexivity|]. cbn [combine app]. f_equal. apply IH. now injection H.
Qed.
Lemma dset_app_new : forall {A} k (v : A) d r, ~ In k (dkeys d) -> dset k v (d ++ r) = d ++ dset k v r.
Proof.
  intros A k v d r H. induction d as [|[j w] d IH]; [reflexivity|]. cbn [app dset]. destruct (str_eqb k j) eqn:E; [apply str_eqb_eq in E; subst; exfalso; apply H; now left|]. f_equal. apply IH. intro. apply H. now right.
Qed.
Lemma dget_app_new : forall {A} k (d r : dict A), ~ In k (dkeys d) -> dget k (d ++ r) = dget k r.
Proof.
  intros A k d r H. induction d as [|[j w] d IH]; [reflexivity|]. cbn [app dget]. destruct (str_eqb k j) eqn:E; [apply str_eqb_eq in E; subst; exfalso; apply H; now left|]. apply IH. intro. apply H. now right.
Qed.
Lemma id_fresh : forall {A} (l : list A), ~ In (id_of (S (length l))) (dkeys (numbered l)).
Proof. intros A l H. rewrite numbered_keys in H. apply ids_in in H as (i & Hi & E). apply id_inj in E. lia. Qed.
Lemma numbered_new : forall {A} (l : list A) x, dset (id_of (S (length l))) x (numbered l) = numbered (l ++ [x]).
Proof. intros A l x. rewrite numbered_snoc. rewrite <- (app_nil_r (numbered l)) at 1. rewrite dset_app_new by apply id_fresh. reflexivity. Qed.
Lemma numbered_last_set : forall {A} (l : list A) x y, dset (id_of (S (length l))) y (numbered (l ++ [x])) = numbered (l ++ [y]).
Proof. intros A l x y. rewrite !numbered_snoc. rewrite dset_app_new by apply id_fresh. cbn [dset]. now rewrite str_eqb_refl. Qed.
Lemma numbered_last_get : forall {A} (l : list A) x, dget (id_of (S (length l))) (numbered (l ++ [x])) = Some x.
Proof. intros A l x. rewrite numbered_snoc, dget_app_new by apply id_fresh. cbn [dget]. now rewrite str_eqb_refl. Qed.
Definition total (b : book) : nat := length (flat_map snd b).
Lemma total_snoc : forall b c scs, total (b ++ [(c, scs)]) = total b + length scs.
Proof. intros. unfold total. rewrite flat_map_app, app_length. cbn. now rewrite app_nil_r. Qed.
Lemma placed_app : forall b r j, placed j (b ++ r) = placed j b ++ placed (j + total b) r.
Proof.
  induction b as [|[c scs] b IH]; intros r j; [cbn; now rewrite Nat.add_0_r|]. cbn [app placed]. f_equal. rewrite IH. unfold total. cbn [flat_map snd]. rewrite app_length, Nat.add_assoc. reflexivity.
Qed.
Lemma placed_len : forall b j, length (placed j b) = length b.
Proof. induction b as [|[c scs] b IH]; intro j; [reflexivity|]. cbn. now rewrite IH. Qed.
Lemma placed_snoc : forall b c scs, placed 0 (b ++ [(c, scs)]) = placed 0 b ++ [set_ch_srtScenes (map id_of (seq (S (total b)) (length scs))) c].
Proof. intros. rewrite placed_app. reflexivity. Qed.

#[local] Arguments dset {A} k v d : simpl never.
#[local] Arguments dget {A} k d : simpl never.
#[local] Arguments numbered {A} l : simpl never.
#[local] Arguments placed j b : simpl never.
#[local] Arguments id_of i : simpl never.
#[local] Arguments ids k : simpl never.
#[local] Arguments total b : simpl never.
(** the state of an importing reader *)
Record J (n0 : novel) (b : book) (st : rs) : Prop := mkJ {
  j_book : is_book b (r_novel st);
  j_rest : import_rest (r_novel st) = import_rest n0;
  j_chCount : r_chCount st = N.of_nat (length b);
  j_scCount : r_scCount st = N.of_nat (total b);
  j_chId : r_chId st = None \/ r_chId st = Some (id_of (length b)) /\ b <> [];
  j_scId : r_scId st = None \/ r_scId st = Some (id_of (total b)) /\ exists b0 c scs x, b = b0 ++ [(c, scs ++ [x])] }.
Lemma succ_id : forall k, str_of_N (N.succ (N.of_nat k)) = id_of (S k).
Proof. intro k. unfold id_of. f_equal. lia. Qed.
(** on the scene being read *)
Lemma J_on_scene : forall n0 b c scs x st i f, J n0 (b ++ [(c, scs ++ [x])]) st -> r_scId st = Some i ->
  exists st', on_scene (Some i) f st = Ok st' /\ J n0 (b ++ [(c, scs ++ [f x])]) st' /\ r_lines st' = r_lines st /\ r_chId st' = r_chId st /\ r_scId st' = r_scId st /\ r_language st' = r_language st /\ r_heading st' = r_heading st /\ nv_languages (r_novel st') = nv_languages (r_novel st).
Proof.
  intros n0 b c scs x st i f [(B1 & B2 & B3) R C1 C2 I1 I2] Hi. destruct I2 as [I2|[I2 X]]; [congruence|]. assert (i = id_of (total (b ++ [(c, scs ++ [x])]))) by congruence. clear X.
  set (L := flat_map snd b ++ scs). assert (F : forall y, flat_map snd (b ++ [(c, scs ++ [y])]) = L ++ [y]) by (intro y; unfold L; rewrite flat_map_app; cbn; rewrite app_nil_r; now rewrite app_assoc).
  assert (Ti : forall y, total (b ++ [(c, scs ++ [y])]) = S (length L)) by (intro y; unfold total; rewrite F, app_length; cbn; lia).
  unfold on_scene. cbn [key bind]. unfold dindex. rewrite B3, F, H, Ti, numbered_last_get. cbn [bind]. eexists. split; [reflexivity|]. repeat split; cbn.
  - rewrite B1, !app_length. reflexivity.
  - rewrite B2, !placed_snoc, !app_length. reflexivity.
  - rewrite F. apply numbered_last_set.
  - exact R.
  - rewrite C1, !app_length. reflexivity.
  - rewrite C2, !Ti. reflexivity.
  - destruct I1 as [I1|[I1 N]]; [now left|]. right. split; [rewrite I1, !app_length; reflexivity | destruct b; discriminate].
  - right. split; [rewrite I2, !Ti; reflexivity|]. now exists b, c, scs, (f x).
Qed.
(** on the chapter being read *)
Lemma J_on_chapter : forall n0 b c scs st k f, J n0 (b ++ [(c, scs)]) st -> r_chId st = Some k -> (forall c l, f (set_ch_srtScenes l c) = set_ch_srtScenes l (f c)) ->
  exists st', on_chapter (Some k) f st = Ok st' /\ J n0 (b ++ [(f c, scs)]) st' /\ r_lines st' = r_lines st /\ r_chId st' = r_chId st /\ r_scId st' = r_scId st /\ r_language st' = r_language st /\ r_heading st' = r_heading st /\ nv_languages (r_novel st') = nv_languages (r_novel st).
Proof.
  intros n0 b c scs st k f [(B1 & B2 & B3) R C1 C2 I1 I2] Hk Hf. destruct I1 as [I1|[I1 N]]; [congruence|]. assert (k = id_of (S (length b))) by (rewrite I1, app_length, Nat.add_1_r in Hk; congruence).
  unfold on_chapter. cbn [key bind]. unfold dindex. rewrite B2, placed_snoc, H. rewrite <- (placed_len b 0), numbered_last_get. cbn [bind]. eexists. split; [reflexivity|]. repeat split; cbn.
  - rewrite B1, !app_length. reflexivity.
  - rewrite numbered_last_set, placed_snoc, Hf. reflexivity.
  - rewrite B3, !flat_map_app. reflexivity.
  - exact R.
  - rewrite C1, !app_length. reflexivity.
  - rewrite C2, !total_snoc. reflexivity.
  - right. split; [rewrite I1, !app_length; reflexivity | destruct b; discriminate].
  - destruct I2 as [I2|[I2 (b0 & d & s2 & x & E)]]; [now left|]. right. split; [rewrite I2, !total_snoc; reflexivity|]. apply app_inj_tail in E as [<- E]. injection E as <- ->. now exists b, (f c), s2, x.
Qed.
(** a new chapter *)
Lemma J_new_heading : forall n0 b st tag, J n0 b st ->
  exists st', new_heading tag st = Ok st' /\ J n0 (b ++ [(set_ch_level (Some (if str_eqb tag (s "h1") then 1%N else 0%N)) (set_ch_type (Some 0%N) new_chapter), [])]) st' /\
    r_scId st' = None /\ r_chId st' = Some (id_of (S (length b))) /\ r_lines st' = [] /\ r_language st' = r_language st /\ r_heading st' = r_heading st /\ nv_languages (r_novel st') = nv_languages (r_novel st).
Proof.
  intros n0 b st tag [(B1 & B2 & B3) R C1 C2 I1 I2]. unfold new_heading. rewrite C1, succ_id.
  set (st1 := add_chapter _ _). assert (J1 : J n0 (b ++ [(new_chapter, [])]) st1).
  { repeat split; cbn.
    - rewrite B1, app_length, Nat.add_1_r, ids_snoc. reflexivity.
    - rewrite B2, placed_snoc, <- (placed_len b 0), numbered_new. reflexivity.
    - rewrite B3, flat_map_app. cbn. now rewrite app_nil_r.
    - exact R.
    - rewrite app_length. cbn. lia.
    - rewrite C2, total_snoc. cbn. lia.
    - right. split; [rewrite app_length, Nat.add_1_r; reflexivity | destruct b; discriminate].
    - now left. }
  destruct (J_on_chapter n0 b new_chapter [] st1 (id_of (S (length b))) (fun c => set_ch_level (Some (if str_eqb tag (s "h1") then 1%N else 0%N)) (set_ch_type (Some 0%N) c)) J1 eq_refl) as (st' & E & J2 & L1 & L2 & L3 & L4 & L5 & L6); [reflexivity|].
  exists st'. split; [exact E|]. split; [exact J2|]. rewrite L1, L2, L3, L4, L5, L6. repeat split.
Qed.
(** a new scene in the last chapter *)
Lemma J_new_scene : forall n0 b c scs st k, J n0 (b ++ [(c, scs)]) st -> r_chId st = Some k ->
  exists st', (do st <- on_chapter (Some k) (list_scene (id_of (S (total (b ++ [(c, scs)])))))
                 (add_scene (id_of (S (total (b ++ [(c, scs)])))) (set_r_scId (Some (id_of (S (total (b ++ [(c, scs)]))))) (set_r_scCount (N.succ (r_scCount st)) (set_r_lines [] st)))); Ok st) = Ok st' /\
    J n0 (b ++ [(c, scs ++ [new_scene])]) st' /\ r_scId st' = Some (id_of (S (total (b ++ [(c, scs)])))) /\ r_chId st' = Some k /\ r_lines st' = [] /\ r_language st' = r_language st /\ r_heading st' = r_heading st /\ nv_languages (r_novel st') = nv_languages (r_novel st).
Proof.
  intros n0 b c scs st k [(B1 & B2 & B3) R C1 C2 I1 I2] Hk. destruct I1 as [I1|[I1 N]]; [congruence|]. assert (k = id_of (S (length b))) by (rewrite I1, app_length, Nat.add_1_r in Hk; congruence).
  unfold on_chapter. cbn [key bind]. unfold dindex. cbn [add_scene r_novel set_r_novel nv_chapters set_nv_scenes set_r_scId set_r_scCount set_r_lines]. rewrite B2, placed_snoc, H. rewrite <- (placed_len b 0), numbered_last_get. cbn [bind]. eexists. split; [reflexivity|].
  set (T := total (b ++ [(c, scs)])) in *. assert (HT : T = total b + length scs) by apply total_snoc.
  assert (T2 : total (b ++ [(c, scs ++ [new_scene])]) = S T) by (rewrite total_snoc, app_length; cbn; lia).
  repeat split; cbn.
  - rewrite B1, !app_length. reflexivity.
  - assert (E : map id_of (seq (S (total b)) (length (scs ++ [new_scene]))) = map id_of (seq (S (total b)) (length scs)) ++ [id_of (S T)]) by (rewrite app_length, Nat.add_1_r, seq_S, map_app, HT; reflexivity).
    rewrite numbered_last_set, placed_snoc, E. reflexivity.
  - rewrite B3. unfold T, total. rewrite numbered_new. f_equal. rewrite !flat_map_app. cbn. rewrite !app_nil_r. now rewrite app_assoc.
  - exact R.
  - rewrite C1, !app_length. reflexivity.
  - rewrite C2, T2. lia.
  - right. split; [rewrite I1, !app_length; reflexivity | destruct b; discriminate].
  - right. split; [rewrite T2; reflexivity|]. now exists b, c, scs, new_scene.
  - rewrite Hk, H, placed_len. reflexivity.
Qed.
Lemma J_same : forall n0 b st st', J n0 b st -> r_novel st' = r_novel st -> r_chCount st' = r_chCount st -> r_scCount st' = r_scCount st -> (r_chId st' = r_chId st \/ r_chId st' = None) -> (r_scId st' = r_scId st \/ r_scId st' = None) -> J n0 b st'.
Proof.
  intros n0 b st st' [B R C1 C2 I1 I2] E1 E2 E3 E4 E5. constructor; rewrite ?E1, ?E2, ?E3; try assumption.
  - destruct E4 as [->| ->]; [exact I1 | now left].
  - destruct E5 as [->| ->]; [exact I2 | now left].
Qed.
(** a change outside the book *)
Lemma J_novel : forall n0 b st n, J n0 b st -> nv_srtChapters n = nv_srtChapters (r_novel st) -> nv_chapters n = nv_chapters (r_novel st) -> nv_scenes n = nv_scenes (r_novel st) -> import_rest n = import_rest (r_novel st) -> J n0 b (set_r_novel n st).
Proof.
  intros n0 b st n [(B1 & B2 & B3) R C1 C2 I1 I2] E1 E2 E3 E4. constructor; cbn; try assumption; [|congruence]. repeat split; congruence.
Qed.
