From Coq Require Import String List NArith ZArith Bool Lia.
From Verif Require Import PyStr PyDict Spec Globals GlobalsProofs NovelModel WordCount NovelOps Splitter SpecNovel SpecSplit SplitterProofs.
Import ListNotations.

Section Marks.
Variables (tr : str -> str) (n0 : novel).
Lemma flagged_twice : forall x, flagged (flagged x) = flagged x.
Proof. intros [[|c t]|]; try reflexivity. unfold flagged at 2. destruct (prefixb (s "(!)") (c :: t)) eqn:E; [unfold flagged; now rewrite E|]. unfold flagged at 2. rewrite E. reflexivity. Qed.
Definition MI (n : novel) : Prop :=
  incl (dkeys (nv_scenes n0)) (dkeys (nv_scenes n)) /\
  forall k y, dget k (nv_scenes n) = Some y ->
    match dget k (nv_scenes n0) with
    | Some x => same_notes x y \/ marked_scene x y
    | None => exists p x z, In p (all_scenes n0) /\ dget p (nv_scenes n0) = Some x /\ born_scene x y /\ dget p (nv_scenes n) = Some z /\ marked_scene x z
    end.
Lemma MI_content : forall n k y t, MI n -> dget k (nv_scenes n) = Some y -> MI (set_nv_scenes (dset k (set_sceneContent t y) (nv_scenes n)) n).
Proof.
  intros n k y t [I1 I2] Hy. split; cbn [nv_scenes set_nv_scenes]; [intros j Hj; apply dkeys_dset; right; apply I1, Hj|].
  assert (Par : forall p x z, dget p (nv_scenes n) = Some z -> marked_scene x z -> exists z', dget p (dset k (set_sceneContent t y) (nv_scenes n)) = Some z' /\ marked_scene x z').
  { intros p x z Hp M. rewrite dget_dset. destruct (str_eqb p k) eqn:E; [|eauto]. apply str_eqb_eq in E. subst p. rewrite Hy in Hp. injection Hp as ->. eexists. split; [reflexivity | exact M]. }
  intros j y' Hj. rewrite dget_dset in Hj. destruct (str_eqb j k) eqn:E.
  - apply str_eqb_eq in E. subst j. injection Hj as <-. specialize (I2 k y Hy). destruct (dget k (nv_scenes n0)) as [x|]; [exact I2|]. destruct I2 as (p & x & z & P1 & P2 & P3 & P4 & P5). destruct (Par p x z P4 P5) as (z' & Q1 & Q2). exists p, x, z'. repeat (split; [assumption|]). split; [|exact (conj Q1 Q2)].
    destruct P3 as [S1 S2]. split; [exact S1|]. rewrite S2 at 1. reflexivity.
  - specialize (I2 j y' Hj). destruct (dget j (nv_scenes n0)) as [x|]; [exact I2|]. destruct I2 as (p & x & z & P1 & P2 & P3 & P4 & P5). destruct (Par p x z P4 P5) as (z' & Q1 & Q2). exact (ex_intro _ p (ex_intro _ _ (ex_intro _ z' (conj P1 (conj P2 (conj P3 (conj Q1 Q2))))))). 
Qed.
Lemma MI_put : forall n n' k ls, MI n -> put_content k ls n = Ok n' -> MI n'.
Proof. intros n n' k ls H E. unfold put_content in E. apply bind_ok in E as [x [Hx E]]. injection E as <-. apply dindex_ok in Hx. now apply MI_content. Qed.
Lemma MI_create : forall n n' par cnt ti de, MI n -> In par (all_scenes n0) -> In par (dkeys (nv_scenes n0)) -> create_scene tr (new_id (dkeys (nv_scenes n))) par cnt ti de n = Ok n' -> MI n'.
Proof.
  intros n n' par cnt ti de [I1 I2] Hpar Hkey E. unfold create_scene in E. apply bind_ok in E as [y [Hy E]]. apply bind_ok in E as [y' [Hy' E]]. injection E as <-. apply dindex_ok in Hy. set (k := new_id (dkeys (nv_scenes n))) in *. assert (Fr : ~ In k (dkeys (nv_scenes n))) by apply new_id_fresh.
  assert (Fr0 : dget k (nv_scenes n0) = None) by (apply dget_None; intro C; apply Fr, I1, C). assert (Hne : k <> par) by (intros ->; apply Fr, I1, Hkey).
  apply dget_Some_key in Hkey as [x Hx]. assert (I3 := I2 par y Hy). rewrite Hx in I3.
  assert (M : marked_scene x y').
  { unfold mark_parent in Hy'. destruct (sc_status y) as [st|] eqn:Es; [|discriminate]. injection Hy' as <-. change warn with flagged.
    assert (Z : forall u, (if Z.ltb 2 u then 2 else u)%Z = Z.min u 2) by (intro u; destruct (Z.ltb_spec 2 u); lia).
    destruct I3 as [(A1 & A2 & A3 & A4 & A5 & A6)|(A1 & (z & A2 & A2') & A3 & A4 & A5 & A6)].
    - split; [exact A1|]. split; [exists st; split; [now rewrite <- A2 | cbn; now rewrite Z]|]. cbn. now rewrite A3, A4, A5, A6.
    - split; [exact A1|]. split; [exists z; split; [exact A2 | cbn; rewrite Z; f_equal; rewrite A2' in Es; injection Es as <-; lia]|]. cbn. rewrite A3, A4, A5, A6, !flagged_twice. now repeat split. }
  assert (B : born_scene x (child_scene tr y' cnt ti de)).
  { destruct M as (C & (z & Z1 & Z2) & _). split; [exists z; now split|]. unfold child_scene. cbn.
    assert (F : forall A (f : scene -> A), (forall w, f (scene_core w) = f w) -> f y' = f x) by (intros A f Hf; rewrite <- (Hf y'), C, Hf; reflexivity).
    rewrite (F _ sc_lastsMinutes), (F _ sc_lastsHours), (F _ sc_lastsDays), (F _ sc_day), (F _ sc_time), (F _ sc_date), (F _ sc_type) by reflexivity. reflexivity. }
  split; cbn [nv_scenes set_nv_scenes]; [intros j Hj; apply dkeys_dset; right; apply dkeys_dset; right; apply I1, Hj|].
  assert (Par : forall p x1 z, dget p (nv_scenes n0) = Some x1 -> dget p (nv_scenes n) = Some z -> marked_scene x1 z -> exists z', dget p (dset k (child_scene tr y' cnt ti de) (dset par y' (nv_scenes n))) = Some z' /\ marked_scene x1 z').
  { intros p x1 z P0 Hp Mp. rewrite dget_dset. destruct (str_eqb p k) eqn:E1; [apply str_eqb_eq in E1; congruence|]. rewrite dget_dset. destruct (str_eqb p par) eqn:E2; [|eauto]. apply str_eqb_eq in E2. subst p. rewrite Hx in P0. injection P0 as <-. eauto. }
  intros j w Hj. rewrite dget_dset in Hj. destruct (str_eqb j k) eqn:E1.
  - apply str_eqb_eq in E1. subst j. injection Hj as <-. rewrite Fr0. exists par, x, y'. repeat (split; [assumption|]). split; [|exact M]. rewrite dget_dset_other by congruence. apply dget_dset_same.
  - rewrite dget_dset in Hj. destruct (str_eqb j par) eqn:E2.
    + apply str_eqb_eq in E2. subst j. injection Hj as <-. rewrite Hx. now right.
    + specialize (I2 j w Hj). destruct (dget j (nv_scenes n0)) as [x1|]; [exact I2|]. destruct I2 as (p & x1 & z & P1 & P2 & P3 & P4 & P5). destruct (Par p x1 z P2 P4 P5) as (z' & Q1 & Q2). exact (ex_intro _ p (ex_intro _ _ (ex_intro _ z' (conj P1 (conj P2 (conj P3 (conj Q1 Q2))))))). 
Qed.
(** chapters still to come are as before *)
Definition QI (G : list str) (st : sp) : Prop :=
  MI (sp_n st) /\ incl (dkeys (nv_chapters n0)) (dkeys (nv_chapters (sp_n st))) /\ ~ In (sp_chId st) G /\ forall c, In c G -> dget c (nv_chapters (sp_n st)) = dget c (nv_chapters n0).
Lemma QI_novel : forall G st n, QI G st -> MI n -> nv_chapters n = nv_chapters (sp_n st) -> forall a b d e f g, QI G (mkSp n a (sp_chId st) b d e f g (sp_split st)).
Proof. intros G st n (A & B & C & D) M E a b d e f g. unfold QI. cbn. rewrite E. tauto. Qed.
Lemma put_content_ch : forall k ls n n', put_content k ls n = Ok n' -> nv_chapters n' = nv_chapters n.
Proof. intros k ls n n' E. unfold put_content in E. apply bind_ok in E as [x [_ E]]. injection E as <-. reflexivity. Qed.
Lemma create_scene_ch : forall k par cnt ti de n n', create_scene tr k par cnt ti de n = Ok n' -> nv_chapters n' = nv_chapters n.
Proof. intros k par cnt ti de n n' E. unfold create_scene in E. apply bind_ok in E as [x [_ E]]. apply bind_ok in E as [y [_ E]]. injection E as <-. reflexivity. Qed.
Lemma start_QI : forall G ti de lvl df fl st st', incl G (dkeys (nv_chapters n0)) -> QI G st -> start_chapter tr ti de lvl df fl st = Ok st' -> QI G st'.
Proof.
  intros G ti de lvl df fl st st' HG (A & B & C & D) E. unfold start_chapter in E. apply bind_ok in E as [[[n new] cnt] [E1 E]]. apply bind_ok in E as [n1 [E2 E]]. injection E as <-.
  assert (X : MI n /\ nv_chapters n = nv_chapters (sp_n st)).
  { destruct (sp_in st); [apply bind_ok in E1 as [n2 [E3 E1]]; injection E1 as <- _ _; split; [now apply (MI_put _ _ _ _ A E3) | now apply put_content_ch in E3] | injection E1 as <- _ _; now split]. }
  destruct X as [M Ec]. unfold put_srtScenes in E2. apply bind_ok in E2 as [c [Hc E2]]. injection E2 as <-. apply dindex_ok in Hc. unfold QI. cbn [sp_n sp_chId nv_chapters nv_scenes create_chapter set_nv_chapters].
  set (k := new_id _). assert (Fr : ~ In k (dkeys (dset (sp_chId st) (set_ch_srtScenes (sp_srtSc st) c) (nv_chapters n)))) by apply new_id_fresh.
  split; [exact M|]. split; [intros j Hj; apply dkeys_dset; right; apply dkeys_dset; right; rewrite Ec; apply B, Hj|].
  assert (Kn : ~ In k (dkeys (nv_chapters n0))) by (intro I; apply Fr, dkeys_dset; right; rewrite Ec; apply B, I).
  split; [intro I; apply Kn, HG, I|]. intros c' Hc'. assert (c' <> k) by (intros ->; apply Kn, HG, Hc'). rewrite dget_dset_other by assumption. assert (c' <> sp_chId st) by (intros ->; contradiction). rewrite dget_dset_other by assumption. rewrite Ec. now apply D.
Qed.
Lemma line_QI : forall G scId st line st', incl G (dkeys (nv_chapters n0)) -> In scId (all_scenes n0) -> In scId (dkeys (nv_scenes n0)) -> QI G st -> split_line tr scId st line = Ok st' -> QI G st'.
Proof.
  intros G scId st line st' HG Hs Hk H E. unfold split_line in E. destruct (heading line) as [ti de].
  destruct (prefixb SCENE_SEPARATOR line).
  { apply bind_ok in E as [n1 [E1 E]]. apply bind_ok in E as [n2 [E2 E]]. injection E as <-. assert (M1 := MI_put _ _ _ _ (proj1 H) E1). assert (M2 := MI_create _ _ _ _ _ _ M1 Hs Hk E2). apply put_content_ch in E1. apply create_scene_ch in E2. destruct H as (A & B & C & D). unfold QI. cbn. rewrite E2, E1. tauto. }
  destruct (prefixb CHAPTER_SEPARATOR line); [eapply start_QI; eassumption|]. destruct (prefixb PART_SEPARATOR line); [eapply start_QI; eassumption|].
  destruct (negb (sp_in st)).
  - apply bind_ok in E as [n2 [E2 E]]. injection E as <-. assert (M2 := MI_create _ _ _ _ _ _ (proj1 H) Hs Hk E2). apply create_scene_ch in E2. destruct H as (A & B & C & D). unfold QI. cbn. rewrite E2. tauto.
  - injection E as <-. exact H.
Qed.
Lemma foldM_inv : forall {A S} (P : S -> Prop) (f : S -> A -> res S) l st st', (forall x st st', In x l -> P st -> f st x = Ok st' -> P st') -> P st -> foldM f l st = Ok st' -> P st'.
Proof.
  intros A S P f l. induction l as [|x l IH]; intros st st' Hf H E; cbn [foldM] in E; [injection E as <-; exact H|]. apply bind_ok in E as [y [E1 E]]. eapply (IH y); [intros; eapply Hf; eauto; now right | | exact E]. eapply Hf; [now left | exact H | exact E1].
Qed.
Lemma scene_QI : forall G scId st st', incl G (dkeys (nv_chapters n0)) -> In scId (all_scenes n0) -> In scId (dkeys (nv_scenes n0)) -> QI G st -> split_scene tr st scId = Ok st' -> QI G st'.
Proof.
  intros G scId st st' HG Hs Hk H E. unfold split_scene in E. apply bind_ok in E as [x [Hx E]]. destruct (sc_content x) as [[|c t]|]; [injection E as <-; exact H | | injection E as <-; exact H].
  apply bind_ok in E as [st1 [E1 E]]. assert (Q1 : QI G st1) .
  { eapply (foldM_inv (QI G)) with (3 := E1); [|exact H]. intros l a b _ Ha Eb. exact (line_QI G scId a l b HG Hs Hk Ha Eb). }
 
  destruct (sp_in st1); [|injection E as <-; exact Q1]. apply bind_ok in E as [n2 [E2 E]]. injection E as <-. assert (M := MI_put _ _ _ _ (proj1 Q1) E2). apply put_content_ch in E2. destruct Q1 as (A & B & C & D). unfold QI. cbn. rewrite E2. tauto.
Qed.
Lemma chapters_QI : forall G st st', structure_ok n0 -> NoDup G -> incl G (nv_srtChapters n0) -> MI (sp_n st) -> incl (dkeys (nv_chapters n0)) (dkeys (nv_chapters (sp_n st))) ->
  (forall c, In c G -> dget c (nv_chapters (sp_n st)) = dget c (nv_chapters n0)) -> foldM (split_chapter tr) G st = Ok st' -> MI (sp_n st').
Proof.
  induction G as [|c G IH]; intros st st' SO ND HG M Kc D E; cbn [foldM] in E; [injection E as <-; exact M|]. apply bind_ok in E as [st1 [E1 E]]. inversion ND as [|? ? N1 N2]; subst.
  unfold split_chapter in E1. apply bind_ok in E1 as [ch [Hch E1]]. apply bind_ok in E1 as [st2 [E2 E1]]. apply bind_ok in E1 as [n2 [E3 E1]]. injection E1 as <-. apply dindex_ok in Hch. cbn [sp_n] in *.
  destruct SO as (S1 & S2 & S3 & S4). assert (HG' : incl G (dkeys (nv_chapters n0))) by (intros j Hj; apply S2, HG; now right).
  assert (Sub : incl (ch_srtScenes ch) (all_scenes n0)). { rewrite (D c (or_introl eq_refl)) in Hch. intros j Hj. unfold all_scenes. apply in_flat_map. exists c. split; [apply HG; now left|]. unfold chapter_scenes. now rewrite Hch. }
  assert (Q2 : QI G st2).
  { eapply (foldM_inv (QI G)); [| | exact E2].
    - intros k a b Hk Ha Eb. eapply scene_QI; [exact HG' | apply Sub, Hk | apply S4, Sub, Hk | exact Ha | exact Eb].
    - unfold QI. cbn. split; [exact M|]. split; [exact Kc|]. split; [exact N1|]. intros c' Hc'. apply D. now right. }
  unfold put_srtScenes in E3. apply bind_ok in E3 as [d [Hd E3]]. injection E3 as <-. destruct Q2 as (A & B & C & F).
  eapply IH with (7 := E); [exact (conj S1 (conj S2 (conj S3 S4))) | exact N2 | intros j Hj; apply HG; now right | exact A | |].
  - cbn. intros j Hj. apply dkeys_dset. right. apply B, Hj.
  - cbn. intros c' Hc'. rewrite dget_dset_other by (intros ->; contradiction). now apply F.
Qed.
End Marks.
Lemma split_marks : forall tr n n' flag, structure_ok n -> split_scenes tr n = Ok (n', flag) -> MI n n'.
Proof.
  intros tr n n' flag SO E. unfold split_scenes in E. apply bind_ok in E as [st [E1 E]]. injection E as <- _. change (MI n (sp_n st)). eapply (chapters_QI tr n (nv_srtChapters n)) with (7 := E1); [exact SO | apply SO | intros j Hj; exact Hj | | intros j Hj; exact Hj | reflexivity].
  split; [intros j Hj; exact Hj|]. cbn. intros k y Hy. rewrite Hy. left. now repeat split.
Qed.
