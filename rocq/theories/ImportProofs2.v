From Coq Require Import String List NArith ZArith Bool Lia Arith.
From Verif Require Import PyStr PyDict NovelModel NovelOps WordCount Splitter SpecNovel SpecSplit OdfXml OdtRead SpecRead ReadFrame2 SpecImport ImportProofs.
Import ListNotations.

Lemma foldM_app_ok : forall {A B} (f : A -> B -> res A) l m a c, foldM f (l ++ m) a = Ok c <-> exists b, foldM f l a = Ok b /\ foldM f m b = Ok c.
Proof.
  intros A B f l m. induction l as [|x l IH]; intros a c; cbn [app foldM].
  - split; [intro H; now exists a | intros (b & E & H); apply ok_eq in E; now subst].
  - destruct (f a x) as [y|]; cbn [bind]; [apply IH|]. split; [discriminate | intros (b & E & _); discriminate].
Qed.
Lemma feed_events : forall h es p r p' r', foldM (feed_event h) es (p, r) = Ok (p', r') -> exists calls, report p es = Ok calls /\ foldM (handle h) calls r = Ok r'.
Proof.
  intros h es. induction es as [|e es IH]; intros p r p' r' H; cbn [foldM] in H; [apply ok_eq in H; injection H as <- <-; now exists []|].
  okstep H. destruct y as [p1 r1]. unfold feed_event in E. cbn [fst snd] in E. okstep E. destruct y as [p2 c]. okstep E. apply ok_eq in E. injection E as <- <-. destruct (IH _ _ _ _ H) as (calls & R & F). exists (c ++ calls). split; [cbn [report]; rewrite E0; cbn [bind]; now rewrite R|].
  apply foldM_app_ok. eauto.
Qed.
Lemma feed_report : forall h opening es n n', feed h opening es n = Ok n' -> exists calls st, report new_ps es = Ok calls /\ foldM (handle h) (opening ++ calls) (new_rs n) = Ok st /\ n' = r_novel st.
Proof.
  intros h opening es n n' H. unfold feed in H. okstep H. okstep H. apply ok_eq in H. subst n'. destruct y0 as [p' r']. destruct (feed_events _ _ _ _ _ _ E0) as (calls & R & F). exists calls, r'. split; [exact R|]. split; [apply foldM_app_ok; eauto | reflexivity].
Qed.
Lemma levels_app : forall a b, heading_levels (a ++ b) = heading_levels a ++ heading_levels b.
Proof. intros. unfold heading_levels. apply flat_map_app. Qed.
Lemma levels_opening : forall styles title author desc, heading_levels (opening_calls styles title author desc) = [].
Proof.
  intros. unfold opening_calls. rewrite !levels_app. destruct styles as [[l c]|], title as [[|x t]|], author as [[|y u]|], desc as [[|z w]|]; reflexivity.
Qed.

Definition K (n0 : novel) (levels : list N) (st : rs) : Prop := exists b, J n0 b st /\ chapters_match levels b /\ scenes_ok b.
Lemma K_same : forall n0 ls st st', K n0 ls st -> r_novel st' = r_novel st -> r_chCount st' = r_chCount st -> r_scCount st' = r_scCount st -> (r_chId st' = r_chId st \/ r_chId st' = None) -> (r_scId st' = r_scId st \/ r_scId st' = None) -> K n0 ls st'.
Proof. intros n0 ls st st' (b & H & M) E1 E2 E3 E4 E5. exists b. split; [eapply J_same; eassumption | exact M]. Qed.
Lemma K_put : forall n0 ls st t, K n0 ls st -> K n0 ls (put_line t st).
Proof. intros. eapply K_same; try eassumption; try reflexivity; now left. Qed.
Lemma K_novel : forall n0 ls st n, K n0 ls st -> nv_srtChapters n = nv_srtChapters (r_novel st) -> nv_chapters n = nv_chapters (r_novel st) -> nv_scenes n = nv_scenes (r_novel st) -> import_rest n = import_rest (r_novel st) -> K n0 ls (set_r_novel n st).
Proof. intros n0 ls st n (b & H & M) E1 E2 E3 E4. exists b. split; [apply J_novel; assumption | exact M]. Qed.
Lemma K_close : forall n0 ls st, K n0 ls st -> K n0 ls (close_language st).
Proof. intros n0 ls st H. unfold close_language. destruct (truthy (r_language st)); [|exact H]. eapply K_same; try exact H; try reflexivity; now left. Qed.
Lemma K_open : forall n0 ls a st, K n0 ls st -> K n0 ls (open_language a st).
Proof.
  intros n0 ls a st H. unfold open_language. destruct a as [|[[k [l|]]|] a]; try exact H. destruct (str_eqb k (s "lang")); [|exact H].
  assert (H2 : K n0 ls (set_r_language l st)) by (eapply K_same; try exact H; try reflexivity; now left). destruct (nv_languages (r_novel st)) as [ll|]; [|exact H2]. apply K_put. apply K_novel; [exact H2 | reflexivity..].
Qed.
Lemma K_body : forall n0 ls a st st', K n0 ls st -> body_tag a st = Ok st' -> K n0 ls st'.
Proof.
  intros n0 ls a. unfold body_tag. induction a as [|x a IH]; intros st st' H E; cbn [foldM] in E; [apply ok_eq in E; now subst|]. okstep E. apply (IH y st'); [|exact E]. clear - H E0. unfold body_attr in E0. destruct x as [[k v]|]; [|discriminate]. apply ok_eq in E0. subst y. destruct (otruthy v); [|exact H].
  destruct (str_eqb k (s "language")); [apply K_novel; [exact H | reflexivity..]|]. destruct (str_eqb k (s "country")); [apply K_novel; [exact H | reflexivity..] | exact H].
Qed.
Lemma K_meta : forall n0 ls a st st', K n0 ls st -> meta_tag a st = Ok st' -> K n0 ls st'.
Proof.
  intros n0 ls a st st' H E. unfold meta_tag in E. okstep E. destruct y as [k v]. cbv zeta in E. okstep E.
  assert (H1 : K n0 ls y). { destruct (match v with Some y => str_eqb y (s "author") | None => false end); [okstep E1; apply ok_eq in E1; subst y; apply K_novel; [exact H | reflexivity..] | apply ok_eq in E1; now subst]. }
  destruct (match v with Some y => str_eqb y (s "description") | None => false end); [okstep E; apply ok_eq in E; subst st'; apply K_novel; [exact H1 | reflexivity..] | apply ok_eq in E; now subst].
Qed.
Lemma scenes_ok_snoc : forall b c l, scenes_ok (b ++ [(c, l)]) <-> scenes_ok b /\ Forall (fun x => sc_type x = Some 0%N /\ (sc_status x = Some 1%Z \/ sc_status x = Some 2%Z)) l.
Proof. intros b c l. unfold scenes_ok. rewrite Forall_app. split; [intros [A B]; split; [exact A | now inversion B] | intros [A B]; split; [exact A | now constructor]]. Qed.
Lemma match_snoc : forall ls b c l, chapters_match ls (b ++ [(c, l)]) -> forall d l', ch_level d = ch_level c -> ch_type d = ch_type c -> chapters_match ls (b ++ [(d, l')]).
Proof.
  intros ls b c l [A B] d l' E1 E2. split.
  - rewrite map_app in *. cbn in *. now rewrite E1.
  - rewrite Forall_app in *. destruct B as [B1 B2]. split; [exact B1|]. constructor; [|constructor]. inversion B2. cbn in *. congruence.
Qed.
Lemma K_scene : forall n0 ls st st' f, K n0 ls st -> (forall x, sc_type x = Some 0%N /\ (sc_status x = Some 1%Z \/ sc_status x = Some 2%Z) -> sc_type (f x) = Some 0%N /\ (sc_status (f x) = Some 1%Z \/ sc_status (f x) = Some 2%Z)) ->
  on_scene (r_scId st) f st = Ok st' -> K n0 ls st' /\ r_scId st' = r_scId st /\ r_chId st' = r_chId st.
Proof.
  intros n0 ls st st' f (b & H & M & S) Hf E. destruct (r_scId st) as [i|] eqn:Ei; [|discriminate]. destruct (j_scId _ _ _ H) as [X|[X (b0 & c & scs & x & Eb)]]; [congruence|]. subst b.
  destruct (J_on_scene n0 b0 c scs x st i f H Ei) as (st1 & E1 & J1 & L1 & L2 & L3 & _). rewrite E1 in E. apply ok_eq in E. subst st1. split; [|split; [congruence | exact L2]]. exists (b0 ++ [(c, scs ++ [f x])]). split; [exact J1|]. split; [eapply match_snoc; [exact M | reflexivity..]|].
  apply scenes_ok_snoc in S as [S1 S2]. apply scenes_ok_snoc. split; [exact S1|]. apply Forall_app in S2 as [S2 S3]. apply Forall_app. split; [exact S2|]. inversion S3. constructor; [now apply Hf | constructor].
Qed.
Lemma K_chapter : forall n0 ls st st' f, K n0 ls st -> (forall c l, f (set_ch_srtScenes l c) = set_ch_srtScenes l (f c)) -> (forall c, ch_level (f c) = ch_level c) -> (forall c, ch_type (f c) = ch_type c) ->
  on_chapter (r_chId st) f st = Ok st' -> K n0 ls st' /\ r_scId st' = r_scId st /\ r_chId st' = r_chId st.
Proof.
  intros n0 ls st st' f (b & H & M & S) Hf F1 F2 E. destruct (r_chId st) as [i|] eqn:Ei; [|discriminate]. destruct (j_chId _ _ _ H) as [X|[X N]]; [congruence|]. destruct (exists_last N) as (b0 & [c scs] & Eb). subst b.
  destruct (J_on_chapter n0 b0 c scs st i f H Ei Hf) as (st1 & E1 & J1 & L1 & L2 & L3 & _). rewrite E1 in E. apply ok_eq in E. subst st1. split; [|split; [exact L3 | congruence]]. exists (b0 ++ [(f c, scs)]). split; [exact J1|]. split; [eapply match_snoc; [exact M | apply F1 | apply F2]|].
  apply scenes_ok_snoc in S as [S1 S2]. now apply scenes_ok_snoc.
Qed.
Lemma K_heading : forall n0 ls st st' tag, K n0 ls st -> new_heading tag st = Ok st' -> K n0 (ls ++ [if str_eqb tag (s "h1") then 1%N else 0%N]) st'.
Proof.
  intros n0 ls st st' tag (b & H & [M1 M2] & S) E. destruct (J_new_heading n0 b st tag H) as (st1 & E1 & J1 & _). rewrite E1 in E. apply ok_eq in E. subst st1. eexists. split; [exact J1|]. split; [split|].
  - rewrite !map_app. cbn [map fst ch_level set_ch_level]. now rewrite M1.
  - apply Forall_app. split; [exact M2|]. now repeat constructor.
  - apply scenes_ok_snoc. split; [exact S | constructor].
Qed.
(** a new scene, given its type and status at once *)
Lemma K_new_scene : forall n0 ls st st' g, K n0 ls st -> (forall x, sc_type (g x) = Some 0%N /\ (sc_status (g x) = Some 1%Z \/ sc_status (g x) = Some 2%Z)) ->
  (let k := N.succ (r_scCount st) in let id := str_of_N k in
   do st1 <- on_chapter (r_chId st) (list_scene id) (add_scene id (set_r_scId (Some id) (set_r_scCount k (set_r_lines [] st)))); on_scene (Some id) g st1) = Ok st' -> K n0 ls st' /\ r_chId st' = r_chId st.
Proof.
  intros n0 ls st st' g (b & H & M & S) Hg E. cbv zeta in E. okstep E. destruct (r_chId st) as [i|] eqn:Ei; [|discriminate]. destruct (j_chId _ _ _ H) as [X|[X N]]; [congruence|]. destruct (exists_last N) as (b0 & [c scs] & Eb). subst b.
  rewrite (j_scCount _ _ _ H) in E, E0. rewrite succ_id in E, E0. destruct (J_new_scene n0 b0 c scs st i H Ei) as (st1 & E1 & J1 & L1 & L2 & _). rewrite (j_scCount _ _ _ H) in E1. rewrite E0 in E1. cbn [bind] in E1. apply ok_eq in E1. subst st1.
  destruct (J_on_scene n0 b0 c scs new_scene y _ g J1 L1) as (st2 & E2 & J2 & M1 & M2 & M3 & _). rewrite E2 in E. apply ok_eq in E. subst st2. split; [|congruence]. exists (b0 ++ [(c, scs ++ [g new_scene])]). split; [exact J2|]. split; [eapply match_snoc; [exact M | reflexivity..]|].
  apply scenes_ok_snoc in S as [S1 S2]. apply scenes_ok_snoc. split; [exact S1|]. apply Forall_app. split; [exact S2|]. constructor; [apply Hg | constructor].
Qed.
Lemma K_start : forall n0, nv_srtChapters n0 = [] -> nv_chapters n0 = [] -> nv_scenes n0 = [] -> K n0 [] (new_rs n0).
Proof. intros n0 A B C. exists []. split; [|split; [split; [reflexivity | constructor] | constructor]]. constructor; try reflexivity; try (now left). repeat split; assumption. Qed.

Ltac ksame H := eapply K_same; [exact H | reflexivity | reflexivity | reflexivity | first [left; reflexivity | right; reflexivity] | first [left; reflexivity | right; reflexivity]].
(** a call that starts no heading of the first two levels *)
Lemma levels_other : forall tag a, smem tag [s "h1"; s "h2"] = false -> heading_levels [CStart tag a] = [].
Proof. intros tag a H. unfold heading_levels. cbn [flat_map]. unfold smem in H. cbn [existsb] in H. destruct (str_eqb tag (s "h1")); [discriminate|]. destruct (str_eqb tag (s "h2")); [discriminate | reflexivity]. Qed.
Lemma levels_heading : forall tag a, smem tag [s "h1"; s "h2"] = true -> heading_levels [CStart tag a] = [if str_eqb tag (s "h1") then 1%N else 0%N].
Proof. intros tag a H. unfold heading_levels. cbn [flat_map]. unfold smem in H. cbn [existsb] in H. destruct (str_eqb tag (s "h1")); [reflexivity|]. destruct (str_eqb tag (s "h2")); [reflexivity | discriminate]. Qed.
Lemma smem_other : forall tag x l, str_eqb tag x = true -> smem x l = false -> smem tag l = false.
Proof. intros tag x l E H. apply str_eqb_eq in E. now subst. Qed.
Ltac nolevel E := rewrite levels_other; [rewrite app_nil_r | first [assumption | eapply smem_other; [eassumption | reflexivity] | (apply andb_true_iff in E as [E _]; eapply smem_other; [exact E | reflexivity])]].

Lemma import_step : forall tr n0 ls c st st', K n0 ls st -> handle (import_reader tr) st c = Ok st' -> K n0 (ls ++ heading_levels [c]) st'.
Proof.
  intros tr n0 ls c st st' H E. destruct c as [tag a|tag|t|t]; cbn [handle import_reader h_start h_end h_data h_comment] in E.
  - unfold im_start in E.
    destruct (str_eqb tag (s "p")) eqn:T0.
    { nolevel T0. okstep E. apply ok_eq in E. subst st'. apply K_open. destruct (r_scId st) as [i|] eqn:Es; [apply ok_eq in E0; now subst|]. destruct (r_chId st) as [k|] eqn:Ek; [|apply ok_eq in E0; now subst].
      cbv zeta in E0. eapply (K_new_scene n0 ls st y); [exact H | | rewrite Ek; exact E0]. intro x. split; [reflexivity | now left]. }
    destruct (str_eqb tag (s "em") && negb (r_heading st)) eqn:T1; [nolevel T1; apply ok_eq in E; subst; now apply K_put|].
    destruct (str_eqb tag (s "strong") && negb (r_heading st)) eqn:T2; [nolevel T2; apply ok_eq in E; subst; now apply K_put|].
    destruct (str_eqb tag (s "lang") && negb (r_heading st)) eqn:T3.
    { nolevel T3. okstep E. destruct y as [k v]. destruct (str_eqb k (s "lang")); [okstep E; apply ok_eq in E; subst; now apply K_open | apply ok_eq in E; now subst]. }
    destruct (smem tag [s "h1"; s "h2"]) eqn:T4.
    { rewrite levels_heading by exact T4. okstep E. apply ok_eq in E. subst st'. pose proof (K_heading _ _ _ _ _ H E0) as H1. ksame H1. }
    nolevel T4.
    destruct (str_eqb tag (s "div")); [apply ok_eq in E; subst; ksame H|]. destruct (str_eqb tag (s "meta")); [eapply K_meta; eassumption|]. destruct (str_eqb tag (s "title")); [apply ok_eq in E; subst; ksame H|].
    destruct (str_eqb tag (s "body")); [eapply K_body; eassumption|]. destruct (str_eqb tag (s "li")); [apply ok_eq in E; subst; now apply K_put|]. destruct (str_eqb tag (s "blockquote")); [apply ok_eq in E; subst; apply K_open; now apply K_put|].
    destruct (str_eqb tag (s "s")); apply ok_eq in E; subst; [now apply K_put | exact H].
  - change (heading_levels [CEnd tag]) with (@nil N). rewrite app_nil_r. unfold im_end in E.
    destruct (tag_in tag [s "p"; s "blockquote"]).
    { unfold im_store in E. assert (H1 : K n0 ls (put_line [10%N] (close_language st))) by now apply K_put, K_close. set (st1 := put_line [10%N] (close_language st)) in *. clearbody st1. destruct (r_scId st1) as [i|] eqn:Es; [|apply ok_eq in E; now subst].
      okstep E. cbv zeta in E. rewrite <- Es in E. eapply K_scene in E; [apply E | exact H1 |]. intros x [X1 X2]. split; [exact X1|]. cbn. match goal with |- context [if ?b then _ else _] => destruct b end; [now left | now right]. }
    destruct (tag_is tag (s "em") && negb (r_heading st)); [apply ok_eq in E; subst; now apply K_put|]. destruct (tag_is tag (s "strong") && negb (r_heading st)); [apply ok_eq in E; subst; now apply K_put|].
    destruct (tag_is tag (s "lang") && negb (r_heading st)); [apply ok_eq in E; subst; now apply K_close|].
    destruct (tag_in tag [s "h1"; s "h2"]).
    { okstep E. apply ok_eq in E. subst st'. eapply K_chapter in E0; [|exact H | reflexivity..]. destruct E0 as [H1 _]. ksame H1. }
    destruct (tag_is tag (s "title")); apply ok_eq in E; subst; [apply K_novel; [exact H | reflexivity..] | exact H].
  - change (heading_levels [CData t]) with (@nil N). rewrite app_nil_r. unfold im_data in E. apply ok_eq in E. subst. destruct (r_scId st) eqn:Es; [|now apply K_put]. destruct (containsb SCENE_DIVIDER t); [ksame H | now apply K_put].
  - change (heading_levels [CComment t]) with (@nil N). rewrite app_nil_r. unfold im_comment in E. destruct (r_scId st) as [i|] eqn:Es; [|apply ok_eq in E; now subst]. destruct (r_lines st); apply ok_eq in E; subst; [|now apply K_put].
    destruct (on_scene (Some i) (set_sc_title (Some (strip t))) st) as [s1|] eqn:E1; [|exact H]. rewrite <- Es in E1. eapply K_scene in E1; [apply E1 | exact H |]. intros x X. exact X.
Qed.
Lemma outline_step : forall n0 ls c st st', K n0 ls st -> handle outline_reader st c = Ok st' -> K n0 (ls ++ heading_levels [c]) st'.
Proof.
  intros n0 ls c st st' H E. destruct c as [tag a|tag|t|t]; cbn [handle outline_reader h_start h_end h_data h_comment] in E.
  - unfold ol_start in E.
    destruct (smem tag [s "h1"; s "h2"]) eqn:T4; [rewrite levels_heading by exact T4; eapply K_heading; eassumption|]. nolevel T4.
    destruct (str_eqb tag (s "h3")).
    { cbv zeta in E. eapply (K_new_scene n0 ls st st'); [exact H | | exact E]. intro x. split; [reflexivity | now left]. }
    destruct (str_eqb tag (s "div")); [apply ok_eq in E; subst; ksame H|]. destruct (str_eqb tag (s "meta")); [eapply K_meta; eassumption|]. destruct (str_eqb tag (s "title")); [apply ok_eq in E; subst; ksame H|].
    destruct (str_eqb tag (s "body")); [eapply K_body; eassumption|]. destruct (str_eqb tag (s "s")); apply ok_eq in E; subst; [now apply K_put | exact H].
  - change (heading_levels [CEnd tag]) with (@nil N). rewrite app_nil_r. unfold ol_end in E. cbv zeta in E.
    destruct (tag_is tag (s "p")).
    { set (st1 := set_r_lines [strip (concat (r_lines st)) ++ [10%N]] st) in *. assert (H1 : K n0 ls st1) by (unfold st1; ksame H). set (f := strip (concat (r_lines st)) ++ [10%N]) in *. clearbody f. clearbody st1.
      destruct (r_scId st1) as [i|] eqn:Es; [rewrite <- Es in E; eapply K_scene in E; [apply E | exact H1 |]; intros x X; exact X|].
      destruct (r_chId st1) as [k|] eqn:Ek; [rewrite <- Ek in E; eapply K_chapter in E; [apply E | exact H1 | reflexivity..] | apply ok_eq in E; now subst]. }
    destruct (tag_in tag [s "h1"; s "h2"]).
    { okstep E. apply ok_eq in E. subst st'. eapply K_chapter in E0; [|exact H | reflexivity..]. destruct E0 as [H1 _]. ksame H1. }
    destruct (tag_is tag (s "h3")).
    { okstep E. apply ok_eq in E. subst st'. eapply K_scene in E0; [|exact H | intros x X; exact X]. destruct E0 as [H1 _]. ksame H1. }
    destruct (tag_is tag (s "title")); apply ok_eq in E; subst; [apply K_novel; [exact H | reflexivity..] | exact H].
  - change (heading_levels [CData t]) with (@nil N). rewrite app_nil_r. unfold ol_data in E. apply ok_eq in E. subst. now apply K_put.
  - change (heading_levels [CComment t]) with (@nil N). rewrite app_nil_r. unfold base_comment in E. apply ok_eq in E. subst. destruct (r_scId st); [now apply K_put | exact H].
Qed.
Lemma steps : forall h n0, (forall ls c st st', K n0 ls st -> handle h st c = Ok st' -> K n0 (ls ++ heading_levels [c]) st') ->
  forall calls ls st st', K n0 ls st -> foldM (handle h) calls st = Ok st' -> K n0 (ls ++ heading_levels calls) st'.
Proof.
  intros h n0 Hs calls. induction calls as [|c calls IH]; intros ls st st' H E; cbn [foldM] in E; [apply ok_eq in E; subst; cbn; now rewrite app_nil_r|]. okstep E. change (c :: calls) with ([c] ++ calls). rewrite levels_app, app_assoc. eapply IH; [|exact E]. eapply Hs; eassumption.
Qed.
Lemma structure_of : forall h n0, (forall ls c st st', K n0 ls st -> handle h st c = Ok st' -> K n0 (ls ++ heading_levels [c]) st') ->
  nv_srtChapters n0 = [] -> nv_chapters n0 = [] -> nv_scenes n0 = [] ->
  forall styles title author desc es n', feed h (opening_calls styles title author desc) es n0 = Ok n' ->
  exists calls b, report new_ps es = Ok calls /\ is_book b n' /\ chapters_match (heading_levels calls) b /\ scenes_ok b /\ import_rest n' = import_rest n0.
Proof.
  intros h n0 Hs A B C styles title author desc es n' H. destruct (feed_report _ _ _ _ _ H) as (calls & st & R & F & ->). pose proof (steps h n0 Hs _ _ _ _ (K_start n0 A B C) F) as (b & Jb & M & S). rewrite levels_app, levels_opening in M. exists calls, b. split; [exact R|]. split; [apply (j_book _ _ _ Jb)|]. split; [exact M|]. split; [exact S | apply (j_rest _ _ _ Jb)].
Qed.
(** what a book means for the IDs *)
Lemma book_scenes : forall b n, is_book b n -> all_scenes n = dkeys (nv_scenes n) /\ NoDup (all_scenes n) /\ NoDup (nv_srtChapters n) /\ nv_srtChapters n = dkeys (nv_chapters n).
Proof.
  intros b n (B1 & B2 & B3). assert (E : all_scenes n = ids (total b)).
  { unfold all_scenes. rewrite B1. unfold chapter_scenes. rewrite B2.
    assert (G : forall b, flat_map (fun c => match dget c (numbered (placed 0 b)) with Some ch => ch_srtScenes ch | None => [] end) (ids (length b)) = ids (total b)).
    { intro b0. induction b0 as [|[c scs] b0 IH] using rev_ind; [reflexivity|]. rewrite app_length, Nat.add_1_r, ids_snoc, flat_map_app. rewrite (placed_snoc b0 c scs). cbn [flat_map]. assert (L : id_of (S (length b0)) = id_of (S (length (placed 0 b0)))) by now rewrite placed_len. rewrite L, numbered_last_get, app_nil_r. cbn [ch_srtScenes set_ch_srtScenes]. rewrite total_snoc.
      assert (X : flat_map (fun x => match dget x (numbered (placed 0 b0 ++ [set_ch_srtScenes (map id_of (seq (S (total b0)) (length scs))) c])) with Some ch => ch_srtScenes ch | None => [] end) (ids (length b0)) = ids (total b0)).
      { rewrite <- IH. rewrite numbered_snoc. assert (Y : forall l, incl l (ids (length b0)) -> flat_map (fun x => match dget x (numbered (placed 0 b0) ++ [(id_of (S (length (placed 0 b0))), set_ch_srtScenes (map id_of (seq (S (total b0)) (length scs))) c)]) with Some ch => ch_srtScenes ch | None => [] end) l = flat_map (fun c0 => match dget c0 (numbered (placed 0 b0)) with Some ch => ch_srtScenes ch | None => [] end) l); [|apply Y; intros x Hx; exact Hx].
        induction l as [|x l IHl]; intro Hl; [reflexivity|]. cbn [flat_map]. rewrite IHl by (intros z Hz; apply Hl; now right). f_equal. assert (Ix : In x (dkeys (numbered (placed 0 b0)))) by (rewrite numbered_keys, placed_len; apply Hl; now left).
        clear - Ix. induction (numbered (placed 0 b0)) as [|[k v] d IHd]; [destruct Ix|]. cbn [app dget]. destruct (str_eqb x k) eqn:E; [reflexivity|]. apply IHd. destruct Ix as [Ix|Ix]; [cbn in Ix; subst; rewrite str_eqb_refl in E; discriminate | exact Ix]. }
      rewrite X. unfold ids. rewrite seq_app, map_app. reflexivity. }
    apply G. }
  rewrite B3, numbered_keys. fold (total b). rewrite E. split; [reflexivity|]. split; [apply ids_nodup|]. rewrite B1, B2, numbered_keys, placed_len. split; [apply ids_nodup | reflexivity].
Qed.
