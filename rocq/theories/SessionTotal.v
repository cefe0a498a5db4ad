(** Saving a representable novel over an existing tree succeeds. *)
From Coq Require Import String List NArith ZArith Bool Lia Arith.
From Verif Require Import PyStr PyDict Spec Globals GlobalsProofs NovelModel NovelOps NovelOpsProofs YwTree IsoDate Yw7Build Yw7Read YwTreeProofs Yw7SceneProofs
  Yw7StartProofs Yw7SceneRT Yw7ChapterRT Yw7ElemRT Yw7ListRT Yw7TreeInv Yw7ProjRT Yw7SecRT Yw7TreeRT YwText YwTextProofs SpecYw7 Yw7Clean Yw7Clean2 Yw7Repr Yw7Repr2 Yw7Repr3
  Yw7Total Yw7Strict Yw7Reopen Yw7Reopen2 Yw7Session SessionTree.
Import ListNotations.

(** ** The project variables are complete *)
Definition full (e : elem) : Prop := has (s "ID") (e_kids e) = true /\ has (s "Desc") (e_kids e) = true.
Definition vars_full (r : list elem) : Prop := Forall full (or_nil (sec (s "PROJECTVARS") r)).

Lemma has_settled : forall o t k k', Forall2 (settled o) k k' -> has t k' = has t k.
Proof.
  intros o t k k' H. rewrite !has_findall. apply (R_findall o t) in H. inversion H; reflexivity.
Qed.
Lemma full_settled : forall o r r', Forall2 (settled o) r r' -> vars_full r -> vars_full r'.
Proof.
  intros o r r' H F. unfold vars_full in *. pose proof (sec_settled o (s "PROJECTVARS") r r' H) as Q. destruct (sec (s "PROJECTVARS") r) as [k|]; [|rewrite Q; constructor].
  destruct Q as (k' & -> & Q). cbn [or_nil] in *. clear -Q F. induction Q as [|e e' k k' He Q IH]; [constructor|]. inversion F as [|? ? [F1 F2] Fr]; subst.
  constructor; [|apply IH; exact Fr]. pose proof (settled_kids o e e' He) as K. split; [rewrite (has_settled o _ _ _ K); exact F1 | rewrite (has_settled o _ _ _ K); exact F2].
Qed.
Lemma has_set_text : forall t u x k, has t (set_text u x k) = has t k.
Proof.
  intros t u x k. rewrite !has_findall. destruct (str_eqb u t) eqn:E.
  - apply str_eqb_eq in E. subst u. unfold set_text. induction k as [|e k IH]; [reflexivity|]. cbn [upd findall filter]. destruct (str_eqb (e_tag e) t) eqn:Et.
    + cbn [filter]. destruct e as [t0 y q]. cbn [with_text e_tag] in *. rewrite Et. reflexivity.
    + cbn [filter]. rewrite Et. exact IH.
  - unfold set_text. induction k as [|e k IH]; [reflexivity|]. cbn [upd findall filter]. destruct (str_eqb (e_tag e) u) eqn:Et.
    + cbn [filter]. destruct e as [t0 y q]. cbn [with_text e_tag] in *. apply str_eqb_eq in Et. subst t0. rewrite E. reflexivity.
    + cbn [filter]. destruct (str_eqb (e_tag e) t); [reflexivity | exact IH].
Qed.
Lemma full_set : forall u x e, full e -> full (on_kids (set_text u x) e).
Proof. intros u x [t y k] [H1 H2]. unfold full, on_kids in *. cbn [with_kids e_kids] in *. rewrite !has_set_text. auto. Qed.
Lemma scan_one_full : forall n st e st1 e1, scan_projectvar n st e = Ok (st1, e1) -> full e -> full e1.
Proof.
  intros n st e st1 e1 H F. unfold scan_projectvar in H. destruct (negb _); [injection H as <- <-; exact F|].
  destruct (find (s "ID") (e_kids e)); [|discriminate]. destruct (find (s "Title") (e_kids e)) as [ti|]; [|discriminate]. cbv zeta in H. destruct (e_text ti) as [title|]; [|discriminate].
  destruct (prefixb (s "lang=") title).
  - destruct (split (s "=") title) as [|? [|? [|? ?]]]; injection H as <- <-; exact F.
  - destruct (str_eqb title (s "Language")).
    + destruct (has (s "Desc") (e_kids e)); [|discriminate]. injection H as <- <-. apply full_set. exact F.
    + destruct (str_eqb title (s "Country")); [|injection H as <- <-; exact F]. destruct (has (s "Desc") (e_kids e)); [|discriminate]. injection H as <- <-. apply full_set. exact F.
Qed.
Lemma scan_full : forall n k st st1 k1, scan_projectvars n st k = Ok (st1, k1) -> Forall full k -> Forall full k1.
Proof.
  intros n k. induction k as [|e k IH]; intros st st1 k1 H F; cbn [scan_projectvars] in H; [injection H as <- <-; constructor|].
  apply bind_ok in H. destruct H as ([st2 e2] & H1 & H). cbn [fst snd] in H. apply bind_ok in H. destruct H as ([st3 k3] & H2 & H). cbn [fst snd] in H. injection H as <- <-.
  inversion F as [|? ? Fe Fr]; subst. constructor; [exact (scan_one_full _ _ _ _ _ H1 Fe) | exact (IH _ _ _ H2 Fr)].
Qed.
Lemma add_full : forall t d st, Forall full (snd st) -> Forall full (snd (add_projectvar t d st)).
Proof. intros t d st H. unfold add_projectvar. cbn [snd]. apply Forall_app. split; [exact H|]. constructor; [split; reflexivity | constructor]. Qed.
Lemma langs_full : forall l st, Forall full (snd st) -> Forall full (snd (fold_left add_langvars l st)).
Proof. induction l as [|c l IH]; intros st H; [exact H|]. cbn [fold_left]. apply IH. unfold add_langvars. apply add_full, add_full. exact H. Qed.
Lemma build_vars_full : forall n ls k k1, build_projectvars n ls k = Ok k1 -> Forall full k -> Forall full k1.
Proof.
  intros n ls k k1 H F. unfold build_projectvars in H. apply bind_ok in H. destruct H as ([ps k2] & H1 & H). pose proof (scan_full _ _ _ _ _ H1 F) as F2. injection H as <-. apply langs_full.
  destruct (ps_hasCountry ps), (ps_hasLang ps); repeat apply add_full; exact F2.
Qed.
Lemma tree_full : forall loc dloc n r0 n1 r1, build_tree loc dloc n (Some r0) = Ok (n1, r1) -> vars_full r0 -> vars_full r1.
Proof.
  intros loc dloc n r0 n1 r1 H F. destruct (build_tree_inv loc dloc n r0 n1 r1 H) as (_ & _ & _ & _ & _ & _ & _ & _ & V & _). unfold vars_full in *. destruct (has_language n).
  - destruct V as (_ & ls & k1 & _ & Hb & ->). cbn [or_nil]. exact (build_vars_full _ _ _ _ Hb F).
  - destruct V as [_ V]. unfold sec. rewrite V. exact F.
Qed.

Lemma scan_one_total : forall n t st e, var_ok out_text t e -> full e -> exists p, scan_projectvar n st e = Ok p.
Proof.
  intros n t st e (V1 & V2 & _) [F1 F2]. unfold scan_projectvar. destruct (negb _); [eexists; reflexivity|].
  assert (E1 : exists i, find (s "ID") (e_kids e) = Some i) by (unfold has in F1; destruct (find (s "ID") (e_kids e)) as [i|]; [exists i; reflexivity | discriminate]). destruct E1 as (i & ->).
  rewrite (find_findall (s "Title")), V2. cbn [hd_error leaf e_text]. rewrite F2. cbv zeta.
  destruct (prefixb (s "lang=") t).
  - destruct (split (s "=") t) as [|? [|? [|? ?]]]; eexists; reflexivity.
  - destruct (str_eqb t (s "Language")); [eexists; reflexivity|]. destruct (str_eqb t (s "Country")); eexists; reflexivity.
Qed.
Lemma scan_total : forall n titles k, vars_wf out_text k titles -> Forall full k -> forall st, exists p, scan_projectvars n st k = Ok p.
Proof.
  intros n titles k H. unfold vars_wf in H. induction H as [|t e titles k Ht H IH]; intros F st; [eexists; reflexivity|]. inversion F as [|? ? Fe Fr]; subst. cbn [scan_projectvars].
  destruct (scan_one_total n t st e Ht Fe) as (p & ->). cbn [bind]. destruct (IH Fr (fst p)) as (q & ->). eexists. reflexivity.
Qed.
Lemma vars_total : forall n ls titles k, vars_wf out_text k titles -> Forall full k -> exists k1, build_projectvars n ls k = Ok k1.
Proof. intros n ls titles k H F. unfold build_projectvars. destruct (scan_total n titles k H F (mkPvscan [] ls false false)) as ([ps k1] & ->). eexists. reflexivity. Qed.

(** ** Scenes and chapters *)
Lemma renew_id : forall {A} t (bd : A -> list elem -> res (list elem)) (l : dict elem) i a e, (forall k k1, bd a k = Ok k1 -> findall (s "ID") k1 = findall (s "ID") k) ->
  Forall (fun p => e_tag (snd p) = t /\ has_id (fst p) (e_kids (snd p)) /\ id_ok out_text (fst p)) l -> renew t bd l i a = Ok e -> has_id i (e_kids e).
Proof.
  intros A t bd l i a e Hb F H. unfold renew in H. apply bind_ok in H. destruct H as (k & Hk & H). injection H as <-. apply Hb in Hk.
  replace (e_kids (with_kids k _)) with k by (destruct (dget i l) as [[]|]; reflexivity). unfold has_id. rewrite Hk. destruct (dget i l) as [e0|] eqn:E; [|reflexivity].
  apply dget_In in E. rewrite Forall_forall in F. apply (F _ E).
Qed.
Lemma scenes_total_old : forall n k l, section_ids out_text (s "SCENE") k l -> NoDup (dkeys (nv_scenes n)) ->
  (forall i x, In (i, x) (nv_scenes n) -> (number (sc_type x) <= 3)%N /\ start_text (sc_date x) (sc_time x) (sc_day x)) ->
  exists k1, build_scenes n k = Ok k1 /\ exists k2, mapM (finish_scene n) k1 = Ok k2.
Proof.
  intros n k l Hl ND HS. unfold build_scenes. rewrite (save_elems_ok out_text _ _ _ Hl). cbn [bind].
  destruct (mapM_total (fun p => renew (s "SCENE") build_scene l (fst p) (snd p)) (nv_scenes n)) as (new & Hm).
  { intros [i x] Hin. unfold renew. cbn [fst snd]. destruct (HS i x Hin) as [H1 H2]. match goal with |- exists b, bind (build_scene x ?K) _ = _ => destruct (scene_total x K H1 H2) as (k1 & ->) end. eexists. reflexivity. }
  rewrite Hm. cbn [bind]. rewrite (only_filter _ _ (section_only out_text _ _ _ Hl)). cbn [app]. eexists. split; [reflexivity|].
  apply mapM_total. intros e He. apply mapM_Forall2 in Hm.
  assert (X : exists i x, In (i, x) (nv_scenes n) /\ renew (s "SCENE") build_scene l i x = Ok e).
  { clear -Hm He. induction Hm as [|[i x] y q q' Hxy Hm IH]; [destruct He|]. destruct He as [<- | He]; [exists i, x; split; [left; reflexivity | exact Hxy]|].
    destruct (IH He) as (i' & x' & H1 & H2). exists i', x'. split; [right; exact H1 | exact H2]. }
  destruct X as (i & x & Hin & Hr). pose proof (renew_id _ _ _ _ _ _ (fun k k1 H => proj2 (build_scene_id x k k1 None H)) (proj2 (proj2 Hl)) Hr) as Hid.
  unfold renew in Hr. apply bind_ok in Hr. destruct Hr as (kb & Hb & Hr). injection Hr as <-. apply scene_content_there in Hb.
  unfold finish_scene. rewrite find_findall. unfold has_id in Hid. rewrite Hid. cbn [hd_error leaf e_text]. unfold dindex. rewrite (In_dget i x (nv_scenes n) ND Hin). cbn [bind].
  replace (e_kids (with_kids kb _)) with kb by (destruct (dget i l) as [[]|]; reflexivity). rewrite Hb. destruct (sc_content x); eexists; reflexivity.
Qed.
Lemma chapters_total_old : forall n k l, section_ids out_text (s "CHAPTER") k l -> (forall i, In i (nv_srtChapters n) -> exists a, dget i (nv_chapters n) = Some a /\ (number (ch_type a) <= 3)%N) ->
  exists k1, build_chapters n k = Ok k1.
Proof.
  intros n k l Hl H. unfold build_chapters. rewrite (save_elems_ok out_text _ _ _ Hl). cbn [bind].
  destruct (mapM_total (fun i => do c <- dindex i (nv_chapters n); renew (s "CHAPTER") build_chapter l i c) (nv_srtChapters n)) as (new & ->).
  { intros i Hi. destruct (H i Hi) as (c & Hc & Ht). unfold dindex. rewrite Hc. cbn [bind]. unfold renew. match goal with |- exists b, bind (build_chapter c ?K) _ = _ => destruct (chapter_total c K Ht) as (k1 & ->) end. eexists. reflexivity. }
  eexists. reflexivity.
Qed.

Ltac carry F := match goal with |- sec ?t _ = _ => rewrite (sec_find _ _ _ (F t eq_refl)) end.
Theorem tree_total_old : forall loc dloc n r0, tree_wf out_text r0 -> vars_full r0 ->
  (forall i, In i (nv_srtLocations n) -> exists a, dget i (nv_locations n) = Some a) ->
  (forall i, In i (nv_srtItems n) -> exists a, dget i (nv_items n) = Some a) ->
  (forall i, In i (nv_srtCharacters n) -> exists a, dget i (nv_characters n) = Some a) ->
  (forall i, In i (nv_srtPrjNotes n) -> exists a, dget i (nv_projectNotes n) = Some a) ->
  (forall i, In i (nv_srtChapters n) -> exists a, dget i (nv_chapters n) = Some a /\ (number (ch_type a) <= 3)%N) ->
  NoDup (dkeys (nv_scenes n)) ->
  (forall i x, In (i, x) (nv_scenes n) -> (number (sc_type x) <= 3)%N /\ start_text (sc_date x) (sc_time x) (sc_day x)) ->
  (exists ls, nv_languages n = Some ls) ->
  (has_language n = true -> otruthy (nv_languageCode n) = true \/ locale_pair loc <> None \/ locale_pair dloc <> None) ->
  exists n1 r1, build_tree loc dloc n (Some r0) = Ok (n1, r1).
Proof.
  intros loc dloc n r0 [(kP & EP & _) (kL & EL & _) (kI & EI & _) (kC & EC & _) _ (titles & WV) (kS & lS & ES & WS & _) (kH & lH & EH & WH & _)] VF HL HI HC HN HH ND HS (ls & HLs) HLoc. unfold build_tree.
  destruct (in_section_total (s "PROJECT") TypeError (fun k => Ok (build_project n k)) r0 kP EP (ex_intro _ _ eq_refl)) as (ra & Ha). rewrite Ha. cbn [bind].
  apply in_section_ok in Ha. destruct Ha as (_ & _ & _ & _ & _ & Fa).
  assert (S1 : sec (s "LOCATIONS") ra = Some kL) by (carry Fa; exact EL).
  destruct (in_section_total (s "LOCATIONS") AttributeError (rebuild (s "LOCATION") (build_world LOC_KWVAR) (nv_srtLocations n) (nv_locations n)) ra kL S1 (rebuild_total _ _ _ _ _ HL)) as (rb & Hb). rewrite Hb. cbn [bind].
  apply in_section_ok in Hb. destruct Hb as (_ & _ & _ & _ & _ & Fb).
  assert (S2 : sec (s "ITEMS") rb = Some kI) by (carry Fb; carry Fa; exact EI).
  destruct (in_section_total (s "ITEMS") AttributeError (rebuild (s "ITEM") (build_world ITM_KWVAR) (nv_srtItems n) (nv_items n)) rb kI S2 (rebuild_total _ _ _ _ _ HI)) as (rc & Hc). rewrite Hc. cbn [bind].
  apply in_section_ok in Hc. destruct Hc as (_ & _ & _ & _ & _ & Fc).
  assert (S3 : sec (s "CHARACTERS") rc = Some kC) by (carry Fc; carry Fb; carry Fa; exact EC).
  destruct (in_section_total (s "CHARACTERS") AttributeError (rebuild (s "CHARACTER") build_character (nv_srtCharacters n) (nv_characters n)) rc kC S3 (rebuild_total _ _ _ _ _ HC)) as (rd & Hd). rewrite Hd. cbn [bind].
  apply in_section_ok in Hd. destruct Hd as (_ & _ & _ & _ & _ & Fd).
  assert (Sub : forall t u r, str_eqb u t = false -> find u (sub t None r) = find u r).
  { intros t u r Hu. rewrite !find_findall, !findall_filt, filt_sub; [reflexivity | rewrite str_eqb_sym; exact Hu]. }
  assert (SubS : forall t r, sec t (if has t r then r else sub t None r) = Some (or_nil (sec t r))).
  { intros t r. unfold sec, has. destruct (find t r) as [e|] eqn:E; [rewrite E; reflexivity|]. rewrite find_findall, findall_sub. rewrite find_findall in E. destruct (findall t r); [reflexivity | discriminate]. }
  assert (Nt : exists re, build_notes n rd = Ok re /\ forall u, str_eqb u (s "PROJECTNOTES") = false -> find u re = find u rd).
  { unfold build_notes. destruct (nv_srtPrjNotes n) as [|i l] eqn:En.
    - eexists. split; [reflexivity|]. intros u Hu. rewrite !find_findall, !findall_filt, filt_remove; [reflexivity | rewrite str_eqb_sym; exact Hu].
    - destruct (in_section_total _ AttributeError (rebuild (s "PROJECTNOTE") build_note (i :: l) (nv_projectNotes n)) _ _ (SubS (s "PROJECTNOTES") rd) (rebuild_total _ _ _ _ _ HN)) as (re & He).
      exists re. split; [exact He|]. intros u Hu. apply in_section_ok in He. destruct He as (_ & _ & _ & _ & _ & Fe). rewrite Fe by exact Hu. destruct (has (s "PROJECTNOTES") rd); [reflexivity | apply Sub; exact Hu]. }
  destruct Nt as (re & He & Fe). rewrite He. cbn [bind].
  assert (V0 : sec (s "PROJECTVARS") re = sec (s "PROJECTVARS") r0) by (carry Fe; carry Fd; carry Fc; carry Fb; carry Fa; reflexivity).
  match goal with |- exists n1 r1, bind ?u _ = _ => assert (Vt : exists n2 rf, u = Ok (n2, rf) /\ nv_scenes n2 = nv_scenes n /\ nv_chapters n2 = nv_chapters n /\ nv_srtChapters n2 = nv_srtChapters n /\
     forall w, str_eqb w (s "PROJECTVARS") = false -> find w rf = find w re) end.
  { destruct (has_language n) eqn:Eh; [|exists n, re; repeat split; reflexivity].
    assert (Cl : exists n2, check_locale loc dloc n = Ok n2).
    { unfold check_locale. destruct (HLoc eq_refl) as [E | [E | E]].
      - rewrite E. cbn [negb]. match goal with |- context [if ?b then Ok n else _] => destruct b end; eexists; reflexivity.
      - destruct (negb (otruthy (nv_languageCode n))); [|match goal with |- context [if ?b then Ok n else _] => destruct b end; eexists; reflexivity]. destruct (locale_pair loc) as [[? ?]|]; [eexists; reflexivity | congruence].
      - destruct (negb (otruthy (nv_languageCode n))); [|match goal with |- context [if ?b then Ok n else _] => destruct b end; eexists; reflexivity].
        destruct (locale_pair loc) as [[? ?]|]; [eexists; reflexivity|]. destruct (locale_pair dloc) as [[? ?]|]; [eexists; reflexivity | congruence]. }
    destruct Cl as (n2 & Cl). rewrite Cl. cbn [bind]. pose proof (check_locale_frame loc dloc n n2 Cl) as Fr. rewrite Fr. cbn [nv_languages set_nv_countryCode set_nv_languageCode]. rewrite HLs.
    unfold vars_full in VF. rewrite <- V0 in VF, WV.
    match goal with |- context [build_projectvars ?m ls] => destruct (vars_total m ls titles _ WV VF) as (kv & Hkv);
       destruct (in_section_total _ TypeError (build_projectvars m ls) _ _ (SubS (s "PROJECTVARS") re) (ex_intro _ _ Hkv)) as (rf & Hf) end.
    cbv zeta in Hf |- *. rewrite Hf. cbn [bind]. eexists. exists rf. split; [reflexivity|]. split; [reflexivity|]. split; [reflexivity|]. split; [reflexivity|]. intros w Hw. apply in_section_ok in Hf. destruct Hf as (_ & _ & _ & _ & _ & Ff).
    rewrite (Ff w Hw). destruct (has (s "PROJECTVARS") re); [reflexivity | apply Sub; exact Hw]. }
  destruct Vt as (n2 & rf & Hv & N1 & N2 & N3 & Fv). rewrite Hv. cbn [bind].
  assert (S5 : sec (s "SCENES") rf = Some kS) by (carry Fv; carry Fe; carry Fd; carry Fc; carry Fb; carry Fa; exact ES).
  assert (S5' : sec (s "CHAPTERS") rf = Some kH) by (carry Fv; carry Fe; carry Fd; carry Fc; carry Fb; carry Fa; exact EH).
  rewrite <- N1 in ND, HS. rewrite <- N2, <- N3 in HH.
  destruct (scenes_total_old n2 kS lS WS ND HS) as (ks & Hks & kf & Hkf).
  destruct (in_section_total (s "SCENES") AttributeError (build_scenes n2) rf kS S5 (ex_intro _ _ Hks)) as (rg & Hg). rewrite Hg. cbn [bind].
  apply in_section_ok in Hg. destruct Hg as (k0 & k1 & G0 & G1 & G2 & Fg). rewrite S5 in G0. injection G0 as <-. rewrite Hks in G1. injection G1 as <-.
  assert (S6 : sec (s "CHAPTERS") rg = Some kH) by (carry Fg; exact S5').
  destruct (in_section_total (s "CHAPTERS") AttributeError (build_chapters n2) rg kH S6 (chapters_total_old n2 kH lH WH HH)) as (rh & Hh). rewrite Hh. cbn [bind].
  apply in_section_ok in Hh. destruct Hh as (_ & _ & _ & _ & _ & Fh).
  assert (S7 : sec (s "SCENES") rh = Some ks) by (carry Fh; exact G2).
  destruct (in_section_total (s "SCENES") TypeError (mapM (finish_scene n2)) rh ks S7 (ex_intro _ _ Hkf)) as (ri & Hi). rewrite Hi. eexists. eexists. reflexivity.
Qed.

Theorem write_succeeds_old : forall ent loc dloc n m, representable n -> tree_wf out_text m -> vars_full m ->
  (has_language (with_langs n) = true -> otruthy (nv_languageCode n) = true \/ locale_pair loc <> None \/ locale_pair dloc <> None) ->
  exists n1 r1 t, write_text ent loc dloc n (Some m) = Ok (n1, r1, t).
Proof.
  intros ent loc dloc n m R W V HLoc. destruct (languages_ok n R) as (lsok & EL & _ & HL). destruct (prepare_shape n) as (ls & sc & kw & Epr & Esc & Els & _). rewrite EL in Els.
  assert (HE : has_language (with_langs n) = has_language (prepare n)).
  { destruct (with_langs_frame n) as (l & El). rewrite Epr. unfold has_language. rewrite EL, El, Els. reflexivity. }
  destruct (tree_total_old loc dloc (prepare n) m W V) as (n1 & r1 & H).
  - rewrite Epr. intros i Hi. destruct (proj2 (re_locations n R) i Hi) as (a & Ha & _). exists a. exact Ha.
  - rewrite Epr. intros i Hi. destruct (proj2 (re_items n R) i Hi) as (a & Ha & _). exists a. exact Ha.
  - rewrite Epr. intros i Hi. destruct (proj2 (re_characters n R) i Hi) as (a & Ha & _). exists a. exact Ha.
  - rewrite Epr. intros i Hi. destruct (proj2 (re_notes n R) i Hi) as (a & Ha & _). exists a. exact Ha.
  - rewrite Epr. intros i Hi. destruct (re_chapters n R) as (_ & K & Hc). change (In i (nv_srtChapters n)) in Hi. rewrite <- K in Hi. apply dget_Some_key in Hi. destruct Hi as (c & E). exists c. split; [exact E | apply (Hc i c E)].
  - rewrite Epr. cbn [nv_scenes set_nv_kw set_nv_scenes]. rewrite Esc. unfold dkeys. rewrite map_map. apply (re_scenes n R).
  - rewrite Epr. cbn [nv_scenes set_nv_kw set_nv_scenes]. rewrite Esc. intros i x Hx. apply in_map_iff in Hx. destruct Hx as ([j y] & E & Hy). cbn [fst snd] in E. injection E as <- <-.
    destruct (re_scenes n R) as [[Nd _] Hsc]. specialize (Hsc j y (In_dget j y _ Nd Hy)). split; [exact (so_type _ _ _ Hsc) | exact (so_start _ _ _ Hsc)].
  - exists lsok. rewrite Epr, Els. reflexivity.
  - rewrite <- HE. intro E. destruct (HLoc E) as [A | A]; [left | right; exact A]. rewrite Epr. exact A.
  - exists n1, r1. unfold write_text, write_tree. rewrite H. eexists. reflexivity.
Qed.
