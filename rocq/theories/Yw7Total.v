(** Writing a representable novel to a new project succeeds. *)
From Coq Require Import String List NArith ZArith Bool Lia Arith.
From Verif Require Import PyStr PyDict Spec Globals GlobalsProofs NovelModel NovelOps NovelOpsProofs YwTree IsoDate Yw7Build Yw7Read YwTreeProofs Yw7SceneProofs
  Yw7StartProofs Yw7SceneRT Yw7ChapterRT Yw7ElemRT Yw7ListRT Yw7TreeInv Yw7ProjRT Yw7SecRT Yw7TreeRT YwText YwTextProofs SpecYw7 Yw7Clean Yw7Clean2 Yw7Repr Yw7Repr2 Yw7Repr3.
Import ListNotations.

Lemma mapM_total : forall {A B} (f : A -> res B) l, (forall a, In a l -> exists b, f a = Ok b) -> exists l1, mapM f l = Ok l1.
Proof.
  intros A B f l. induction l as [|a l IH]; intro H; [exists []; reflexivity|]. cbn [mapM]. destruct (H a (or_introl eq_refl)) as (b & ->).
  destruct IH as (l1 & ->); [intros x Hx; apply H; right; exact Hx|]. exists (b :: l1). reflexivity.
Qed.

Lemma in_section_total : forall t x f r k, sec t r = Some k -> (exists k1, f k = Ok k1) -> exists r1, in_section t x f r = Ok r1.
Proof.
  intros t x f r k H (k1 & Hk). unfold in_section, sec in *. destruct (find t r) as [e|]; [|discriminate]. injection H as <-. rewrite Hk. eexists. reflexivity.
Qed.

Lemma rebuild_total : forall {A} t (bd : A -> list elem -> list elem) ids d k, (forall i, In i ids -> exists a, dget i d = Some a) -> exists k1, rebuild t bd ids d k = Ok k1.
Proof.
  intros A t bd ids d k H. unfold rebuild. destruct (mapM_total (fun i => do a <- dindex i d; Ok (element_with_id t i (bd a))) ids) as (l & ->).
  - intros i Hi. destruct (H i Hi) as (a & Ha). unfold dindex. rewrite Ha. eexists. reflexivity.
  - eexists. reflexivity.
Qed.

Lemma start_total : forall d t y k, start_text d t y -> exists k1, build_scene_start d t y k = Ok k1.
Proof.
  intros d t y k H. destruct H as [d t Hd Ht | y t Hy Ht | y Hy | t Ht |].
  - unfold build_scene_start. repeat match goal with |- context [if ?b then _ else _] => destruct b end; eexists; reflexivity.
  - unfold build_scene_start. destruct (negb _ && negb _); [eexists; reflexivity|]. destruct Ht as (h & m & -> & H1 & H2 & H3 & H4).
    change (s ":") with [58%N]. rewrite split_splitc. change (h ++ [58%N] ++ m ++ s ":00") with (h ++ 58%N :: m ++ 58%N :: s "00").
    rewrite splitc_app_sep. rewrite splitc_app_sep. eexists. reflexivity.
    + intro E. apply (all_digits_in m) in E; [discriminate E | exact H4].
    + intro E. apply (all_digits_in h) in E; [discriminate E | exact H3].
  - unfold build_scene_start. destruct (negb _ && negb _); eexists; reflexivity.
  - unfold build_scene_start. destruct (negb _ && negb _); [eexists; reflexivity|]. destruct Ht as (h & m & -> & H1 & H2 & H3 & H4).
    change (s ":") with [58%N]. rewrite split_splitc. change (h ++ [58%N] ++ m ++ s ":00") with (h ++ 58%N :: m ++ 58%N :: s "00").
    rewrite splitc_app_sep. rewrite splitc_app_sep. eexists. reflexivity.
    + intro E. apply (all_digits_in m) in E; [discriminate E | exact H4].
    + intro E. apply (all_digits_in h) in E; [discriminate E | exact H3].
  - eexists. reflexivity.
Qed.

Lemma type_cases : forall t, (t <= 3)%N -> t = 0%N \/ t = 1%N \/ t = 2%N \/ t = 3%N.
Proof. intros t H. lia. Qed.

Lemma scene_total : forall x k, (number (sc_type x) <= 3)%N -> start_text (sc_date x) (sc_time x) (sc_day x) -> exists k1, build_scene x k = Ok k1.
Proof.
  intros x k Ht Hs. unfold build_scene. assert (T : exists p, scene_type_code (type_or_0 (sc_type x)) = Ok p).
  { change (type_or_0 (sc_type x)) with (number (sc_type x)). destruct (type_cases _ Ht) as [-> | [-> | [-> | ->]]]; eexists; reflexivity. }
  destruct T as (p & ->). cbn [bind].
  match goal with |- exists k1, bind (build_scene_start _ _ _ ?K) _ = _ => destruct (start_total _ _ _ K Hs) as (k2 & ->) end. eexists. reflexivity.
Qed.
Lemma chapter_total : forall c k, (number (ch_type c) <= 3)%N -> exists k1, build_chapter c k = Ok k1.
Proof.
  intros c k Ht. unfold build_chapter. change (type_or_0 (ch_type c)) with (number (ch_type c)).
  assert (T : exists u a b, chapter_type_code (number (ch_type c)) = Ok (u, (a, b))) by (destruct (type_cases _ Ht) as [-> | [-> | [-> | ->]]]; repeat eexists).
  destruct T as (u & a & b & ->). cbn [bind]. destruct (set_element (s "Desc") (ch_desc c) (set_element (s "Title") (ch_title c) (k, 1))) as [k2 i2]. cbv zeta.
  repeat match goal with |- context [let (_, _) := ?u in _] => destruct u end. eexists. reflexivity.
Qed.

Lemma scene_content_there : forall x k k1, build_scene x k = Ok k1 -> has (s "SceneContent") k1 = true.
Proof.
  intros x k k1 H. rewrite has_findall, (build_scene_content x k k1 H). destruct (findall (s "SceneContent") k); reflexivity.
Qed.

Lemma scenes_total : forall n, NoDup (dkeys (nv_scenes n)) ->
  (forall i x, In (i, x) (nv_scenes n) -> (number (sc_type x) <= 3)%N /\ start_text (sc_date x) (sc_time x) (sc_day x)) ->
  exists k1, build_scenes n [] = Ok k1 /\ exists k2, mapM (finish_scene n) k1 = Ok k2.
Proof.
  intros n ND HS. unfold build_scenes. cbn [save_elems findall filter foldM bind].
  destruct (mapM_total (fun p => renew (s "SCENE") build_scene [] (fst p) (snd p)) (nv_scenes n)) as (new & Hm).
  { intros [i x] Hin. unfold renew. cbn [dget fst snd e_kids]. destruct (HS i x Hin) as [H1 H2]. destruct (scene_total x [leaf (s "ID") (Some i)] H1 H2) as (k1 & ->). eexists. reflexivity. }
  change (save_elems (s "SCENE") []) with (@Ok (dict elem) []). cbn [bind]. rewrite Hm. cbn [bind filter app]. eexists. split; [reflexivity|].
  apply mapM_total. intros e He. apply mapM_Forall2 in Hm. 
  assert (X : exists i x, In (i, x) (nv_scenes n) /\ renew (s "SCENE") build_scene [] i x = Ok e).
  { clear -Hm He. induction Hm as [|[i x] y l l' Hxy Hm IH]; [destruct He|]. destruct He as [<- | He]; [exists i, x; split; [left; reflexivity | exact Hxy]|].
    destruct (IH He) as (i' & x' & H1 & H2). exists i', x'. split; [right; exact H1 | exact H2]. }
  destruct X as (i & x & Hin & Hr). unfold renew in Hr. cbn [dget e_kids] in Hr. apply bind_ok in Hr. destruct Hr as (kb & Hb & Hr). injection Hr as <-.
  unfold finish_scene. cbn [with_kids e_kids]. destruct (build_scene_id _ _ _ None Hb) as [_ E]. rewrite find_findall, E. change (findall (s "ID") [leaf (s "ID") (Some i)]) with [leaf (s "ID") (Some i)].
  cbn [hd_error leaf e_text]. unfold dindex. rewrite (In_dget i x (nv_scenes n) ND Hin). cbn [bind].
  destruct (sc_content x); [rewrite (scene_content_there x _ _ Hb)|]; eexists; reflexivity.
Qed.

Lemma chapters_total : forall n, (forall i, In i (nv_srtChapters n) -> exists a, dget i (nv_chapters n) = Some a /\ (number (ch_type a) <= 3)%N) ->
  exists k1, build_chapters n [] = Ok k1.
Proof.
  intros n H. unfold build_chapters. change (save_elems (s "CHAPTER") []) with (@Ok (dict elem) []). cbn [bind].
  destruct (mapM_total (fun i => do c <- dindex i (nv_chapters n); renew (s "CHAPTER") build_chapter [] i c) (nv_srtChapters n)) as (new & ->).
  { intros i Hi. destruct (H i Hi) as (c & Hc & Ht). unfold dindex. rewrite Hc. cbn [bind]. unfold renew. cbn [dget e_kids]. destruct (chapter_total c [leaf (s "ID") (Some i)] Ht) as (k1 & ->). eexists. reflexivity. }
  eexists. reflexivity.
Qed.

Lemma sec_find : forall t r r', find t r' = find t r -> sec t r' = sec t r.
Proof. intros t r r' H. unfold sec. rewrite H. reflexivity. Qed.

Theorem tree_total : forall loc dloc n, 
  (forall i, In i (nv_srtLocations n) -> exists a, dget i (nv_locations n) = Some a) ->
  (forall i, In i (nv_srtItems n) -> exists a, dget i (nv_items n) = Some a) ->
  (forall i, In i (nv_srtCharacters n) -> exists a, dget i (nv_characters n) = Some a) ->
  (forall i, In i (nv_srtPrjNotes n) -> exists a, dget i (nv_projectNotes n) = Some a) ->
  (forall i, In i (nv_srtChapters n) -> exists a, dget i (nv_chapters n) = Some a /\ (number (ch_type a) <= 3)%N) ->
  NoDup (dkeys (nv_scenes n)) ->
  (forall i x, In (i, x) (nv_scenes n) -> (number (sc_type x) <= 3)%N /\ start_text (sc_date x) (sc_time x) (sc_day x)) ->
  (exists ls, nv_languages n = Some ls) ->
  (has_language n = true -> otruthy (nv_languageCode n) = true \/ locale_pair loc <> None \/ locale_pair dloc <> None) ->
  exists n1 r1, build_tree loc dloc n None = Ok (n1, r1).
Proof.
  intros loc dloc n HL HI HC HN HH ND HS (ls & HLs) HLoc. rewrite build_tree_new. unfold build_tree.
  destruct (in_section_total (s "PROJECT") TypeError (fun k => Ok (build_project n k)) new_root [] eq_refl (ex_intro _ _ eq_refl)) as (ra & Ha). rewrite Ha. cbn [bind].
  apply in_section_ok in Ha. destruct Ha as (_ & _ & _ & _ & _ & Fa).
  assert (S1 : sec (s "LOCATIONS") ra = Some []) by (rewrite (sec_find _ _ _ (Fa (s "LOCATIONS") eq_refl)); reflexivity).
  destruct (in_section_total (s "LOCATIONS") AttributeError (rebuild (s "LOCATION") (build_world LOC_KWVAR) (nv_srtLocations n) (nv_locations n)) ra [] S1 (rebuild_total _ _ _ _ _ HL)) as (rb & Hb). rewrite Hb. cbn [bind].
  apply in_section_ok in Hb. destruct Hb as (_ & _ & _ & _ & _ & Fb).
  assert (S2 : sec (s "ITEMS") rb = Some []) by (rewrite (sec_find _ _ _ (Fb (s "ITEMS") eq_refl)), (sec_find _ _ _ (Fa (s "ITEMS") eq_refl)); reflexivity).
  destruct (in_section_total (s "ITEMS") AttributeError (rebuild (s "ITEM") (build_world ITM_KWVAR) (nv_srtItems n) (nv_items n)) rb [] S2 (rebuild_total _ _ _ _ _ HI)) as (rc & Hc). rewrite Hc. cbn [bind].
  apply in_section_ok in Hc. destruct Hc as (_ & _ & _ & _ & _ & Fc).
  assert (S3 : sec (s "CHARACTERS") rc = Some []) by (rewrite (sec_find _ _ _ (Fc (s "CHARACTERS") eq_refl)), (sec_find _ _ _ (Fb (s "CHARACTERS") eq_refl)), (sec_find _ _ _ (Fa (s "CHARACTERS") eq_refl)); reflexivity).
  destruct (in_section_total (s "CHARACTERS") AttributeError (rebuild (s "CHARACTER") build_character (nv_srtCharacters n) (nv_characters n)) rc [] S3 (rebuild_total _ _ _ _ _ HC)) as (rd & Hd). rewrite Hd. cbn [bind].
  apply in_section_ok in Hd. destruct Hd as (_ & _ & _ & _ & _ & Fd).
  assert (S4 : sec (s "SCENES") rd = Some [] /\ sec (s "CHAPTERS") rd = Some []).
  { split.
    - rewrite (sec_find _ _ _ (Fd (s "SCENES") eq_refl)), (sec_find _ _ _ (Fc (s "SCENES") eq_refl)), (sec_find _ _ _ (Fb (s "SCENES") eq_refl)), (sec_find _ _ _ (Fa (s "SCENES") eq_refl)); reflexivity.
    - rewrite (sec_find _ _ _ (Fd (s "CHAPTERS") eq_refl)), (sec_find _ _ _ (Fc (s "CHAPTERS") eq_refl)), (sec_find _ _ _ (Fb (s "CHAPTERS") eq_refl)), (sec_find _ _ _ (Fa (s "CHAPTERS") eq_refl)); reflexivity. }
  assert (Sub : forall t u r, str_eqb u t = false -> find u (sub t None r) = find u r).
  { intros t u r Hu. rewrite !find_findall, !findall_filt, filt_sub; [reflexivity | rewrite str_eqb_sym; exact Hu]. }
  assert (SubS : forall t r, exists k, sec t (if has t r then r else sub t None r) = Some k).
  { intros t r. unfold sec, has. destruct (find t r) as [e|] eqn:E; [rewrite E; eexists; reflexivity|]. rewrite find_findall, findall_sub. rewrite find_findall in E. destruct (findall t r); [eexists; reflexivity | discriminate]. }
  assert (Nt : exists re, build_notes n rd = Ok re /\ forall u, str_eqb u (s "PROJECTNOTES") = false -> find u re = find u rd).
  { unfold build_notes. destruct (nv_srtPrjNotes n) as [|i l] eqn:En.
    - eexists. split; [reflexivity|]. intros u Hu. rewrite !find_findall, !findall_filt, filt_remove; [reflexivity | rewrite str_eqb_sym; exact Hu].
    - destruct (SubS (s "PROJECTNOTES") rd) as (k & Hk). destruct (in_section_total _ AttributeError (rebuild (s "PROJECTNOTE") build_note (i :: l) (nv_projectNotes n)) _ k Hk (rebuild_total _ _ _ _ _ HN)) as (re & He).
      exists re. split; [exact He|]. intros u Hu. apply in_section_ok in He. destruct He as (_ & _ & _ & _ & _ & Fe). rewrite Fe by exact Hu. destruct (has (s "PROJECTNOTES") rd); [reflexivity | apply Sub; exact Hu]. }
  destruct Nt as (re & He & Fe). rewrite He. cbn [bind].
  assert (V0 : sec (s "PROJECTVARS") re = None).
  { rewrite (sec_find _ _ _ (Fe (s "PROJECTVARS") eq_refl)), (sec_find _ _ _ (Fd (s "PROJECTVARS") eq_refl)), (sec_find _ _ _ (Fc (s "PROJECTVARS") eq_refl)), (sec_find _ _ _ (Fb (s "PROJECTVARS") eq_refl)), (sec_find _ _ _ (Fa (s "PROJECTVARS") eq_refl)). reflexivity. }
  match goal with |- exists n1 r1, bind ?u _ = _ => assert (Vt : exists n2 rf, u = Ok (n2, rf) /\ nv_scenes n2 = nv_scenes n /\ nv_chapters n2 = nv_chapters n /\ nv_srtChapters n2 = nv_srtChapters n /\
     forall w, str_eqb w (s "PROJECTVARS") = false -> find w rf = find w re) end.
  { destruct (has_language n) eqn:Eh; [|exists n, re; repeat split; reflexivity].
    assert (Cl : exists n2, check_locale loc dloc n = Ok n2).
    { unfold check_locale. destruct (HLoc eq_refl) as [E | [E | E]].
      - rewrite E. cbn [negb]. match goal with |- context [if ?b then Ok n else _] => destruct b end; eexists; reflexivity.
      - destruct (negb (otruthy (nv_languageCode n))); [|match goal with |- context [if ?b then Ok n else _] => destruct b end; eexists; reflexivity]. destruct (locale_pair loc) as [[? ?]|]; [eexists; reflexivity | congruence].
      - destruct (negb (otruthy (nv_languageCode n))); [|match goal with |- context [if ?b then Ok n else _] => destruct b end; eexists; reflexivity].
        destruct (locale_pair loc) as [[? ?]|]; [eexists; reflexivity|]. destruct (locale_pair dloc) as [[? ?]|]; [eexists; reflexivity | congruence]. }
    destruct Cl as (n2 & Cl). rewrite Cl. cbn [bind]. pose proof (check_locale_frame loc dloc n n2 Cl) as Fr. rewrite Fr. cbn [nv_languages set_nv_countryCode set_nv_languageCode]. rewrite HLs.
    assert (Hs0 : has (s "PROJECTVARS") re = false) by (unfold sec, has in *; destruct (find (s "PROJECTVARS") re); [discriminate V0 | reflexivity]). rewrite Hs0.
    assert (Hk : sec (s "PROJECTVARS") (sub (s "PROJECTVARS") None re) = Some []).
    { unfold sec, has in *. rewrite find_findall, findall_sub. rewrite find_findall in Hs0. destruct (findall (s "PROJECTVARS") re); [reflexivity | discriminate Hs0]. }
    destruct (in_section_total _ TypeError (build_projectvars (set_nv_countryCode (nv_countryCode n2) (set_nv_languageCode (nv_languageCode n2) n)) ls) _ [] Hk (ex_intro _ _ eq_refl)) as (rf & Hf).
    match goal with |- exists _ _, bind ?u _ = _ /\ _ => change u with (in_section (s "PROJECTVARS") TypeError (build_projectvars (set_nv_countryCode (nv_countryCode n2) (set_nv_languageCode (nv_languageCode n2) n)) ls) (sub (s "PROJECTVARS") None re)) end.
    rewrite Hf. cbn [bind]. eexists. exists rf. split; [reflexivity|]. split; [reflexivity|]. split; [reflexivity|]. split; [reflexivity|]. intros w Hw. apply in_section_ok in Hf. destruct Hf as (_ & _ & _ & _ & _ & Ff).
    rewrite (Ff w Hw). apply Sub. exact Hw. }
  destruct Vt as (n2 & rf & Hv & N1 & N2 & N3 & Fv). rewrite Hv. cbn [bind].
  assert (S5 : sec (s "SCENES") rf = Some [] /\ sec (s "CHAPTERS") rf = Some []).
  { split; [rewrite (sec_find _ _ _ (Fv (s "SCENES") eq_refl)), (sec_find _ _ _ (Fe (s "SCENES") eq_refl)) | rewrite (sec_find _ _ _ (Fv (s "CHAPTERS") eq_refl)), (sec_find _ _ _ (Fe (s "CHAPTERS") eq_refl))]; apply S4. }
  rewrite <- N1 in ND, HS. rewrite <- N2, <- N3 in HH.
  destruct (scenes_total n2 ND HS) as (ks & Hks & kf & Hkf).
  destruct (in_section_total (s "SCENES") AttributeError (build_scenes n2) rf [] (proj1 S5) (ex_intro _ _ Hks)) as (rg & Hg). rewrite Hg. cbn [bind].
  apply in_section_ok in Hg. destruct Hg as (k0 & k1 & G0 & G1 & G2 & Fg). rewrite (proj1 S5) in G0. injection G0 as <-. rewrite Hks in G1. injection G1 as <-.
  assert (S6 : sec (s "CHAPTERS") rg = Some []) by (rewrite (sec_find _ _ _ (Fg (s "CHAPTERS") eq_refl)); apply S5).
  destruct (in_section_total (s "CHAPTERS") AttributeError (build_chapters n2) rg [] S6 (chapters_total n2 HH)) as (rh & Hh). rewrite Hh. cbn [bind].
  apply in_section_ok in Hh. destruct Hh as (_ & _ & _ & _ & _ & Fh).
  assert (S7 : sec (s "SCENES") rh = Some ks) by (rewrite (sec_find _ _ _ (Fh (s "SCENES") eq_refl)); exact G2).
  destruct (in_section_total (s "SCENES") TypeError (mapM (finish_scene n2)) rh ks S7 (ex_intro _ _ Hkf)) as (ri & Hi). rewrite Hi. eexists. eexists. reflexivity.
Qed.

Theorem write_succeeds : forall ent loc dloc n, representable n ->
  (has_language (with_langs n) = true -> otruthy (nv_languageCode n) = true \/ locale_pair loc <> None \/ locale_pair dloc <> None) ->
  exists n1 r1 t, write_text ent loc dloc n None = Ok (n1, r1, t).
Proof.
  intros ent loc dloc n R HLoc. destruct (languages_ok n R) as (lsok & EL & _ & HL). destruct (prepare_shape n) as (ls & sc & kw & Epr & Esc & Els & _). rewrite EL in Els.
  assert (HE : has_language (with_langs n) = has_language (prepare n)).
  { destruct (with_langs_frame n) as (l & El). rewrite Epr. unfold has_language. rewrite EL, El, Els. reflexivity. }
  destruct (tree_total loc dloc (prepare n)) as (n1 & r1 & H).
  - rewrite Epr. intros i Hi. destruct (proj2 (re_locations n R) i Hi) as (a & Ha & _). exists a. exact Ha.
  - rewrite Epr. intros i Hi. destruct (proj2 (re_items n R) i Hi) as (a & Ha & _). exists a. exact Ha.
  - rewrite Epr. intros i Hi. destruct (proj2 (re_characters n R) i Hi) as (a & Ha & _). exists a. exact Ha.
  - rewrite Epr. intros i Hi. destruct (proj2 (re_notes n R) i Hi) as (a & Ha & _). exists a. exact Ha.
  - rewrite Epr. intros i Hi. destruct (re_chapters n R) as (_ & K & Hc). change (In i (nv_srtChapters n)) in Hi. rewrite <- K in Hi. apply dget_Some_key in Hi. destruct Hi as (c & E). exists c. split; [exact E | apply (Hc i c E)].
  - rewrite Epr. cbn [nv_scenes set_nv_kw set_nv_scenes]. rewrite Esc. unfold dkeys. rewrite map_map. apply (re_scenes n R).
  - rewrite Epr. cbn [nv_scenes set_nv_kw set_nv_scenes]. rewrite Esc. intros i x Hx. apply in_map_iff in Hx. destruct Hx as ([j y] & E & Hy). cbn [fst snd] in E. injection E as <- <-.
    destruct (re_scenes n R) as [[Nd _] Hsc]. specialize (Hsc j y (In_dget j y _ Nd Hy)). split; [exact (so_type _ _ _ Hsc) | exact (so_start _ _ _ Hsc)].
  - exists lsok. rewrite Epr, Els. reflexivity.
  - rewrite <- HE. intro E. destruct (HLoc E) as [A | A]; [left | right; exact A]. rewrite Epr. exact A.
  - exists n1, r1. unfold write_text, write_tree. rewrite H. eexists. reflexivity.
Qed.
