(** Exporting and reading a manuscript: the whole way. *)
From Coq Require Import String List NArith ZArith Bool Lia Arith.
From Verif Require Import SpecExport ManuDoc PyStr PyDict YwText YwTextProofs NovelModel NovelOps OdfXml OdfXmlProofs OdtText SpecOdf SpecFormat SpecManuscript SplitterProofs OdsRoundTrip3 OdtRead Splitter
  Export ManuRead ManuMachine ManuWalk ManuStyles ManuBlocks Manuscript ManuExport.
From Verif Require Import SpecRetext Retext.
Import ListNotations.

(** ** Nothing is split *)
Section Split.
Variable tr : str -> str.
Lemma no_marks : forall l, prefixb (s "#") l = false -> prefixb SCENE_SEPARATOR l = false /\ prefixb CHAPTER_SEPARATOR l = false /\ prefixb PART_SEPARATOR l = false.
Proof. intros [|c l] H; [repeat split|]. unfold SCENE_SEPARATOR, CHAPTER_SEPARATOR, PART_SEPARATOR. cbn in *. rewrite andb_true_r in H. rewrite H. now repeat split. Qed.
Lemma lines_kept : forall i ls n a b c d new cnt fl, Forall (fun l => prefixb (s "#") l = false) ls ->
  foldM (split_line tr i) ls (mkSp n a b c d new true cnt fl) = Ok (mkSp n a b c d (new ++ ls) true cnt fl).
Proof.
  intros i. induction ls as [|l ls IH]; intros n a b c d new cnt fl F; [cbn; now rewrite app_nil_r|]. apply Forall_cons_iff in F as [F1 F2]. destruct (no_marks l F1) as [P1 [P2 P3]].
  cbn [foldM]. unfold split_line at 1. destruct (heading l). rewrite P1, P2, P3. cbn [sp_in negb bind sp_n sp_srtCh sp_chId sp_srtSc sp_scId sp_new sp_cnt sp_split]. rewrite IH by exact F2. now rewrite <- app_assoc.
Qed.
Definition kept (x : scene) : Prop := forall t, sc_content x = Some t -> no_headings t /\ set_sceneContent t x = x.
Lemma scene_kept : forall st i x, dget i (nv_scenes (sp_n st)) = Some x -> kept x ->
  exists st', split_scene tr st i = Ok st' /\ sp_n st' = sp_n st /\ sp_srtCh st' = sp_srtCh st /\ sp_chId st' = sp_chId st /\ sp_srtSc st' = sp_srtSc st ++ [i] /\ sp_split st' = sp_split st.
Proof.
  intros st i x Hx Hk. unfold split_scene. cbn [sp_n sp_srtCh sp_chId sp_srtSc sp_scId sp_new sp_in sp_cnt sp_split]. unfold dindex at 1. rewrite Hx. cbn [bind].
  destruct (sc_content x) as [[|c t]|] eqn:E; [eexists; split; [reflexivity | repeat split] | | eexists; split; [reflexivity | repeat split]].
  destruct (Hk (c :: t) E) as [H1 H2]. rewrite split_splitc. rewrite lines_kept by exact H1. cbn [bind sp_in sp_n sp_scId sp_new app]. unfold put_content, dindex. rewrite Hx. cbn [bind].
  rewrite join_splitc. rewrite H2, dset_same by exact Hx. eexists. split; [reflexivity|]. cbn [sp_n sp_srtCh sp_chId sp_srtSc sp_split]. repeat split. destruct (sp_n st). reflexivity.
Qed.
Lemma scenes_kept : forall ids st, (forall i, In i ids -> exists x, dget i (nv_scenes (sp_n st)) = Some x /\ kept x) ->
  exists st', foldM (split_scene tr) ids st = Ok st' /\ sp_n st' = sp_n st /\ sp_srtCh st' = sp_srtCh st /\ sp_chId st' = sp_chId st /\ sp_srtSc st' = sp_srtSc st ++ ids /\ sp_split st' = sp_split st.
Proof.
  induction ids as [|i ids IH]; intros st H; [exists st; repeat split; now rewrite app_nil_r|]. destruct (H i (or_introl eq_refl)) as [x [Hx Hk]]. destruct (scene_kept st i x Hx Hk) as [s1 [E1 [A1 [A2 [A3 [A4 A5]]]]]].
  destruct (IH s1) as [s2 [E2 [B1 [B2 [B3 [B4 B5]]]]]]; [intros j Hj; rewrite A1; apply H; now right|]. exists s2. cbn [foldM]. rewrite E1. cbn [bind]. split; [exact E2|].
  rewrite B1, B2, B3, B4, B5, A1, A2, A3, A4, A5, <- app_assoc. repeat split.
Qed.
Lemma chapters_kept : forall ids st, (forall k, In k ids -> exists c, dget k (nv_chapters (sp_n st)) = Some c /\ forall i, In i (ch_srtScenes c) -> exists x, dget i (nv_scenes (sp_n st)) = Some x /\ kept x) ->
  exists st', foldM (split_chapter tr) ids st = Ok st' /\ sp_n st' = sp_n st /\ sp_srtCh st' = sp_srtCh st ++ ids /\ sp_split st' = sp_split st.
Proof.
  induction ids as [|k ids IH]; intros st H; [exists st; repeat split; now rewrite app_nil_r|]. destruct (H k (or_introl eq_refl)) as [c [Hc Hs]].
  assert (G : exists s1, split_chapter tr st k = Ok s1 /\ sp_n s1 = sp_n st /\ sp_srtCh s1 = sp_srtCh st ++ [k] /\ sp_split s1 = sp_split st).
  { unfold split_chapter. cbn [sp_n sp_srtCh sp_chId sp_srtSc sp_scId sp_new sp_in sp_cnt sp_split]. unfold dindex at 1. rewrite Hc. cbn [bind].
    match goal with |- context [foldM (split_scene tr) _ ?s0] => destruct (scenes_kept (ch_srtScenes c) s0) as [s1 [E1 [A1 [A2 [A3 [A4 A5]]]]]]; [exact Hs|] end. rewrite E1. cbn [bind].
    cbn [sp_n sp_srtCh sp_chId sp_srtSc sp_split app] in *. unfold put_srtScenes, dindex. rewrite A1, A3, A4, Hc. cbn [bind].
    assert (Ec : set_ch_srtScenes (ch_srtScenes c) c = c) by (destruct c; reflexivity). rewrite Ec, dset_same by exact Hc. eexists. split; [reflexivity|]. cbn [sp_n sp_srtCh sp_split]. rewrite A2, A5. repeat split. destruct (sp_n st). reflexivity. }
  destruct G as [s1 [E1 [A1 [A2 A3]]]]. destruct (IH s1) as [s2 [E2 [B1 [B2 B3]]]]; [intros j Hj; rewrite A1; apply H; now right|]. exists s2. cbn [foldM]. rewrite E1. cbn [bind]. split; [exact E2|].
  rewrite B1, B2, B3, A1, A2, A3, <- app_assoc. repeat split.
Qed.
Theorem nothing_split : forall n, (forall k, In k (nv_srtChapters n) -> exists c, dget k (nv_chapters n) = Some c /\ forall i, In i (ch_srtScenes c) -> exists x, dget i (nv_scenes n) = Some x /\ kept x) ->
  split_scenes tr n = Ok (n, false).
Proof.
  intros n H. unfold split_scenes. destruct (chapters_kept (nv_srtChapters n) (mkSp n [] [] [] [] [] false 0 false) H) as [s1 [E1 [A1 [A2 A3]]]]. rewrite E1. cbn [bind].
  cbn [sp_n sp_srtCh sp_split app] in *. rewrite A1, A2, A3. destruct n. reflexivity.
Qed.
End Split.

(** ** The calls before the text *)
Lemma opening_ok : forall (typ : Typ) n styles title author desc, styles = None \/ styles = Some (nv_languageCode n, nv_countryCode n) ->
  foldM (handle H) (opening_calls styles title author desc) (new_rs (set_nv_languages (Some []) n)) = Ok (new_rs (set_nv_languages (Some []) n)).
Proof.
  intros typ n styles title author desc Hs. unfold opening_calls.
  assert (A : forall cs r, foldM (handle H) cs r = Ok r -> forall ds, foldM (handle H) (cs ++ ds) r = foldM (handle H) ds r) by (intros cs r E ds; rewrite ConfigProofs.foldM_app, E; reflexivity).
  rewrite A. rewrite A. rewrite A.
  - destruct desc as [[|]|]; reflexivity.
  - destruct author as [[|]|]; reflexivity.
  - destruct title as [[|]|]; reflexivity.
  - destruct Hs as [-> | ->]; [reflexivity|]. remember (nv_languageCode n) as l eqn:El. remember (nv_countryCode n) as c eqn:Ec.
    destruct l as [[|]|]; destruct c as [[|]|]; destruct n; cbn in El, Ec; subst; reflexivity.
Qed.

(** ** The whole way *)
Section Whole.
Variables (tr : str -> str) (pn pp : option str) (n : novel).
Notation n0 := (with_languages n).
Notation author := (py_str (nv_authorName n)).
Notation languages := (languages_in n0).
Lemma with_set : exists l, n0 = set_nv_languages (Some l) n.
Proof. unfold with_languages. destruct (nv_languages n) as [l|] eqn:E; [exists l; destruct n; cbn in *; now rewrite E | eexists; reflexivity]. Qed.
Lemma ok_moved : manuscript_ok author languages n -> manuscript_ok (py_str (nv_authorName n0)) languages n0.
Proof.
  destruct with_set as [l E]. intros [A B C D F]. set (L0 := languages) in *. clearbody L0. rewrite E. constructor; [exact A | exact B | exact C | exact D|].
  intros i Hi. destruct (F i Hi) as [F1 [c [F2 [G1 G2 G3]]]]. split; [exact F1|]. exists c. split; [exact F2|]. constructor; [exact G1 | exact G2|].
  intros j Hj. destruct (G3 j Hj) as [H1 [x [H2 [K1 K2 K3]]]]. split; [exact H1|]. exists x. split; [exact H2|]. constructor; [exact K1 | exact K2 | exact K3].
Qed.
Lemma nset_moved : forall ls, nset n0 ls = nset n ls.
Proof. intro ls. destruct with_set as [l ->]. reflexivity. Qed.

Lemma moved_differ : forall ids m, other_texts (fun i => In i ids) n m -> differ ids n0 (set_nv_languages (nv_languages n0) m).
Proof.
  intros ids m H. destruct with_set as [l E]. assert (E2 : set_nv_languages (nv_languages n0) n = n0) by (rewrite E; now destruct n). rewrite <- E2 at 1. now apply other_langs.
Qed.
Lemma document_moved : forall i, in_document n i -> in_document n0 i.
Proof. intros i H. destruct with_set as [l E]. rewrite E. clear - H. destruct n. exact H. Qed.
Lemma typed_moved : forall kind i, in_typed_document kind n i -> in_typed_document kind n0 i.
Proof. intros kind i H. destruct with_set as [l E]. rewrite E. clear - H. destruct n. exact H. Qed.
Lemma scenes_moved : nv_scenes n0 = nv_scenes n.
Proof. destruct with_set as [l E]. rewrite E. now destruct n. Qed.

(** reading back a document that consists of blocks *)
Lemma blocks_read : forall (typ : Typ) body Eb, Forall locale_ok languages -> Forall (Forall (fun c => plain_char c = true)) languages -> frag body Eb ->
  forall (D : str -> Prop) js, (forall i, D i -> In i js) ->
  (forall u R ls todo m, incl ls languages -> differ (js ++ todo) n0 m ->
   exists u' ls' m', incl ls' languages /\ differ todo n0 m' /\ pfeed u (Eb ++ R) (Out (LANG languages) (nset m ls) None) = pfeed u' R (Out (LANG languages) (nset m' ls') None)) ->
  (forall k, In k (nv_srtChapters n) -> exists c, dget k (nv_chapters n) = Some c /\ forall i, In i (ch_srtScenes c) -> exists x, dget i (nv_scenes n) = Some x /\ kept x) ->
  exists es, sax (OdsRoundTrip.DECL ++ ManuDoc.HEAD1 ++ automatic_styles languages ++ ManuDoc.HEAD2 ++ body ++ ManuDoc.FOOT) = Some es /\
  forall m es' styles title name desc, other_texts D n m -> deliver es es' -> styles = None \/ styles = Some (nv_languageCode n, nv_countryCode n) ->
  exists ls, incl ls languages /\ read_formatted tr (manuscript_reader TYPE) (opening_calls styles title name desc) es' m = Ok (set_nv_languages (Some ls) n, false).
Proof.
  intros typ body Eb L0 N0 Fb D js Js W Kp. destruct (all_locales languages L0 N0) as [Cd [Cn _]].
  pose proof (frag_styles languages Cd) as Fs. pose proof (ManuDoc.manuscript_events _ _ _ _ Fs Fb) as S.
  eexists. split; [exact S|]. clear S.
  intros m es' styles title name desc Om Dl Hs. destruct (differ_keeps _ _ _ Om) as [K1 K2]. rewrite <- K1, <- K2 in Hs. unfold read_formatted, feed. fold (@H typ). rewrite (opening_ok typ m styles title name desc Hs). cbn [bind].
  destruct (walk_dull [] E1 [] (styles_events languages ++ ManuDoc.E2 ++ Eb ++ E3) (nset m []) None) as [u1 W1]; [vm_compute; reflexivity | exact I|].
  destruct (styles_walk languages u1 (ManuDoc.E2 ++ Eb ++ E3) (nset m []) Cn) as [u2 W2].
  destruct (walk_dull (learn_styles 1 languages []) ManuDoc.E2 u2 (Eb ++ E3) (nset m []) None) as [u3 W3]; [vm_compute; reflexivity | exact I|].
  assert (Dm : differ (js ++ []) n0 (set_nv_languages (nv_languages n0) m)) by (rewrite app_nil_r; apply moved_differ; apply (other_weaken D); [exact Js | exact Om]).
  destruct (W u3 E3 [] [] _ (incl_nil_l _) Dm) as [u4 [ls [m4 [Hls [D4 W4]]]]]. apply differ_end in D4. subst m4. rewrite nset_moved in W4. change (nset (set_nv_languages (nv_languages n0) m) []) with (nset m []) in W4.
  destruct (walk_dull (LANG languages) E3 u4 [] (nset n ls) None) as [u5 W5]; [vm_compute; reflexivity | exact I|]. rewrite app_nil_r in W5.
  assert (Run : foldM gfeed (merge (E1 ++ styles_events languages ++ ManuDoc.E2 ++ Eb ++ E3)) (norm (new_ps, new_rs (nset m []))) = Ok (Out (LANG languages) (nset n ls) None)).
  { rewrite pfeed_start. change (norm (new_ps, new_rs (nset m []))) with (Out [] (nset m []) None). rewrite W1, W2, W3. unfold LANG in *. rewrite W4, W5, pfeed_end. apply flush_out. exact I. }
  destruct (delivered _ _ Dl _ _ Run) as [st2 [R1 R2]]. unfold nset in R1. rewrite R1. cbn [bind].
  assert (Rn : r_novel (snd st2) = nset n ls) by (change (r_novel (snd st2)) with (r_novel (snd (norm st2))); rewrite R2; reflexivity).
  rewrite Rn. exists ls. split; [exact Hls|]. apply (nothing_split tr (nset n ls)). exact Kp.
Qed.
Theorem round_trip : manuscript_ok author languages n -> NoDup (map fst (nv_scenes n)) ->
  exists doc es, manuscript_text tr pn pp n = Ok doc /\ sax doc = Some es /\
  forall m es' styles title name desc, other_texts (in_document n) n m -> deliver es es' -> styles = None \/ styles = Some (nv_languageCode n, nv_countryCode n) ->
  exists ls, incl ls languages /\ read_formatted tr (manuscript_reader 0) (opening_calls styles title name desc) es' m = Ok (set_nv_languages (Some ls) n, false).
Proof.
  intros M keys. pose proof (ok_moved M) as M0. pose proof M0 as [N0 L0 _ _ _].
  assert (keys0 : NoDup (map fst (nv_scenes n0))) by (rewrite scenes_moved; exact keys).
  destruct (document_text tr pn pp n0 N0 L0 keys0 M0) as [body [Eb [D1 [Fb [js [Js W]]]]]].
  destruct (blocks_read 0%N body Eb L0 (proj1 (proj2 N0)) Fb (in_document n) js (fun i Hi => Js i (document_moved i Hi)) W) as [es [S R]].
  { intros k Hk. destruct M as [_ _ _ _ Ch]. destruct (Ch k Hk) as [_ [c [Hc [_ _ Hsc]]]]. exists c. split; [exact Hc|]. intros i Hi. destruct (Hsc i Hi) as [_ [x [Hx [_ Hx2 _]]]]. exists x. split; [exact Hx | exact Hx2]. }
  eexists. exists es. split; [unfold manuscript_text; exact D1|]. split; [exact S | exact R].
Qed.
End Whole.
