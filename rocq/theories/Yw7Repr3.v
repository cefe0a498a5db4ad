(** A representable novel comes back from the text of its project file. *)
From Coq Require Import String List NArith ZArith Bool Lia Arith.
From Verif Require Import PyStr PyDict Spec Globals GlobalsProofs NovelModel NovelOps NovelOpsProofs YwTree IsoDate Yw7Build Yw7Read YwTreeProofs Yw7SceneProofs
  Yw7StartProofs Yw7SceneRT Yw7ChapterRT Yw7ElemRT Yw7ListRT Yw7TreeInv Yw7ProjRT Yw7SecRT Yw7TreeRT YwText YwTextProofs SpecYw7 Yw7Clean Yw7Clean2 Yw7Repr Yw7Repr2.
Import ListNotations.

(** ** The prepared novel *)
Definition with_langs (n : novel) : novel := match nv_languages n with None => get_languages n | Some _ => n end.
Lemma prepare_shape : forall n, exists ls sc kw, prepare n = set_nv_kw kw (set_nv_scenes sc (set_nv_languages ls n)) /\
  sc = map (fun p => (fst p, prepare_scene (snd p))) (nv_scenes n) /\ ls = nv_languages (with_langs n) /\
  get_kw (s "Field_LanguageCode") kw = None /\ get_kw (s "Field_CountryCode") kw = None.
Proof.
  intro n. exists (nv_languages (with_langs n)), (map (fun p => (fst p, prepare_scene (snd p))) (nv_scenes n)), (dset (s "Field_CountryCode") None (dset (s "Field_LanguageCode") None (nv_kw n))).
  split; [|split; [reflexivity|]; split; [reflexivity|]; split].
  - unfold prepare, with_langs. destruct (nv_languages n) as [l|] eqn:E; destruct n; cbn in *; [subst; reflexivity | reflexivity].
  - unfold get_kw. rewrite dget_dset_other by discriminate. rewrite dget_dset_same. reflexivity.
  - unfold get_kw. rewrite dget_dset_same. reflexivity.
Qed.

Lemma lang_tags_form : forall t l c, lang_tags t l -> In c l -> ~ In 93%N c /\ ~ In 10%N c.
Proof.
  intros t l c H. induction H as [t Hn | a g b l H1 H2 H3 H IH]; intro Hc; [contradiction|]. destruct Hc as [<- | Hc]; [split; assumption | apply IH; exact Hc].
Qed.

Lemma languages_ok : forall n, representable n -> exists ls, nv_languages (with_langs n) = Some ls /\ NoDup ls /\ forall c, In c ls -> code_text c.
Proof.
  intros n R. pose proof (re_languages n R) as HL. unfold with_langs. destruct (nv_languages n) as [ls|] eqn:E; [exists ls; rewrite E; split; [reflexivity | exact HL]|].
  destruct (get_languages_spec n) as (tagss & HF & ->). exists (first_occ [] (concat tagss)). split; [destruct n; reflexivity|]. split; [apply first_occ_nodup|].
  intros c Hc. apply first_occ_in in Hc. destruct Hc as [Hc _]. apply in_concat in Hc. destruct Hc as (tags & Ht & Hc).
  assert (X : exists x, In x (map snd (nv_scenes n)) /\ match sc_content x with Some t => lang_tags t tags | None => tags = [] end).
  { clear -HF Ht. induction HF as [|x y l l' Hxy HF IH]; [destruct Ht|]. destruct Ht as [<- | Ht]; [exists x; split; [left; reflexivity | exact Hxy]|]. destruct (IH Ht) as (z & Hz & Hz'). exists z. split; [right; exact Hz | exact Hz']. }
  destruct X as (x & Hx & Hx'). apply in_map_iff in Hx. destruct Hx as ([i x'] & <- & Hin). cbn [snd] in *.
  destruct (re_scenes n R) as [[Nd _] Hsc]. assert (Hget : dget i (nv_scenes n) = Some x') by (apply In_dget; assumption).
  destruct (sc_content x') as [t|] eqn:Et; [|subst; destruct Hc]. destruct (lang_tags_form t tags c Hx' Hc) as [F1 F2]. destruct (lang_tags_sound t tags c Hx' Hc) as (a & b & Eab).
  specialize (Hsc i x' Hget). pose proof (so_content _ _ _ Hsc) as Hl. rewrite Et in Hl. cbn [opt_ok] in Hl. destruct Hl as [Hl _].
  repeat split; try assumption.
  - rewrite Eab in Hl. apply Forall_app in Hl. destruct Hl as [_ Hl]. apply Forall_app in Hl. destruct Hl as [_ Hl]. apply Forall_app in Hl. apply Hl.
  - apply (HL i x' t c Hget Et F1). exists a, b. rewrite Eab, <- !app_assoc. reflexivity.
Qed.

Lemma code_line : forall c, code_text c -> line_ok c.
Proof. intros c ((H1 & H2) & _ & H3). split; [exact H1|]. split; assumption. Qed.
Lemma code_lang : forall c, code_text c -> lang_ok out_text c.
Proof.
  intros c H. split; [apply H|]. split; (rewrite out_long by reflexivity; reflexivity).
Qed.

Lemma prepared_texts : forall n, representable n -> novel_texts (prepare n).
Proof.
  intros n R. destruct (languages_ok n R) as (lsok & EL & _ & HL). destruct (prepare_shape n) as (ls & sc & kw & -> & Esc & Els & KL & KC). rewrite EL in Els.
  pose proof (listed_texts _ _ _ _ (re_locations n R) world_ok_texts) as QL. pose proof (listed_texts _ _ _ _ (re_items n R) world_ok_texts) as QI.
  pose proof (listed_texts _ _ _ _ (re_characters n R) character_ok_texts) as QC. pose proof (listed_texts _ _ _ _ (re_notes n R) note_ok_texts) as QN.
  destruct R. constructor; cbn [set_nv_kw set_nv_scenes set_nv_languages nv_title nv_desc nv_authorName nv_authorBio nv_fieldTitle1 nv_fieldTitle2 nv_fieldTitle3 nv_fieldTitle4 nv_kw
    nv_srtLocations nv_locations nv_srtItems nv_items nv_srtCharacters nv_characters nv_srtPrjNotes nv_projectNotes nv_scenes nv_chapters nv_srtChapters nv_languages];
    try (apply text_long; [reflexivity | assumption]); try assumption.
  - intros f [<- | [<- | []]]; unfold kw_text; [rewrite KL | rewrite KC]; exact I.
  - destruct re_scenes as [[Nd Hid] Hsc]. subst sc. split.
    + intros i Hi. apply id_plain, Hid. unfold dkeys in *. rewrite map_map in Hi. exact Hi.
    + intros i x Hx. apply in_map_iff in Hx. destruct Hx as ([j y] & E & Hy). cbn [fst snd] in E. injection E as <- <-. eapply scene_ok_texts. apply (Hsc j). apply In_dget; assumption.
  - destruct re_chapters as ([Nd Hid] & _ & Hch). split; [intros i Hi; apply id_plain, Hid; exact Hi|]. intros i c Hc _. eapply chapter_ok_texts. apply (Hch i c Hc).
  - intros l c El Hc. rewrite Els in El. injection El as <-. apply code_line. apply HL. exact Hc.
Qed.

Lemma dget_prepared : forall i (d : dict scene), dget i (map (fun p => (fst p, prepare_scene (snd p))) d) = option_map prepare_scene (dget i d).
Proof. intros. apply dget_map. Qed.

Lemma prepared_storable : forall n, representable n -> storable out_text (prepare n).
Proof.
  intros n R. destruct (languages_ok n R) as (lsok & EL & _ & HL). destruct (prepare_shape n) as (ls & sc & kw & -> & Esc & Els & KL & KC). rewrite EL in Els.
  destruct R. constructor; cbn [set_nv_kw set_nv_scenes set_nv_languages nv_srtLocations nv_locations nv_srtItems nv_items nv_srtCharacters nv_characters nv_srtPrjNotes nv_projectNotes nv_scenes nv_chapters nv_srtChapters nv_languages].
  - apply ids_text_ok. apply re_locations.
  - apply ids_text_ok. apply re_items.
  - apply ids_text_ok. apply re_characters.
  - apply ids_text_ok. apply re_notes.
  - apply ids_text_ok. subst sc. unfold dkeys. rewrite map_map. apply re_scenes.
  - apply ids_text_ok. apply re_chapters.
  - intros i x Hx. subst sc. rewrite dget_prepared in Hx. destruct (dget i (nv_scenes n)) as [y|] eqn:E; [|discriminate]. injection Hx as <-. eapply scene_ok_good. apply (proj2 re_scenes i y E).
  - intros i c Hc. eapply chapter_ok_good. apply (proj2 (proj2 re_chapters) i c Hc).
  - intros l c El Hc. rewrite Els in El. injection El as <-. apply code_lang. apply HL. exact Hc.
  - intros i c Hi Hc Ht j x Hj Hx. subst sc. cbn [nv_scenes set_nv_scenes set_nv_kw] in Hx. rewrite dget_prepared in Hx. destruct (dget j (nv_scenes n)) as [y|] eqn:E; [|discriminate]. injection Hx as <-.
    exact (re_types i c Hc Ht j y Hj E).
Qed.

(** ** The new tree *)
Lemma new_root_wf : tree_wf out_text new_root.
Proof.
  assert (NoF : forall ns, fields_wf ns []) by (intro ns; split; [left; reflexivity | intros F HF; discriminate HF]).
  constructor.
  - exists []. split; [reflexivity|]. split; [intros t Ht; left; reflexivity | apply NoF].
  - exists []. split; [reflexivity | intros e []].
  - exists []. split; [reflexivity | intros e []].
  - exists []. split; [reflexivity | intros e []].
  - split; [right; eexists; reflexivity | intros e []].
  - exists []. constructor.
  - exists [], []. split; [reflexivity|]. split; [split; [reflexivity|]; split; constructor | constructor].
  - exists [], []. split; [reflexivity|]. split; [split; [reflexivity|]; split; constructor | constructor].
Qed.
Lemma new_root_clean : kc new_root.
Proof. unfold new_root. repeat (constructor; [constructor; [reflexivity | exact I | left; reflexivity | constructor]|]). constructor. Qed.
Lemma new_root_settled : Forall2 (settled out_text) new_root new_root.
Proof. unfold new_root, leaf. cbn [map]. repeat (constructor; [constructor|]). constructor. Qed.
Lemma new_root_read : forall ext, exists n0, read_tree ext new_root new_novel = Ok n0 /\ nv_scenes n0 = [] /\ nv_chapters n0 = [] /\ nv_languages n0 = None /\
  nv_title n0 = None /\ nv_desc n0 = None /\ nv_authorName n0 = None /\ nv_authorBio n0 = None /\ nv_fieldTitle1 n0 = None /\ nv_fieldTitle2 n0 = None /\ nv_fieldTitle3 n0 = None /\ nv_fieldTitle4 n0 = None /\
  nv_wordTarget n0 = None /\ nv_wordCountStart n0 = None.
Proof. intro ext. eexists. split; [vm_compute; reflexivity|]. repeat split. Qed.

Lemma locale_ok : forall loc, locale_text loc -> locale_codes_ok loc.
Proof.
  intros [v|] H a b E; [|discriminate]. destruct H as [[H1 H2] H3]. unfold locale_pair in E. change (s "_") with [95%N] in E. rewrite split_splitc in E.
  pose proof (join_splitc 95 v) as J. destruct (splitc 95 v) as [|a' [|b' [|? ?]]]; try discriminate. injection E as -> ->. cbn [join] in J. subst v.
  rewrite !in_app_iff in H2, H3. apply Forall_app in H1. destruct H1 as [H1 H1']. apply Forall_app in H1'. destruct H1' as [_ H1']. split; (split; [assumption|]; split; intro E; tauto).
Qed.

(** ** Reading back *)
Lemma build_tree_new : forall loc dloc n, build_tree loc dloc n None = build_tree loc dloc n (Some new_root).
Proof. reflexivity. Qed.

Definition locale_same (n n1 n' : novel) : Prop :=
  same_list (nv_languages (with_langs n)) (nv_languages n') /\
  (has_language (with_langs n) = true -> same_text (nv_languageCode n1) (nv_languageCode n') /\ same_text (nv_countryCode n1) (nv_countryCode n')).

Lemma get_languages_frame : forall n, exists l, get_languages n = set_nv_languages l n.
Proof. intro n. eexists. reflexivity. Qed.
Lemma with_langs_frame : forall n, exists l, with_langs n = set_nv_languages l n.
Proof. intro n. unfold with_langs. destruct (nv_languages n) as [l|] eqn:E; [exists (Some l); destruct n; cbn in *; subst; reflexivity | apply get_languages_frame]. Qed.

Theorem representable_roundtrip : forall ent ext loc dloc n n1 r1 t,
  representable n -> locale_text loc -> locale_text dloc -> write_text ent loc dloc n None = Ok (n1, r1, t) ->
  (kc r1 /\ tree_wf out_text r1) /\ exists n', read_text ext t new_novel = Ok n' /\ same_story n n' /\ same_world_data n n' /\ locale_same n n1 n' /\
    forall i y, dget i (nv_scenes n') = Some y -> sc_items y = None.
Proof.
  intros ent ext loc dloc n n1 r1 t R L1 L2 Hw. unfold write_text in Hw. apply bind_ok in Hw. destruct Hw as ([n1' r1'] & Hw & E). cbn [fst snd] in E. injection E as -> -> <-.
  unfold write_tree in Hw. rewrite build_tree_new in Hw.
  assert (K : kc r1).
  { refine (build_tree_clean loc dloc (prepare n) new_root n1 r1 (locale_ok _ L1) (locale_ok _ L2) _ _ (prepared_texts n R) new_root_clean _ Hw).
    - destruct (prepare_shape n) as (ls & sc & kw & -> & _). apply text_long; [reflexivity | exact (re_code n R)].
    - destruct (prepare_shape n) as (ls & sc & kw & -> & _). apply text_long; [reflexivity | exact (re_country n R)].
    - intros k E. injection E as <-. intros e []. }
  destruct (file_parses ent (match nv_chapters n with [] => true | _ => false end) r1 K) as (root & Hp & Hs & _).
  destruct (new_root_read ext) as (n0 & Hn0 & Z).
  assert (KW : get_kw (s "Field_LanguageCode") (nv_kw (prepare n)) = None /\ get_kw (s "Field_CountryCode") (nv_kw (prepare n)) = None).
  { destruct (prepare_shape n) as (ls & sc & kw & -> & _ & _ & K1 & K2). split; assumption. }
  destruct (tree_roundtrip out_text oc_None oc_nil oc_safe ext loc dloc (prepare n) new_root new_root n0 n1 r1 (e_kids root) new_root_wf (settled_old out_text _ _ new_root_settled) Hn0 (prepared_storable n R) (proj1 KW) (proj2 KW) Hw Hs) as (W & n' & Hr & S).
  split; [split; assumption|]. exists n'. split; [unfold read_text; rewrite Hp; exact Hr|].
  destruct (languages_ok n R) as (lsok & EL & _ & HL). destruct (prepare_shape n) as (ls & sc & kw & Epr & Esc & Els & _). rewrite EL in Els.
  destruct Z as (Z1 & Z2 & Z3 & Z4 & Z5 & Z6 & Z7 & Z8 & Z9 & Z10 & Z11 & Z12 & Z13).
  destruct S. rewrite Z1, Z2, Z3, Z4, Z5, Z6, Z7, Z8, Z9, Z10, Z11, Z12, Z13 in *. rewrite Epr in *.
  cbn [set_nv_kw set_nv_scenes set_nv_languages nv_title nv_desc nv_authorName nv_authorBio nv_fieldTitle1 nv_fieldTitle2 nv_fieldTitle3 nv_fieldTitle4 nv_kw nv_wordTarget nv_wordCountStart
    nv_srtLocations nv_locations nv_srtItems nv_items nv_srtCharacters nv_characters nv_srtPrjNotes nv_projectNotes nv_scenes nv_chapters nv_srtChapters nv_languages] in *.
  split; [|split; [|split]].
  4: { intros i y Hy. rewrite sv_scenes in Hy. clear -Hy. induction sc as [|[j z] d IH]; [discriminate|]. cbn [map dget fst snd] in Hy.
       destruct (str_eqb i j); [injection Hy as <-; reflexivity | apply IH; exact Hy]. }
  - constructor.
    + rewrite sv_scenes, Esc. unfold dkeys. rewrite !map_map. reflexivity.
    + intros i x Hx. rewrite sv_scenes. exists (custom_vars (merged_scene out_text (nv_srtCharacters n) (nv_srtLocations n) (prepare_scene x) blank_scene)).
      split; [|apply scene_same; apply (proj2 (re_scenes n R) i x Hx)].
      rewrite Esc. clear -Hx. induction (nv_scenes n) as [|[j y] d IH]; [discriminate|]. cbn [map dget fst snd] in *. destruct (str_eqb i j) eqn:E; [injection Hx as ->; reflexivity | apply IH; exact Hx].
    + destruct sv_srtChapters as [C1 C2]. split; [exact C1|]. split; [exact C2|]. intros i Hi. destruct (sv_chapters i Hi) as (c & Hc & Hd). exists c. eexists. split; [exact Hc|]. split; [exact Hd|].
      cbn [or_else dget]. rewrite (merged_chapter_keys out_text sc (nv_scenes n)) by (rewrite Esc; unfold dkeys; rewrite map_map; reflexivity). apply chapter_same. apply (proj2 (proj2 (re_chapters n R)) i c Hc).
  - constructor.
    + rewrite sv_title. apply keep_long. reflexivity.
    + rewrite sv_desc. apply keep_long. reflexivity.
    + rewrite sv_author. apply keep_long. reflexivity.
    + rewrite sv_bio. apply keep_long. reflexivity.
    + rewrite sv_f1, sv_f2, sv_f3, sv_f4. repeat split; apply keep_long; reflexivity.
    + rewrite sv_target. destruct (nv_wordTarget n); reflexivity.
    + rewrite sv_start. destruct (nv_wordCountStart n); reflexivity.
    + exact (listing_same _ _ _ _ _ _ _ (re_locations n R) world_same sv_locations).
    + exact (listing_same _ _ _ _ _ _ _ (re_items n R) world_same sv_items).
    + exact (listing_same _ _ _ _ _ _ _ (re_characters n R) character_same sv_characters).
    + exact (listing_same _ _ _ _ _ _ _ (re_notes n R) note_same sv_notes).
  - subst ls. unfold locale_same. rewrite EL.
    destruct (with_langs_frame n) as (l & El). assert (HE : has_language (with_langs n) = has_language (set_nv_kw kw (set_nv_scenes sc (set_nv_languages (Some lsok) n)))).
    { unfold has_language. rewrite EL. rewrite El. reflexivity. }
    rewrite HE. destruct (has_language (set_nv_kw kw (set_nv_scenes sc (set_nv_languages (Some lsok) n)))) eqn:Hh.
    + destruct (sv_langs eq_refl) as (A1 & A2 & ls & E1 & A3). injection E1 as <-. split.
      * rewrite A3. cbn [refs_in fold_left app]. destruct lsok; reflexivity.
      * intros _. rewrite A1, A2. split; apply same_long; reflexivity.
    + split; [|discriminate]. rewrite (sv_nolangs eq_refl). unfold has_language in Hh. cbn [nv_languages set_nv_kw set_nv_scenes set_nv_languages] in Hh. destruct lsok; [reflexivity | discriminate Hh].
Qed.
