(** Round trip of the whole project tree. *)
From Coq Require Import String List NArith ZArith Bool Lia Arith.
From Verif Require Import PyStr PyDict Globals GlobalsProofs WordCount NovelModel NovelOps YwTree IsoDate Yw7Build Yw7Read YwTreeProofs Yw7SceneProofs Yw7StartProofs Yw7SceneRT Yw7ChapterRT Yw7ElemRT Yw7ListRT Yw7TreeInv Yw7ProjRT Yw7SecRT.
Import ListNotations.

Definition adjust_scs (chs : dict chapter) (srt : list str) (scs : dict scene) : res (dict scene) :=
  foldM (fun scs chId =>
              do c <- dindex chId chs;
              match ch_type c with
              | Some 0%N => Ok scs
              | t => foldM (fun scs scId => do x <- dindex scId scs; Ok (dset scId (set_sc_type t x) scs))
                       (ch_srtScenes c) scs
              end) srt scs.

(** the novel that is read *)
Definition novel_of (P : novel) (pL pI : list str * dict world) (pC : list str * dict character) (pv : pvs) (pN : list str * dict note)
    (scs : dict scene) (pH : list str * dict chapter) : novel :=
  mkNovel (nv_title P) (nv_desc P) (nv_kw P) (nv_authorName P) (nv_authorBio P) (nv_fieldTitle1 P) (nv_fieldTitle2 P) (nv_fieldTitle3 P)
    (nv_fieldTitle4 P) (nv_wordTarget P) (nv_wordCountStart P) (snd pH) (map (fun p => (fst p, custom_vars (snd p))) scs) (snd pv) (fst pH)
    (snd pL) (fst pL) (snd pI) (fst pI) (snd pC) (fst pC) (snd pN) (fst pN) (fst (fst pv)) (snd (fst pv)).

Definition vars_of (r : list elem) (P : novel) : pvs :=
  match sec (s "PROJECTVARS") r with
  | Some k => read_pv k (nv_languageCode P, nv_countryCode P, None) | None => (nv_languageCode P, nv_countryCode P, None) end.
Definition notes_of (r : list elem) : list str * dict note :=
  match sec (s "PROJECTNOTES") r with Some k => read_notes k ([], []) | None => ([], []) end.

Lemma read_list_sec : forall {A} t (rd : list elem -> A) r k d, sec t r = Some k -> read_list t rd r d = read_into rd k ([], d).
Proof. intros A t rd r k d H. unfold read_list, sec in *. destruct (find t r); [injection H as <-; reflexivity | discriminate]. Qed.

Ltac step y := match goal with |- bind ?u _ = bind ?v _ => change v with u; destruct u as [y|]; [cbn [bind] | reflexivity] end.

Lemma read_tree_eq : forall ext r kP kL kI kC kS kH,
  sec (s "PROJECT") r = Some kP -> sec (s "LOCATIONS") r = Some kL -> sec (s "ITEMS") r = Some kI -> sec (s "CHARACTERS") r = Some kC ->
  sec (s "SCENES") r = Some kS -> sec (s "CHAPTERS") r = Some kH ->
  read_tree ext r new_novel =
  (do pL <- read_into (read_world LOC_KWVAR) kL ([], []);
   do pI <- read_into (read_world ITM_KWVAR) kI ([], []);
   do pC <- read_into read_character kC ([], []);
   do scs <- read_section (read_scene ext (fst pC) (fst pL) (fst pI)) kS [];
   do pH <- read_into (read_chapter scs) kH ([], []);
   do scs' <- adjust_scs (snd pH) (fst pH) scs;
   Ok (novel_of (project_novel kP) pL pI pC (vars_of r (project_novel kP)) (notes_of r) scs' pH)).
Proof.
  intros ext r kP kL kI kC kS kH HP HL HI HC HS HH. unfold read_tree. rewrite (read_project_is r kP HP). cbn [bind]. cbv zeta.
  change (nv_locations (project_novel kP)) with ([] : dict world).
  rewrite (read_list_sec _ _ r kL [] HL). step pL.
  match goal with |- bind (read_list (s "ITEMS") _ r ?d) _ = _ => change d with ([] : dict world) end.
  rewrite (read_list_sec _ _ r kI [] HI). step pI.
  match goal with |- bind (read_list (s "CHARACTERS") _ r ?d) _ = _ => change d with ([] : dict character) end.
  rewrite (read_list_sec _ _ r kC [] HC). step pC.
  set (n3 := set_nv_characters (snd pC) _).
  assert (E4 : (match find (s "PROJECTVARS") r with Some e => read_projectvars (e_kids e) n3 | None => n3 end) = set_pv (vars_of r (project_novel kP)) n3).
  { unfold vars_of, sec. destruct (find (s "PROJECTVARS") r) as [e|]; cbn [option_map]; [rewrite (read_projectvars_pv (e_kids e) n3); reflexivity | reflexivity]. }
  rewrite E4. clear E4. set (pv := vars_of r (project_novel kP)). set (n4 := set_pv pv n3).
  assert (E5 : (match find (s "PROJECTNOTES") r with Some e => read_notes (e_kids e) ([], nv_projectNotes n4) | None => ([], nv_projectNotes n4) end) = notes_of r).
  { unfold notes_of, sec. destruct (find (s "PROJECTNOTES") r) as [e|]; reflexivity. }
  rewrite E5. clear E5. set (pN := notes_of r).
  unfold read_scenes. unfold sec in HS. destruct (find (s "SCENES") r) as [eS|]; [|discriminate]. injection HS as HS. rewrite HS.
  match goal with |- bind (bind ?u _) _ = bind ?v _ => change v with u; destruct u as [scs|]; [cbn [bind] | reflexivity] end.
  match goal with |- bind (read_list (s "CHAPTERS") ?rd r ?d) _ = _ => change d with ([] : dict chapter); change rd with (read_chapter scs) end.
  rewrite (read_list_sec _ _ r kH [] HH). step pH.
  unfold adjust_scene_types.
  match goal with |- bind (bind ?u _) _ = bind ?v _ => change u with v; destruct v as [scs'|]; [cbn [bind] | reflexivity] end. reflexivity.
Qed.

(** ** adjust_scene_types *)
Lemma dset_same : forall {A} k (v : A) d, dget k d = Some v -> dset k v d = d.
Proof.
  intros A k v d. induction d as [|[k' v'] d IH]; intro H; [discriminate|]. cbn [dget dset] in *.
  destruct (str_eqb k k') eqn:E; [injection H as ->; apply str_eqb_eq in E; subst; reflexivity | rewrite IH by exact H; reflexivity].
Qed.

Lemma adjust_id : forall chs scs srt,
  (forall i, In i srt -> exists c, dget i chs = Some c /\ (ch_type c = Some 0%N \/
     forall j, In j (ch_srtScenes c) -> exists x, dget j scs = Some x /\ sc_type x = ch_type c)) ->
  adjust_scs chs srt scs = Ok scs.
Proof.
  intros chs scs srt. induction srt as [|i srt IH]; intro H; [reflexivity|]. unfold adjust_scs. cbn [foldM].
  destruct (H i (or_introl eq_refl)) as (c & Hc & Ht). unfold dindex. rewrite Hc. cbn [bind].
  match goal with |- bind ?u _ = _ => assert (E : u = Ok scs) end.
  { destruct Ht as [-> | Ht]; [reflexivity|].
    assert (G : foldM (fun scs scId => do x <- dindex scId scs; Ok (dset scId (set_sc_type (ch_type c) x) scs)) (ch_srtScenes c) scs = Ok scs).
    { revert Ht. generalize (ch_type c) as t. intro t. generalize (ch_srtScenes c) as l. induction l as [|j l IHl]; intro Ht; [reflexivity|]. cbn [foldM].
      destruct (Ht j (or_introl eq_refl)) as (x & Hx & Htx). unfold dindex at 1. rewrite Hx. cbn [bind]. rewrite <- Htx at 1.
      assert (Es : set_sc_type (sc_type x) x = x) by (destruct x; reflexivity). rewrite Es, (dset_same _ _ _ Hx). apply IHl. intros k Hk. apply Ht. right. exact Hk. }
    destruct (ch_type c) as [[|?]|]; [reflexivity | exact G | exact G]. }
  rewrite E. cbn [bind]. apply IH. intros k Hk. apply H. right. exact Hk.
Qed.

Section S.
Variable out : str -> option str -> option str.
Hypothesis out_None : forall t, out t None = None.
Hypothesis out_nil : forall t, out t (Some []) = None.
Hypothesis out_safe : forall t v, safe v -> out t (Some v) = Some v.
Lemma out_language : out (s "Title") (Some (s "Language")) = Some (s "Language").
Proof. apply out_safe. split; [discriminate | reflexivity]. Qed.
Lemma out_country : out (s "Title") (Some (s "Country")) = Some (s "Country").
Proof. apply out_safe. split; [discriminate | reflexivity]. Qed.
Notation R := (Forall2 (settled out)).

(** old scenes that are merged alike *)
Definition sim (a b : scene) : Prop := forall cs ls x, merged_scene out cs ls x a = merged_scene out cs ls x b.
Definition simd (d d' : dict scene) : Prop := forall i, match dget i d, dget i d' with Some a, Some b => sim a b | None, None => True | _, _ => False end.

Lemma simd_refl : forall d, simd d d.
Proof. intros d i. destruct (dget i d); [intros ? ? ?; reflexivity | exact I]. Qed.

Lemma simd_set : forall d d' i x t, simd d d' -> dget i d' = Some x -> simd d (dset i (set_sc_type t x) d').
Proof.
  intros d d' i x t H Hx j. specialize (H j). rewrite dget_dset. destruct (str_eqb j i) eqn:E; [|exact H].
  apply str_eqb_eq in E. subst j. rewrite Hx in H. destruct (dget i d); [|exact H]. intros cs ls y. rewrite H. reflexivity.
Qed.

Lemma adjust_sim : forall chs srt d scs scs', simd d scs -> adjust_scs chs srt scs = Ok scs' -> simd d scs'.
Proof.
  intros chs srt. induction srt as [|i srt IH]; intros d scs scs' H0 H; unfold adjust_scs in *; cbn [foldM] in H; [injection H as <-; exact H0|].
  apply bind_ok in H. destruct H as (scs1 & H1 & H). apply (IH d scs1 scs'); [|exact H].
  apply bind_ok in H1. destruct H1 as (c & Hc & H1).
  assert (G : forall t l scs scs1, simd d scs -> foldM (fun scs scId => do x <- dindex scId scs; Ok (dset scId (set_sc_type t x) scs)) l scs = Ok scs1 -> simd d scs1).
  { clear. intros t l. induction l as [|j l IHl]; intros scs scs1 H0 H; cbn [foldM] in H; [injection H as <-; exact H0|].
    apply bind_ok in H. destruct H as (s2 & H1 & H). apply bind_ok in H1. destruct H1 as (x & Hx & H1). injection H1 as <-.
    apply (IHl _ scs1) in H; [exact H|]. apply simd_set; [exact H0|]. unfold dindex in Hx. destruct (dget j scs); [injection Hx as ->; reflexivity | discriminate]. }
  destruct (ch_type c) as [[|?]|]; [injection H1 as <-; exact H0 | exact (G _ _ _ _ H0 H1) | exact (G _ _ _ _ H0 H1)].
Qed.

Lemma dget_map : forall {A B} (f : A -> B) i (d : dict A), dget i (map (fun p => (fst p, f (snd p))) d) = option_map f (dget i d).
Proof. intros A B f i d. induction d as [|[k v] d IH]; [reflexivity|]. cbn [map dget fst snd]. destruct (str_eqb i k); [reflexivity | exact IH]. Qed.

Lemma custom_sim : forall d scs, simd d scs -> simd d (map (fun p => (fst p, custom_vars (snd p))) scs).
Proof.
  intros d scs H i. specialize (H i). rewrite dget_map. destruct (dget i d), (dget i scs); cbn [option_map]; exact H.
Qed.

Lemma simd_or_else : forall d d' i, simd d d' -> sim (or_else (dget i d) blank_scene) (or_else (dget i d') blank_scene).
Proof. intros d d' i H. specialize (H i). unfold or_else. destruct (dget i d), (dget i d'); try contradiction; [exact H | intros ? ? ?; reflexivity]. Qed.

(** ** Well-formed trees *)
Record tree_wf (r : list elem) : Prop := {
  tw_project : exists k, sec (s "PROJECT") r = Some k /\ project_wf k;
  tw_locations : exists k, sec (s "LOCATIONS") r = Some k /\ only (s "LOCATION") k;
  tw_items : exists k, sec (s "ITEMS") r = Some k /\ only (s "ITEM") k;
  tw_characters : exists k, sec (s "CHARACTERS") r = Some k /\ only (s "CHARACTER") k;
  tw_notes : uniq (s "PROJECTNOTES") r /\ only (s "PROJECTNOTE") (or_nil (sec (s "PROJECTNOTES") r));
  tw_vars : exists titles, vars_wf out (or_nil (sec (s "PROJECTVARS") r)) titles;
  tw_scenes : exists k l, sec (s "SCENES") r = Some k /\ section_ids out (s "SCENE") k l /\ Forall (fun p => scene_wf (e_kids (snd p))) l;
  tw_chapters : exists k l, sec (s "CHAPTERS") r = Some k /\ section_ids out (s "CHAPTER") k l /\ Forall (fun p => chapter_wf (e_kids (snd p))) l
}.

(** ** Novels that can be stored *)
Definition types_agree (n : novel) : Prop := forall i c, In i (nv_srtChapters n) -> dget i (nv_chapters n) = Some c -> type_or_0 (ch_type c) <> 0%N ->
  forall j x, In j (ch_srtScenes c) -> dget j (nv_scenes n) = Some x -> type_or_0 (sc_type x) = type_or_0 (ch_type c).
Definition ids_ok (ids : list str) : Prop := NoDup ids /\ forall i, In i ids -> id_ok out i.
Record storable (n : novel) : Prop := {
  st_locations : ids_ok (nv_srtLocations n);
  st_items : ids_ok (nv_srtItems n);
  st_characters : ids_ok (nv_srtCharacters n);
  st_notes : ids_ok (nv_srtPrjNotes n);
  st_scenes : ids_ok (dkeys (nv_scenes n));
  st_chapters : ids_ok (nv_srtChapters n);
  st_scene : forall i x, dget i (nv_scenes n) = Some x -> scene_good out x;
  st_chapter : forall i c, dget i (nv_chapters n) = Some c -> chapter_good out c;
  st_langs : forall ls c, nv_languages n = Some ls -> In c ls -> lang_ok out c;
  st_types : types_agree n
}.

(** ** What is read back *)
Definition stored_list {A} (st : A -> A) (ids : list str) (d : dict A) (ids' : list str) (d' : dict A) : Prop :=
  ids' = ids /\ dkeys d' = ids /\ forall i, In i ids -> exists a, dget i d = Some a /\ dget i d' = Some (st a).

Record saved (n n1 n0 n' : novel) : Prop := {
  sv_title : nv_title n' = keep out (s "Title") (nv_title n) (nv_title n0);
  sv_desc : nv_desc n' = keep out (s "Desc") (nv_desc n) (nv_desc n0);
  sv_kw : nv_kw n' = map (fun f => (f, None)) PRJ_KWVAR;
  sv_author : nv_authorName n' = keep out (s "AuthorName") (nv_authorName n) (nv_authorName n0);
  sv_bio : nv_authorBio n' = keep out (s "Bio") (nv_authorBio n) (nv_authorBio n0);
  sv_f1 : nv_fieldTitle1 n' = keep out (s "FieldTitle1") (nv_fieldTitle1 n) (nv_fieldTitle1 n0);
  sv_f2 : nv_fieldTitle2 n' = keep out (s "FieldTitle2") (nv_fieldTitle2 n) (nv_fieldTitle2 n0);
  sv_f3 : nv_fieldTitle3 n' = keep out (s "FieldTitle3") (nv_fieldTitle3 n) (nv_fieldTitle3 n0);
  sv_f4 : nv_fieldTitle4 n' = keep out (s "FieldTitle4") (nv_fieldTitle4 n) (nv_fieldTitle4 n0);
  sv_target : nv_wordTarget n' = match nv_wordTarget n with Some z => Some z | None => nv_wordTarget n0 end;
  sv_start : nv_wordCountStart n' = match nv_wordCountStart n with Some z => Some z | None => nv_wordCountStart n0 end;
  sv_locations : stored_list (stored_world out LOC_KWVAR) (nv_srtLocations n) (nv_locations n) (nv_srtLocations n') (nv_locations n');
  sv_items : stored_list (stored_world out ITM_KWVAR) (nv_srtItems n) (nv_items n) (nv_srtItems n') (nv_items n');
  sv_characters : stored_list (stored_character out) (nv_srtCharacters n) (nv_characters n) (nv_srtCharacters n') (nv_characters n');
  sv_notes : stored_list (stored_note out) (nv_srtPrjNotes n) (nv_projectNotes n) (nv_srtPrjNotes n') (nv_projectNotes n');
  sv_scenes : nv_scenes n' = map (fun p => (fst p, custom_vars (merged_scene out (nv_srtCharacters n) (nv_srtLocations n) (snd p)
                 (or_else (dget (fst p) (nv_scenes n0)) blank_scene)))) (nv_scenes n);
  sv_srtChapters : nv_srtChapters n' = nv_srtChapters n /\ dkeys (nv_chapters n') = nv_srtChapters n;
  sv_chapters : forall i, In i (nv_srtChapters n) -> exists c, dget i (nv_chapters n) = Some c /\
       dget i (nv_chapters n') = Some (merged_chapter out (nv_scenes n) c (or_else (dget i (nv_chapters n0)) blank_chapter));
  sv_langs : has_language n = true -> nv_languageCode n' = out (s "Desc") (nv_languageCode n1) /\ nv_countryCode n' = out (s "Desc") (nv_countryCode n1) /\
     exists ls, nv_languages n = Some ls /\ nv_languages n' =
       langs_opt (refs_in (nv_languages n0) ++ fold_left (fun l c => remove_str c l) (refs_in (nv_languages n0)) ls);
  sv_nolangs : has_language n = false -> nv_languages n' = nv_languages n0;
  sv_nocode : has_language n = false -> (nv_languageCode n' = nv_languageCode n0 \/ nv_languageCode n' = None) /\ (nv_countryCode n' = nv_countryCode n0 \/ nv_countryCode n' = None)
}.

(** the codes are either given by the variables or the default *)
Lemma fold_pv_codes : forall l,
  ((forall lc cc ls, fst (fst (fold_left (fun st p => pv_step (fst p) (desc_of out (snd p)) st) l (lc, cc, ls))) = lc) \/
   exists v, forall lc cc ls, fst (fst (fold_left (fun st p => pv_step (fst p) (desc_of out (snd p)) st) l (lc, cc, ls))) = v) /\
  ((forall lc cc ls, snd (fst (fold_left (fun st p => pv_step (fst p) (desc_of out (snd p)) st) l (lc, cc, ls))) = cc) \/
   exists v, forall lc cc ls, snd (fst (fold_left (fun st p => pv_step (fst p) (desc_of out (snd p)) st) l (lc, cc, ls))) = v).
Proof.
  induction l as [|[t e] l [IH1 IH2]]; [split; left; reflexivity|]. cbn [fold_left fst snd]. unfold pv_step at 2 4 6 8.
  destruct (str_eqb t (s "Language")).
  - split.
    + destruct IH1 as [IH1 | (v & IH1)]; [|right; exists v; intros; apply IH1]. destruct (desc_of out e) as [d|]; [right; exists d | left]; intros; rewrite IH1; reflexivity.
    + destruct IH2 as [IH2 | (v & IH2)]; [left; intros; apply IH2 | right; exists v; intros; apply IH2].
  - destruct (str_eqb t (s "Country")).
    + split.
      * destruct IH1 as [IH1 | (v & IH1)]; [left; intros; apply IH1 | right; exists v; intros; apply IH1].
      * destruct IH2 as [IH2 | (v & IH2)]; [|right; exists v; intros; apply IH2]. destruct (desc_of out e) as [d|]; [right; exists d | left]; intros; rewrite IH2; reflexivity.
    + split; [destruct IH1 as [IH1 | (v & IH1)]; [left; intros; apply IH1 | right; exists v; intros; apply IH1] | destruct IH2 as [IH2 | (v & IH2)]; [left; intros; apply IH2 | right; exists v; intros; apply IH2]].
Qed.

Lemma fold_pv_langs : forall l st, snd (fold_left (fun st p => pv_step (fst p) (desc_of out (snd p)) st) l st) = add_langs (snd st) (var_langs (map fst l)).
Proof.
  induction l as [|[t e] l IH]; intros [[lc cc] ls]; [reflexivity|]. cbn [fold_left map fst snd]. rewrite IH.
  change (var_langs (t :: map fst l)) with (lang_of t ++ var_langs (map fst l)). rewrite <- add_langs_app. f_equal.
  unfold pv_step. destruct (str_eqb t (s "Language")) eqn:E1; [rewrite lang_of_title by (left; exact E1); reflexivity|].
  destruct (str_eqb t (s "Country")) eqn:E2; [rewrite lang_of_title by (right; exact E2); reflexivity|]. unfold add_langs. destruct (lang_of t); reflexivity.
Qed.

Lemma combine_fst : forall {A B} (a : list A) (b : list B), length a = length b -> map fst (combine a b) = a.
Proof. intros A B a. induction a as [|x a IH]; intros [|y b] H; try discriminate; [reflexivity|]. cbn. f_equal. apply IH. injection H. auto. Qed.

(** one section *)
Definition sec_ok (t : str) (r r' : list elem) : Prop := match sec t r with
  | None => sec t r' = None | Some k => exists k', sec t r' = Some k' /\ R k k' end.
(** the sections which are not rebuilt from scratch *)
Definition old_ok (r r' : list elem) : Prop :=
  (forall t, In t [s "PROJECT"; s "SCENES"; s "CHAPTERS"; s "PROJECTVARS"] -> sec_ok t r r') /\
  (forall t, In t [s "LOCATIONS"; s "ITEMS"; s "CHARACTERS"] -> sec t r <> None -> exists k, sec t r' = Some k).
Lemma settled_old : forall r r', R r r' -> old_ok r r'.
Proof.
  intros r r' H. split; [intros t _; apply (sec_settled out t r r' H)|]. intros t _ Hn. pose proof (sec_settled out t r r' H) as Q.
  destruct (sec t r); [|congruence]. destruct Q as (k' & Q & _). exists k'. exact Q.
Qed.

Lemma vars_of_langs : forall r r' titles P, sec_ok (s "PROJECTVARS") r r' -> vars_wf out (or_nil (sec (s "PROJECTVARS") r)) titles -> snd (vars_of r' P) = langs_opt (var_langs titles).
Proof.
  intros r r' titles P HS V. unfold vars_of. unfold sec_ok in HS.
  destruct (sec (s "PROJECTVARS") r) as [k|]; cbn [or_nil] in V.
  - destruct HS as (k' & -> & HK). rewrite (read_pv_settled out titles k V k' _ HK), fold_pv_langs. cbn [snd].
    rewrite combine_fst by (apply Forall2_len in V; exact V). unfold add_langs, langs_opt. destruct (var_langs titles); reflexivity.
  - rewrite HS. inversion V. reflexivity.
Qed.

Lemma vars_of_codes : forall r0 r0' r1 r1' titles P0 P1, sec_ok (s "PROJECTVARS") r0 r0' -> sec_ok (s "PROJECTVARS") r1 r1' -> sec (s "PROJECTVARS") r1 = sec (s "PROJECTVARS") r0 ->
  vars_wf out (or_nil (sec (s "PROJECTVARS") r0)) titles ->
  (fst (fst (vars_of r1' P1)) = fst (fst (vars_of r0' P0)) \/ fst (fst (vars_of r1' P1)) = nv_languageCode P1) /\
  (snd (fst (vars_of r1' P1)) = snd (fst (vars_of r0' P0)) \/ snd (fst (vars_of r1' P1)) = nv_countryCode P1).
Proof.
  intros r0 r0' r1 r1' titles P0 P1 H0 H1 E V. unfold vars_of, sec_ok in *. rewrite E in H1. destruct (sec (s "PROJECTVARS") r0) as [k|]; cbn [or_nil] in V.
  - destruct H0 as (k0 & -> & HK0). destruct H1 as (k1 & -> & HK1). rewrite (read_pv_settled out titles k V k0 _ HK0), (read_pv_settled out titles k V k1 _ HK1).
    destruct (fold_pv_codes (combine titles k)) as [A B]. split.
    + destruct A as [A | (v & A)]; [right; apply A | left; rewrite !A; reflexivity].
    + destruct B as [B | (v & B)]; [right; apply B | left; rewrite !B; reflexivity].
  - rewrite H0, H1. split; right; reflexivity.
Qed.

Lemma refs_in_langs : forall l, refs_in (langs_opt l) = l.
Proof. intros [|x l]; reflexivity. Qed.

Lemma merged_chapter_keys : forall scs scs' c old, dkeys scs = dkeys scs' -> merged_chapter out scs c old = merged_chapter out scs' c old.
Proof. intros scs scs' c old H. unfold merged_chapter, dmem. rewrite H. reflexivity. Qed.

Lemma world_id : forall names a k, findall (s "ID") (build_world names a k) = findall (s "ID") k.
Proof. intros. unfold build_world. rewrite !findall_filt. peel. reflexivity. Qed.
Lemma character_id : forall a k, findall (s "ID") (build_character a k) = findall (s "ID") k.
Proof. intros. unfold build_character. rewrite !findall_filt. peel. reflexivity. Qed.
Lemma note_id : forall a k, findall (s "ID") (build_note a k) = findall (s "ID") k.
Proof. intros. unfold build_note. rewrite !findall_filt. peel. reflexivity. Qed.

Lemma rebuild_only : forall {A} t (bd : A -> list elem -> list elem) ids d k k1, only t k -> rebuild t bd ids d k = Ok k1 -> only t k1.
Proof.
  intros A t bd ids d k k1 Ho H. unfold rebuild in H. apply bind_ok in H. destruct H as (new & Hm & H). rewrite (only_filter t k Ho) in H. injection H as <-.
  cbn [app]. apply mapM_Forall2 in Hm. intros e He. induction Hm as [|i e' ids new Hi Hm IH]; [destruct He|].
  destruct He as [<- | He]; [|apply IH; exact He]. apply bind_ok in Hi. destruct Hi as (a & _ & Hi). injection Hi as <-. reflexivity.
Qed.

Theorem tree_roundtrip : forall ext loc dloc n r0 r0' n0 n1 r1 r1',
  tree_wf r0 -> old_ok r0 r0' -> read_tree ext r0' new_novel = Ok n0 ->
  storable n -> get_kw (s "Field_LanguageCode") (nv_kw n) = None -> get_kw (s "Field_CountryCode") (nv_kw n) = None ->
  build_tree loc dloc n (Some r0) = Ok (n1, r1) -> R r1 r1' ->
  tree_wf r1 /\ exists n', read_tree ext r1' new_novel = Ok n' /\ saved n n1 n0 n'.
Proof.
  intros ext loc dloc n r0 r0' n0 n1 r1 r1' W HR0 Hrd St KL KC Hb HR1.
  destruct (build_tree_inv loc dloc n r0 n1 r1 Hb) as (Hloc & HFr & (kP & P0 & P1) & (kL & kL1 & L0 & L1 & L2) & (kI & kI1 & I0 & I1 & I2) &
    (kC & kC1 & C0 & C1 & C2) & HN & HNu & HV & (kS & kS1 & kS2 & S0 & S1 & S2 & S3) & (kH & kH1 & H0 & H1 & H2)).
  destruct W as [(k & E & WP) (k_ & E_ & WL) (k__ & E__ & WI) (k3 & E3 & WC) [WNu WN] (titles & WV) (k4 & lS & E4 & WS & WSs) (k5 & lH & E5 & WH & WHs)].
  rewrite P0 in E. injection E as <-. rewrite L0 in E_. injection E_ as <-. rewrite I0 in E__. injection E__ as <-. rewrite C0 in E3. injection E3 as <-.
  rewrite S0 in E4. injection E4 as <-. rewrite H0 in E5. injection E5 as <-.
  destruct St as [[NL OL] [NI OI] [NC OC] [NN ON] [NS OS] [NH OH] GS GH GL GT].
  (* the old file *)
  pose proof (proj1 HR0 (s "PROJECT") ltac:(cbn; tauto)) as Q. unfold sec_ok in Q. rewrite P0 in Q. destruct Q as (kP' & P0' & RP).
  assert (Q : sec (s "LOCATIONS") r0 <> None) by (rewrite L0; discriminate). apply (proj2 HR0 (s "LOCATIONS") ltac:(cbn; tauto)) in Q. destruct Q as (kL' & L0').
  assert (Q : sec (s "ITEMS") r0 <> None) by (rewrite I0; discriminate). apply (proj2 HR0 (s "ITEMS") ltac:(cbn; tauto)) in Q. destruct Q as (kI' & I0').
  assert (Q : sec (s "CHARACTERS") r0 <> None) by (rewrite C0; discriminate). apply (proj2 HR0 (s "CHARACTERS") ltac:(cbn; tauto)) in Q. destruct Q as (kC' & C0').
  pose proof (proj1 HR0 (s "SCENES") ltac:(cbn; tauto)) as Q. unfold sec_ok in Q. rewrite S0 in Q. destruct Q as (kS' & S0' & RS).
  pose proof (proj1 HR0 (s "CHAPTERS") ltac:(cbn; tauto)) as Q. unfold sec_ok in Q. rewrite H0 in Q. destruct Q as (kH' & H0' & RH).
  rewrite (read_tree_eq ext r0' _ _ _ _ _ _ P0' L0' I0' C0' S0' H0') in Hrd.
  apply bind_ok in Hrd. destruct Hrd as (pL0 & _ & Hrd). apply bind_ok in Hrd. destruct Hrd as (pI0 & _ & Hrd).
  apply bind_ok in Hrd. destruct Hrd as (pC0 & _ & Hrd). apply bind_ok in Hrd. destruct Hrd as (scs0 & Hscs0 & Hrd).
  apply bind_ok in Hrd. destruct Hrd as ([ids0 chs0] & Hch0 & Hrd). apply bind_ok in Hrd. destruct Hrd as (scs0' & Hadj0 & Hrd). injection Hrd as <-.
  (* the new file *)
  pose proof (sec_settled out (s "PROJECT") r1 r1' HR1) as Q. rewrite P1 in Q. destruct Q as (kP1' & P1' & RP1).
  pose proof (sec_settled out (s "LOCATIONS") r1 r1' HR1) as Q. rewrite L2 in Q. destruct Q as (kL1' & L2' & RL1).
  pose proof (sec_settled out (s "ITEMS") r1 r1' HR1) as Q. rewrite I2 in Q. destruct Q as (kI1' & I2' & RI1).
  pose proof (sec_settled out (s "CHARACTERS") r1 r1' HR1) as Q. rewrite C2 in Q. destruct Q as (kC1' & C2' & RC1).
  pose proof (sec_settled out (s "SCENES") r1 r1' HR1) as Q. rewrite S3 in Q. destruct Q as (kS1' & S3' & RS1).
  pose proof (sec_settled out (s "CHAPTERS") r1 r1' HR1) as Q. rewrite H2 in Q. destruct Q as (kH1' & H2' & RH1).
  assert (Nsc : nv_scenes n1 = nv_scenes n) by (rewrite Hloc; reflexivity).
  assert (Nch : nv_chapters n1 = nv_chapters n) by (rewrite Hloc; reflexivity).
  assert (Nsr : nv_srtChapters n1 = nv_srtChapters n) by (rewrite Hloc; reflexivity).
  destruct (rebuild_roundtrip out (s "LOCATION") (build_world LOC_KWVAR) (read_world LOC_KWVAR) (stored_world out LOC_KWVAR) (nv_srtLocations n) (nv_locations n) kL kL1 kL1' WL) as (dL & DL1 & DL2 & DL3); try assumption.
  { intros a i. unfold has_id. rewrite world_id. reflexivity. }
  { intros a i k' Hk. apply (world_roundtrip out LOC_KWVAR a i k'); [repeat constructor; intros [] | exact Hk]. }
  destruct (rebuild_roundtrip out (s "ITEM") (build_world ITM_KWVAR) (read_world ITM_KWVAR) (stored_world out ITM_KWVAR) (nv_srtItems n) (nv_items n) kI kI1 kI1' WI) as (dI & DI1 & DI2 & DI3); try assumption.
  { intros a i. unfold has_id. rewrite world_id. reflexivity. }
  { intros a i k' Hk. apply (world_roundtrip out ITM_KWVAR a i k'); [repeat constructor; intros [] | exact Hk]. }
  destruct (rebuild_roundtrip out (s "CHARACTER") build_character read_character (stored_character out) (nv_srtCharacters n) (nv_characters n) kC kC1 kC1' WC) as (dC & DC1 & DC2 & DC3); try assumption.
  { intros a i. unfold has_id. rewrite character_id. reflexivity. }
  { intros a i k' Hk. apply (character_roundtrip out a i k'). exact Hk. }
  destruct (scenes_roundtrip out out_None out_nil out_safe ext (fst pC0) (fst pL0) (fst pI0) (nv_srtCharacters n) (nv_srtLocations n) (nv_srtItems n)
     n1 kS kS' lS scs0 kS1 kS2 kS1' WS WSs RS Hscs0 S1 S2 RS1) as [DS (lS2 & LS1 & LS2 & LS3)].
  { rewrite Nsc. exact NS. }
  { intros [i x] Hp. rewrite Nsc in Hp. split; [apply (GS i); apply In_dget; assumption|]. apply OS. unfold dkeys. change (fst (i, x)) with i. apply in_map_iff. exists (i, x). split; [reflexivity | exact Hp]. }
  rewrite Nsc in DS.
  set (scs1 := map (fun p => (fst p, merged_scene out (nv_srtCharacters n) (nv_srtLocations n) (snd p) (or_else (dget (fst p) scs0) blank_scene))) (nv_scenes n)) in *.
  destruct (chapters_roundtrip out out_safe scs0 scs1 n1 kH kH' lH ids0 chs0 kH1 kH1' WH WHs RH Hch0 H1 RH1) as (dH & DH1 & DH2 & DH3 & lH2 & LH1 & LH2 & LH3).
  { rewrite Nsr. exact NH. }
  { intros i c Hi Hc. rewrite Nsr in Hi. rewrite Nch in Hc. split; [exact (GH i c Hc) | apply OH; exact Hi]. }
  rewrite Nsr in *. rewrite Nch in *.
  assert (Ksc : dkeys scs1 = dkeys (nv_scenes n)) by (unfold scs1, dkeys; rewrite map_map; reflexivity).
  assert (Gsc : forall j, dget j scs1 = match dget j (nv_scenes n) with Some x => Some (merged_scene out (nv_srtCharacters n) (nv_srtLocations n) x (or_else (dget j scs0) blank_scene)) | None => None end).
  { intro j. destruct (dget j (nv_scenes n)) as [x|] eqn:E.
    - apply In_dget; [rewrite Ksc; exact NS|]. unfold scs1. apply in_map_iff. exists (j, x). split; [reflexivity | apply dget_In; exact E].
    - apply dget_None. rewrite Ksc. apply dget_None. exact E. }
  assert (Hadj : adjust_scs dH (nv_srtChapters n) scs1 = Ok scs1).
  { apply adjust_id. intros i Hi. destruct (DH3 i Hi) as (c & Hc & Hd). eexists. split; [exact Hd|]. cbn [merged_chapter ch_type ch_srtScenes].
    destruct (N.eq_dec (type_or_0 (ch_type c)) 0) as [Ez | Ez]; [left; rewrite Ez; reflexivity|]. right.
    intros j Hj. apply filter_In in Hj. destruct Hj as [Hj Hm]. apply dmem_key in Hm. rewrite Ksc in Hm. apply dget_Some_key in Hm. destruct Hm as (x & Hx).
    rewrite Gsc, Hx. eexists. split; [reflexivity|]. cbn [merged_scene sc_type]. f_equal. exact (GT i c Hi Hc Ez j x Hj Hx). }
  pose proof (vars_of_langs r0 r0' titles (project_novel kP') (proj1 HR0 (s "PROJECTVARS") ltac:(cbn; tauto)) WV) as Lold.
  assert (Pst : project_novel kP1' = stored_project out n (project_novel kP')) by (apply (project_roundtrip out out_safe n kP kP' kP1' WP RP RP1 KL KC)).
  (* variables *)
  assert (Vst : exists titles1, vars_wf out (or_nil (sec (s "PROJECTVARS") r1)) titles1 /\
     (has_language n = true -> exists ls, nv_languages n = Some ls /\ vars_of r1' (project_novel kP1') =
        (out (s "Desc") (nv_languageCode n1), out (s "Desc") (nv_countryCode n1), langs_opt (var_langs titles ++ fold_left (fun l c => remove_str c l) (var_langs titles) ls))) /\
     (has_language n = false -> titles1 = titles /\ sec (s "PROJECTVARS") r1 = sec (s "PROJECTVARS") r0)).
  { destruct (has_language n).
    - destruct HV as (Hc & ls & k1 & V1 & V2 & V3). pose proof (sec_settled out (s "PROJECTVARS") r1 r1' HR1) as Q. rewrite V3 in Q. destruct Q as (k1' & V3' & RV).
      destruct (vars_roundtrip out n1 ls _ k1 k1' titles WV V2 RV) as [Q1 Q2]; [intros c Hcl; exact (GL ls c V1 Hcl) | exact out_language | exact out_country|].
      rewrite V3. eexists. split; [exact Q2|]. split; [|intro E; discriminate E]. intros _. exists ls. split; [exact V1|].
      unfold vars_of. rewrite V3', Pst. exact Q1.
    - destruct HV as [_ V]. exists titles. unfold sec in *. rewrite V. split; [exact WV|]. split; [intro E; discriminate E | intros _; split; reflexivity]. }
  destruct Vst as (titles1 & WV1 & Vy & Vn).
  pose proof (vars_of_langs r1 r1' titles1 (project_novel kP1') (sec_settled out (s "PROJECTVARS") r1 r1' HR1) WV1) as Lnew.
  (* notes *)
  assert (Nst : only (s "PROJECTNOTE") (or_nil (sec (s "PROJECTNOTES") r1)) /\
     stored_list (stored_note out) (nv_srtPrjNotes n) (nv_projectNotes n) (fst (notes_of r1')) (snd (notes_of r1'))).
  { unfold notes_of. destruct (nv_srtPrjNotes n) as [|i l] eqn:En.
    - assert (Ef : findall (s "PROJECTNOTES") r1 = []) by (rewrite HN; destruct WNu as [-> | [e ->]]; reflexivity).
      pose proof (sec_settled out (s "PROJECTNOTES") r1 r1' HR1) as Q. unfold sec in *. rewrite (find_findall _ r1), Ef in *. cbn [hd_error option_map] in *. rewrite Q.
      split; [intros e []|]. split; [reflexivity|]. split; [reflexivity | intros i []].
    - destruct HN as (k1 & N1 & N2). pose proof (sec_settled out (s "PROJECTNOTES") r1 r1' HR1) as Q. rewrite N2 in Q |- *. destruct Q as (k1' & N2' & RN). rewrite N2'.
      split; [exact (rebuild_only _ _ _ _ _ _ WN N1)|].
      destruct (notes_roundtrip out (stored_note out) (i :: l) (nv_projectNotes n) _ k1 k1' WN) as (dN & DN1 & DN2 & DN3); try assumption.
      { intros a j. unfold has_id. rewrite note_id. reflexivity. }
      { intros a j k' Hk. exact (note_roundtrip out a j k' Hk). }
      rewrite DN1. split; [reflexivity|]. split; [exact DN2 | exact DN3]. }
  destruct Nst as [WN1 Nst].
  split.
  - constructor.
    + exists (build_project n kP). split; [exact P1|]. apply (build_project_wf out); assumption.
    + exists kL1. split; [exact L2 | exact (rebuild_only _ _ _ _ _ _ WL L1)].
    + exists kI1. split; [exact I2 | exact (rebuild_only _ _ _ _ _ _ WI I1)].
    + exists kC1. split; [exact C2 | exact (rebuild_only _ _ _ _ _ _ WC C1)].
    + split; [exact (HNu WNu) | exact WN1].
    + exists titles1. exact WV1.
    + exists kS2, lS2. split; [exact S3|]. split; [exact LS1 | exact LS3].
    + exists kH1, lH2. split; [exact H2|]. split; [exact LH1 | exact LH3].
  - eexists. split.
    + rewrite (read_tree_eq ext r1' _ _ _ _ _ _ P1' L2' I2' C2' S3' H2').
      rewrite DL1. cbn [bind]. rewrite DI1. cbn [bind]. rewrite DC1. cbn [bind fst snd]. rewrite DS. cbn [bind]. rewrite DH1. cbn [bind fst snd].
      rewrite Hadj. cbn [bind]. reflexivity.
    + rewrite Pst. constructor; cbn [novel_of stored_project nv_title nv_desc nv_kw nv_authorName nv_authorBio nv_fieldTitle1 nv_fieldTitle2 nv_fieldTitle3 nv_fieldTitle4
         nv_wordTarget nv_wordCountStart nv_chapters nv_scenes nv_languages nv_srtChapters nv_locations nv_srtLocations nv_items nv_srtItems nv_characters nv_srtCharacters
         nv_projectNotes nv_srtPrjNotes nv_languageCode nv_countryCode fst snd]; try reflexivity.
      * split; [reflexivity|]. split; [exact DL2 | exact DL3].
      * split; [reflexivity|]. split; [exact DI2 | exact DI3].
      * split; [reflexivity|]. split; [exact DC2 | exact DC3].
      * exact Nst.
      * unfold scs1. rewrite map_map. cbn [fst snd]. apply map_ext_in. intros [i x] _. cbn [fst snd]. f_equal. f_equal.
        pose proof (custom_sim _ _ (adjust_sim chs0 ids0 scs0 scs0 scs0' (simd_refl scs0) Hadj0)) as Hsim.
        exact (simd_or_else _ _ i Hsim _ _ x).
      * split; [reflexivity | exact DH2].
      * intros i Hi. destruct (DH3 i Hi) as (c & Hc & Hd). exists c. split; [exact Hc|]. rewrite Hd. f_equal. apply merged_chapter_keys. exact Ksc.
      * intro Hl. destruct (Vy Hl) as (ls & V1 & V2). rewrite <- Pst. rewrite V2. cbn [fst snd]. split; [reflexivity|]. split; [reflexivity|].
        exists ls. split; [exact V1|]. rewrite Lold, refs_in_langs. reflexivity.
      * intro Hl. rewrite <- Pst, Lnew, (proj1 (Vn Hl)), Lold. reflexivity.
      * intro Hl. rewrite <- Pst.
        destruct (vars_of_codes r0 r0' r1 r1' titles (project_novel kP') (project_novel kP1') (proj1 HR0 (s "PROJECTVARS") ltac:(cbn; tauto)) (sec_settled out (s "PROJECTVARS") r1 r1' HR1) (proj2 (Vn Hl)) WV) as [A B].
        rewrite Pst in A, B |- *. split; [exact A | exact B].
Qed.
End S.
