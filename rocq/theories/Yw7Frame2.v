(** Saving an existing project file, at the level of the file: what PyWriter does not understand is still there
    when the file is parsed. *)
From Coq Require Import String List NArith ZArith Bool Lia Arith.
From Verif Require Import PyStr PyDict Spec Globals NovelModel NovelOps NovelOpsProofs YwTree IsoDate Yw7Build Yw7Read YwTreeProofs Yw7SceneProofs Yw7SceneRT Yw7ChapterRT
  Yw7ElemRT Yw7ListRT Yw7TreeInv Yw7ProjRT Yw7SecRT Yw7TreeRT YwText YwTextProofs SpecYw7 SpecText SpecFrame Yw7Clean Yw7Clean2 Yw7Repr Yw7Repr2 Yw7Repr3 Yw7Total Yw7Facts Yw7Facts2 Yw7Frame SplitterProofs.
Import ListNotations.

Local Notation st := (settled out_text).

Lemma st_tag : forall e e', st e e' -> e_tag e' = e_tag e.
Proof. intros e e' H. inversion H; subst; reflexivity. Qed.
Lemma st_kids : forall e e', st e e' -> Forall2 st (e_kids e) (e_kids e').
Proof. intros e e' H. inversion H; subst; cbn [e_kids]; [constructor | assumption]. Qed.
Lemma st_filter : forall (p : str -> bool) l l', Forall2 st l l' -> Forall2 st (filter (fun e => p (e_tag e)) l) (filter (fun e => p (e_tag e)) l').
Proof.
  intros p l l' H. induction H as [|e e' l l' He Hl IH]; [constructor|]. cbn [filter]. rewrite (st_tag e e' He). destruct (p (e_tag e)); [constructor; assumption | exact IH].
Qed.
Lemma st_unknown : forall known l l', Forall2 st l l' -> Forall2 st (unknown known l) (unknown known l').
Proof. intros known l l' H. exact (st_filter (fun t => negb (smem t known)) l l' H). Qed.
Lemma st_section : forall t r r' k, Forall2 st r r' -> section t r = Some k -> exists k', section t r' = Some k' /\ Forall2 st k k'.
Proof.
  intros t r r' k H E. unfold section in *. pose proof (st_filter (fun u => str_eqb u t) r r' H) as F. cbn beta in F.
  destruct F as [|e e' l l' He Hl]; [discriminate|]. injection E as <-. exists (e_kids e'). split; [reflexivity | exact (st_kids e e' He)].
Qed.
Lemma st_fields : forall f k k', Forall2 st k k' -> Forall2 st (field_elems f k) (field_elems f k').
Proof.
  intros f k k' H. unfold field_elems. pose proof (st_filter (fun u => str_eqb u (s "Fields")) k k' H) as F. cbn beta in F.
  destruct F as [|e e' l l' He Hl]; [constructor|]. exact (st_filter (fun u => str_eqb u f) _ _ (st_kids e e' He)).
Qed.

Lemma id_out : forall i, id_text i -> out_text (s "ID") (Some i) = Some i.
Proof. intros i [N P]. rewrite out_plain; [destruct i; [contradiction N; reflexivity | reflexivity] | reflexivity | exact P]. Qed.

(** the elements by their IDs after settling *)
Lemma st_numbered : forall t l k', Forall2 st (map snd l) k' -> numbered t (map snd l) l -> Forall id_text (map fst l) ->
  exists l', numbered t k' l' /\ map fst l' = map fst l /\ forall i e', In (i, e') l' -> exists e, In (i, e) l /\ st e e'.
Proof.
  intros t l k' H [_ N] I. revert k' H. induction l as [|[i e] l IH]; intros k' H; cbn [map] in *.
  - inversion H; subst. exists []. split; [split; [reflexivity | constructor]|]. split; [reflexivity | intros i e' []].
  - inversion H as [|e0 e' l0 k0 He Hl]; subst. inversion N as [|? ? Ne Nl]; subst. inversion I as [|? ? Ie Il]; subst. cbn [fst snd] in *.
    destruct (IH Nl Il k0 Hl) as (l' & [A1 A2] & A3 & A4). exists ((i, e') :: l'). split; [split; cbn [map fst snd]; [f_equal; exact A1|]|].
    + constructor; [|exact A2]. cbn [fst snd]. destruct Ne as [Ne1 Ne2]. split; [rewrite (st_tag e e' He); exact Ne1|].
      pose proof (st_filter (fun u => str_eqb u (s "ID")) _ _ (st_kids e e' He)) as F. cbn beta in F. rewrite Ne2 in F.
      inversion F as [|x y lx ly Hx Hy]; subst. inversion Hy; subst. inversion Hx; subst. rewrite id_out by exact Ie. reflexivity.
    + split; [cbn [map fst]; f_equal; exact A3|]. intros j x [E | Hj].
      * inversion E; subst. exists e. split; [left; reflexivity | exact He].
      * destruct (A4 j x Hj) as (y & Y1 & Y2). exists y. split; [right; exact Y1 | exact Y2].
Qed.

Lemma tt_kids : forall e, text_tree e -> Forall text_tree (e_kids e).
Proof. intros e H. inversion H; subst; cbn [e_kids]; auto. Qed.
Lemma tt_filter : forall p l, Forall text_tree l -> Forall text_tree (filter p l).
Proof. intros p l H. rewrite Forall_forall in *. intros e He. apply filter_In in He. apply H. exact (proj1 He). Qed.
Lemma tt_section : forall t r k, Forall text_tree r -> section t r = Some k -> Forall text_tree k.
Proof.
  intros t r k H E. unfold section in E. pose proof (tt_filter (fun e => str_eqb (e_tag e) t) r H) as F.
  destruct (filter (fun e => str_eqb (e_tag e) t) r) as [|e l]; [discriminate|]. injection E as <-. inversion F; subst. apply tt_kids. assumption.
Qed.
Lemma tt_fields : forall f k, Forall text_tree k -> Forall text_tree (field_elems f k).
Proof.
  intros f k H. unfold field_elems. pose proof (tt_filter (fun e => str_eqb (e_tag e) (s "Fields")) k H) as F.
  destruct (filter (fun e => str_eqb (e_tag e) (s "Fields")) k) as [|e l]; [constructor|]. inversion F; subst. apply tt_filter. apply tt_kids. assumption.
Qed.
Lemma st_same : forall l l', Forall text_tree l -> Forall2 st l l' -> Forall2 same_tree l l'.
Proof. intros l l' T H. induction H; constructor; inversion T; subst; [apply settled_same_tree; assumption | auto]. Qed.

Lemma st_preserved : forall known fields e0 e1 e', text_tree e0 -> preserved known fields e0 e1 -> st e1 e' -> preserved_in_file known fields e0 e'.
Proof.
  intros known fields e0 e1 e' T (P1 & _ & P2 & P3) H. pose proof (st_kids e1 e' H) as K. split; [rewrite (st_tag e1 e' H); exact P1|]. split.
  - apply st_same; [apply tt_filter; apply tt_kids; exact T|]. rewrite <- P2. apply st_unknown. exact K.
  - intros f Hf. apply st_same; [apply tt_fields; apply tt_kids; exact T|]. rewrite <- (P3 f Hf). apply st_fields. exact K.
Qed.

Theorem file_frame : forall ent loc dloc n r0 n1 r1 t kS kH lS lH, representable n -> locale_text loc -> locale_text dloc -> Forall text_tree r0 ->
  section (s "SCENES") r0 = Some kS -> numbered (s "SCENE") kS lS -> NoDup (map fst lS) ->
  section (s "CHAPTERS") r0 = Some kH -> numbered (s "CHAPTER") kH lH -> NoDup (map fst lH) ->
  (forall e, In e kS \/ In e kH -> one_fields e) ->
  write_text ent loc dloc n (Some r0) = Ok (n1, r1, t) ->
  exists root, parse_xml (filter kept (unl t)) = Some root /\
  Forall2 same_tree (unknown known_sections r0) (unknown known_sections (e_kids root)) /\
  exists kS1 kH1 lS1 lH1,
    section (s "SCENES") (e_kids root) = Some kS1 /\ numbered (s "SCENE") kS1 lS1 /\ map fst lS1 = dkeys (nv_scenes n) /\
    section (s "CHAPTERS") (e_kids root) = Some kH1 /\ numbered (s "CHAPTER") kH1 lH1 /\ map fst lH1 = nv_srtChapters n /\
    (forall i e e', dget i lS = Some e -> In (i, e') lS1 -> preserved_in_file known_in_scene known_scene_fields e e') /\
    (forall i e e', dget i lH = Some e -> In (i, e') lH1 -> preserved_in_file known_in_chapter known_chapter_fields e e').
Proof.
  intros ent loc dloc n r0 n1 r1 t kS kH lS lH R L1 L2 T S0 NS DS H0 NH DH One Hw.
  unfold write_text in Hw. apply bind_ok in Hw. destruct Hw as ([n1' r1'] & Hw & E). cbn [fst snd] in E. injection E as -> -> <-.
  destruct (save_frame loc dloc n r0 n1 r1 kS kH lS lH S0 NS DS H0 NH DH One (proj1 (proj1 (re_scenes n R))) Hw) as (U & kS1 & kH1 & lS1 & lH1 & A1 & A2 & A3 & B1 & B2 & B3 & PS & PH).
  unfold write_tree in Hw.
  assert (K : kc r1).
  { refine (build_tree_clean loc dloc (prepare n) r0 n1 r1 (locale_ok _ L1) (locale_ok _ L2) _ _ (prepared_texts n R) _ _ Hw).
    - destruct (prepare_shape n) as (ls & sc & kw & -> & _). apply text_long; [reflexivity | exact (re_code n R)].
    - destruct (prepare_shape n) as (ls & sc & kw & -> & _). apply text_long; [reflexivity | exact (re_country n R)].
    - rewrite Forall_forall in *. intros e He. apply text_tree_clean. exact (T e He).
    - intros k Ek. rewrite section_sec in S0. rewrite S0 in Ek. injection Ek as <-. destruct NS as [N1 N2]. intros e He. rewrite <- N1 in He.
      apply in_map_iff in He. destruct He as ([i x] & <- & Hi). rewrite Forall_forall in N2. exact (proj1 (N2 _ Hi)). }
  destruct (file_parses ent (match nv_chapters n with [] => true | _ => false end) r1 K) as (root & Hp & Hs & _).
  exists root. split; [exact Hp|]. split; [apply st_same; [apply tt_filter; exact T | rewrite <- U; apply st_unknown; exact Hs]|].
  destruct (st_section _ _ _ _ Hs A1) as (kS2 & C1 & C2). destruct (st_section _ _ _ _ Hs B1) as (kH2 & D1 & D2).
  destruct A2 as [A2 A2']. destruct B2 as [B2 B2']. subst kS1 kH1.
  destruct (st_numbered (s "SCENE") lS1 kS2 C2 (conj eq_refl A2')) as (lS2 & E1 & E2 & E3).
  { rewrite A3. apply Forall_forall. exact (proj2 (proj1 (re_scenes n R))). }
  destruct (st_numbered (s "CHAPTER") lH1 kH2 D2 (conj eq_refl B2')) as (lH2 & F1 & F2 & F3).
  { rewrite B3. apply Forall_forall. exact (proj2 (proj1 (re_chapters n R))). }
  exists kS2, kH2, lS2, lH2. split; [exact C1|]. split; [exact E1|]. split; [rewrite E2; exact A3|]. split; [exact D1|]. split; [exact F1|]. split; [rewrite F2; exact B3|]. split.
  - intros i e e' Hi He. destruct (E3 i e' He) as (e1 & G1 & G2). apply (st_preserved _ _ e e1 e'); [|exact (PS i e e1 Hi G1) | exact G2].
    pose proof (tt_section _ _ _ T S0) as TS. rewrite Forall_forall in TS. apply TS. rewrite <- (proj1 NS). apply in_map_iff. exists (i, e). split; [reflexivity | apply dget_In; exact Hi].
  - intros i e e' Hi He. destruct (F3 i e' He) as (e1 & G1 & G2). apply (st_preserved _ _ e e1 e'); [|exact (PH i e e1 Hi G1) | exact G2].
    pose proof (tt_section _ _ _ T H0) as TS. rewrite Forall_forall in TS. apply TS. rewrite <- (proj1 NH). apply in_map_iff. exists (i, e). split; [reflexivity | apply dget_In; exact Hi].
Qed.
