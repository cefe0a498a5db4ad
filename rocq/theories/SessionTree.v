(** The tree kept in memory after a save. *)
From Coq Require Import String List NArith ZArith Bool Lia Arith.
From Verif Require Import PyStr PyDict Spec Globals GlobalsProofs NovelModel NovelOps NovelOpsProofs YwTree IsoDate Yw7Build Yw7Read YwTreeProofs Yw7SceneProofs
  Yw7StartProofs Yw7SceneRT Yw7ChapterRT Yw7ElemRT Yw7ListRT Yw7TreeInv Yw7ProjRT Yw7SecRT Yw7TreeRT YwText YwTextProofs SpecYw7 Yw7Clean Yw7Clean2 Yw7Repr Yw7Repr2 Yw7Repr3
  Yw7Strict Yw7Reopen Yw7Reopen2 Yw7Session.
Import ListNotations.

Lemma nl_white : forall l, white (Some (nl l)).
Proof.
  intro l. split; [discriminate|]. intros c [<- | H]; [left; reflexivity|]. right. unfold nl in H. apply in_flat_map in H. destruct H as (u & _ & [<- | [<- | []]]); reflexivity.
Qed.
Lemma indented_node : forall l t x a k, indented l (Elem t x (a :: k)) = Elem t (if blank x then Some (nl (S l)) else x) (map (indented (S l)) (a :: k)).
Proof. reflexivity. Qed.

(** no leaf changes *)
Definition same_leaf (t : str) (x : option str) : option str := x.
Lemma indented_settled : forall e l, settled same_leaf e (indented l e).
Proof.
  apply (elem_rect2 (fun e => forall l, settled same_leaf e (indented l e))). intros t x [|a k] IH l; [constructor|]. rewrite indented_node. cbn [map]. constructor.
  - clear -IH. change (indented (S l) a :: map (indented (S l)) k) with (map (indented (S l)) (a :: k)). revert IH. generalize (a :: k). intros q IH.
    induction IH as [|u q Hu IH IHq]; constructor; [apply Hu | exact IHq].
  - unfold node_text, same_leaf. destruct (blank x); [left; split; [reflexivity | apply nl_white] | right; split; reflexivity].
Qed.
Lemma indented_settled_list : forall l r, Forall2 (settled same_leaf) r (map (indented l) r).
Proof. intros l r. induction r as [|e r IH]; constructor; [apply indented_settled | exact IH]. Qed.
Lemma indented_wf : forall l r, tree_wf out_text r -> tree_wf out_text (map (indented l) r).
Proof. intros l r. apply (tree_settled same_leaf); [reflexivity | reflexivity | apply indented_settled_list]. Qed.

Lemma indented_out : forall e l e', settled out_text e e' -> settled out_text (indented l e) e'.
Proof.
  apply (elem_rect2 (fun e => forall l e', settled out_text e e' -> settled out_text (indented l e) e')). intros t x k IH l e' H.
  inversion H as [? ? | ? ? y a k0 a' k' HF HN]; subst; [constructor|]. rewrite indented_node. cbn [map]. constructor.
  - change (indented (S l) a :: map (indented (S l)) k0) with (map (indented (S l)) (a :: k0)). revert IH HF. generalize (a :: k0), (a' :: k'). intros q q' IH HF.
    clear -IH HF. induction HF as [|u v q q' Huv HF IHF]; [constructor|]. inversion IH; subst. constructor; [auto | apply IHF; assumption].
  - unfold node_text in *. destruct HN as [[B W] | [B ->]]; rewrite B; [left; split; [apply white_blank, nl_white | exact W] | right; split; [exact B | reflexivity]].
Qed.
Lemma indented_out_list : forall l r r', Forall2 (settled out_text) r r' -> Forall2 (settled out_text) (map (indented l) r) r'.
Proof. intros l r r' H. induction H as [|e e' r r' He H IH]; constructor; [apply indented_out; exact He | exact IH]. Qed.

Lemma indented_clean : forall e l, clean e -> clean (indented l e).
Proof.
  apply (elem_rect2 (fun e => forall l, clean e -> clean (indented l e))). intros t x [|a k] IH l H; [exact H|]. rewrite indented_node.
  inversion H as [? ? ? H1 H2 H3 H4]; subst. destruct H3 as [H3 | H3]; [discriminate|]. constructor; [exact H1 | | right; exact H3|].
  - destruct (blank x); [apply (white_text t _ H3 (nl_white (S l))) | exact H2].
  - clear -IH H4. revert IH H4. generalize (a :: k). intros q IH H4. induction IH as [|u q Hu IH IHq]; [constructor|]. inversion H4; subst. constructor; [apply Hu; assumption | apply IHq; assumption].
Qed.
Lemma indented_amp : forall t x l, clean (Elem t x []) -> cd t = false -> amp_ok t x -> amp_ok t (if blank x then Some (nl l) else x).
Proof. intros t x l _ Hc H. destruct (blank x); [apply (white_text t _ Hc (nl_white l)) | exact H]. Qed.
Lemma indented_strict : forall e l, clean e -> strict e -> strict (indented l e).
Proof.
  apply (elem_rect2 (fun e => forall l, clean e -> strict e -> strict (indented l e))). intros t x [|a k] IH l Hc H; [exact H|]. rewrite indented_node.
  inversion Hc as [? ? ? H1 H2 H3 H4]; subst. destruct H3 as [H3 | H3]; [discriminate|]. inversion H as [? ? ? Ha Hk]; subst. constructor.
  - destruct (blank x); [apply (white_text t _ H3 (nl_white (S l))) | exact Ha].
  - clear -IH H4 Hk. revert IH H4 Hk. generalize (a :: k). intros q IH H4 Hk. induction IH as [|u q Hu IH IHq]; [constructor|]. inversion H4; inversion Hk; subst. constructor; [apply Hu; assumption | apply IHq; assumption].
Qed.
Lemma indented_wiped : forall e l, clean e -> strict (with_kids [] e) -> cd (e_tag e) = false -> strict (with_kids [] (indented l e)).
Proof.
  intros [t x [|a k]] l Hc H Ht; [exact H|]. rewrite indented_node. unfold with_kids in *. cbn [e_tag] in Ht. inversion H as [? ? ? Ha _]; subst. constructor; [|constructor].
  destruct (blank x); [apply (white_text t _ Ht (nl_white (S l))) | exact Ha].
Qed.
Lemma indented_tag : forall l e, e_tag (indented l e) = e_tag e.
Proof. intros l [t x [|a k]]; reflexivity. Qed.
Lemma wipes_strict : forall l r S, (forall t, In t S -> cd t = false) -> Forall clean r -> Forall strict (wipes S r) -> Forall strict (wipes S (map (indented l) r)).
Proof.
  intros l r. induction r as [|e r IH]; intros S HS Hc Hs; [constructor|]. inversion Hc; subst. cbn [map wipes] in *. rewrite indented_tag.
  destruct (smem (e_tag e) S) eqn:E; inversion Hs; subst.
  - constructor; [|apply IH; [intros t Ht; apply HS; exact (remove_str_In _ _ _ Ht) | assumption | assumption]].
    apply indented_wiped; try assumption. apply HS. apply smem_In. exact E.
  - constructor; [apply indented_strict; assumption | apply IH; assumption].
Qed.
Lemma wipe3_strict : forall l r, Forall clean r -> ks (wipe3 r) -> ks (wipe3 (map (indented l) r)).
Proof. intros l r Hc Hs. rewrite wipe3_wipes in *. apply wipes_strict; try assumption. intros t [<- | [<- | [<- | []]]]; reflexivity. Qed.
Lemma wipes_clean : forall r S, Forall clean r -> Forall clean (wipes S r).
Proof.
  induction r as [|e r IH]; intros S H; [constructor|]. inversion H as [|? ? He Hr]; subst. cbn [wipes]. destruct (smem (e_tag e) S); constructor; try apply IH; try assumption.
  inversion He; subst. cbn [with_kids]. constructor; [assumption | assumption | left; reflexivity | constructor].
Qed.

(** ** No ampersand in the fields which are not CDATA *)
Lemma amp_plain : forall t x, opt_ok plain_text x -> amp_ok t x.
Proof. intros t [v|] H; [|exact I]. right. destruct H as (_ & _ & H & _). exact H. Qed.
Lemma scene_ok_amp : forall cs ls x, scene_ok cs ls x -> scene_amp (prepare_scene x).
Proof.
  intros cs ls x []. destruct (prepare_eq x) as (kw & -> & Ha & Hm). constructor; cbn [set_sc_kw sc_title sc_desc sc_content sc_notes sc_tags sc_field1 sc_field2 sc_field3 sc_field4
   sc_lastsDays sc_lastsHours sc_lastsMinutes sc_goal sc_conflict sc_outcome sc_image sc_kw sc_date sc_time sc_day sc_characters sc_locations sc_items];
   try (apply amp_long; reflexivity); try (apply amp_plain; assumption).
  - unfold kw_amp. destruct (get_kw _ kw) as [[|c v]|]; [exact I | | exact I]. apply amp_long. reflexivity.
  - unfold kw_amp. rewrite Hm. unfold mode_text in *. destruct (sc_scnMode x) as [m|]; [|rewrite so_mode by reflexivity; exact I]. destruct (Z.eqb m 0); [exact I|].
    pose proof (str_of_Z_safe m) as [Z1 Z2]. destruct (str_of_Z m) as [|c v]; [exact I|]. rewrite safe_no_markup by exact Z2. apply amp_safe. split; assumption.
  - apply start_text_ok. assumption.
  - intros i Hi. destruct (so_characters i Hi) as [(_ & _ & _ & Q & _) _]. exact Q.
  - intros i Hi. destruct (so_locations i Hi) as [(_ & _ & _ & Q & _) _]. exact Q.
  - intros i Hi. destruct (so_items i Hi) as (_ & _ & _ & Q & _). exact Q.
Qed.
Lemma chapter_ok_amp : forall scs c, chapter_ok scs c -> chapter_amp c.
Proof.
  intros scs c []. constructor; try (apply amp_long; reflexivity). intros i Hi. destruct (co_scenes i Hi) as [(_ & _ & _ & Q & _) _]. exact Q.
Qed.
Lemma ids_no_amp : forall ids, ids_text ids -> ids_amp ids.
Proof. intros ids [_ H] i Hi. destruct (H i Hi) as (_ & _ & _ & Q & _). exact Q. Qed.
Lemma prepared_amp : forall n, representable n -> novel_amp (prepare n).
Proof.
  intros n R. destruct (prepare_shape n) as (ls & sc & kw & -> & Esc & _ & KL & KC). destruct R.
  constructor; cbn [set_nv_kw set_nv_scenes set_nv_languages nv_title nv_desc nv_authorName nv_authorBio nv_fieldTitle1 nv_fieldTitle2 nv_fieldTitle3 nv_fieldTitle4 nv_kw
    nv_srtPrjNotes nv_projectNotes nv_scenes nv_chapters nv_srtChapters];
    try (apply amp_long; reflexivity).
  - intros f [<- | [<- | []]]; unfold kw_amp; [rewrite KL | rewrite KC]; exact I.
  - split; [apply ids_no_amp, re_notes|]. intros i a _ _. split; apply amp_long; reflexivity.
  - destruct re_scenes as [[Nd Hid] Hsc]. subst sc. split.
    + apply ids_no_amp. unfold dkeys. rewrite map_map. split; assumption.
    + intros i x Hx. apply in_map_iff in Hx. destruct Hx as ([j y] & E & Hy). cbn [fst snd] in E. injection E as <- <-. eapply scene_ok_amp. apply (Hsc j). apply In_dget; assumption.
  - destruct re_chapters as (Hid & _ & Hch). split; [apply ids_no_amp; exact Hid|]. intros i c Hc _. eapply chapter_ok_amp. apply (Hch i c Hc).
Qed.
