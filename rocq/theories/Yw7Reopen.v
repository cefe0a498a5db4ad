(** The element tree of a reopened project file can be saved again. *)
From Coq Require Import String List NArith ZArith Bool Lia Arith.
From Verif Require Import PyStr PyDict Spec Globals GlobalsProofs NovelModel NovelOps NovelOpsProofs YwTree IsoDate Yw7Build Yw7Read YwTreeProofs Yw7SceneProofs
  Yw7StartProofs Yw7SceneRT Yw7ChapterRT Yw7ElemRT Yw7ListRT Yw7TreeInv Yw7ProjRT Yw7SecRT Yw7TreeRT YwText YwTextProofs SpecYw7 Yw7Clean Yw7Clean2 Yw7Strict.
Import ListNotations.

(** ** Texts *)
Lemma decode_self : forall v, no_lt v -> ~ In 38%N v -> decode v <> None -> decode v = Some v.
Proof.
  unfold decode, lex. induction v as [|c v IH]; intros H1 H2 H; [reflexivity|]. cbn [lex_go] in *. unfold look in *.
  replace (N.eqb c 60) with false in * by (symmetry; apply N.eqb_neq; intros ->; apply H1; left; reflexivity).
  replace (N.eqb c 38) with false in * by (symmetry; apply N.eqb_neq; intros ->; apply H2; left; reflexivity).
  destruct (prefixb (s "]]>") (c :: v)) eqn:Ep; [congruence|]. destruct (xml_char c); [|congruence]. cbn [pred] in *.
  assert (Q : match lex_go 0 v with Some ts => texts_of ts | None => None end = Some v).
  { apply IH; [intro E; apply H1; right; exact E | intro E; apply H2; right; exact E|]. destruct (lex_go 0 v) as [ts|]; [|exact H]. cbn [option_map texts_of] in H. intro E. rewrite E in H. apply H. reflexivity. }
  destruct (lex_go 0 v) as [ts|]; [|discriminate]. cbn [option_map texts_of]. rewrite Q. reflexivity.
Qed.

Definition nonempty (x : option str) : option str := match x with Some [] => None | _ => x end.
Lemma out_strict : forall t x, text_ok t x -> amp_ok t x -> out_text t x = nonempty x.
Proof.
  intros t [v|] H A; [|reflexivity]. cbn [out_text text_ok amp_ok] in *. destruct (cd t); [destruct v; reflexivity|].
  destruct A as [A | A]; [discriminate|]. destruct H as (_ & H2 & H3 & _). rewrite (decode_self v H2 A H3). destruct v; reflexivity.
Qed.
Lemma nonempty_text : forall t x, text_ok t x -> text_ok t (nonempty x).
Proof. intros t [[|c v]|] H; [exact I | exact H | exact I]. Qed.
Lemma nonempty_amp : forall t x, amp_ok t x -> amp_ok t (nonempty x).
Proof. intros t [[|c v]|] H; [exact I | exact H | exact I]. Qed.
Lemma nonempty_idem : forall x, nonempty (nonempty x) = nonempty x.
Proof. intros [[|c v]|]; reflexivity. Qed.
Lemma out_idem : forall t x, text_ok t x -> amp_ok t x -> out_text t (out_text t x) = out_text t x.
Proof. intros t x H A. rewrite (out_strict t x H A). rewrite out_strict; [apply nonempty_idem | apply nonempty_text; exact H | apply nonempty_amp; exact A]. Qed.

Lemma white_strip : forall v, (forall c, In c v -> (c = 10 \/ c = 32)%N) -> strip v = [].
Proof.
  intros v H. assert (L : forall f, (forall c, In c v -> f c = true) -> lstrip_by f v = []).
  { intro f. clear H. induction v as [|c v IH]; intro H; [reflexivity|]. cbn [lstrip_by]. rewrite (H c (or_introl eq_refl)). apply IH. intros d Hd. apply H. right. exact Hd. }
  unfold strip, strip_by. rewrite L; [reflexivity|]. intros c Hc. destruct (H c Hc) as [-> | ->]; reflexivity.
Qed.
Lemma white_blank : forall y, white y -> blank y = true.
Proof. intros [v|] H; [|reflexivity]. cbn [blank]. rewrite (white_strip v (proj2 H)). reflexivity. Qed.
Lemma white_text : forall t y, cd t = false -> white y -> text_ok t y /\ amp_ok t y /\ out_text t y = y.
Proof.
  intros t [v|] Hc H; [|repeat split]. destruct H as [H0 H].
  assert (A : ~ In 38%N v) by (intro E; apply H in E; destruct E; discriminate).
  assert (B : no_lt v) by (intro E; apply H in E; destruct E; discriminate).
  assert (C : ~ In 93%N v) by (intro E; apply H in E; destruct E; discriminate).
  assert (D : decode v = Some v).
  { apply decode_text; [|exact A | exact B | apply (no_in_occurs 93%N); [left; reflexivity | exact C]].
    apply forallb_forall. intros c Hc0. destruct (H c Hc0) as [-> | ->]; reflexivity. }
  assert (T : text_ok t (Some v)).
  { cbn [text_ok]. rewrite Hc. split; [apply forallb_forall; intros c Hc0; destruct (H c Hc0) as [-> | ->]; reflexivity|]. split; [exact B|]. split; [rewrite D; discriminate|].
    split.
    - apply (containsb_missing p_open 91%N); [left; reflexivity | intro E; apply H in E; destruct E; discriminate].
    - apply (containsb_missing p_close 93%N); [right; left; reflexivity | exact C]. }
  split; [exact T|]. split; [right; exact A|]. rewrite out_strict; [destruct v; [congruence | reflexivity] | exact T | right; exact A].
Qed.

(** ** One element *)
Definition again (e : elem) : Prop := clean e /\ strict e /\ settled out_text e e.

Lemma node_again : forall t x y, cd t = false -> text_ok t x -> amp_ok t x -> node_text out_text t x y ->
  text_ok t y /\ amp_ok t y /\ node_text out_text t y y /\ out_text t y = y.
Proof.
  intros t x y Hc Hx Ax [[B W] | [B ->]].
  - destruct (white_text t y Hc W) as (H1 & H2 & H3). split; [exact H1|]. split; [exact H2|]. split; [left; split; [apply white_blank; exact W | exact W] | exact H3].
  - rewrite (out_strict t x Hx Ax) in *. split; [apply nonempty_text; exact Hx|]. split; [apply nonempty_amp; exact Ax|].
    assert (Q : out_text t (nonempty x) = nonempty x) by (rewrite out_strict; [apply nonempty_idem | apply nonempty_text; exact Hx | apply nonempty_amp; exact Ax]).
    split; [|exact Q]. right. split; [|symmetry; exact Q]. destruct x as [[|c v]|]; [discriminate B | exact B | discriminate B].
Qed.

Lemma reopened : forall e, clean e -> strict e -> forall e', settled out_text e e' -> again e'.
Proof.
  apply (elem_rect2 (fun e => clean e -> strict e -> forall e', settled out_text e e' -> again e')). intros t x k IH Hc Hs e' H.
  inversion Hc as [? ? ? Hn Ht Hk Hks]; subst. inversion Hs as [? ? ? Ha Hss]; subst. inversion H as [? ? | ? ? y a k0 a' k' HF HN]; subst.
  - pose proof (out_idem t x Ht Ha) as Q. rewrite (out_strict t x Ht Ha) in *. split; [|split].
    + constructor; [exact Hn | apply nonempty_text; exact Ht | left; reflexivity | constructor].
    + constructor; [apply nonempty_amp; exact Ha | constructor].
    + rewrite <- Q at 2. constructor.
  - destruct Hk as [Hk | Hk]; [discriminate|]. destruct (node_again t x y Hk Ht Ha HN) as (T1 & T2 & T3 & _).
    assert (Z : Forall again (a' :: k')).
    { revert IH Hks Hss HF. generalize (a :: k0), (a' :: k'). intros l l' IH Hks Hss HF. clear -IH Hks Hss HF.
      induction HF as [|u v l l' Huv HF IHF]; [constructor|]. inversion IH; inversion Hks; inversion Hss; subst. constructor; [auto | apply IHF; assumption]. }
    split; [|split].
    + constructor; [exact Hn | exact T1 | right; exact Hk|]. revert Z. apply Forall_impl. intros u U. apply U.
    + constructor; [exact T2|]. revert Z. apply Forall_impl. intros u U. apply U.
    + constructor; [|exact T3]. revert Z. generalize (a' :: k'). intros l Z. induction Z as [|u l U Z IHl]; [constructor|]. constructor; [apply U | exact IHl].
Qed.

(** a section whose content is not needed *)
Lemma wiped : forall e, clean e -> strict (with_kids [] e) -> cd (e_tag e) = false -> forall e', settled out_text e e' -> again (with_kids [] e').
Proof.
  intros e Hc Hs Hcd e' H. inversion Hc as [t x k Hn Ht Hk Hks]; subst. cbn [e_tag] in Hcd. unfold with_kids in Hs. inversion Hs as [? ? ? Ha _]; subst.
  assert (Q : exists y, e' = Elem t y (e_kids e') /\ text_ok t y /\ amp_ok t y /\ out_text t y = y).
  { inversion H as [? ? | ? ? y a k0 a' k' HF HN]; subst.
    - exists (out_text t x). split; [reflexivity|]. pose proof (out_idem t x Ht Ha) as Q. rewrite (out_strict t x Ht Ha) in *. split; [apply nonempty_text; exact Ht|]. split; [apply nonempty_amp; exact Ha | exact Q].
    - exists y. destruct (node_again t x y Hcd Ht Ha HN) as (T1 & T2 & _ & T4). split; [reflexivity|]. auto. }
  destruct Q as (y & -> & T1 & T2 & T3). cbn [with_kids]. split; [|split].
  - constructor; [exact Hn | exact T1 | left; reflexivity | constructor].
  - constructor; [exact T2 | constructor].
  - rewrite <- T3 at 2. constructor.
Qed.

(** ** The tree *)
Fixpoint wipes (S : list str) (r : list elem) : list elem :=
  match r with
  | [] => []
  | e :: r' => if smem (e_tag e) S then with_kids [] e :: wipes (remove_str (e_tag e) S) r' else e :: wipes S r'
  end.
Lemma remove_str_In : forall x y l, In x (remove_str y l) -> In x l.
Proof.
  intros x y l. induction l as [|z l IH]; [intros []|]. cbn [remove_str]. destruct (str_eqb z y); [right; assumption|]. intros [-> | H]; [left; reflexivity | right; apply IH; exact H].
Qed.
Lemma wipe_wipes : forall t r S, ~ In t S -> wipe t (wipes S r) = wipes (t :: S) r.
Proof.
  intros t r. unfold wipe. induction r as [|e r IH]; intros S N; [reflexivity|]. cbn [wipes].
  destruct (str_eqb (e_tag e) t) eqn:Et.
  - apply str_eqb_eq in Et. replace (smem (e_tag e) S) with false by (symmetry; apply smem_false; rewrite Et; exact N).
    replace (smem (e_tag e) (t :: S)) with true by (symmetry; apply smem_In; left; symmetry; exact Et). cbn [upd]. rewrite Et, str_eqb_refl. cbn [remove_str]. rewrite str_eqb_refl. reflexivity.
  - assert (Q : smem (e_tag e) (t :: S) = smem (e_tag e) S).
    { destruct (smem (e_tag e) S) eqn:E; [apply smem_In; right; apply smem_In; exact E|]. apply smem_false. intros [F | F]; [subst t; rewrite str_eqb_refl in Et; discriminate | apply smem_false in E; exact (E F)]. }
    rewrite Q. cbn [remove_str]. rewrite (str_eqb_sym t (e_tag e)), Et. destruct (smem (e_tag e) S); cbn [upd]; [rewrite with_kids_tag, Et|rewrite Et]; (rewrite IH; [reflexivity|]); [|exact N].
    intro E. apply N. exact (remove_str_In _ _ _ E).
Qed.
Lemma wipes_nil : forall r, wipes [] r = r.
Proof. induction r as [|e r IH]; [reflexivity|]. cbn [wipes]. change (smem (e_tag e) []) with false. cbv iota. rewrite IH. reflexivity. Qed.
Lemma wipe3_wipes : forall r, wipe3 r = wipes [s "LOCATIONS"; s "ITEMS"; s "CHARACTERS"] r.
Proof.
  intro r. unfold wipe3. rewrite <- (wipes_nil r) at 1. rewrite wipe_wipes by (intros []). rewrite wipe_wipes by (intros [E | []]; discriminate E).
  rewrite wipe_wipes by (intros [E | [E | []]]; discriminate E). reflexivity.
Qed.

Lemma wipes_again : forall r r', Forall2 (settled out_text) r r' -> forall S, (forall t, In t S -> cd t = false) -> Forall clean r -> Forall strict (wipes S r) -> Forall again (wipes S r').
Proof.
  intros r r' H. induction H as [|e e' r r' He H IH]; intros S HS Hc Hs; [constructor|]. inversion Hc; subst. cbn [wipes] in *. rewrite (settled_tag out_text e e' He).
  destruct (smem (e_tag e) S) eqn:E; inversion Hs; subst.
  - constructor; [|apply IH; [intros t Ht; apply HS; exact (remove_str_In _ _ _ Ht) | assumption | assumption]].
    apply (wiped e); try assumption. apply HS. apply smem_In. exact E.
  - constructor; [apply (reopened e); assumption | apply IH; assumption].
Qed.
Lemma wipe3_again : forall r r', Forall2 (settled out_text) r r' -> Forall clean r -> Forall strict (wipe3 r) -> Forall again (wipe3 r').
Proof.
  intros r r' H Hc Hs. rewrite wipe3_wipes in *. apply (wipes_again r); try assumption. intros t [<- | [<- | [<- | []]]]; reflexivity.
Qed.
