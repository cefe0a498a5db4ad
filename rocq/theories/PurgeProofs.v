(** Proofs about Purge.v *)
From Coq Require Import List NArith ZArith Bool Lia Arith.
From Verif Require Import PyStr PyDict NovelModel WordCount WordCountProofs NovelOps NovelOpsProofs Yw7Build Purge SpecPurge Spec.
Import ListNotations.

(** ** keyword variables *)
Lemma otruthy_set : forall f kw, otruthy (get_kw f kw) = true <-> is_set f kw.
Proof.
  intros f kw. unfold get_kw, is_set. destruct (dget f kw) as [[[|c v]|]|] eqn:E; cbn; split; intro H; try discriminate; try reflexivity;
    try (destruct H as (c0 & v0 & H); discriminate). exists c, v. reflexivity.
Qed.

Definition settable (fields : list str) (kw : dict (option str)) : bool := existsb (fun f => otruthy (get_kw f kw)) fields.
Lemma settable_spec : forall fields kw, settable fields kw = true <-> exists f, In f fields /\ is_set f kw.
Proof.
  intros fields kw. unfold settable. rewrite existsb_exists. split; intros (f & H1 & H2); exists f; (split; [exact H1|]); apply otruthy_set; exact H2.
Qed.

Lemma clear_fields_cons : forall f fs kw b, clear_fields (f :: fs) kw b =
  if otruthy (get_kw f kw) then clear_fields fs (dset f (@Some str []) kw) true else clear_fields fs kw b.
Proof. intros. unfold clear_fields at 1. cbn [fold_left]. unfold clear_field at 2. cbn [fst]. destruct (otruthy (get_kw f kw)); reflexivity. Qed.

Lemma clear_fields_spec : forall fields kw b,
  cleared fields kw (fst (clear_fields fields kw b)) /\ snd (clear_fields fields kw b) = b || settable fields kw.
Proof.
  induction fields as [|f fs IH]; intros kw b.
  - cbn. split; [|now rewrite orb_false_r]. split; [reflexivity|]. intro g. split; [intros [[] _] | reflexivity].
  - rewrite clear_fields_cons. destruct (otruthy (get_kw f kw)) eqn:E.
    + destruct (IH (dset f (@Some str []) kw) true) as [[K H] C].
      assert (Hs : is_set f kw) by (apply otruthy_set; exact E).
      assert (Hin : In f (dkeys kw)) by (destruct Hs as (c & v & Hs); apply dget_Some_key; eexists; exact Hs).
      split.
      * split; [rewrite K; apply dkeys_dset_in; exact Hin|]. intro g. destruct (H g) as [H1 H2].
        destruct (str_eq_dec g f) as [->|Hne].
        -- rewrite dget_dset_same in H2. assert (Hns : ~ is_set f (dset f (@Some str []) kw)) by (intros (c & v & X); rewrite dget_dset_same in X; discriminate).
           split; intro X; [apply H2; tauto | exfalso; apply X; split; [left; reflexivity | exact Hs]].
        -- assert (Eg : dget g (dset f (@Some str []) kw) = dget g kw) by (apply dget_dset_other; exact Hne).
           rewrite Eg in H2.
           assert (Hsg : is_set g (dset f (@Some str []) kw) <-> is_set g kw) by (unfold is_set; rewrite Eg; tauto).
           split; intro X.
           ++ apply H1. destruct X as [[X|X] Y]; [congruence|]. split; [exact X | apply Hsg; exact Y].
           ++ apply H2. intros [Y1 Y2]. apply X. split; [right; exact Y1 | apply Hsg; exact Y2].
      * rewrite C. cbn [settable existsb]. unfold settable in *. cbn [existsb]. rewrite E. cbn. now rewrite orb_true_r.
    + destruct (IH kw b) as [[K H] C].
      assert (Hs : ~ is_set f kw) by (intro X; apply otruthy_set in X; congruence).
      split.
      * split; [exact K|]. intro g. destruct (H g) as [H1 H2]. split.
        -- intros [[X|X] Y]; [subst; contradiction | apply H1; tauto].
        -- intro X. apply H2. intros [Y1 Y2]. apply X. split; [right; exact Y1 | exact Y2].
      * rewrite C. unfold settable. cbn [existsb]. rewrite E. reflexivity.
Qed.

Lemma cleared_not_set : forall fields kw kw' f, cleared fields kw kw' -> In f fields -> ~ is_set f kw'.
Proof.
  intros fields kw kw' f [_ H] Hf (c & v & X). destruct (H f) as [H1 H2].
  destruct (otruthy (get_kw f kw)) eqn:E.
  - rewrite H1 in X; [discriminate|]. split; [exact Hf | apply otruthy_set; exact E].
  - assert (N : ~ is_set f kw) by (intro Y; apply otruthy_set in Y; congruence).
    apply N. exists c, v. rewrite <- X. symmetry. apply H2. tauto.
Qed.

Lemma clear_fields_none : forall fields kw b, (forall f, In f fields -> ~ is_set f kw) -> clear_fields fields kw b = (kw, b).
Proof.
  induction fields as [|f fs IH]; intros kw b H; [reflexivity|]. rewrite clear_fields_cons.
  destruct (otruthy (get_kw f kw)) eqn:E.
  - apply otruthy_set in E. exfalso. exact (H f (or_introl eq_refl) E).
  - apply IH. intros g Hg. apply H. right. exact Hg.
Qed.

Section Elements.
  Context {A : Type} (get : A -> dict (option str)) (set : dict (option str) -> A -> A).
  Hypothesis get_set : forall kw e, get (set kw e) = kw.
  Hypothesis set_same : forall e, set (get e) e = e.

  Definition settable_all (fields : list str) (es : dict A) : bool := existsb (fun p => settable fields (get (snd p))) es.
  Lemma settable_all_spec : forall fields es, settable_all fields es = true <-> some_set get fields es.
  Proof using.
    intros fields es. unfold settable_all, some_set. rewrite existsb_exists. split.
    - intros ([id e] & H1 & H2). apply settable_spec in H2 as (f & H2 & H3). exists id, e, f. auto.
    - intros (id & e & f & H1 & H2 & H3). exists (id, e). split; [exact H1|]. apply settable_spec. exists f. auto.
  Qed.

  Lemma clear_all_spec : forall fields es b,
    all_cleared get set fields es (fst (clear_all get set fields es b)) /\ snd (clear_all get set fields es b) = b || settable_all fields es.
  Proof using.
    induction es as [|[id e] es IH]; intro b.
    - cbn. split; [constructor | now rewrite orb_false_r].
    - cbn [clear_all]. destruct (clear_fields_spec fields (get e) b) as [H1 H2]. destruct (clear_fields fields (get e) b) as [kw c1] eqn:E. cbn [fst snd] in *.
      specialize (IH c1). destruct (clear_all get set fields es c1) as [r c2] eqn:E2. cbn [fst snd] in *. destruct IH as [H3 H4]. split.
      + constructor; [|exact H3]. cbn. split; [reflexivity|]. exists kw. split; [reflexivity | exact H1].
      + rewrite H4, H2. unfold settable_all. cbn [existsb snd]. now rewrite orb_assoc.
  Qed.

  Lemma clear_all_none : forall fields es b, (forall id e f, In (id, e) es -> In f fields -> ~ is_set f (get e)) ->
    clear_all get set fields es b = (es, b).
  Proof using set_same.
    induction es as [|[id e] es IH]; intros b H; [reflexivity|]. cbn [clear_all].
    rewrite (clear_fields_none fields (get e) b); [|intros f Hf; apply (H id e f (or_introl eq_refl) Hf)].
    rewrite (IH b); [|intros id0 e0 f0 H0; apply (H id0); right; exact H0]. rewrite set_same. reflexivity.
  Qed.

  Lemma all_cleared_not_set : forall fields es es', all_cleared get set fields es es' ->
    forall id e f, In (id, e) es' -> In f fields -> ~ is_set f (get e).
  Proof using get_set.
    intros fields es es' H. induction H as [|p q l l' (H1 & kw & H2 & H3) H IH]; intros id e f Hin Hf; [contradiction|].
    destruct Hin as [-> | Hin]; [|exact (IH id e f Hin Hf)]. cbn in H2. subst e. rewrite get_set. exact (cleared_not_set _ _ _ _ H3 Hf).
  Qed.
End Elements.

(** ** language tags *)
Lemma lazy_to_spec : forall close t k, close <> [] -> lazy_to close t = Some k ->
  exists w rest, t = w ++ close ++ rest /\ k = length (w ++ close) /\ ~ In nl w /\ (forall a b, w = a ++ b -> b <> [] -> prefixb close (b ++ close ++ rest) = false).
Proof.
  intros close t. induction t as [|c t IH]; intros k Hc H; cbn [lazy_to] in H.
  - destruct (prefixb close []) eqn:E; [|discriminate]. apply prefixb_spec in E as [r E]. destruct close; [congruence | discriminate].
  - destruct (prefixb close (c :: t)) eqn:E.
    + injection H as <-. apply prefixb_spec in E as [r E]. exists [], r. split; [exact E|]. split; [reflexivity|]. split; [intros [] |].
      intros a b X Y. destruct a; [cbn in X; congruence | discriminate].
    + destruct (N.eqb c nl) eqn:En; [discriminate|]. destruct (lazy_to close t) as [j|] eqn:El; [|discriminate]. injection H as <-.
      destruct (IH j Hc eq_refl) as (w & rest & -> & -> & Hn & Hf). exists (c :: w), rest. split; [reflexivity|]. split; [reflexivity|].
      split.
      * intros [X | X]; [|exact (Hn X)]. apply N.eqb_neq in En. congruence.
      * intros a b X Y. destruct a as [|x a].
        -- cbn in X. subst b. cbn [app]. exact E.
        -- injection X as -> X. exact (Hf a b X Y).
Qed.

Lemma leading_slashes_spec : forall t, t = repeat 47%N (leading_slashes t) ++ skipn (leading_slashes t) t /\
  (forall r, skipn (leading_slashes t) t <> 47%N :: r).
Proof.
  induction t as [|c t IH]; [split; [reflexivity | discriminate]|]. cbn [leading_slashes]. destruct (N.eqb c 47) eqn:E.
  - apply N.eqb_eq in E as ->. cbn [skipn repeat app]. destruct IH as [IH1 IH2]. split; [f_equal; exact IH1 | exact IH2].
  - split; [reflexivity|]. intros r X. cbn in X. injection X as -> _. discriminate.
Qed.
Lemma leading_slashes_repeat : forall k r, (forall x, r <> 47%N :: x) -> leading_slashes (repeat 47%N k ++ r) = k.
Proof.
  induction k as [|k IH]; intros r H; cbn [repeat app leading_slashes].
  - destruct r as [|c r]; [reflexivity|]. cbn. destruct (N.eqb c 47) eqn:E; [|reflexivity]. apply N.eqb_eq in E as ->. exfalso. exact (H r eq_refl).
  - rewrite N.eqb_refl. f_equal. apply IH. exact H.
Qed.

Lemma tag_length : forall k c, length (lang_tag k c) = S (k + (5 + length (c ++ s "]"))).
Proof. intros. unfold lang_tag. rewrite !app_length, repeat_length. cbn. lia. Qed.

Lemma m_languageTag_some : forall b t j, m_languageTag b t = S j ->
  exists k c rest, t = lang_tag k c ++ rest /\ S j = length (lang_tag k c) /\ ~ In 10%N c /\ ~ In 93%N c.
Proof.
  intros b t j H. destruct t as [|x t]; [discriminate|]. unfold m_languageTag in H. destruct (N.eqb x 91) eqn:Ex; [|discriminate]. apply N.eqb_eq in Ex as ->.
  destruct (leading_slashes_spec t) as [Ht _]. remember (leading_slashes t) as k eqn:Hk. remember (skipn k t) as r eqn:Hr. cbv zeta in H.
  destruct (prefixb (s "lang=") r) eqn:Ep; [|discriminate]. apply prefixb_spec in Ep as [r2 Ep].
  replace (skipn 5 r) with r2 in H by (rewrite Ep; reflexivity).
  destruct (lazy_to (s "]") r2) as [m|] eqn:El; [|discriminate]. injection H as <-.
  apply lazy_to_spec in El as (w & rest & Hw & Hm & Hn & Hf); [|discriminate].
  exists k, w, rest. split; [|split; [|split]].
  - rewrite Ht, Ep, Hw. unfold lang_tag. change (91%N :: repeat 47%N k ++ s "lang=" ++ w ++ s "]" ++ rest) with (s "[" ++ repeat 47%N k ++ s "lang=" ++ w ++ s "]" ++ rest).
    rewrite <- !app_assoc. reflexivity.
  - rewrite tag_length, Hm. reflexivity.
  - exact Hn.
  - intro X. apply in_split in X as (a & b0 & X). subst w. specialize (Hf a (93%N :: b0) eq_refl). discriminate Hf. discriminate.
Qed.

Lemma m_languageTag_hit : forall b k c rest, ~ In 10%N c -> ~ In 93%N c -> m_languageTag b (lang_tag k c ++ rest) = length (lang_tag k c).
Proof.
  intros b k c rest H1 H2. rewrite tag_length.
  replace (lang_tag k c ++ rest) with (91%N :: repeat 47%N k ++ (s "lang=" ++ (c ++ s "]" ++ rest))) by (unfold lang_tag; rewrite <- !app_assoc; reflexivity).
  remember (s "lang=" ++ (c ++ s "]" ++ rest)) as r eqn:Hr.
  assert (Hs : forall x, r <> 47%N :: x) by (intros x X; rewrite Hr in X; discriminate X).
  unfold m_languageTag. change (N.eqb 91 91) with true. cbv iota zeta. rewrite (leading_slashes_repeat k r Hs).
  replace (skipn k (repeat 47%N k ++ r)) with r by (rewrite skipn_app, repeat_length, Nat.sub_diag, skipn_all2; [reflexivity | rewrite repeat_length; lia]).
  rewrite Hr, prefixb_app. change (skipn 5 (s "lang=" ++ (c ++ s "]" ++ rest))) with (c ++ s "]" ++ rest).
  assert (L : lazy_to (s "]") (c ++ s "]" ++ rest) = Some (length (c ++ s "]"))).
  { clear Hr Hs. induction c as [|x c IH]; [reflexivity|]. cbn [app lazy_to].
    change (prefixb (s "]") (x :: c ++ s "]" ++ rest)) with (N.eqb 93 x && true).
    destruct (N.eqb 93 x) eqn:E; [apply N.eqb_eq in E; exfalso; apply H2; left; congruence|]. cbn [andb].
    destruct (N.eqb x nl) eqn:E2; [apply N.eqb_eq in E2; exfalso; apply H1; left; exact E2|].
    rewrite IH; [reflexivity | intro X; apply H1; right; exact X | intro X; apply H2; right; exact X]. }
  rewrite L. reflexivity.
Qed.

Lemma m_languageTag_none : forall b t, m_languageTag b t = 0 -> forall rest, ~ is_tag_at t rest.
Proof.
  intros b t H rest (k & c & -> & H1 & H2). rewrite (m_languageTag_hit b k c rest H1 H2), tag_length in H. discriminate.
Qed.

Lemma untag_spec : forall t b, untagged t (sub_go m_languageTag [] b 0 t).
Proof.
  intro t. remember (length t) as n eqn:Hn. revert t Hn. induction n as [n IH] using lt_wf_ind. intros t Hn b.
  destruct t as [|x t]; [constructor|]. destruct (m_languageTag b (x :: t)) as [|j] eqn:E.
  - rewrite (sub_go_miss m_languageTag [] x b t E). apply ut_char; [exact (m_languageTag_none b _ E)|].
    apply (IH (length t)); [cbn in Hn; lia | reflexivity].
  - destruct (m_languageTag_some b _ j E) as (k & c & rest & Ht & Hj & H1 & H2). rewrite Ht in *.
    rewrite sub_go_hit; [|intro X; apply (f_equal (@length N)) in X; rewrite tag_length in X; discriminate | rewrite E; exact Hj].
    cbn [app]. apply (ut_tag _ rest).
    + exists k, c. auto.
    + apply (IH (length rest)); [|reflexivity]. rewrite Hn, app_length, tag_length. lia.
Qed.
Lemma untagged_fun : forall t r1 r2, untagged t r1 -> untagged t r2 -> r1 = r2.
Proof.
  intros t r1 r2 H. revert r2. induction H as [|t rest r Ht H IH|x t r Hn H IH]; intros r2 H2.
  - inversion H2 as [|t rest r Ht H|]; subst; [reflexivity|]. destruct Ht as (k & c & X & _). apply (f_equal (@length N)) in X. rewrite app_length, tag_length in X. discriminate.
  - inversion H2 as [E1 E2|t' rest' r' Ht' H' E1 E2|x t' r' Hn' H' E1 E2]; subst.
    + destruct Ht as (k & c & X & _). apply (f_equal (@length N)) in X. rewrite app_length, tag_length in X. discriminate.
    + apply IH. assert (rest = rest'); [|subst; exact H'].
      destruct Ht as (k & c & X & C1 & C2). destruct Ht' as (k' & c' & X' & C1' & C2'). rewrite X in X'.
      pose proof (m_languageTag_hit true k c rest C1 C2) as L. rewrite X' in L. rewrite (m_languageTag_hit true k' c' rest' C1' C2') in L.
      assert (Y : skipn (length (lang_tag k c)) (lang_tag k c ++ rest) = skipn (length (lang_tag k' c')) (lang_tag k' c' ++ rest')) by (rewrite X', L; reflexivity).
      rewrite !skipn_app, !skipn_all, !Nat.sub_diag in Y. exact Y.
    + exfalso. exact (Hn' _ Ht).
  - inversion H2 as [|t' rest' r' Ht' H' E1 E2|x' t' r' Hn' H' E1 E2]; subst.
    + exfalso. exact (Hn _ Ht').
    + f_equal. apply IH. exact H'.
Qed.

(** ** closed brackets *)
Inductive langless : str -> Prop :=
| ll_nil : langless []
| ll_char : forall x t, x <> 91%N -> langless t -> langless (x :: t)
| ll_group : forall w t, ~ In 91%N w -> ~ In 93%N w -> (forall c, w <> s "lang=" ++ c) -> langless t -> langless (s "[" ++ w ++ s "]" ++ t).

Lemma not_tag_char : forall x t rest, x <> 91%N -> ~ is_tag_at (x :: t) rest.
Proof. intros x t rest Hx (k & c & H & _). unfold lang_tag in H. injection H as -> _. contradiction. Qed.

Lemma untagged_chars : forall w t r, ~ In 91%N w -> untagged t r -> untagged (w ++ t) (w ++ r).
Proof.
  induction w as [|x w IH]; intros t r H Hu; [exact Hu|]. cbn [app]. apply ut_char.
  - intro rest. apply not_tag_char. intros ->. apply H. left. reflexivity.
  - apply IH; [intro X; apply H; right; exact X | exact Hu].
Qed.

Lemma closed_untagged : forall t, brackets_closed t -> exists r, untagged t r /\ langless r.
Proof.
  intros t H. induction H as [|x t Hx H (r & IH1 & IH2)|w t H1 H2 H3 H (r & IH1 & IH2)].
  - exists []. split; constructor.
  - exists (x :: r). split; [apply ut_char; [intro rest; apply not_tag_char; exact Hx | exact IH1] | apply ll_char; assumption].
  - destruct (m_languageTag true (s "[" ++ w ++ s "]" ++ t)) as [|j] eqn:E.
    + exists (s "[" ++ w ++ s "]" ++ r). split.
      * apply (ut_char 91%N (w ++ s "]" ++ t)); [exact (m_languageTag_none true _ E)|]. apply untagged_chars; [exact H1|].
        apply untagged_chars; [intros [X|[]]; discriminate | exact IH1].
      * apply ll_group; [exact H1 | exact H2 | | exact IH2]. intros c ->.
        refine (m_languageTag_none true _ E t _). exists 0, c. split; [unfold lang_tag; cbn [repeat app]; rewrite <- !app_assoc; reflexivity|].
        split; intro X; [apply H3 | apply H2]; apply in_app_iff; right; exact X.
    + destruct (m_languageTag_some true _ j E) as (k & c & rest & Ht & _ & C1 & C2). exists r. split; [|exact IH2].
      apply (ut_tag _ t); [|exact IH1]. exists k, c. split; [|auto]. rewrite Ht. f_equal.
      unfold lang_tag in Ht. rewrite <- !app_assoc in Ht. change (s "[" ++ ?x) with (91%N :: x) in Ht.
      injection Ht as Ht.
      assert (L : forall a b c d : str, ~ In 93%N a -> ~ In 93%N c -> a ++ 93%N :: b = c ++ 93%N :: d -> b = d).
      { clear. induction a as [|x a IH]; intros b c d Ha Hc X; destruct c as [|y c].
        - injection X as X. exact X.
        - injection X as <- X. exfalso. apply Hc. left. reflexivity.
        - injection X as -> X. exfalso. apply Ha. left. reflexivity.
        - injection X as -> X. apply (IH b c d); [intro Y; apply Ha; right; exact Y | intro Y; apply Hc; right; exact Y | exact X]. }
      symmetry. refine (L w t (repeat 47%N k ++ s "lang=" ++ c) rest H2 _ _).
      * intro X. apply in_app_iff in X as [X|X]; [apply repeat_spec in X; discriminate|]. apply in_app_iff in X as [X|X]; [|exact (C2 X)].
        cbv in X. intuition discriminate.
      * rewrite <- !app_assoc. exact Ht.
Qed.

Lemma langless_no_tag : forall t, langless t -> forall a c b, t = a ++ s "[lang=" ++ c ++ s "]" ++ b -> False.
Proof.
  intros t H. induction H as [|x t Hx H IH|w t H1 H2 H3 H IH]; intros a c b E.
  - destruct a; discriminate.
  - destruct a as [|y a]; [injection E as -> E; contradiction|]. injection E as -> E. exact (IH a c b E).
  - destruct a as [|y a].
    + change (s "[" ++ ?x) with (91%N :: x) in E. change ([] ++ s "[lang=" ++ c ++ s "]" ++ b) with (91%N :: s "lang=" ++ c ++ s "]" ++ b) in E. injection E as E. change (w ++ 93%N :: t = s "lang=" ++ (c ++ 93%N :: b)) in E.
      destruct (app_prefix_cases _ _ _ _ E) as [[m [Ha Hm]] | [m [Ha [Hm Hne]]]].
      * destruct m as [|z m].
        -- rewrite app_nil_r in Ha. apply (H3 []). rewrite app_nil_r. symmetry. exact Ha.
        -- injection Hm as <- _. assert (X : In 93%N (s "lang=")) by (rewrite Ha; apply in_app_iff; right; left; reflexivity). cbv in X. intuition discriminate.
      * exact (H3 _ Ha).
    + change (s "[" ++ ?x) with (91%N :: x) in E. injection E as <- E.
      change (w ++ 93%N :: t = a ++ 91%N :: (s "lang=" ++ c ++ s "]" ++ b)) in E.
      apply app_split_at in E as (e & E & ->); [|exact H1]. destruct e as [|z e]; [discriminate|]. injection E as <- E. exact (IH e c b E).
Qed.

(** ** the operations *)
Lemma nv_eq : forall n kw chs scs crs lcs its, kw = nv_kw n -> chs = nv_chapters n -> scs = nv_scenes n -> crs = nv_characters n -> lcs = nv_locations n -> its = nv_items n ->
  set_nv_kw kw (set_nv_chapters chs (set_nv_scenes scs (set_nv_characters crs (set_nv_locations lcs (set_nv_items its n))))) = n.
Proof. intros n * -> -> -> -> -> ->. destruct n. reflexivity. Qed.

Lemma reset_eq : forall kv n n' c, reset_custom_variables kv n = Ok (n', c) -> exists kw chs scs crs lcs its,
  n' = set_nv_kw kw (set_nv_chapters chs (set_nv_scenes scs (set_nv_characters crs (set_nv_locations lcs (set_nv_items its n))))) /\
  cleared (PRJ kv) (nv_kw n) kw /\
  all_cleared ch_kw set_ch_kw (CHP kv) (nv_chapters n) chs /\ all_cleared sc_kw set_sc_kw (SCN kv) (nv_scenes n) scs /\
  all_cleared cr_kw set_cr_kw (CRT kv) (nv_characters n) crs /\ all_cleared we_kw set_we_kw (LOC kv) (nv_locations n) lcs /\
  all_cleared we_kw set_we_kw (ITM kv) (nv_items n) its /\
  (nv_projectNotes n = [] \/ PNT kv = []) /\
  (c = true <-> (exists f, In f (PRJ kv) /\ is_set f (nv_kw n)) \/ some_set ch_kw (CHP kv) (nv_chapters n) \/ some_set sc_kw (SCN kv) (nv_scenes n) \/
     some_set cr_kw (CRT kv) (nv_characters n) \/ some_set we_kw (LOC kv) (nv_locations n) \/ some_set we_kw (ITM kv) (nv_items n)).
Proof.
  intros kv n n' c H. unfold reset_custom_variables in H.
  destruct (clear_fields_spec (PRJ kv) (nv_kw n) false) as [A1 B1]. destruct (clear_fields (PRJ kv) (nv_kw n) false) as [kw c1].
  destruct (clear_all_spec ch_kw set_ch_kw (CHP kv) (nv_chapters n) c1) as [A2 B2]. destruct (clear_all ch_kw set_ch_kw (CHP kv) (nv_chapters n) c1) as [chs c2].
  destruct (clear_all_spec sc_kw set_sc_kw (SCN kv) (nv_scenes n) c2) as [A3 B3]. destruct (clear_all sc_kw set_sc_kw (SCN kv) (nv_scenes n) c2) as [scs c3].
  destruct (clear_all_spec cr_kw set_cr_kw (CRT kv) (nv_characters n) c3) as [A4 B4]. destruct (clear_all cr_kw set_cr_kw (CRT kv) (nv_characters n) c3) as [crs c4].
  destruct (clear_all_spec we_kw set_we_kw (LOC kv) (nv_locations n) c4) as [A5 B5]. destruct (clear_all we_kw set_we_kw (LOC kv) (nv_locations n) c4) as [lcs c5].
  destruct (clear_all_spec we_kw set_we_kw (ITM kv) (nv_items n) c5) as [A6 B6]. destruct (clear_all we_kw set_we_kw (ITM kv) (nv_items n) c5) as [its c6].
  cbn [fst snd] in *. exists kw, chs, scs, crs, lcs, its.
  assert (P : (nv_projectNotes n = [] \/ PNT kv = []) /\ n' = set_nv_kw kw (set_nv_chapters chs (set_nv_scenes scs (set_nv_characters crs (set_nv_locations lcs (set_nv_items its n))))) /\ c = c6).
  { destruct (nv_projectNotes n); [|destruct (PNT kv); [|discriminate]]; injection H as <- <-; auto. }
  destruct P as (P1 & P2 & ->). split; [exact P2|]. do 6 (split; [assumption|]). split; [exact P1|].
  rewrite B6, B5, B4, B3, B2, B1. rewrite orb_false_l, !orb_true_iff, !settable_all_spec, settable_spec. tauto.
Qed.

Lemma reset_repeat : forall kv n n' c, reset_custom_variables kv n = Ok (n', c) -> reset_custom_variables kv n' = Ok (n', false).
Proof.
  intros kv n n' c H. apply reset_eq in H as (kw & chs & scs & crs & lcs & its & -> & A1 & A2 & A3 & A4 & A5 & A6 & P & _).
  unfold reset_custom_variables. cbn [nv_kw nv_chapters nv_scenes nv_characters nv_locations nv_items nv_projectNotes set_nv_kw set_nv_chapters set_nv_scenes set_nv_characters set_nv_locations set_nv_items] in *.
  rewrite (clear_fields_none (PRJ kv) kw false); [|intros f Hf; exact (cleared_not_set _ _ _ _ A1 Hf)].
  rewrite (clear_all_none ch_kw set_ch_kw ltac:(now intros []) (CHP kv) chs false (all_cleared_not_set ch_kw set_ch_kw ltac:(now intros ? []) _ _ _ A2)).
  rewrite (clear_all_none sc_kw set_sc_kw ltac:(now intros []) (SCN kv) scs false (all_cleared_not_set sc_kw set_sc_kw ltac:(now intros ? []) _ _ _ A3)).
  rewrite (clear_all_none cr_kw set_cr_kw ltac:(now intros []) (CRT kv) crs false (all_cleared_not_set cr_kw set_cr_kw ltac:(now intros ? []) _ _ _ A4)).
  rewrite (clear_all_none we_kw set_we_kw ltac:(now intros []) (LOC kv) lcs false (all_cleared_not_set we_kw set_we_kw ltac:(now intros ? []) _ _ _ A5)).
  rewrite (clear_all_none we_kw set_we_kw ltac:(now intros []) (ITM kv) its false (all_cleared_not_set we_kw set_we_kw ltac:(now intros ? []) _ _ _ A6)).
  destruct P as [P | ->]; [|destruct (nv_projectNotes n); reflexivity]. rewrite P. reflexivity.
Qed.

Definition untag_result (p q : str * scene) : Prop :=
  fst q = fst p /\
  match sc_content (snd p) with
  | None => snd q = snd p
  | Some t => exists r, untagged t r /\ snd q = (if str_eq_dec r t then snd p else set_sceneContent r (snd p))
  end.
Lemma untag_scenes_spec : forall es b, Forall2 untag_result es (fst (untag_scenes es b)) /\
  (snd (untag_scenes es b) = true <-> b = true \/ exists id sc t, In (id, sc) es /\ sc_content sc = Some t /\ ~ untagged t t).
Proof.
  induction es as [|[id sc] es IH]; intro b.
  - cbn. split; [constructor|]. split; [tauto|]. intros [H | (id & sc & t & [] & _)]. exact H.
  - cbn [untag_scenes]. destruct (untag_scene sc) as [sc' c] eqn:E. specialize (IH (b || c)). destruct (untag_scenes es (b || c)) as [r c2]. cbn [fst snd] in *.
    destruct IH as [IH1 IH2].
    assert (K : untag_result (id, sc) (id, sc') /\ (c = true <-> exists t, sc_content sc = Some t /\ ~ untagged t t)).
    { unfold untag_scene in E. unfold untag_result. cbn [fst snd]. destruct (sc_content sc) as [t|].
      - pose proof (untag_spec t true) as U. unfold re_sub in E. cbv zeta in E. destruct (str_eqb t (sub_go m_languageTag [] true 0 t)) eqn:Et; injection E as <- <-.
        + apply str_eqb_eq in Et. rewrite <- Et in U. split; [split; [reflexivity|]; exists t; split; [exact U|]; destruct (str_eq_dec t t); [reflexivity | contradiction]|].
          split; [discriminate|]. intros (t0 & X & Y). injection X as <-. contradiction.
        + apply str_eqb_neq in Et. split; [split; [reflexivity|]; eexists; split; [exact U|]; destruct (str_eq_dec _ t) as [X|X]; [congruence | reflexivity]|].
          split; [|reflexivity]. intros _. exists t. split; [reflexivity|]. intro X. apply Et. exact (untagged_fun _ _ _ X U).
      - injection E as <- <-. split; [split; reflexivity|]. split; [discriminate|]. intros (t0 & X & _). discriminate. }
    destruct K as [K1 K2]. split; [constructor; assumption|]. rewrite IH2, orb_true_iff, K2. split.
    + intros [[X | (t & X & Y)] | (id0 & sc0 & t0 & X & Y)]; [left; exact X | right; exists id, sc, t; split; [left; reflexivity | auto] | right; exists id0, sc0, t0; split; [right; exact X | exact Y]].
    + intros [X | (id0 & sc0 & t0 & [X | X] & Y)]; [left; left; exact X | left; right; injection X as <- <-; exists t0; exact Y | right; exists id0, sc0, t0; auto].
Qed.

Lemma untag_languages : forall n, (forall id sc t, In (id, sc) (nv_scenes n) -> sc_content sc = Some t -> brackets_closed t) ->
  nv_languages (get_languages (fst (remove_language_tags n))) = Some [].
Proof.
  intros n H. unfold remove_language_tags. destruct (untag_scenes_spec (nv_scenes n) false) as [F _].
  destruct (untag_scenes (nv_scenes n) false) as [scs c]. cbn [fst] in *.
  destruct (get_languages_spec (set_nv_scenes scs n)) as (tagss & G & E). rewrite E.
  assert (Z : concat tagss = []).
  { replace (nv_scenes (set_nv_scenes scs n)) with scs in G by (destruct n; reflexivity). clear E.
    revert tagss G. induction F as [|[id sc] [id' sc'] l l' R F IH]; intros tagss G; cbn [map] in G.
    - inversion G. reflexivity.
    - inversion G as [|x tags y tagss' G1 G2]; subst. cbn [concat snd] in *. rewrite (IH (fun id0 sc0 t0 X => H id0 sc0 t0 (or_intror X)) tagss' G2), app_nil_r.
      destruct R as [_ R]. cbn [snd] in R. destruct (sc_content sc) as [t|] eqn:Et.
      + destruct R as (r & U & R). destruct (closed_untagged t (H id sc t (or_introl eq_refl) Et)) as (r' & U' & L). rewrite (untagged_fun _ _ _ U' U) in L.
        assert (Es : sc_content sc' = Some r).
        { rewrite R. destruct (str_eq_dec r t) as [-> | _]; [exact Et | destruct sc; reflexivity]. }
        rewrite Es in G1. destruct tags as [|g tags]; [reflexivity|]. exfalso.
        destruct (lang_tags_sound _ _ g G1 (or_introl eq_refl)) as (a & b & X). exact (langless_no_tag _ L a g b X).
      + rewrite R, Et in G1. exact G1. }
  rewrite Z. destruct n; reflexivity.
Qed.

(** ** saving afterwards *)
From Verif Require Import YwTree YwTreeProofs.
Lemma put_kw_cleared : forall mk kw k f, ~ is_set f kw -> put_kw mk kw k f = upd (s "Fields") (on_kids (remove f)) k.
Proof.
  intros mk kw k f H. unfold put_kw. destruct (get_kw f kw) as [[|c v]|] eqn:E; try reflexivity. exfalso. apply H. apply otruthy_set. rewrite E. reflexivity.
Qed.
Lemma find_upd : forall t f k, (forall e, e_tag (f e) = e_tag e) -> find t (upd t f k) = option_map f (find t k).
Proof.
  intros t f k H. induction k as [|e k IH]; [reflexivity|]. cbn [upd]. destruct (str_eqb (e_tag e) t) eqn:E; cbn [find]; rewrite ?H, E; [reflexivity | exact IH].
Qed.
Lemma findall_remove_le : forall t u k, length (findall t (remove u k)) <= length (findall t k).
Proof.
  intros t u k. induction k as [|e k IH]; [apply le_n|]. cbn [remove]. destruct (str_eqb (e_tag e) u).
  - unfold findall. cbn [filter]. destruct (str_eqb (e_tag e) t); cbn [length]; lia.
  - unfold findall in *. cbn [filter]. destruct (str_eqb (e_tag e) t); cbn [length]; lia.
Qed.
Lemma find_none_findall : forall t k, findall t k = [] -> find t k = None.
Proof. intros t k H. rewrite find_findall, H. reflexivity. Qed.

Lemma put_kws_cleared : forall mk names kw k, (forall f, In f names -> ~ is_set f kw) ->
  (forall F f, find (s "Fields") k = Some F -> In f names -> length (findall f (e_kids F)) <= 1) ->
  forall F f, find (s "Fields") (put_kws mk names kw k) = Some F -> In f names -> find f (e_kids F) = None.
Proof.
  unfold put_kws. intros mk names kw.
  assert (G : forall ns k, (forall f, In f ns -> ~ is_set f kw) ->
    exists r, find (s "Fields") (fold_left (put_kw mk kw) ns k) = option_map r (find (s "Fields") k) /\
      (forall F f, length (findall f (e_kids (r F))) <= length (findall f (e_kids F))) /\
      (forall F f, In f ns -> length (findall f (e_kids F)) <= 1 -> findall f (e_kids (r F)) = [])).
  { induction ns as [|g ns IH]; intros k H.
    - exists (fun e => e). split; [cbn [fold_left]; now destruct (find (s "Fields") k)|]. split; [intros; apply le_n | intros F f []].
    - cbn [fold_left]. rewrite (put_kw_cleared mk kw k g (H g (or_introl eq_refl))).
      destruct (IH (upd (s "Fields") (on_kids (remove g)) k) (fun f Hf => H f (or_intror Hf))) as (r & E & Hle & Hr).
      exists (fun F => r (on_kids (remove g) F)). split; [|split].
      + rewrite E, find_upd by (intros []; reflexivity). destruct (find (s "Fields") k); reflexivity.
      + intros F f. eapply Nat.le_trans; [apply Hle|]. destruct F. apply findall_remove_le.
      + intros F f Hf H1. destruct (str_eq_dec f g) as [->|Hne].
        * assert (Z : findall g (e_kids (on_kids (remove g) F)) = []).
          { destruct F as [u x l]. cbn [e_kids] in H1. change (findall g (remove g l) = []). rewrite findall_remove. destruct (findall g l) as [|a [|b m]]; cbn in *; [reflexivity | reflexivity | lia]. }
          specialize (Hle (on_kids (remove g) F) g). rewrite Z in Hle. cbn in Hle. destruct (findall g (e_kids (r (on_kids (remove g) F)))); [reflexivity | cbn in Hle; lia].
        * destruct Hf as [<- | Hf]; [contradiction|]. apply Hr; [exact Hf|]. eapply Nat.le_trans; [|exact H1]. destruct F. apply findall_remove_le. }
  intros k Hs Hu F f HF Hf. destruct (G names k Hs) as (r & E & _ & Hr). rewrite E in HF. destruct (find (s "Fields") k) as [F0|] eqn:E0; [|discriminate].
  injection HF as <-. apply find_none_findall. apply Hr; [exact Hf | apply (Hu F0 f eq_refl Hf)].
Qed.
