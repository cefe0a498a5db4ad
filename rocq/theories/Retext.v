(** Restoring the texts of scenes one by one. *)
From Coq Require Import List NArith Bool.
From Verif Require Import PyStr PyDict NovelModel NovelOps SpecExport SpecRetext.
Import ListNotations.

Definition differ (ids : list str) (n m : novel) : Prop := other_texts (fun i => In i ids) n m.
Lemma Forall2_weaken : forall A B (P Q : A -> B -> Prop) l m, (forall a b, P a b -> Q a b) -> Forall2 P l m -> Forall2 Q l m.
Proof. intros A B P Q l m H F. induction F; constructor; auto. Qed.
Lemma other_weaken : forall (P Q : str -> Prop) n m, (forall i, P i -> Q i) -> other_texts P n m -> other_texts Q n m.
Proof.
  intros P Q n m H [scs [E F]]. exists scs. split; [exact E|]. eapply Forall2_weaken; [|exact F]. intros p q [A [B | [B C]]]; (split; [exact A|]); [now left | right; split; [now apply H | exact C]].
Qed.
Lemma set_same : forall n, set_nv_scenes (nv_scenes n) n = n.
Proof. now destruct n. Qed.
Lemma differ_end : forall n m, differ [] n m -> m = n.
Proof.
  intros n m [scs [E F]]. assert (scs = nv_scenes n); [|subst; apply set_same]. clear E. remember (nv_scenes n) as l. clear Heql. revert scs F. induction l as [|[k x] l IH]; intros scs F; inversion F as [|p q l1 l2 [H1 H2] F2]; subst; [reflexivity|].
  destruct q as [k2 x2]. cbn [fst snd] in *. subst. destruct H2 as [-> | [[] _]]. f_equal. now apply IH.
Qed.
Lemma differ_refl : forall ids n, differ ids n n.
Proof. intros ids n. exists (nv_scenes n). split; [symmetry; apply set_same|]. induction (nv_scenes n) as [|p l IH]; constructor; [split; [reflexivity | now left] | exact IH]. Qed.
Lemma set_again : forall t u x, set_sceneContent t (set_sceneContent u x) = set_sceneContent t x.
Proof. intros t u x. now destruct x. Qed.
Lemma differ_scene : forall i x t todo n m, NoDup (map fst (nv_scenes n)) -> dget i (nv_scenes n) = Some x -> set_sceneContent t x = x -> differ (i :: todo) n m ->
  exists y, dget i (nv_scenes m) = Some y /\ set_sceneContent t y = x /\ (sc_type y = sc_type x /\ sc_title y = sc_title x) /\ differ todo n (set_nv_scenes (dset i x (nv_scenes m)) m).
Proof.
  intros i x t todo n m ND G S [scs [-> F]].
  assert (K : exists y, dget i scs = Some y /\ set_sceneContent t y = x /\ (sc_type y = sc_type x /\ sc_title y = sc_title x) /\
     Forall2 (fun p q => fst q = fst p /\ (snd q = snd p \/ (In (fst p) todo /\ exists t, snd q = set_sceneContent t (snd p)))) (nv_scenes n) (dset i x scs)).
  { remember (nv_scenes n) as l. clear Heql. revert scs F G ND. induction l as [|[k z] l IH]; intros scs F G ND; [discriminate|]. inversion F as [|p q l1 l2 [H1 H2] F2]; subst. destruct q as [k2 y]. cbn [fst snd] in *. subst k2.
    cbn [map fst] in ND. apply NoDup_cons_iff in ND as [Nk ND]. cbn [dget dset] in *. destruct (str_eqb i k) eqn:E.
    - apply str_eqb_eq in E. subst k. injection G as ->. exists y. split; [reflexivity|]. split; [|split].
      + destruct H2 as [-> | [_ [u ->]]]; [exact S | now rewrite set_again].
      + destruct H2 as [-> | [_ [u ->]]]; [now split | now destruct x].
      + constructor; [split; [reflexivity | now left]|]. clear - F2 Nk. revert Nk. induction F2 as [|p q l1 l2 [A B] F2 IH]; intro Nk; [constructor|]. cbn [map In] in Nk. constructor; [|apply IH; tauto].
        split; [exact A|]. destruct B as [B | [[B | B] C]]; [now left | exfalso; apply Nk; now left | right; split; assumption].
    - destruct (IH l2 F2 G ND) as [y2 [A [B [C D]]]]. exists y2. split; [exact A|]. split; [exact B|]. split; [exact C|]. constructor; [|exact D]. cbn [fst snd]. split; [reflexivity|].
      destruct H2 as [H2 | [[H2 | H2] H3]]; [now left | subst i; rewrite str_eqb_refl in E; discriminate | right; split; assumption]. }
  destruct K as [y [A [B [C D]]]]. exists y. split; [exact A|]. split; [exact B|]. split; [exact C|]. exists (dset i x scs). split; [now destruct n | exact D].
Qed.
Lemma differ_langs : forall ids ls n m, differ ids n m -> differ ids (set_nv_languages ls n) (set_nv_languages ls m).
Proof. intros ids ls n m [scs [-> F]]. exists scs. split; [now destruct n|]. now destruct n. Qed.

Lemma differ_keeps : forall P n m, other_texts P n m -> nv_languageCode m = nv_languageCode n /\ nv_countryCode m = nv_countryCode n.
Proof. intros P n m [scs [-> _]]. destruct n. now split. Qed.
Lemma other_langs : forall P ls n m, other_texts P n m -> other_texts P (set_nv_languages ls n) (set_nv_languages ls m).
Proof. intros P ls n m [scs [-> F]]. exists scs. split; [now destruct n|]. now destruct n. Qed.
Lemma other_self : forall P n, other_texts P n n.
Proof. intros P n. apply (other_weaken (fun i => In i []) P n n); [intros i []|]. apply differ_refl. Qed.
