(** Restoring the descriptions of elements one by one. *)
From Coq Require Import List NArith Bool.
From Verif Require Import PyStr PyDict NovelModel NovelOps SpecExport SpecRedesc.
Import ListNotations.

Section Entries.
Context {A : Type}.
Variable R : A -> A -> Prop.
Notation other := (other_entries R).
Lemma entries_weaken : forall (P Q : str -> Prop) d d', (forall i, P i -> Q i) -> other P d d' -> other Q d d'.
Proof.
  intros P Q d d' H F. unfold other_entries in *. induction F as [|p q l1 l2 [B C] F IH]; constructor; [|exact IH]. split; [exact B|]. destruct C as [C | [C D]]; [now left | right; split; [now apply H | exact D]].
Qed.
Lemma entries_refl : forall P d, other P d d.
Proof. intros P d. induction d as [|p l IH]; constructor; [split; [reflexivity | now left] | exact IH]. Qed.
Lemma entries_end : forall d d', other (fun i => In i []) d d' -> d' = d.
Proof.
  intros d d' F. unfold other_entries in F. induction F as [|p q l1 l2 [B C] F IH]; [reflexivity|]. destruct p, q. cbn [fst snd] in *. subst. destruct C as [-> | [[] _]]. now f_equal.
Qed.
Lemma entries_get : forall P d d' i x, other P d d' -> dget i d = Some x -> exists y, dget i d' = Some y /\ (y = x \/ R x y).
Proof.
  intros P d d' i x F. unfold other_entries in F. induction F as [|p q l1 l2 [B C] F IH]; intro G; [discriminate|]. destruct p as [k z], q as [k2 y]. cbn [fst snd dget] in *. subst k2. destruct (str_eqb i k).
  - injection G as ->. exists y. split; [reflexivity|]. tauto.
  - now apply IH.
Qed.
Lemma entries_set : forall i x todo d d', NoDup (map fst d) -> dget i d = Some x -> other (fun j => In j (i :: todo)) d d' -> other (fun j => In j todo) d (dset i x d').
Proof.
  intros i x todo d d' ND G F. unfold other_entries in *. revert ND G. induction F as [|p q l1 l2 [B C] F IH]; intros ND G; [discriminate|]. destruct p as [k z], q as [k2 y]. cbn [fst snd] in *. subst k2.
  cbn [map fst] in ND. apply NoDup_cons_iff in ND as [Nk ND]. cbn [dget dset] in *. destruct (str_eqb i k) eqn:E.
  - apply str_eqb_eq in E. subst k. injection G as ->. constructor; [split; [reflexivity | now left]|]. clear - F Nk. revert Nk. induction F as [|p q l1 l2 [B C] F IH]; intro Nk; [constructor|].
    cbn [map In] in Nk. constructor; [|apply IH; tauto]. split; [exact B|]. destruct C as [C | [[C | C] D]]; [now left | exfalso; apply Nk; now left | right; split; assumption].
  - constructor; [|now apply IH]. split; [reflexivity|]. cbn [fst snd]. destruct C as [C | [[C | C] D]]; [now left | subst i; rewrite str_eqb_refl in E; discriminate | right; split; assumption].
Qed.
End Entries.

(** ** Novels: get and set read and replace one of the dictionaries *)
Section Others.
Context {A : Type}.
Variable R : A -> A -> Prop.
Variable get : novel -> dict A.
Variable put : dict A -> novel -> novel.
Hypothesis get_put : forall d n, get (put d n) = d.
Hypothesis put_put : forall d d' n, put d (put d' n) = put d n.
Hypothesis put_get : forall n, put (get n) n = n.
Definition others (P : str -> Prop) (n m : novel) : Prop := exists d, m = put d n /\ other_entries R P (get n) d.
Lemma others_weaken : forall (P Q : str -> Prop) n m, (forall i, P i -> Q i) -> others P n m -> others Q n m.
Proof. intros P Q n m H [d [E F]]. exists d. split; [exact E | now apply (entries_weaken R P Q)]. Qed.
Lemma others_end : forall n m, others (fun i => In i []) n m -> m = n.
Proof. intros n m [d [E F]]. apply entries_end in F. subst. apply put_get. Qed.
Lemma others_get : forall P n m i x, others P n m -> dget i (get n) = Some x -> exists y, dget i (get m) = Some y /\ (y = x \/ R x y).
Proof. intros P n m i x [d [-> F]] G. rewrite get_put. exact (entries_get R P _ d i x F G). Qed.
Lemma others_set : forall i x todo n m, NoDup (map fst (get n)) -> dget i (get n) = Some x -> others (fun j => In j (i :: todo)) n m -> others (fun j => In j todo) n (put (dset i x (get m)) m).
Proof. intros i x todo n m ND G [d [-> F]]. exists (dset i x d). rewrite get_put. split; [apply put_put | now apply (entries_set R)]. Qed.
Lemma others_self : forall P n, others P n n.
Proof. intros P n. exists (get n). split; [symmetry; apply put_get | apply entries_refl]. Qed.
End Others.
Arguments others_get {A R get put} _ {P n m i x} _ _.
Arguments others_set {A R get put} _ _ {i x todo n m} _ _ _.
(** the dictionary of each type *)
Ltac dict_laws := repeat split; intros; match goal with n : novel |- _ => now destruct n end.
Lemma scenes_laws : (forall d n, nv_scenes (set_nv_scenes d n) = d) /\ (forall d d' n, set_nv_scenes d (set_nv_scenes d' n) = set_nv_scenes d n) /\ (forall n, set_nv_scenes (nv_scenes n) n = n).
Proof. dict_laws. Qed.
Lemma chapters_laws : (forall d n, nv_chapters (set_nv_chapters d n) = d) /\ (forall d d' n, set_nv_chapters d (set_nv_chapters d' n) = set_nv_chapters d n) /\ (forall n, set_nv_chapters (nv_chapters n) n = n).
Proof. dict_laws. Qed.
Lemma characters_laws : (forall d n, nv_characters (set_nv_characters d n) = d) /\ (forall d d' n, set_nv_characters d (set_nv_characters d' n) = set_nv_characters d n) /\ (forall n, set_nv_characters (nv_characters n) n = n).
Proof. dict_laws. Qed.
Lemma locations_laws : (forall d n, nv_locations (set_nv_locations d n) = d) /\ (forall d d' n, set_nv_locations d (set_nv_locations d' n) = set_nv_locations d n) /\ (forall n, set_nv_locations (nv_locations n) n = n).
Proof. dict_laws. Qed.
Lemma items_laws : (forall d n, nv_items (set_nv_items d n) = d) /\ (forall d d' n, set_nv_items d (set_nv_items d' n) = set_nv_items d n) /\ (forall n, set_nv_items (nv_items n) n = n).
Proof. dict_laws. Qed.
