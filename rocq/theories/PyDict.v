(** Python dictionaries with string keys, in insertion order, and exceptions as values.

    Trusted modelling layer (no source file of its own). *)
From Coq Require Import List NArith Bool Lia Arith.
From Verif Require Import PyStr.
Import ListNotations.

(** Result of code that may raise.  [UserError] is pywriter_globals.Error (pywriter_globals.py 22-24);
    the other constructors are the built-in exceptions that the modelled code can raise. *)
Inductive exn := UserError (msg : str) | AttributeError | KeyError | ValueError | TypeError | IndexError
               | UnboundLocalError | NameError | ParseError | OSError.
Inductive res (A : Type) := Ok (a : A) | Err (e : exn).
Arguments Ok {A} a.
Arguments Err {A} e.

Definition bind {A B} (x : res A) (f : A -> res B) : res B :=
  match x with Ok a => f a | Err e => Err e end.
Notation "'do' x <- e ; k" := (bind e (fun x => k)) (at level 200, x name, e at level 100, k at level 200).
Notation "'do' ' p <- e ; k" := (bind e (fun x => match x with p => k end))
  (at level 200, p pattern, e at level 100, k at level 200).

Lemma bind_ok : forall {A B} (x : res A) (f : A -> res B) b, bind x f = Ok b -> exists a, x = Ok a /\ f a = Ok b.
Proof. intros A B [a|e] f b H; [exists a; auto | discriminate]. Qed.

(** for x in l: acc = f(acc, x), stopping at the first exception *)
Fixpoint foldM {A B} (f : B -> A -> res B) (l : list A) (b : B) : res B :=
  match l with
  | [] => Ok b
  | x :: l' => do b' <- f b x; foldM f l' b'
  end.

Fixpoint mapM {A B} (f : A -> res B) (l : list A) : res (list B) :=
  match l with
  | [] => Ok []
  | x :: l' => do y <- f x; do ys <- mapM f l'; Ok (y :: ys)
  end.

Definition dict (A : Type) := list (str * A).

Definition dkeys {A} (d : dict A) : list str := map fst d.

(** d.get(k) *)
Fixpoint dget {A} (k : str) (d : dict A) : option A :=
  match d with
  | [] => None
  | (k', v) :: d' => if str_eqb k k' then Some v else dget k d'
  end.

(** d[k] *)
Definition dindex {A} (k : str) (d : dict A) : res A :=
  match dget k d with Some v => Ok v | None => Err KeyError end.

(** k in d *)
Definition dmem {A} (k : str) (d : dict A) : bool := smem k (dkeys d).

(** d[k] = v *)
Fixpoint dset {A} (k : str) (v : A) (d : dict A) : dict A :=
  match d with
  | [] => [(k, v)]
  | (k', v') :: d' => if str_eqb k k' then (k', v) :: d' else (k', v') :: dset k v d'
  end.

Lemma dget_dset : forall {A} k k' (v : A) d,
  dget k' (dset k v d) = if str_eqb k' k then Some v else dget k' d.
Proof.
  intros A k k' v d. induction d as [|[k0 v0] d IH]; [reflexivity|].
  cbn [dset]. destruct (str_eqb k k0) eqn:E.
  - apply str_eqb_eq in E. subst k0. cbn [dget]. destruct (str_eqb k' k); reflexivity.
  - cbn [dget]. destruct (str_eqb k' k0) eqn:E0.
    + apply str_eqb_eq in E0. subst k0. rewrite str_eqb_sym, E. reflexivity.
    + exact IH.
Qed.

Lemma dget_dset_same : forall {A} k (v : A) d, dget k (dset k v d) = Some v.
Proof. intros A k v d. rewrite dget_dset, str_eqb_refl. reflexivity. Qed.

Lemma dget_dset_other : forall {A} k k' (v : A) d, k' <> k -> dget k' (dset k v d) = dget k' d.
Proof. intros A k k' v d H. rewrite dget_dset. apply str_eqb_neq in H. rewrite H. reflexivity. Qed.

Lemma dget_In : forall {A} k (v : A) d, dget k d = Some v -> In (k, v) d.
Proof.
  intros A k v d. induction d as [|[k0 v0] d IH]; simpl; intro H; [discriminate|].
  destruct (str_eqb k k0) eqn:E.
  - apply str_eqb_eq in E. injection H as ->. subst. left; reflexivity.
  - right. auto.
Qed.

Lemma dget_None : forall {A} k (d : dict A), dget k d = None <-> ~ In k (dkeys d).
Proof.
  intros A k d. induction d as [|[k0 v0] d IH]; simpl; [tauto|].
  destruct (str_eqb k k0) eqn:E.
  - apply str_eqb_eq in E. subst. split; [discriminate | intro H; elim H; left; reflexivity].
  - apply str_eqb_neq in E. rewrite IH. split; intro H.
    + intros [Hk | Hk]; [congruence | auto].
    + intro Hk. apply H. right; exact Hk.
Qed.

Lemma dget_Some_key : forall {A} k (d : dict A), In k (dkeys d) <-> exists v, dget k d = Some v.
Proof.
  intros A k d. destruct (dget k d) as [v|] eqn:E.
  - split; intro H; [exists v; reflexivity|]. apply dget_In in E. apply in_map_iff. exists (k, v). auto.
  - apply dget_None in E. split; [contradiction | intros [v Hv]; discriminate].
Qed.

Lemma dmem_key : forall {A} k (d : dict A), dmem k d = true <-> In k (dkeys d).
Proof. intros. apply smem_In. Qed.

Lemma dmem_false : forall {A} k (d : dict A), dmem k d = false <-> dget k d = None.
Proof. intros. unfold dmem. rewrite smem_false, dget_None. reflexivity. Qed.

Lemma dkeys_dset_in : forall {A} k (v : A) d, In k (dkeys d) -> dkeys (dset k v d) = dkeys d.
Proof.
  intros A k v d. induction d as [|[k0 v0] d IH]; simpl; intro H; [contradiction|].
  destruct (str_eqb k k0) eqn:E; simpl; [reflexivity|].
  f_equal. apply IH. destruct H as [H | H]; [|exact H]. apply str_eqb_neq in E. congruence.
Qed.

Lemma dkeys_dset_new : forall {A} k (v : A) d, ~ In k (dkeys d) -> dkeys (dset k v d) = dkeys d ++ [k].
Proof.
  intros A k v d. induction d as [|[k0 v0] d IH]; simpl; intro H; [reflexivity|].
  destruct (str_eqb k k0) eqn:E.
  - apply str_eqb_eq in E. elim H. left; congruence.
  - simpl. f_equal. apply IH. tauto.
Qed.

Lemma dset_new : forall {A} k (v : A) d, ~ In k (dkeys d) -> dset k v d = d ++ [(k, v)].
Proof.
  intros A k v d. induction d as [|[k0 v0] d IH]; simpl; intro H; [reflexivity|].
  destruct (str_eqb k k0) eqn:E.
  - apply str_eqb_eq in E. elim H. left; congruence.
  - f_equal. apply IH. tauto.
Qed.

Lemma dkeys_dset : forall {A} k (v : A) d x, In x (dkeys (dset k v d)) <-> x = k \/ In x (dkeys d).
Proof.
  intros A k v d x. destruct (in_dec str_eq_dec k (dkeys d)) as [H | H].
  - rewrite dkeys_dset_in by exact H. split; [tauto | intros [-> | Hx]; assumption].
  - rewrite dkeys_dset_new by exact H. rewrite in_app_iff. simpl. intuition congruence.
Qed.

Lemma NoDup_dset : forall {A} k (v : A) d, NoDup (dkeys d) -> NoDup (dkeys (dset k v d)).
Proof.
  intros A k v d H. destruct (in_dec str_eq_dec k (dkeys d)) as [Hk | Hk].
  - rewrite dkeys_dset_in by exact Hk. exact H.
  - rewrite dkeys_dset_new by exact Hk.
    clear -H Hk. induction (dkeys d) as [|x l IH]; simpl.
    + constructor; [intros [] | constructor].
    + inversion H as [|? ? Hx Hl]; subst. constructor.
      * rewrite in_app_iff. simpl. intros [Hi | [Hi | []]]; [contradiction | subst; apply Hk; left; reflexivity].
      * apply IH; [exact Hl | intro Hi; apply Hk; right; exact Hi].
Qed.

Lemma In_dget : forall {A} k (v : A) d, NoDup (dkeys d) -> In (k, v) d -> dget k d = Some v.
Proof.
  intros A k v d. induction d as [|[k0 v0] d IH]; simpl; intros Hn H; [contradiction|].
  inversion Hn as [|? ? Hx Hl]; subst. destruct H as [H | H].
  - injection H as -> ->. rewrite str_eqb_refl. reflexivity.
  - destruct (str_eqb k k0) eqn:E.
    + apply str_eqb_eq in E. subst. elim Hx. apply in_map_iff. exists (k0, v). auto.
    + auto.
Qed.
