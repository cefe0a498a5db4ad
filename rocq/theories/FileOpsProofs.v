(** A weakest-precondition calculus for programs with effects. *)
From Coq Require Import List NArith Bool Lia Arith.
From Verif Require Import PyStr PyDict FileOps.
Import ListNotations.

(** I holds at every moment (also within a write), Q when the program has ended *)
Fixpoint wp {A} (I : fsys -> Prop) (x : prog A) (Q : res A -> fsys -> Prop) (w : fsys) : Prop :=
  I w /\
  match x with
  | Ret r => Q r w
  | IsFile p k => wp I (k (present w p)) Q w
  | ReadFile p k => (forall c, files w p = Some c -> wp I (k (Ok c)) Q w) /\ wp I (k (Err OSError)) Q (log (NotRead p) w)
  | Replace a b k => (forall c, files w a = Some c -> wp I (k (Ok tt)) Q (log (Renamed a b) (set_file b (Some c) (set_file a None w)))) /\
      wp I (k (Err OSError)) Q (log (NotRenamed a b) w)
  | OpenW p k => wp I (k (Ok tt)) Q (log (Opened p) (set_file p (Some []) w)) /\ wp I (k (Err OSError)) Q (log (NotWritten p) w)
  | Put p d k => wp I (k (Ok tt)) Q (log (Wrote p) (set_file p (Some (text_at w p ++ d)) w)) /\
      forall d1 d2, d = d1 ++ d2 -> I (set_file p (Some (text_at w p ++ d1)) w) /\
        wp I (k (Err OSError)) Q (log (NotWritten p) (set_file p (Some (text_at w p ++ d1)) w))
  | RmTree p k => forall w1, events w1 = events w -> (forall q, below p q = false -> files w1 q = files w q) -> wp I k Q w1
  | Other k => wp I (k (Ok tt)) Q w /\ wp I (k (Err OSError)) Q (log Trouble w)
  | Ask q k => forall b, wp I (k b) Q (log (Asked q b) w)
  | Tell m k => wp I k Q (log (Status m) w)
  | What m k => wp I k Q (log (Announced m) w)
  | Warn m k => wp I k Q (log (Warned m) w)
  end.

Lemma wp_inv : forall {A} I (x : prog A) Q w, wp I x Q w -> I w.
Proof. intros A I x Q w H. destruct x; exact (proj1 H). Qed.

Theorem wp_runs : forall {A} I (x : prog A) Q w r w', wp I x Q w -> runs x w r w' -> Q r w'.
Proof.
  intros A I x Q w r w' H R. induction R; cbn [wp] in H; destruct H as [_ H].
  all: try (apply IHR).
  all: repeat match goal with
    | H : _ /\ _ |- _ => destruct H
    end; eauto.
  - match goal with A : forall d1 d2, _ = _ -> _ /\ _, E : ?d = _ ++ _ |- _ => destruct (A _ _ E); assumption end.
Qed.
Theorem wp_crashes : forall {A} I (x : prog A) Q w w', wp I x Q w -> crashes x w w' -> I w'.
Proof.
  intros A I x Q w w' H C. induction C; try (exact (wp_inv _ _ _ _ H)); cbn [wp] in H; destruct H as [_ H].
  all: try (apply IHC).
  all: repeat match goal with
    | H : _ /\ _ |- _ => destruct H
    end; eauto.
  - match goal with A : forall d1 d2, _ = _ -> _ /\ _, E : ?d = _ ++ _ |- _ => destruct (A _ _ E); assumption end.
  - match goal with A : forall d1 d2, _ = _ -> _ /\ _, E : ?d = _ ++ _ |- _ => destruct (A _ _ E); assumption end.
  - match goal with A : forall w1, events w1 = _ -> _, E1 : events _ = _, E2 : forall q, _ |- _ => exact (wp_inv _ _ _ _ (A _ E1 E2)) end.
Qed.

Lemma wp_mono : forall {A} I (x : prog A) (Q Q' : res A -> fsys -> Prop) w, (forall r w, Q r w -> Q' r w) -> wp I x Q w -> wp I x Q' w.
Proof.
  intros A I x Q Q' w HQ. revert w. induction x as [r|p k IH|p k IH|a b k IH|p k IH|p d k IH|p k IH|k IH|q k IH|m k IH|m k IH|m k IH]; intros w [HI H]; cbn [wp]; (split; [exact HI|]); eauto.
  - destruct H as [H1 H2]. split; eauto.
  - destruct H as [H1 H2]. split; eauto.
  - destruct H as [H1 H2]. split; eauto.
  - destruct H as [H1 H2]. split; eauto. intros d1 d2 E. destruct (H2 d1 d2 E). split; eauto.
  - destruct H as [H1 H2]. split; eauto.
Qed.
Lemma wp_bind : forall {A B} I (x : prog A) (f : A -> prog B) Q w,
  wp I x (fun r w => match r with Ok a => wp I (f a) Q w | Err e => I w -> Q (Err e) w end) w -> wp I (pbind x f) Q w.
Proof.
  intros A B I x f Q. induction x as [r|p k IH|p k IH|a b k IH|p k IH|p d k IH|p k IH|k IH|q k IH|m k IH|m k IH|m k IH]; intros w [HI H]; cbn [pbind].
  - destruct r as [a|e]; [exact H | cbn [wp]; split; [exact HI | exact (H HI)]].
  - split; [exact HI|]. apply IH. exact H.
  - split; [exact HI|]. destruct H as [H1 H2]. split; [intros c Hc; apply IH; exact (H1 c Hc) | apply IH; exact H2].
  - split; [exact HI|]. destruct H as [H1 H2]. split; [intros c Hc; apply IH; exact (H1 c Hc) | apply IH; exact H2].
  - split; [exact HI|]. destruct H as [H1 H2]. split; apply IH; assumption.
  - split; [exact HI|]. destruct H as [H1 H2]. split; [apply IH; exact H1|]. intros d1 d2 E. destruct (H2 d1 d2 E) as [H3 H4]. split; [exact H3 | apply IH; exact H4].
  - split; [exact HI|]. intros w1 E1 E2. apply IH. exact (H w1 E1 E2).
  - split; [exact HI|]. destruct H as [H1 H2]. split; apply IH; assumption.
  - split; [exact HI|]. intro b. apply IH. exact (H b).
  - split; [exact HI|]. apply IH. exact H.
  - split; [exact HI|]. apply IH. exact H.
  - split; [exact HI|]. apply IH. exact H.
Qed.
Lemma wp_catch : forall {A B} I (x : prog A) (f : res A -> prog B) Q w,
  wp I x (fun r w => wp I (f r) Q w) w -> wp I (pcatch x f) Q w.
Proof.
  intros A B I x f Q. induction x as [r|p k IH|p k IH|a b k IH|p k IH|p d k IH|p k IH|k IH|q k IH|m k IH|m k IH|m k IH]; intros w [HI H]; cbn [pcatch].
  - exact H.
  - split; [exact HI|]. apply IH. exact H.
  - split; [exact HI|]. destruct H as [H1 H2]. split; [intros c Hc; apply IH; exact (H1 c Hc) | apply IH; exact H2].
  - split; [exact HI|]. destruct H as [H1 H2]. split; [intros c Hc; apply IH; exact (H1 c Hc) | apply IH; exact H2].
  - split; [exact HI|]. destruct H as [H1 H2]. split; apply IH; assumption.
  - split; [exact HI|]. destruct H as [H1 H2]. split; [apply IH; exact H1|]. intros d1 d2 E. destruct (H2 d1 d2 E) as [H3 H4]. split; [exact H3 | apply IH; exact H4].
  - split; [exact HI|]. intros w1 E1 E2. apply IH. exact (H w1 E1 E2).
  - split; [exact HI|]. destruct H as [H1 H2]. split; apply IH; assumption.
  - split; [exact HI|]. intro b. apply IH. exact (H b).
  - split; [exact HI|]. apply IH. exact H.
  - split; [exact HI|]. apply IH. exact H.
  - split; [exact HI|]. apply IH. exact H.
Qed.

Lemma files_set : forall p c w q, files (set_file p c w) q = if str_eqb q p then c else files w q.
Proof. reflexivity. Qed.
Lemma files_same : forall p c w, files (set_file p c w) p = c.
Proof. intros p c w. rewrite files_set, str_eqb_refl. reflexivity. Qed.
Lemma files_other : forall p c w q, q <> p -> files (set_file p c w) q = files w q.
Proof. intros p c w q H. rewrite files_set. apply str_eqb_neq in H. rewrite H. reflexivity. Qed.
Lemma files_log : forall e w, files (log e w) = files w.
Proof. reflexivity. Qed.
