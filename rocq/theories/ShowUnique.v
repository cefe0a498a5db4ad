(** The tables of SpecShow leave no choice. *)
From Coq Require Import List NArith ZArith Bool Lia Arith.
From Verif Require Import PyStr PyDict Globals NovelModel Template SpecTemplate Export SpecExport SpecShow.
Import ListNotations.

Definition one (P : str -> Prop) : Prop := forall v w, P v -> P w -> v = w.
Definition no_choice (tb : table) : Prop := Forall (fun row => one (snd row)) tb.

Section Unique.
Variables (conv : option str -> bool -> res str) (pn pp : option str) (n : novel).
Lemma one_short : forall t, one (short conv t).
Proof. intros t v w H1 H2. unfold short in *. congruence. Qed.
Lemma one_long : forall t, one (long conv t).
Proof. intros t v w H1 H2. unfold long in *. congruence. Qed.
Lemma one_verbatim : forall t, one (verbatim t).
Proof. intros t v w [H1|[H1 E1]] [H2|[H2 E2]]; congruence. Qed.
Lemma one_exactly : forall t, one (exactly t).
Proof. intros t v w H1 H2. unfold exactly in *. congruence. Qed.
Lemma one_number : forall k, one (number k).
Proof. intros t v w H1 H2. unfold number in *. congruence. Qed.
Lemma one_counter : forall k, one (counter k).
Proof. intros [|k] v w H1 H2; unfold counter, number in *; congruence. Qed.
Lemma one_tags : forall sh t, (forall o, one (sh o)) -> one (tags sh t).
Proof. intros sh [l|] H v w; unfold tags; apply H. Qed.
Lemma titled_unique : forall {A} (title : A -> option str) d ids r1, titled title d ids r1 -> forall r2, titled title d ids r2 -> r1 = r2.
Proof.
  intros A title d ids r1 F. induction F as [|i t ids r1 [a [Ha Ht]] F IH]; intros r2 G; inversion G as [|? ? ? ? [b [Hb Hu]] G']; subst; [reflexivity|].
  rewrite Ha in Hb. injection Hb as <-. rewrite Ht in Hu. injection Hu as <-. f_equal. now apply IH.
Qed.
Lemma one_names : forall {A} (title : A -> option str) d ids, one (names title d ids).
Proof.
  intros A title d ids v w [[l [ts [E [F V]]]]|[V N]] [[l' [ts' [E' [F' V']]]]|[V' N']]; [|now elim (N' l ts)|now elim (N l' ts')|congruence].
  rewrite E in E'. injection E' as <-. rewrite (titled_unique title d l ts F ts' F') in V. congruence.
Qed.
Lemma one_viewpoint : forall ids, one (viewpoint n ids).
Proof.
  intros ids v w [[i [l [c [E [K [Hc V]]]]]]|[V N]] [[i' [l' [c' [E' [K' [Hc' V']]]]]]|[V' N']]; [|now elim (N' i l)|now elim (N i' l')|congruence].
  rewrite E in E'. injection E' as <- <-. rewrite Hc in Hc'. injection Hc' as <-. now apply (one_verbatim (cr_title c)).
Qed.
Lemma one_status : forall z, one (status z).
Proof. intros z v w H1 H2. unfold status in *. repeat match goal with H : _ \/ _ |- _ => destruct H end; destruct H as [? ->]; destruct H0 as [? ->]; congruence. Qed.
Lemma split_unique : forall (c : N) (a b q r : str), a ++ c :: q = b ++ c :: r -> ~ In c q -> ~ In c r -> a = b.
Proof.
  induction a as [|x a IH]; intros [|y b] q r E Hq Hr; cbn in E; [reflexivity| | |].
  - injection E as <- E. elim Hq. rewrite E. apply in_app_iff. right. now left.
  - injection E as -> E. elim Hr. rewrite <- E. apply in_app_iff. right. now left.
  - injection E as <- E. f_equal. now apply (IH b q r).
Qed.
Lemma one_time : forall t, one (time t).
Proof.
  intros t v w H1 H2. unfold time in *. destruct H1 as [[E1 V1]|[[q1 [E1 V1]]|[E1 V1]]], H2 as [[E2 V2]|[[q2 [E2 V2]]|[E2 V2]]]; try congruence.
  - rewrite E1 in E2. injection E2 as E2. exact (split_unique 58 v w q1 q2 E2 V1 V2).
  - rewrite E1 in E2. injection E2 as <-. elim V2. apply in_app_iff. right. now left.
  - rewrite E2 in E1. injection E1 as <-. elim V1. apply in_app_iff. right. now left.
Qed.
Lemma one_date : forall x, one (date x).
Proof. intros x v w H1 H2. unfold date in *. repeat match goal with H : _ \/ _ |- _ => destruct H end; destruct H, H0; try contradiction; congruence. Qed.
Lemma one_day : forall x, one (day x).
Proof. intros x v w H1 H2. unfold day in *. destruct H1 as [[A B]|[[A B]|[A [B C]]]], H2 as [[A' B']|[[A' B']|[A' [B' C']]]]; try contradiction; congruence. Qed.
Lemma one_date_or_day : forall x, one (date_or_day x).
Proof. intros x v w H1 H2. unfold date_or_day in *. destruct H1 as [[A B]|[[A [d [B C]]]|[A [B C]]]], H2 as [[A' B']|[[A' [d' [B' C']]]|[A' [B' C']]]]; try contradiction; congruence. Qed.
Lemma one_amount : forall t u, one (amount t u).
Proof.
  intros t u v w H1 H2. unfold amount in *. destruct H1 as [[a [A [B C]]]|[[A|A] B]], H2 as [[a' [A' [B' C']]]|[[A'|A'] B']]; congruence.
Qed.
Lemma one_duration : forall x, one (duration x).
Proof.
  intros x v w [d [h [m [D [H [M ->]]]]]] [d' [h' [m' [D' [H' [M' ->]]]]]]. rewrite (one_amount _ _ d d' D D'), (one_amount _ _ h h' H H'), (one_amount _ _ m m' M M'). reflexivity.
Qed.
Lemma one_choice : forall (A : Prop) (a b : str), one (fun v => (A /\ v = a) \/ (~ A /\ v = b)).
Proof. intros A a b v w [[H ->]|[H ->]] [[G ->]|[G ->]]; (reflexivity || contradiction). Qed.

Ltac all := repeat (apply Forall_cons || apply Forall_nil); cbn [snd];
  first [apply one_short | apply one_long | apply one_verbatim | apply one_exactly | apply one_number | apply one_counter | apply one_tags; [apply one_short] | apply one_tags; [apply one_long]
        | apply one_names | apply one_viewpoint | apply one_status | apply one_time | apply one_date | apply one_day | apply one_date_or_day | apply one_amount | apply one_duration | apply one_choice].
Theorem tables_unique : no_choice (header_table conv n) /\ (forall i k, no_choice (chapter_table conv pn pp n i k)) /\ (forall i c, no_choice (character_table conv pn pp i c)) /\
  (forall i w, no_choice (world_table conv pn pp i w)) /\ (forall i p, no_choice (note_table conv pn pp i p)) /\ (forall i k w l, no_choice (scene_table conv pn pp n i k w l)).
Proof.
  unfold no_choice, header_table, chapter_table, character_table, world_table, note_table, scene_table. cbv zeta. repeat split; intros; all.
Qed.
End Unique.
