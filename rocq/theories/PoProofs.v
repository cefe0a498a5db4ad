(** Proofs about compiling PO files (MsgfmtMake.v): UTF-8, quoted texts, the lines of an entry. *)
From Coq Require Import String List NArith ZArith Bool Lia Arith.
From Verif Require Import PyStr PyDict YwText Inliner Translations SpecTrans TransProofs Msgfmt MsgfmtMake SpecPo.
Import ListNotations.
Local Ltac Zify.zify_post_hook ::= Z.to_euclidean_division_equations.

(** * UTF-8 *)
Lemma scalar_spec : forall c, scalar c = true <-> (c < 55296)%N \/ (57344 <= c < 1114112)%N.
Proof.
  intro c. unfold scalar. rewrite orb_true_iff, andb_true_iff, !N.ltb_lt, N.leb_le. lia.
Qed.
Ltac ltb_tac := repeat match goal with
  | |- context[(?a <? ?b)%N] => first [rewrite (proj2 (N.ltb_lt a b)) by lia | rewrite (proj2 (N.ltb_ge a b)) by lia]
  | |- context[(?a <=? ?b)%N] => first [rewrite (proj2 (N.leb_le a b)) by lia | rewrite (proj2 (N.leb_gt a b)) by lia]
  end.
Lemma decode_char : forall c t, scalar c = true -> utf8_decode (utf8_char c ++ t) = okcons c (utf8_decode t).
Proof.
  intros c t H. pose proof (proj1 (scalar_spec c) H) as R. unfold utf8_char.
  destruct (N.ltb_spec c 128) as [L1|L1]; [|destruct (N.ltb_spec c 2048) as [L2|L2]; [|destruct (N.ltb_spec c 65536) as [L3|L3]]]; cbn [app utf8_decode]; unfold more.
  - now rewrite (proj2 (N.ltb_lt _ _) L1).
  - assert (E : ((192 + c / 64 - 192) * 64 + (128 + c mod 64 - 128) = c)%N) by lia. cbv zeta. rewrite E. ltb_tac. reflexivity.
  - assert (E : (((224 + c / 4096 - 224) * 64 + (128 + (c / 64) mod 64 - 128)) * 64 + (128 + c mod 64 - 128) = c)%N) by lia. cbv zeta. rewrite E, H. ltb_tac. reflexivity.
  - assert (E : ((((240 + c / 262144 - 240) * 64 + (128 + (c / 4096) mod 64 - 128)) * 64 + (128 + (c / 64) mod 64 - 128)) * 64 + (128 + c mod 64 - 128) = c)%N) by lia.
    cbv zeta. rewrite E, H. ltb_tac. reflexivity.
Qed.
Lemma encodable_scalar : forall t, encodable t <-> forallb scalar t = true.
Proof. intro t. unfold encodable. rewrite forallb_forall, Forall_forall. split; intros H c I; apply scalar_spec; now apply H. Qed.
Lemma decode_utf8 : forall t, encodable t -> utf8_decode (utf8_text t) = Ok t.
Proof.
  induction t as [|c t IH]; intro H; [reflexivity|]. inversion H as [|? ? H1 H2]; subst. unfold utf8_text. cbn [flat_map]. rewrite decode_char by (now apply scalar_spec).
  fold (utf8_text t). now rewrite IH.
Qed.
Lemma encode_utf8 : forall t, encodable t -> encode utf8 t = Ok (utf8_text t).
Proof. intros t H. cbn [encode utf8]. now rewrite (proj1 (encodable_scalar t) H). Qed.
Lemma utf8_ascii : forall t, ascii t -> utf8_text t = t.
Proof.
  induction t as [|c t IH]; intro H; [reflexivity|]. inversion H as [|? ? H1 H2]; subst. unfold utf8_text. cbn [flat_map]. unfold utf8_char at 1. rewrite (proj2 (N.ltb_lt _ _) H1).
  cbn [app]. f_equal. now apply IH.
Qed.
Lemma utf8_app : forall a b, utf8_text (a ++ b) = utf8_text a ++ utf8_text b.
Proof. intros. apply flat_map_app. Qed.
Lemma utf8_char_of : forall c, scalar c = true -> utf8_of c (utf8_char c).
Proof.
  intros c H. pose proof (proj1 (scalar_spec c) H) as R. unfold utf8_char.
  destruct (N.ltb_spec c 128) as [L1|L1]; [|destruct (N.ltb_spec c 2048) as [L2|L2]; [|destruct (N.ltb_spec c 65536) as [L3|L3]]].
  - now constructor.
  - replace c with (c / 64 * 64 + c mod 64)%N at 1 by lia. constructor; lia.
  - replace c with (c / 4096 * 4096 + (c / 64) mod 64 * 64 + c mod 64)%N at 1 by lia. constructor; lia.
  - replace c with (c / 262144 * 262144 + (c / 4096) mod 64 * 4096 + (c / 64) mod 64 * 64 + c mod 64)%N at 1 by lia. constructor; lia.
Qed.
Lemma utf8_text_of : forall t, encodable t -> utf8_bytes t (utf8_text t).
Proof.
  induction t as [|c t IH]; intro H; [constructor|]. inversion H as [|? ? H1 H2]; subst. unfold utf8_text. cbn [flat_map]. constructor; [apply utf8_char_of; now apply scalar_spec | now apply IH].
Qed.
Lemma utf8_of_char : forall c b, utf8_of c b -> b = utf8_char c.
Proof.
  intros c b H. destruct H; unfold utf8_char; ltb_tac; [reflexivity | | |].
  - replace ((a * 64 + b) / 64)%N with a by lia. replace ((a * 64 + b) mod 64)%N with b by lia. reflexivity.
  - replace ((a * 4096 + b * 64 + c) / 4096)%N with a by lia. replace (((a * 4096 + b * 64 + c) / 64) mod 64)%N with b by lia. replace ((a * 4096 + b * 64 + c) mod 64)%N with c by lia. reflexivity.
  - replace ((a * 262144 + b * 4096 + c * 64 + d) / 262144)%N with a by lia. replace (((a * 262144 + b * 4096 + c * 64 + d) / 4096) mod 64)%N with b by lia.
    replace (((a * 262144 + b * 4096 + c * 64 + d) / 64) mod 64)%N with c by lia. replace ((a * 262144 + b * 4096 + c * 64 + d) mod 64)%N with d by lia. reflexivity.
Qed.
Lemma utf8_bytes_text : forall t b, utf8_bytes t b -> b = utf8_text t.
Proof. intros t b H. induction H as [|c b t bs H1 H2 IH]; [reflexivity|]. unfold utf8_text. cbn [flat_map]. apply utf8_of_char in H1. now rewrite H1, IH. Qed.
Lemma utf8_inj : forall a b, encodable a -> encodable b -> utf8_text a = utf8_text b -> a = b.
Proof. intros a b A B E. apply (f_equal utf8_decode) in E. rewrite !decode_utf8 in E by assumption. congruence. Qed.
Lemma utf8_nl : forall c, In 10%N (utf8_char c) -> c = 10%N.
Proof.
  intro c. unfold utf8_char. destruct (N.ltb_spec c 128) as [L1|L1]; [|destruct (N.ltb_spec c 2048) as [L2|L2]; [|destruct (N.ltb_spec c 65536) as [L3|L3]]]; cbn [In]; lia.
Qed.
Lemma readlines_char : forall b t, ~ In 10%N b -> b <> [] -> readlines (b ++ t) = match readlines t with [] => [b] | l :: ls => (b ++ l) :: ls end.
Proof.
  induction b as [|c b IH]; intros t H N0; [congruence|]. cbn [app readlines]. rewrite (proj2 (N.eqb_neq c 10)) by (intro; subst; apply H; now left).
  destruct b as [|d b]; [cbn [app]; destruct (readlines t); reflexivity|]. rewrite IH by (discriminate || (intro I; apply H; now right)). destruct (readlines t); reflexivity.
Qed.
Lemma utf8_char_some : forall c, utf8_char c <> [].
Proof. intro c. unfold utf8_char. destruct (c <? 128)%N, (c <? 2048)%N, (c <? 65536)%N; discriminate. Qed.
Lemma readlines_utf8 : forall t, readlines (utf8_text t) = map utf8_text (readlines t).
Proof.
  induction t as [|c t IH]; [reflexivity|]. unfold utf8_text at 1. cbn [flat_map]. fold (utf8_text t). destruct (N.eqb_spec c 10) as [->|Hc].
  - cbn [utf8_char app readlines N.eqb]. change (utf8_char 10%N) with [10%N]. cbn [app readlines]. rewrite IH. cbn [map N.eqb]. reflexivity.
  - rewrite readlines_char by (try apply utf8_char_some; intro I; apply utf8_nl in I; contradiction). rewrite IH. cbn [readlines]. rewrite (proj2 (N.eqb_neq c 10)) by exact Hc.
    destruct (readlines t) as [|l ls]; cbn [map]; unfold utf8_text; cbn [flat_map]; [now rewrite app_nil_r | reflexivity].
Qed.
Lemma encodable_app : forall a b, encodable a -> encodable b -> encodable (a ++ b).
Proof. intros a b A B. apply Forall_app. now split. Qed.
Lemma ascii_app : forall a b, ascii a -> ascii b -> ascii (a ++ b).
Proof. intros a b A B. apply Forall_app. now split. Qed.
Lemma ascii_encodable : forall t, ascii t -> encodable t.
Proof. intros t H. unfold encodable. eapply Forall_impl; [|exact H]. cbn. intros c L. lia. Qed.

(** * Quoted texts *)
Lemma escapes_known : forall e x, In (e, x) escapes -> escape_value e = Some x.
Proof. intros e x H. cbn [escapes In] in H. repeat (destruct H as [H|H]; [injection H as <- <-; reflexivity|]). destruct H. Qed.
Lemma stands_literal : forall w v, stands_for w v -> scan_literal (w ++ [34%N]) = Some v.
Proof.
  intros w v H. induction H as [|c w v [O R] H IH|e x w v I H IH]; [reflexivity| |].
  - cbn [app scan_literal]. cbn [In] in O. rewrite !(proj2 (N.eqb_neq _ _)) by (intro; subst; apply O; tauto). rewrite (proj2 (scalar_spec c) R). cbn [orb negb]. now rewrite IH.
  - cbn [app scan_literal]. rewrite (escapes_known _ _ I). now rewrite IH.
Qed.
Lemma stands_value : forall w v, stands_for w v -> encodable w /\ encodable v /\ (w = [] <-> v = []) /\ ~ In 10%N w /\ (ascii w -> ascii v).
Proof.
  intros w v H. induction H as [|c w v [O R] H IH|e x w v I H IH].
  - split; [constructor|]. split; [constructor|]. split; [tauto|]. split; [intros []|]. intros _. constructor.
  - destruct IH as (A & B & _ & C & D). split; [now constructor|]. split; [now constructor|]. split; [split; discriminate|]. split; [intros [E|E]; [subst; apply O; cbn; tauto | contradiction]|].
    intro S. inversion S as [|? ? S1 S2]; subst. constructor; [exact S1 | exact (D S2)].
  - destruct IH as (A & B & _ & C & D). assert (X : (e < 128 /\ x < 128 /\ e <> 10)%N) by (cbn [escapes In] in I; repeat (destruct I as [I|I]; [injection I as <- <-; repeat split; discriminate || reflexivity|]); destruct I).
    split; [constructor; [lia|]; constructor; [lia | exact A]|]. split; [constructor; [lia | exact B]|]. split; [split; discriminate|]. split; [intros [E|[E|E]]; [discriminate | lia | contradiction]|].
    intro S. inversion S as [|? ? _ S2]; subst. inversion S2 as [|? ? _ S3]; subst. constructor; [lia | exact (D S3)].
Qed.
Lemma stands_fun : forall w v v', stands_for w v -> stands_for w v' -> v = v'.
Proof. intros w v v' A B. apply stands_literal in A, B. congruence. Qed.
Lemma source_quoted : forall w v, source_for w v -> stands_for (quoted w) v.
Proof.
  intros w v H. induction H as [|c w v O H IH|e x w v I N0 H IH]; [constructor| |].
  - unfold quoted. cbn [flat_map]. fold (quoted w). destruct (N.eqb_spec c 34) as [->|Hc]; cbn [app]; [apply sf_escape; [cbn; tauto | exact IH]|]. destruct O as [O|O]; [|contradiction]. now apply sf_char.
  - unfold quoted. cbn [flat_map]. fold (quoted w). change (N.eqb 92 34) with false. cbn iota. rewrite (proj2 (N.eqb_neq e 34)) by exact N0. cbn [app]. now apply sf_escape.
Qed.
