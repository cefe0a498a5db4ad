(** A representable novel comes back from the text of its project file. *)
From Coq Require Import String List NArith ZArith Bool Lia Arith.
From Verif Require Import PyStr PyDict Spec Globals GlobalsProofs NovelModel NovelOps NovelOpsProofs YwTree IsoDate Yw7Build Yw7Read YwTreeProofs Yw7SceneProofs
  Yw7StartProofs Yw7SceneRT Yw7ChapterRT Yw7ElemRT Yw7ListRT Yw7TreeInv Yw7ProjRT Yw7SecRT Yw7TreeRT YwText YwTextProofs SpecYw7 Yw7Clean Yw7Clean2.
Import ListNotations.

(** ** Keyword variables *)
Lemma replace_miss : forall c new t, ~ In c t -> replace [c] new t = t.
Proof.
  intros c new t H. rewrite replace_char. induction t as [|x t IH]; [reflexivity|]. cbn [flat_map].
  replace (N.eqb c x) with false by (symmetry; apply N.eqb_neq; intros ->; apply H; left; reflexivity). cbn [app]. f_equal. apply IH. intro E. apply H. right. exact E.
Qed.

Lemma convert_id : forall v, no_markup_char v -> convert_from_yw v = v.
Proof.
  intros v H. assert (Q : forall c, In c [34; 38; 39; 60; 62]%N -> ~ In c v) by (intros c Hc E; exact (H c E Hc)). unfold convert_from_yw.
  change (s "&") with [38%N]. change (s ">") with [62%N]. change (s "<") with [60%N]. change (s "'") with [39%N]. change (s """") with [34%N].
  rewrite (replace_miss 38%N) by (apply Q; cbn; tauto). rewrite (replace_miss 62%N) by (apply Q; cbn; tauto). rewrite (replace_miss 60%N) by (apply Q; cbn; tauto).
  rewrite (replace_miss 39%N) by (apply Q; cbn; tauto). apply replace_miss. apply Q. cbn. tauto.
Qed.

Lemma convert_app : forall a b, convert_from_yw (a ++ b) = convert_from_yw a ++ convert_from_yw b.
Proof.
  intros a b. unfold convert_from_yw.
  change (s "&") with [38%N]. change (s ">") with [62%N]. change (s "<") with [60%N]. change (s "'") with [39%N]. change (s """") with [34%N].
  rewrite !replace_char, !flat_map_app. reflexivity.
Qed.

Definition conv (c : N) : str :=
  if N.eqb c 38 then s "&amp;" else if N.eqb c 62 then s "&gt;" else if N.eqb c 60 then s "&lt;" else if N.eqb c 39 then s "&apos;" else if N.eqb c 34 then s "&quot;" else [c].
Lemma convert_char : forall c, convert_from_yw [c] = conv c.
Proof.
  intro c. unfold conv. destruct (N.eqb c 38) eqn:E1; [apply N.eqb_eq in E1; subst; reflexivity|]. destruct (N.eqb c 62) eqn:E2; [apply N.eqb_eq in E2; subst; reflexivity|].
  destruct (N.eqb c 60) eqn:E3; [apply N.eqb_eq in E3; subst; reflexivity|]. destruct (N.eqb c 39) eqn:E4; [apply N.eqb_eq in E4; subst; reflexivity|].
  destruct (N.eqb c 34) eqn:E5; [apply N.eqb_eq in E5; subst; reflexivity|]. apply convert_id. intros d [-> | []] H. apply N.eqb_neq in E1, E2, E3, E4, E5. cbn in H. intuition congruence.
Qed.
Lemma convert_cons : forall c v, convert_from_yw (c :: v) = conv c ++ convert_from_yw v.
Proof. intros c v. rewrite <- convert_char. apply (convert_app [c] v). Qed.

Lemma conv_chars : forall c d, In d (conv c) -> d = c \/ In d (s "&amp;gt;lt;apos;quot;").
Proof.
  intros c d H. unfold conv in H. destruct (N.eqb c 38); [right; cbn in *; tauto|]. destruct (N.eqb c 62); [right; cbn in *; tauto|]. destruct (N.eqb c 60); [right; cbn in *; tauto|].
  destruct (N.eqb c 39); [right; cbn in *; tauto|]. destruct (N.eqb c 34); [right; cbn in *; tauto|]. destruct H as [<- | []]. left. reflexivity.
Qed.
Lemma conv_no : forall c v, In c [60; 62]%N -> ~ In c (convert_from_yw v).
Proof.
  intros c v Hc. induction v as [|x v IH]; [intros []|]. rewrite convert_cons. intro E. apply in_app_or in E. destruct E as [E | E]; [|exact (IH E)].
  unfold conv in E. destruct (N.eqb x 38) eqn:E1; [cbn in *; intuition congruence|]. destruct (N.eqb x 62) eqn:E2; [cbn in *; intuition congruence|]. destruct (N.eqb x 60) eqn:E3; [cbn in *; intuition congruence|].
  destruct (N.eqb x 39) eqn:E4; [cbn in *; intuition congruence|]. destruct (N.eqb x 34) eqn:E5; [cbn in *; intuition congruence|]. destruct E as [-> | []]. apply N.eqb_neq in E2, E3. cbn in Hc. intuition congruence.
Qed.

Lemma lex_conv : forall c v, char_ok c = true -> lex (conv c ++ convert_from_yw v) = option_map (cons (TText [c])) (lex (convert_from_yw v)).
Proof.
  intros c v Hc. unfold conv. destruct (N.eqb c 38) eqn:E1; [apply N.eqb_eq in E1; subst; reflexivity|]. destruct (N.eqb c 62) eqn:E2; [apply N.eqb_eq in E2; subst; reflexivity|].
  destruct (N.eqb c 60) eqn:E3; [apply N.eqb_eq in E3; subst; reflexivity|]. destruct (N.eqb c 39) eqn:E4; [apply N.eqb_eq in E4; subst; reflexivity|].
  destruct (N.eqb c 34) eqn:E5; [apply N.eqb_eq in E5; subst; reflexivity|]. unfold lex. cbn [app lex_go]. unfold look. rewrite E3, E1.
  destruct (prefixb (s "]]>") (c :: convert_from_yw v)) eqn:Ep.
  - exfalso. apply prefix_occurs in Ep. apply (no_in_occurs 62%N _ (c :: convert_from_yw v)) in Ep; [exact Ep | cbn; tauto|]. intros [E | E]; [subst; discriminate E2 | exact (conv_no 62%N v (or_intror (or_introl eq_refl)) E)].
  - unfold char_ok in Hc. apply andb_prop in Hc. destruct Hc as [Hc _]. apply andb_prop in Hc. destruct Hc as [-> _]. reflexivity.
Qed.

Lemma decode_convert : forall v, Forall file_char v -> decode (convert_from_yw v) = Some v.
Proof.
  intros v H. induction H as [|c v Hc H IH]; [reflexivity|]. rewrite convert_cons. unfold decode in *. rewrite lex_conv by (apply file_char_ok; exact Hc).
  destruct (lex (convert_from_yw v)) as [ts|]; [|discriminate]. cbn [option_map texts_of]. rewrite IH. reflexivity.
Qed.

Lemma convert_plain : forall v, line_text v -> plain_ok (convert_from_yw v).
Proof.
  intros v [H1 H2].
  assert (Ch : forall d, In d (convert_from_yw v) -> file_char d /\ d <> 10%N).
  { clear -H1 H2. induction v as [|c v IH]; [intros d []|]. intros d Hd. rewrite convert_cons in Hd. apply in_app_or in Hd. inversion H1; subst. destruct Hd as [Hd | Hd].
    - apply conv_chars in Hd. destruct Hd as [-> | Hd]; [split; [assumption | intros ->; apply H2; left; reflexivity]|]. cbn in Hd. unfold file_char. lia.
    - apply IH; [assumption | intro E; apply H2; right; exact E | exact Hd]. }
  assert (N10 : ~ In 10%N (convert_from_yw v)) by (intro E; apply Ch in E; tauto).
  split; [apply forallb_forall; intros d Hd; apply file_char_ok; apply Ch; exact Hd|]. split; [apply conv_no; left; reflexivity|]. split; [rewrite decode_convert by exact H1; discriminate|].
  split; apply occurs_false; apply (no_in_occurs 10%N); try exact N10; [apply in_or_app; right; left; reflexivity | left; reflexivity].
Qed.

Lemma line_kw : forall f kw, cd f = false -> opt_ok line_text (get_kw f kw) -> kw_text f kw /\ same_text (get_kw f kw) (kw_out out_text f kw).
Proof.
  intros f kw Hc H. unfold kw_text, kw_out. destruct (get_kw f kw) as [[|c v]|]; [split; [exact I | reflexivity] | | split; [exact I | reflexivity]].
  split; [cbn [text_ok]; rewrite Hc; apply convert_plain; exact H|]. cbn [out_text]. rewrite Hc, decode_convert by apply H. reflexivity.
Qed.

(** ** Texts, tags, references *)
Lemma same_long : forall t x, cd t = true -> same_text x (out_text t x).
Proof. intros t x Hc. rewrite out_long by exact Hc. destruct x as [[|c v]|]; reflexivity. Qed.
Lemma same_plain : forall t x, cd t = false -> opt_ok plain_text x -> same_text x (out_text t x).
Proof. intros t x Hc H. rewrite out_plain by assumption. destruct x as [[|c v]|]; reflexivity. Qed.
Lemma keep_long : forall t x, cd t = true -> same_text x (keep out_text t x None).
Proof. intros t [v|] Hc; [apply same_long; exact Hc | reflexivity]. Qed.
Lemma keep_plain : forall t x, cd t = false -> opt_ok plain_text x -> same_text x (keep out_text t x None).
Proof. intros t [v|] Hc H; [apply same_plain; assumption | reflexivity]. Qed.

Lemma strip_stripped : forall t, strip t = t -> stripped t.
Proof. intros t H. unfold stripped. rewrite <- H. unfold strip. apply strip_by_stripped. Qed.

Lemma tags_line : forall l, (forall t, In t l -> tag_text t) -> line_ok (join semicolon l).
Proof.
  intros l H. induction l as [|a l IH]; [split; [constructor|]; split; intros []|].
  assert (La : line_ok a). { destruct (H a (or_introl eq_refl)) as (_ & _ & _ & H4 & H5 & H6). split; [exact H5|]. split; assumption. }
  destruct l as [|b l]; [exact La|]. cbn [join]. apply line_app; [exact La|]. apply line_app; [apply line_lit; reflexivity|]. apply IH. intros t Ht. apply H. right. exact Ht.
Qed.

Lemma tags_text_good : forall tags, tags_ok tags -> tags_text_ok tags.
Proof. intros [l|] [_ H]; [|exact I]. unfold tags_text_ok, tags_text. cbn [option_map]. apply text_line; [reflexivity | apply tags_line; exact H]. Qed.

Lemma tags_same : forall tags, tags_ok tags -> same_list tags (match tags with Some _ => tags_in (out_text (s "Tags") (tags_text tags)) | None => None end).
Proof.
  intros [l|] [Hn H]; [|reflexivity]. cbn [list_of] in *. unfold same_list. cbn [list_of tags_text option_map]. destruct l as [|a l]; [reflexivity|].
  rewrite out_long by reflexivity. assert (Ne : join semicolon (a :: l) <> []). { destruct (H a (or_introl eq_refl)) as (Ha & _). destruct a; [congruence|]. destruct l; discriminate. }
  replace (match Some (join semicolon (a :: l)) with Some [] => None | _ => Some (join semicolon (a :: l)) end) with (Some (join semicolon (a :: l))) by (destruct (join semicolon (a :: l)); congruence).
  cbn [tags_in option_map list_of]. rewrite <- (list_to_string_some (a :: l)). assert (Q : string_to_list (Some (list_to_string (Some (a :: l)) semicolon)) semicolon = a :: l).
  2: { rewrite Q. symmetry. apply map_id_on. intros x Hx. apply H. exact Hx. }
  apply (string_list_roundtrip 59%N); [exact Hn|].
  intros x Hx. destruct (H x Hx) as (H1 & H2 & H3 & _). split; [exact H1|]. split; [apply strip_stripped; exact H2 | exact H3].
Qed.

Lemma id_out : forall t i, cd t = false -> id_text i -> out_text t (Some i) = Some i.
Proof. intros t i Hc [H1 H2]. rewrite out_plain by assumption. destruct i; [congruence | reflexivity]. Qed.
Lemma id_plain : forall i, id_text i -> plain_ok i.
Proof. intros i [_ H]. apply plain_plain. exact H. Qed.

Lemma refs_same : forall known l, (forall a, In a (list_of l) -> id_text a /\ In a known) -> same_list l (refs_out known l).
Proof.
  intros known l H. unfold same_list, refs_out. change (match l with Some l0 => l0 | None => [] end) with (list_of l).
  rewrite filter_all by (intros a Ha; apply smem_In; apply H; exact Ha). destruct (list_of l); reflexivity.
Qed.

Lemma hm_clock : forall t, hour_minute t -> clock t.
Proof. intros t H. exact H. Qed.
Lemma parse_digits_ok : forall y acc, all_digits y = true -> parse_digits acc true y <> None.
Proof.
  induction y as [|c y IH]; intros acc H; [discriminate|]. cbn [all_digits] in H. apply andb_prop in H. destruct H as [H1 H2]. cbn [parse_digits]. rewrite H1. apply IH. exact H2.
Qed.
Lemma digit_facts : forall c, is_digit c = true -> is_space c = false /\ (c =? 45)%N = false /\ (c =? 43)%N = false.
Proof.
  intros c H. unfold is_digit in H. apply andb_prop in H. destruct H as [H1 H2]. apply N.leb_le in H1, H2.
  assert (D : (c = 48 \/ c = 49 \/ c = 50 \/ c = 51 \/ c = 52 \/ c = 53 \/ c = 54 \/ c = 55 \/ c = 56 \/ c = 57)%N) by lia.
  repeat (destruct D as [-> | D]; [repeat split; reflexivity|]). subst. repeat split; reflexivity.
Qed.
Lemma all_digits_in : forall y c, all_digits y = true -> In c y -> is_digit c = true.
Proof. induction y as [|d y IH]; intros c H Hc; [destruct Hc|]. cbn [all_digits] in H. apply andb_prop in H. destruct H as [H1 H2]. destruct Hc as [<- | Hc]; [exact H1 | apply IH; assumption]. Qed.
Lemma strip_digits : forall y, all_digits y = true -> strip y = y.
Proof.
  intros y H. unfold strip. apply strip_by_id. split.
  - destruct y as [|c y]; [exact I|]. apply (digit_facts c). apply (all_digits_in (c :: y)); [exact H | left; reflexivity].
  - destruct (rev y) as [|c r] eqn:E; [exact I|]. apply (digit_facts c). apply (all_digits_in y); [exact H|]. apply in_rev. rewrite E. left. reflexivity.
Qed.
Lemma parse_int_digits : forall y, y <> [] -> all_digits y = true -> parse_int y <> None.
Proof.
  intros y H1 H2. unfold parse_int. rewrite strip_digits by exact H2. destruct y as [|c y]; [congruence|].
  cbn [all_digits] in H2. apply andb_prop in H2. destruct H2 as [Hc H2]. destruct (digit_facts c Hc) as (_ & -> & ->). cbn [parse_digits]. rewrite Hc.
  pose proof (parse_digits_ok y (10 * 0 + (c - 48))%N H2) as Q. destruct (parse_digits _ true y); [discriminate | congruence].
Qed.
Lemma day_safe : forall y, day_number y -> safe y /\ parse_int y <> None.
Proof.
  intros y [H1 H2]. split; [split; [exact H1 | apply digits_safe; exact H2]|]. apply parse_int_digits; assumption.
Qed.
Lemma start_text_ok : forall d t y, start_text d t y -> start_ok d t y.
Proof.
  intros d t y H. destruct H; cbn; [left; split; assumption | | apply day_safe; assumption | apply hm_clock; assumption | exact I].
  split; [apply hm_clock; assumption | apply day_safe; assumption].
Qed.
Lemma start_text_same : forall d t y, start_text d t y -> new_start d t y (None, None, None) = (d, t, y).
Proof. intros d t y H. destruct H as [d t Hd Ht | | | |]; try reflexivity. destruct d; [discriminate Hd|]. reflexivity. Qed.
