From Coq Require Import List NArith Bool Lia Arith.
From Verif Require Import PyStr PyDict OdtText Template SpecTemplate.
Import ListNotations.

Lemma subst_skip : forall m p t, subst_go m (length p) (p ++ t) = subst_go m 0 t.
Proof. induction p as [|c p IH]; intro t; [reflexivity | apply IH]. Qed.
Lemma span_app : forall f a r, forallb f a = true -> match r with c :: _ => f c = false | [] => True end -> span f (a ++ r) = length a.
Proof.
  induction a as [|c a IH]; intros r H Hr; cbn [app].
  - destruct r as [|c r]; [reflexivity|]. cbn. now rewrite Hr.
  - cbn [forallb] in H. apply andb_true_iff in H as [H1 H2]. cbn [span length]. rewrite H1. f_equal. now apply IH.
Qed.
Lemma span_split : forall f t, exists a b, t = a ++ b /\ length a = span f t /\ forallb f a = true /\ match b with c :: _ => f c = false | [] => True end.
Proof.
  induction t as [|c t IH]; [exists [], []; repeat split|]. cbn [span]. destruct (f c) eqn:E.
  - destruct IH as [a [b [E1 [E2 [E3 E4]]]]]. exists (c :: a), b. cbn. rewrite E, E3. repeat split; congruence.
  - exists [], (c :: t). repeat split. exact E.
Qed.
Lemma letter_id : forall c, id_start c = letter c.
Proof. intro c. unfold id_start, letter. reflexivity. Qed.
Lemma letter_or_digit_id : forall c, id_char c = letter_or_digit c.
Proof. intro c. unfold id_char, letter_or_digit. rewrite letter_id. unfold is_digit. reflexivity. Qed.
Lemma forallb_id : forall l, forallb id_char l = forallb letter_or_digit l.
Proof. induction l as [|c l IH]; [reflexivity|]. cbn. now rewrite IH, letter_or_digit_id. Qed.
Lemma name_chars : forall n, name n -> forallb letter_or_digit n = true.
Proof. intros [|c r] H; [destruct H|]. destruct H as [H1 H2]. cbn. unfold letter_or_digit at 1. rewrite H1. exact H2. Qed.

Lemma firstn_app_len : forall {A} (a b : list A), firstn (length a) (a ++ b) = a.
Proof. intros. rewrite firstn_app, Nat.sub_diag, firstn_O, app_nil_r. apply firstn_all. Qed.
Lemma skipn_app_len : forall {A} (a b : list A), skipn (length a) (a ++ b) = b.
Proof. intros. rewrite skipn_app, Nat.sub_diag, skipn_all. reflexivity. Qed.

Lemma identifier_name : forall n r, name n -> (forall c u, r = c :: u -> letter_or_digit c = false) -> identifier (n ++ r) = Some n.
Proof.
  intros n r Hn Hr. pose proof (name_chars n Hn) as Hc. destruct n as [|c n]; [destruct Hn|]. destruct Hn as [H1 H2]. cbn [app identifier]. rewrite letter_id, H1.
  change (c :: n ++ r) with ((c :: n) ++ r). rewrite span_app.
  - now rewrite firstn_app_len.
  - rewrite forallb_id. exact Hc.
  - destruct r as [|d r]; [exact I|]. rewrite letter_or_digit_id. eapply Hr. reflexivity.
Qed.
Lemma identifier_some : forall t n, identifier t = Some n -> name n /\ exists r, t = n ++ r /\ forall c u, r = c :: u -> letter_or_digit c = false.
Proof.
  intros t n H. destruct (span_split id_char t) as [a [b [E1 [E2 [E3 E4]]]]].
  destruct t as [|c t]; [discriminate|]. unfold identifier in H. destruct (id_start c) eqn:E; [|discriminate].
  assert (Hn : n = a).
  { injection H as <-. etransitivity; [exact (f_equal (fun k => firstn k (c :: t)) (eq_sym E2))|]. rewrite E1. apply firstn_app_len. }
  subst n. split.
  - destruct a as [|d a].
    + exfalso. cbn [app] in E1. subst b. cbn in E4. unfold id_char in E4. rewrite E in E4. discriminate.
    + cbn [app] in E1. injection E1 as <- E1. split; [now rewrite <- letter_id|]. cbn [forallb] in E3. apply andb_true_iff in E3 as [_ E3]. now rewrite <- forallb_id.
  - exists b. split; [exact E1|]. intros d u ->. now rewrite <- letter_or_digit_id.
Qed.
Lemma identifier_none : forall t, identifier t = None -> forall c u, t = c :: u -> letter c = false.
Proof. intros t H c u ->. cbn in H. rewrite <- letter_id. now destruct (id_start c). Qed.
Lemma braced_some : forall t n, braced t = Some n -> name n /\ exists r, t = s "{" ++ n ++ s "}" ++ r.
Proof.
  intros [|c t] n H; [discriminate|]. cbn [braced] in H. destruct (N.eqb_spec c 123) as [->|]; [|discriminate].
  destruct (identifier t) as [n'|] eqn:E; [|discriminate]. apply identifier_some in E as [Hn [r [-> _]]]. rewrite skipn_app_len in H.
  destruct r as [|d r]; [discriminate|]. destruct (N.eqb_spec d 125) as [->|]; [|discriminate]. injection H as <-. split; [exact Hn|]. exists r. reflexivity.
Qed.
Lemma braced_name : forall n r, name n -> braced (s "{" ++ n ++ s "}" ++ r) = Some n.
Proof.
  intros n r H. cbn [app braced s]. change (s "{" ++ n ++ s "}" ++ r) with (123%N :: n ++ (125%N :: r)). cbn [braced].
  change (N.eqb 123 123) with true. cbv iota. rewrite identifier_name; [|exact H|].
  - rewrite skipn_app_len. reflexivity.
  - intros c u E. injection E as <- _. reflexivity.
Qed.
Lemma identifier_brace : forall r, identifier (s "{" ++ r) = None.
Proof. reflexivity. Qed.
Lemma letter_not_dollar : forall c, letter c = true -> N.eqb 36 c = false.
Proof. intros c H. apply N.eqb_neq. intros <-. discriminate. Qed.

(** the values of the segments *)
Theorem substitute_segments : forall l m, unambiguous l -> safe_substitute (template_text l) m = flat_map (seg_value m) l.
Proof.
  unfold safe_substitute. induction l as [|x l IH]; intros m H; [reflexivity|]. cbn [unambiguous] in H. destruct H as [H Hx]. specialize (IH m H).
  cbn [template_text flat_map]. fold (template_text l). rewrite <- IH. destruct x as [c| |n|n|]; cbn [seg_text seg_value app].
  - cbn [subst_go]. rewrite (proj2 (N.eqb_neq c 36)) by exact Hx. reflexivity.
  - reflexivity.
  - destruct Hx as [Hn Hr]. change (s "$" ++ n) with (36%N :: n). cbn [app subst_go]. change (N.eqb 36 36) with true. cbv iota.
    rewrite (identifier_name n _ Hn Hr), subst_skip.
    assert (E : prefixb (s "$") (n ++ template_text l) = false).
    { destruct n as [|c n]; [destruct Hn|]. destruct Hn as [Hn _]. pose proof (letter_not_dollar c Hn) as L. change (N.eqb 36 c && true = false). now rewrite L. }
    rewrite E. reflexivity.
  - replace ((s "${" ++ n ++ s "}") ++ template_text l) with (36%N :: (s "{" ++ n ++ s "}" ++ template_text l)) by (cbn; now rewrite <- app_assoc).
    cbn [subst_go]. change (N.eqb 36 36) with true. cbv iota. change (prefixb (s "$") (s "{" ++ n ++ s "}" ++ template_text l)) with false. cbv iota.
    rewrite identifier_brace, (braced_name n _ Hx).
    assert (E : subst_go m (length n + 2) (s "{" ++ n ++ s "}" ++ template_text l) = subst_go m 0 (template_text l)).
    { replace (length n + 2) with (length (s "{" ++ n ++ s "}")) by (rewrite !app_length; cbn; lia).
      replace (s "{" ++ n ++ s "}" ++ template_text l) with ((s "{" ++ n ++ s "}") ++ template_text l) by now rewrite <- !app_assoc. apply subst_skip. }
    rewrite E. unfold value_or. destruct (dget n m); reflexivity.
  - destruct Hx as [H1 [H2 H3]]. change (s "$") with [36%N]. cbn [app subst_go]. change (N.eqb 36 36) with true. cbv iota.
    assert (E1 : prefixb [36%N] (template_text l) = false).
    { destruct (template_text l) as [|c u] eqn:E; [reflexivity|]. change (N.eqb 36 c && true = false). rewrite andb_true_r. apply N.eqb_neq. intros <-. now apply (H1 u). }
    change (s "$") with [36%N] in *. rewrite E1.
    assert (E2 : identifier (template_text l) = None).
    { destruct (template_text l) as [|c u] eqn:E; [reflexivity|]. cbn. rewrite letter_id, (H2 c u eq_refl). reflexivity. }
    rewrite E2. destruct (braced (template_text l)) as [n|] eqn:E3; [|reflexivity].
    apply braced_some in E3 as [Hn [r E3]]. exfalso. now apply (H3 n r Hn).
Qed.
Theorem segments_exist : forall t, exists l, template_text l = t /\ unambiguous l.
Proof.
  intro t. enough (H : forall k t, length t <= k -> exists l, template_text l = t /\ unambiguous l) by (apply (H (length t)); lia).
  clear t. induction k as [|k IH]; intros t Ht; (destruct t as [|c t]; [exists []; split; [reflexivity | exact I]|]); cbn [length] in Ht; [lia|].
  destruct (N.eq_dec c 36) as [->|Hc].
  2:{ destruct (IH t) as [l [E U]]; [lia|]. exists (SChar c :: l). cbn [template_text flat_map seg_text app]. fold (template_text l). rewrite E. split; [reflexivity|]. split; assumption. }
  destruct t as [|d t].
  { exists [SLone]. split; [reflexivity|]. cbn. repeat split; try discriminate. }
  destruct (N.eq_dec d 36) as [->|Hd].
  { destruct (IH t) as [l [E U]]; [cbn in Ht; lia|]. exists (SDollar :: l). cbn [template_text flat_map seg_text]. fold (template_text l). rewrite E. repeat split. exact U. }
  destruct (identifier (d :: t)) as [n|] eqn:Ei.
  { apply identifier_some in Ei as [Hn [r [E Hr]]]. destruct (IH r) as [l [El U]].
    { rewrite E, app_length in Ht. destruct n; [destruct Hn | cbn in Ht; lia]. }
    exists (SName n :: l). cbn [template_text flat_map seg_text]. fold (template_text l). rewrite El, E. split; [reflexivity|]. cbn [unambiguous]. rewrite El. repeat split; assumption. }
  destruct (braced (d :: t)) as [n|] eqn:Eb.
  { apply braced_some in Eb as [Hn [r E]]. destruct (IH r) as [l [El U]].
    { rewrite E, !app_length in Ht. cbn in Ht. lia. }
    exists (SBraced n :: l). cbn [template_text flat_map seg_text]. fold (template_text l). rewrite El, E. split; [cbn; now rewrite <- app_assoc|]. split; assumption. }
  destruct (IH (d :: t)) as [l [El U]]; [cbn in Ht |- *; lia|]. exists (SLone :: l). cbn [template_text flat_map seg_text]. fold (template_text l).
  rewrite El. split; [reflexivity|]. cbn [unambiguous]. rewrite El. split; [exact U|]. repeat split.
  - intros u E. congruence.
  - intros c u E. exact (identifier_none _ Ei c u E).
  - intros n u Hn E. rewrite E in Eb. rewrite braced_name in Eb by exact Hn. discriminate.
Qed.
