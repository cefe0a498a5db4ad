From Coq Require Import List NArith Bool Lia Arith.
From Verif Require Import PyStr WordCount Spec.
Import ListNotations.

(** ** the substitution scanner *)

Definition bol_after (bol : bool) (p : str) : bool :=
  match rev p with [] => bol | c :: _ => N.eqb c nl end.

Lemma bol_after_cons : forall bol c p, bol_after bol (c :: p) = bol_after (N.eqb c nl) p.
Proof.
  intros bol c p. unfold bol_after. cbn [rev]. destruct (rev p) as [|x r]; reflexivity.
Qed.

Lemma sub_go_skip : forall m repl p bol t,
  sub_go m repl bol (length p) (p ++ t) = sub_go m repl (bol_after bol p) 0 t.
Proof.
  induction p as [|c p IH]; intros bol t; [reflexivity|].
  cbn [length app sub_go]. rewrite IH, bol_after_cons. reflexivity.
Qed.

Lemma sub_go_hit : forall m repl p bol t, p <> [] -> m bol (p ++ t) = length p ->
  sub_go m repl bol 0 (p ++ t) = repl ++ sub_go m repl (bol_after bol p) 0 t.
Proof.
  intros m repl p bol t Hp Hm. destruct p as [|c p]; [congruence|].
  cbn [app] in *. cbn [sub_go]. rewrite Hm. cbn [length]. rewrite sub_go_skip, bol_after_cons. reflexivity.
Qed.

Lemma sub_go_miss : forall m repl c bol t, m bol (c :: t) = 0 ->
  sub_go m repl bol 0 (c :: t) = c :: sub_go m repl (N.eqb c nl) 0 t.
Proof. intros m repl c bol t H. cbn [sub_go]. rewrite H. reflexivity. Qed.

(** ** first pass: dashes become blanks *)

Definition pass1 (t : str) : str := sub_go m_word_limits (s " ") true 0 t.

Lemma pass1_bol : forall t b b' k, sub_go m_word_limits (s " ") b k t = sub_go m_word_limits (s " ") b' k t.
Proof.
  induction t as [|c t IH]; intros b b' k; [reflexivity|].
  cbn [sub_go]. destruct k as [|k]; [|reflexivity].
  unfold m_word_limits. destruct (prefixb (s "--") (c :: t)); [reflexivity|].
  destruct ((c =? 8212) || (c =? 8211))%N; reflexivity.
Qed.

Lemma pass1_nil : pass1 [] = [].
Proof. reflexivity. Qed.

Lemma pass1_dd : forall t, pass1 (45 :: 45 :: t)%N = 32%N :: pass1 t.
Proof.
  intro t. unfold pass1. change (45 :: 45 :: t)%N with (s "--" ++ t).
  rewrite sub_go_hit; [| discriminate | reflexivity].
  cbn. f_equal. apply pass1_bol.
Qed.

Lemma pass1_char : forall c t, prefixb (s "--") (c :: t) = false ->
  pass1 (c :: t) = (if ((c =? 8212) || (c =? 8211))%N then 32%N else c) :: pass1 t.
Proof.
  intros c t H. unfold pass1. cbn [sub_go]. unfold m_word_limits at 1. rewrite H.
  destruct ((c =? 8212) || (c =? 8211))%N; lits; cbn [app]; f_equal; apply pass1_bol.
Qed.

(** case principle for pass1 *)
Lemma pass1_cases : forall t,
  t = [] \/ (exists t', t = 45 :: 45 :: t')%N \/ (exists c t', t = c :: t' /\ prefixb (s "--") (c :: t') = false).
Proof.
  intros [|c t]; [left; reflexivity|]. right.
  destruct (prefixb (s "--") (c :: t)) eqn:E; [left | right; exists c, t; auto].
  apply prefixb_spec in E as [r Hr]. exists r. exact Hr.
Qed.

Lemma pass1_ind : forall P : str -> Prop,
  P [] -> (forall t, P t -> P (45 :: 45 :: t)%N) ->
  (forall c t, prefixb (s "--") (c :: t) = false -> P t -> P (c :: t)) -> forall t, P t.
Proof.
  intros P H0 H1 H2 t. remember (length t) as n eqn:Hn.
  assert (Hle : length t <= n) by lia. clear Hn. revert t Hle.
  induction n as [|n IH]; intros t Hle.
  - destruct t; [exact H0 | simpl in Hle; lia].
  - destruct (pass1_cases t) as [-> | [[t' ->] | [c [t' [-> Hp]]]]].
    + exact H0.
    + apply H1. apply IH. simpl in Hle. lia.
    + apply H2; [exact Hp |]. apply IH. simpl in Hle. lia.
Qed.

Lemma pass1_In : forall t x, In x (pass1 t) -> In x t \/ x = 32%N.
Proof.
  intro t. induction t as [| t IH | c t Hp IH] using pass1_ind; intros x H.
  - contradiction.
  - rewrite pass1_dd in H. destruct H as [<- | H]; [right; reflexivity|].
    apply IH in H as [H | H]; [left; right; right; exact H | right; exact H].
  - rewrite pass1_char in H by exact Hp. destruct H as [H | H].
    + destruct ((c =? 8212) || (c =? 8211))%N; [right; congruence | left; left; exact H].
    + apply IH in H as [H | H]; [left; right; exact H | right; exact H].
Qed.

Lemma pass1_nonempty : forall t, t <> [] -> pass1 t <> [].
Proof.
  intros t H. destruct (pass1_cases t) as [-> | [[t' ->] | [c [t' [-> Hp]]]]]; [congruence | |].
  - rewrite pass1_dd. discriminate.
  - rewrite pass1_char by exact Hp. discriminate.
Qed.

Lemma pass1_head : forall t x r, pass1 t = x :: r -> x <> 32%N -> exists t', t = x :: t'.
Proof.
  intros t x r H Hx. destruct (pass1_cases t) as [-> | [[t' ->] | [c [t' [-> Hp]]]]].
  - discriminate.
  - rewrite pass1_dd in H. congruence.
  - rewrite pass1_char in H by exact Hp.
    destruct ((c =? 8212) || (c =? 8211))%N; [congruence|]. injection H as -> _. exists t'. reflexivity.
Qed.

Lemma pass1_no_close : forall t, containsb (s "*/") t = false -> containsb (s "*/") (pass1 t) = false.
Proof.
  intro t. induction t as [| t IH | c t Hp IH] using pass1_ind; intro H.
  - reflexivity.
  - rewrite pass1_dd. change (containsb (s "*/") (pass1 t) = false). apply IH.
    apply not_true_is_false. intro Hc. apply not_true_iff_false in H. apply H.
    apply containsb_spec in Hc as [a [b Hab]]. apply containsb_spec.
    exists (45%N :: 45%N :: a), b. rewrite Hab. reflexivity.
  - rewrite pass1_char by exact Hp. cbn [containsb] in *.
    apply orb_false_iff in H as [H1 H2]. apply orb_false_iff. split; [|apply IH; exact H2].
    destruct ((c =? 8212) || (c =? 8211))%N; [reflexivity|].
    lits. lits_in H1. cbn [prefixb] in *.
    destruct (42 =? c)%N; [|reflexivity]. cbn [andb] in *.
    destruct (pass1 t) as [|x r] eqn:E; [reflexivity|]. rewrite andb_true_r.
    destruct (47 =? x)%N eqn:Ex; [|reflexivity]. apply N.eqb_eq in Ex. subst x.
    apply pass1_head in E as [t' ->]; [|discriminate]. cbn in H1. discriminate.
Qed.

Lemma pass1_app : forall (a : str) x r, x <> 45%N -> x <> 8212%N -> x <> 8211%N ->
  pass1 (a ++ x :: r) = pass1 a ++ x :: pass1 r.
Proof.
  intros a x r H1 H2 H3. induction a as [| a IH | c a Hp IH] using pass1_ind.
  - cbn [app pass1]. rewrite pass1_char.
    + destruct (N.eqb_spec x 8212); [congruence|]. destruct (N.eqb_spec x 8211); [congruence|]. reflexivity.
    + lits. cbn [prefixb]. destruct (N.eqb_spec 45 x); [congruence | reflexivity].
  - cbn [app]. rewrite !pass1_dd, IH. reflexivity.
  - cbn [app]. rewrite (pass1_char c a Hp), (pass1_char c (a ++ x :: r)).
    + rewrite IH. reflexivity.
    + revert Hp. lits. cbn [prefixb]. destruct (45 =? c)%N; [|reflexivity]. cbn [andb].
      destruct a as [|y a]; cbn [app]; [|auto].
      intros _. destruct (N.eqb_spec 45 x); [congruence | reflexivity].
Qed.

(** ** delimiters *)

Lemma lazy_to_first : forall close w rest,
  (forall a b, w = a ++ b -> b <> [] -> prefixb close (b ++ close ++ rest) = false) -> ~ In nl w ->
  lazy_to close (w ++ close ++ rest) = Some (length w + length close).
Proof.
  intros close w rest. induction w as [|c w IH]; intros H Hn.
  - cbn [app length]. destruct (close ++ rest) eqn:E; cbn [lazy_to].
    + apply app_eq_nil in E as [-> ->]. reflexivity.
    + rewrite <- E, prefixb_app. reflexivity.
  - cbn [app lazy_to]. pose proof (H [] (c :: w) eq_refl ltac:(discriminate)) as Hc. cbn [app] in Hc. rewrite Hc.
    destruct (N.eqb_spec c nl) as [-> | Hne]; [elim Hn; left; reflexivity|].
    rewrite IH.
    + reflexivity.
    + intros a b Hab Hb. apply (H (c :: a) b); [subst; reflexivity | exact Hb].
    + intro Hi. apply Hn. right; exact Hi.
Qed.

Lemma m_delim_hit : forall open close w rest,
  w <> [] -> ~ In nl w ->
  (forall a b, w = a ++ b -> b <> [] -> prefixb close (b ++ close ++ rest) = false) ->
  m_delim open close ((open ++ w ++ close) ++ rest) = length (open ++ w ++ close).
Proof.
  intros open close w rest Hw Hn H. unfold m_delim.
  rewrite <- app_assoc, prefixb_app. rewrite skipn_app, skipn_all, Nat.sub_diag, skipn_O. cbn [app].
  rewrite <- app_assoc. destruct w as [|c w]; [congruence|]. cbn [app].
  destruct (N.eqb_spec c nl) as [-> | Hne]; [elim Hn; left; reflexivity|].
  rewrite lazy_to_first.
  - rewrite !app_length. cbn [length]. rewrite app_length. lia.
  - intros a b Hab Hb. apply (H (c :: a) b); [subst; reflexivity | exact Hb].
  - intro Hi. apply Hn. right; exact Hi.
Qed.

Lemma m_tag_hit : forall w rest, w <> [] -> ~ In nl w -> ~ In 93%N w ->
  m_tag ((s "[" ++ w ++ s "]") ++ rest) = length (s "[" ++ w ++ s "]").
Proof.
  intros w rest Hw Hn Hc. apply m_delim_hit; [exact Hw | exact Hn |].
  intros a b -> Hb. destruct b as [|x b]; [congruence|]. lits. cbn [app prefixb].
  destruct (N.eqb_spec 93 x) as [<- | Hne]; [|reflexivity].
  elim Hc. apply in_or_app. right. left. reflexivity.
Qed.

Lemma m_comment_hit : forall w rest, w <> [] -> ~ In nl w -> containsb (s "*/") w = false ->
  m_comment ((s "/*" ++ w ++ s "*/") ++ rest) = length (s "/*" ++ w ++ s "*/").
Proof.
  intros w rest Hw Hn Hc. apply m_delim_hit; [exact Hw | exact Hn |].
  intros a b -> Hb. destruct b as [|x b]; [congruence|].
  apply not_true_is_false. intro Hp. apply not_true_iff_false in Hc. apply Hc.
  apply containsb_spec. apply prefixb_spec in Hp as [r Hr]. revert Hr. lits. cbn [app]. intro Hr.
  injection Hr as -> Hr. destruct b as [|y b].
  - discriminate.
  - injection Hr as -> Hr. exists a, b. reflexivity.
Qed.

Lemma m_tag_miss : forall c t, c <> 91%N -> m_tag (c :: t) = 0.
Proof.
  intros c t H. unfold m_tag, m_delim. lits. cbn [prefixb].
  destruct (N.eqb_spec 91 c); [congruence | reflexivity].
Qed.

Lemma m_comment_miss : forall c t, (c = 47%N -> match t with x :: _ => N.eqb 42 x | [] => false end = false) ->
  m_comment (c :: t) = 0.
Proof.
  intros c t H. unfold m_comment, m_delim. lits. cbn [prefixb].
  destruct (N.eqb_spec 47 c) as [<- | Hne]; [|reflexivity]. cbn [andb].
  specialize (H eq_refl). destruct t as [|x t]; [reflexivity|]. rewrite H. reflexivity.
Qed.

Lemma bol_after_last : forall b p c, bol_after b (p ++ [c]) = N.eqb c nl.
Proof. intros b p c. unfold bol_after. rewrite rev_app_distr. reflexivity. Qed.

Lemma bol_after_tag : forall b w, bol_after b (s "[" ++ w ++ s "]") = false.
Proof. intros b w. rewrite app_assoc. change (s "]") with [93%N]. rewrite bol_after_last. reflexivity. Qed.

Lemma bol_after_comment : forall b w, bol_after b (s "/*" ++ w ++ s "*/") = false.
Proof.
  intros b w. change (s "*/") with ([42%N] ++ [47%N]). rewrite !app_assoc, bol_after_last. reflexivity.
Qed.

Lemma orelse_hit : forall a b, a <> 0 -> orelse a b = a.
Proof. intros [|a] b H; [congruence | reflexivity]. Qed.

(** ** letters *)

Lemma letters_pieces : forall l bol, pieces_ok bol l ->
  sub_go m_non_letters [] bol 0 (pieces_text l) = flat_map letters_of l.
Proof.
  induction l as [|p l IH]; intros bol H; [reflexivity|].
  unfold pieces_text in *. cbn [flat_map]. destruct p as [c | w | w | | | | |].
  - destruct H as [H1 [H2 [H3 [H4 [H5 [H6 H]]]]]]. cbn [piece_text app].
    assert (Hm : m_non_letters bol (c :: flat_map piece_text l) = if ((c =? nl) || (c =? cr))%N then 1 else 0).
    { unfold m_non_letters. rewrite m_tag_miss by exact H1.
      rewrite m_comment_miss by (intro Hc; exact (H6 Hc)). reflexivity. }
    cbn [sub_go]. rewrite Hm. cbn [letters_of]. unfold nl, cr in *.
    destruct ((c =? 10) || (c =? 13))%N; cbn [app]; rewrite IH by exact H; reflexivity.
  - destruct H as [H1 [H2 [H3 H]]]. cbn [piece_text letters_of app].
    rewrite sub_go_hit.
    + rewrite bol_after_tag. cbn [app]. apply IH; exact H.
    + lits. discriminate.
    + unfold m_non_letters. rewrite m_tag_hit by assumption. apply orelse_hit. discriminate.
  - destruct H as [H1 [H2 [H3 H]]]. cbn [piece_text letters_of app].
    rewrite sub_go_hit.
    + rewrite bol_after_comment. cbn [app]. apply IH; exact H.
    + lits. discriminate.
    + unfold m_non_letters.
      replace (m_tag ((s "/*" ++ w ++ s "*/") ++ flat_map piece_text l)) with 0
        by (symmetry; apply m_tag_miss; discriminate).
      cbn [orelse]. rewrite m_comment_hit by assumption. apply orelse_hit. discriminate.
  - destruct H as [H1 H]. cbn [piece_text letters_of]. lits. cbn [app].
    rewrite sub_go_miss by reflexivity. f_equal. apply IH; exact H.
  - cbn [piece_text letters_of]. lits. cbn [app].
    rewrite !sub_go_miss by reflexivity. do 2 f_equal. apply IH; exact H.
  - cbn [piece_text letters_of app]. rewrite sub_go_miss by reflexivity. f_equal. apply IH; exact H.
  - cbn [piece_text letters_of app]. rewrite sub_go_miss by reflexivity. f_equal. apply IH; exact H.
  - destruct H as [_ H]. cbn [piece_text letters_of]. lits. cbn [app].
    rewrite sub_go_miss by reflexivity. f_equal. apply IH; exact H.
Qed.

(** ** words *)

Definition piece1 (p : piece) : str :=
  match p with
  | Char c => [c]
  | Tag w => s "[" ++ pass1 w ++ s "]"
  | Comment w => s "/*" ++ pass1 w ++ s "*/"
  | Hyphen => s "-"
  | DoubleHyphen | EmDash | EnDash => s " "
  | Quote => s ">"
  end.

Lemma pass1_single : forall c t, c <> 45%N -> c <> 8212%N -> c <> 8211%N -> pass1 (c :: t) = c :: pass1 t.
Proof. intros c t H1 H2 H3. apply (pass1_app [] c t H1 H2 H3). Qed.

Lemma pass1_pieces : forall l bol, pieces_ok bol l -> pass1 (pieces_text l) = flat_map piece1 l.
Proof.
  induction l as [|p l IH]; intros bol H; [reflexivity|].
  unfold pieces_text in *. cbn [flat_map]. destruct p as [c | w | w | | | | |].
  - destruct H as [H1 [H2 [H3 [H4 [H5 [H6 H]]]]]]. cbn [piece_text piece1 app].
    rewrite pass1_single by assumption. f_equal. eapply IH; exact H.
  - destruct H as [H1 [H2 [H3 H]]]. cbn [piece_text piece1]. lits. cbn [app].
    rewrite pass1_single by discriminate. f_equal. rewrite <- !app_assoc. cbn [app].
    rewrite pass1_app by discriminate. do 2 f_equal. eapply IH; exact H.
  - destruct H as [H1 [H2 [H3 H]]]. cbn [piece_text piece1]. lits. cbn [app].
    rewrite !pass1_single by discriminate. do 2 f_equal. rewrite <- !app_assoc. cbn [app].
    rewrite pass1_app by discriminate. rewrite pass1_single by discriminate.
    do 3 f_equal. eapply IH; exact H.
  - destruct H as [H1 H]. cbn [piece_text piece1]. lits. cbn [app].
    rewrite pass1_char.
    + cbn [N.eqb Pos.eqb orb]. f_equal. eapply IH; exact H.
    + lits. cbn [prefixb]. unfold first_char_is, pieces_text in H1.
      destruct (flat_map piece_text l) as [|x r]; [reflexivity|]. rewrite H1. reflexivity.
  - cbn [piece_text piece1]. lits. cbn [app]. rewrite pass1_dd. f_equal. eapply IH; exact H.
  - cbn [piece_text piece1]. lits. cbn [app]. rewrite pass1_char by reflexivity.
    cbn. f_equal. eapply IH; exact H.
  - cbn [piece_text piece1]. lits. cbn [app]. rewrite pass1_char by reflexivity.
    cbn. f_equal. eapply IH; exact H.
  - destruct H as [_ H]. cbn [piece_text piece1]. lits. cbn [app].
    rewrite pass1_single by discriminate. f_equal. eapply IH; exact H.
Qed.

Lemma piece1_first : forall l bol, pieces_ok bol l -> first_char_is 42 l = false ->
  match flat_map piece1 l with x :: _ => N.eqb 42 x | [] => false end = false.
Proof.
  intros l bol Hok H. rewrite <- (pass1_pieces l bol Hok). unfold first_char_is in H.
  destruct (pass1 (pieces_text l)) as [|x r] eqn:E; [reflexivity|].
  destruct (N.eqb_spec 42 x) as [<- | Hne]; [|reflexivity].
  apply pass1_head in E as [t' Ht]; [|discriminate]. rewrite Ht in H. discriminate.
Qed.

Lemma words_pieces : forall l bol, pieces_ok bol l ->
  sub_go m_no_word_limits [] bol 0 (flat_map piece1 l) = flat_map wordtext_of l.
Proof.
  induction l as [|p l IH]; intros bol H; [reflexivity|].
  cbn [flat_map]. destruct p as [c | w | w | | | | |].
  - destruct H as [H1 [H2 [H3 [H4 [H5 [H6 H]]]]]]. cbn [piece1 wordtext_of app].
    rewrite sub_go_miss.
    + f_equal. apply IH; exact H.
    + unfold m_no_word_limits. rewrite m_tag_miss by exact H1.
      rewrite m_comment_miss by (intro Hc; eapply piece1_first; [exact H | exact (H6 Hc)]).
      cbn [orelse]. destruct (N.eqb_spec c 45); [congruence|].
      destruct (N.eqb_spec c 62) as [-> | Hne]; [rewrite (H5 eq_refl) |]; reflexivity.
  - destruct H as [H1 [H2 [H3 H]]]. cbn [piece1 wordtext_of app].
    rewrite sub_go_hit.
    + rewrite bol_after_tag. cbn [app]. apply IH; exact H.
    + lits. discriminate.
    + unfold m_no_word_limits. rewrite m_tag_hit.
      * apply orelse_hit. discriminate.
      * apply pass1_nonempty; exact H1.
      * intro Hi. apply pass1_In in Hi as [Hi | Hi]; [contradiction | discriminate].
      * intro Hi. apply pass1_In in Hi as [Hi | Hi]; [contradiction | discriminate].
  - destruct H as [H1 [H2 [H3 H]]]. cbn [piece1 wordtext_of app].
    rewrite sub_go_hit.
    + rewrite bol_after_comment. cbn [app]. apply IH; exact H.
    + lits. discriminate.
    + unfold m_no_word_limits.
      replace (m_tag ((s "/*" ++ pass1 w ++ s "*/") ++ flat_map piece1 l)) with 0
        by (symmetry; apply m_tag_miss; discriminate).
      cbn [orelse]. rewrite m_comment_hit.
      * apply orelse_hit. discriminate.
      * apply pass1_nonempty; exact H1.
      * intro Hi. apply pass1_In in Hi as [Hi | Hi]; [contradiction | discriminate].
      * apply pass1_no_close; exact H2.
  - destruct H as [H1 H]. cbn [piece1 wordtext_of]. rewrite sub_go_hit; [| discriminate | reflexivity].
    cbn [app]. apply IH; exact H.
  - cbn [piece1 wordtext_of]. lits. cbn [app]. rewrite sub_go_miss by reflexivity. f_equal. apply IH; exact H.
  - cbn [piece1 wordtext_of]. lits. cbn [app]. rewrite sub_go_miss by reflexivity. f_equal. apply IH; exact H.
  - cbn [piece1 wordtext_of]. lits. cbn [app]. rewrite sub_go_miss by reflexivity. f_equal. apply IH; exact H.
  - destruct H as [-> H]. cbn [piece1 wordtext_of]. rewrite sub_go_hit; [| discriminate | reflexivity].
    cbn [app]. apply IH; exact H.
Qed.

Lemma words_go_count : forall t cur,
  length (words_go cur t) = (match cur with [] => 0 | _ => 1 end) + count_words (match cur with [] => true | _ => false end) t.
Proof.
  induction t as [|c t IH]; intro cur.
  - destruct cur; reflexivity.
  - cbn [words_go count_words]. destruct (is_space c) eqn:E.
    + destruct cur as [|x cur]; cbn [length]; rewrite IH; reflexivity.
    + rewrite IH. destruct cur; reflexivity.
Qed.

Lemma words_count : forall t, length (words t) = count_words true t.
Proof. intro t. apply (words_go_count t []). Qed.

Lemma letter_count_pieces : forall l, pieces_ok true l ->
  letter_count (pieces_text l) = length (flat_map letters_of l).
Proof. intros l H. unfold letter_count, re_sub. rewrite letters_pieces by exact H. reflexivity. Qed.

Lemma word_count_pieces : forall l, pieces_ok true l ->
  word_count (pieces_text l) = count_words true (flat_map wordtext_of l).
Proof.
  intros l H. unfold word_count. rewrite words_count. unfold re_sub.
  change (sub_go m_word_limits (s " ") true 0 (pieces_text l)) with (pass1 (pieces_text l)).
  rewrite (pass1_pieces l true H). rewrite words_pieces by exact H. reflexivity.
Qed.

Lemma markup_does_not_count : forall a p b, (exists w, p = Tag w \/ p = Comment w) ->
  pieces_ok true (a ++ p :: b) -> pieces_ok true (a ++ b) ->
  letter_count (pieces_text (a ++ p :: b)) = letter_count (pieces_text (a ++ b)) /\
  word_count (pieces_text (a ++ p :: b)) = word_count (pieces_text (a ++ b)).
Proof.
  intros a p b Hp H1 H2. rewrite !letter_count_pieces, !word_count_pieces by assumption.
  rewrite !flat_map_app. destruct Hp as [w [-> | ->]]; split; reflexivity.
Qed.
