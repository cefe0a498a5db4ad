(** The replacements (odt_w_formatted.py 98-106): the result. *)
From Coq Require Import String List NArith ZArith Bool Lia Arith.
From Verif Require Import PyStr YwText WordCount WordCountProofs OdfXml OdfXmlProofs OdtText OdtTextProofs OdtTextProofs2 SpecOdf SpecFormat FormatWords FormatLines FormatXml.
Import ListNotations.

(** ** Two-character marks *)
Lemma no_mark_a : forall (a b : N) w x, length x <= 1 -> ~ In a w -> containsb [a; b] (w ++ x) = false.
Proof.
  intros a b w x Hx. induction w as [|c w IH]; intro H.
  - cbn [app]. destruct x as [|d [|e x]]; [reflexivity | | cbn in Hx; lia]. cbn [containsb prefixb]. now destruct (N.eqb a d).
  - cbn [app containsb]. rewrite IH by (intro Hi; apply H; now right). cbn [prefixb]. assert (E : N.eqb a c = false) by (apply N.eqb_neq; intro E; apply H; now left).
    now rewrite E.
Qed.
Lemma no_mark_b : forall (a b : N) w x, length x <= 1 -> ~ In b w -> (forall v, w = v ++ [a] -> x <> [b]) -> containsb [a; b] (w ++ x) = false.
Proof.
  intros a b w x Hx. induction w as [|c w IH]; intros H Hl.
  - apply (no_mark_a a b [] x Hx). intros [].
  - cbn [app containsb]. rewrite IH; [|intro Hi; apply H; now right | intros v E; apply (Hl (c :: v)); now rewrite E].
    rewrite orb_false_r. cbn [prefixb]. destruct (N.eqb a c) eqn:Ea; [|reflexivity]. cbn [andb]. apply N.eqb_eq in Ea. subst c.
    destruct w as [|d w].
    + cbn [app]. destruct x as [|d x]; [reflexivity|]. destruct (N.eqb b d) eqn:Eb; [|reflexivity]. apply N.eqb_eq in Eb. subst d.
      destruct x; [|cbn in Hx; lia]. exfalso. exact (Hl [] eq_refl eq_refl).
    + cbn [app]. destruct (N.eqb b d) eqn:Eb; [|reflexivity]. apply N.eqb_eq in Eb. subst d. exfalso. apply H. right. now left.
Qed.
Lemma mark3 : forall x, x <> 42%N -> containsb [47; 42]%N [42; 47; x]%N = false.
Proof.
  intros x H. assert (E : N.eqb 42 x = false) by (apply N.eqb_neq; congruence).
  assert (G : forall a : N, containsb [a; 42]%N [x] = false) by (intro a; cbn [containsb prefixb]; destruct (N.eqb a x); reflexivity).
  assert (C : forall m c t, containsb m (c :: t) = (prefixb m (c :: t) || containsb m t)%bool) by reflexivity.
  rewrite C, prefix2. rewrite C, prefix2, E, G. reflexivity.
Qed.
Lemma firstn1_len : forall t : str, length (firstn 1 t) <= 1.
Proof. intros [|c t]; cbn; lia. Qed.
Lemma last_neq : forall (w v : str) a c, w <> [] -> last w 0%N = c -> c <> a -> w = v ++ [a] -> False.
Proof. intros w v a c Hn Hl Hc E. rewrite E in Hl. rewrite last_last in Hl. congruence. Qed.

Definition SO (v : str) : str := s "<text:span text:style-name=""" ++ v ++ s """>".
Definition SC : str := s "</text:span>".
Definition AO (author : str) : str := s "<office:annotation><dc:creator>" ++ author ++ s "</dc:creator><text:p>".
Definition AC : str := s "</text:p></office:annotation>".
Definition R1 : list (str * str) := [(s "[i]", SO (s "Emphasis")); (s "[/i]", SC); (s "[b]", SO (s "Strong_20_Emphasis")); (s "[/b]", SC)].
Lemma split_replacements : forall author, format_replacements author = ODT_BREAKS ++ R1 ++ [(s "/*", AO author); (s "*/", AC)].
Proof. reflexivity. Qed.

Definition slashy (p : piece) : bool := match p with PC c => N.eqb c 47 | PCx => true | _ => false end.
Definition starry (p : piece) : bool := match p with PC c => N.eqb c 42 | PCx => true | _ => false end.
Definition okpair (a b : piece) : bool :=
  negb (slashy a && starry b) && negb (match a, b with PC x, PC y => N.eqb x 42 && N.eqb y 47 | _, _ => false end).
Fixpoint chain (l : list piece) : Prop := match l with a :: ((b :: _) as r) => okpair a b = true /\ chain r | _ => True end.
Lemma chain_tl : forall p l, chain (p :: l) -> chain l.
Proof. intros p [|q l] H; [exact I | exact (proj2 H)]. Qed.

Section Names.
Variables (author : str) (languages : list str).
Hypothesis names : names_ok author languages.
Let tags := tags_of languages.

Lemma tags_plain : Forall plain_tag tags.
Proof.
  unfold tags, tags_of. constructor; [split; [repeat constructor | discriminate]|]. constructor; [split; [repeat constructor | discriminate]|].
  apply Forall_map. destruct names as [_ [H _]]. eapply Forall_impl; [|exact H]. intros l Hl. split; [|discriminate].
  apply Forall_app. split; [repeat constructor | exact Hl].
Qed.
Lemma boxable_plain : forall t, Forall (fun c => plain_char c = true) t -> boxable t /\ boxable (47%N :: t).
Proof. intros t H. assert (B : boxable t) by (split; apply (plain_no t _ H); inl). destruct B as [B1 B2]. split; [now split|]. split; intros [E | E]; try discriminate; tauto. Qed.

Lemma R1_rules : Forall box_rule R1.
Proof.
  assert (B : forall x v, existsb (N.eqb 91) x = false -> existsb (N.eqb 93) x = false -> v <> [] -> existsb (N.eqb 91) v = false -> box_rule (box x, v)).
  { intros x v H1 H2 H3 H4. assert (Q : forall (c : N) t, existsb (N.eqb c) t = false -> ~ In c t).
    { intros c t H Hi. assert (T : existsb (N.eqb c) t = true) by (apply existsb_exists; exists c; split; [exact Hi | apply N.eqb_refl]). congruence. }
    split; [exists x; split; [reflexivity | split; now apply Q]|]. split; [exact H3 | now apply Q]. }
  repeat constructor; apply (B (s "i")) || apply (B (s "/i")) || apply (B (s "b")) || apply (B (s "/b")); try (vm_compute; reflexivity); discriminate.
Qed.
Lemma in_SO : forall x v, In x (SO v) -> In x v \/ In x (SO []).
Proof. intros x v H. unfold SO in *. rewrite !in_app_iff in *. cbn [In] in *. tauto. Qed.
Lemma digits_no : forall n x, ~ (48 <= x <= 57)%N -> ~ In x (str_of_N n).
Proof. intros n x H Hi. apply str_of_N_digits in Hi. contradiction. Qed.
Lemma lang_rules : forall ls i, Forall (Forall (fun c => plain_char c = true)) ls -> Forall box_rule (language_replacements i ls).
Proof.
  induction ls as [|l ls IH]; intros i H; [constructor|]. inversion H as [|? ? H1 H2]; subst. cbn [language_replacements].
  assert (Hp : Forall (fun c => plain_char c = true) (s "lang=" ++ l)) by (apply Forall_app; split; [repeat constructor | exact H1]).
  destruct (boxable_plain _ Hp) as [B1 B2].
  constructor; [|constructor; [|now apply IH]].
  - split; [exists (s "lang=" ++ l); split; [cbn [fst]; unfold box; rewrite <- app_assoc; reflexivity | exact B1]|]. cbn [snd]. split; [discriminate|].
    change (s "<text:span text:style-name=""T" ++ str_of_N i ++ s """>") with (SO (84%N :: str_of_N i)). intro Hi. apply in_SO in Hi as [[Hi | Hi] | Hi].
    + discriminate.
    + revert Hi. apply digits_no. lia.
    + revert Hi. vm_compute. intuition discriminate.
  - split; [exists (47%N :: s "lang=" ++ l); split; [cbn [fst]; unfold box; cbn [app]; rewrite <- app_assoc; reflexivity | exact B2]|]. cbn [snd].
    split; [discriminate | vm_compute; intuition discriminate].
Qed.

Definition R3 : list (str * str) := language_replacements 1 languages.
Lemma R3_rules : Forall box_rule R3.
Proof. apply lang_rules. apply names. Qed.

(** the words before the tags are replaced *)
Lemma esc_no : forall c x, c <> x -> ~ In x (s "&amp;gtlos quot") -> ~ In x (esc5 c).
Proof. intros c x H1 H2 H. apply esc5_in in H as [H | H]; [congruence | contradiction]. Qed.
Lemma esc_flat_no : forall w x, ~ In x w -> ~ In x (s "&amp;gtlos quot") -> ~ In x (flat_map esc5 w).
Proof. intros w x H1 H2 H. apply in_flat_map in H as [c [Hc H]]. revert H. apply esc_no; [intro E; subst; contradiction | exact H2]. Qed.
Ltac nope := vm_compute; intuition discriminate.
Lemma word1_tag : forall t, In t tags -> word1 (PO t) = box t /\ word1 (PX t) = box (47%N :: t).
Proof.
  intros t H. pose proof (tag_plain tags tags_plain t H) as [Hp _]. unfold word1, word. rewrite !esc_box. cbn [flat_map]. rewrite esc_plain by exact Hp. split; reflexivity.
Qed.
Lemma esc5_nonempty : forall c, esc5 c <> [].
Proof. intro c. unfold esc5. repeat match goal with |- context [N.eqb c ?k] => destruct (N.eqb c k); [discriminate|] end. discriminate. Qed.
Lemma word1_ok : forall p, xpiece tags p -> word_ok (word1 p).
Proof.
  intros p H. destruct p as [c | | t | t | w | |]; cbn [xpiece] in H.
  - cbn [word1 word flat_map]. rewrite app_nil_r. split; [apply esc5_nonempty|]. right. apply esc_no; [now apply char_not in H | nope].
  - split; [discriminate|]. right. nope.
  - rewrite (proj1 (word1_tag t H)). pose proof (tag_plain tags tags_plain t H) as [Hp _]. split; [discriminate|]. left. exists t. split; [reflexivity | now apply boxable_plain].
  - rewrite (proj2 (word1_tag t H)). pose proof (tag_plain tags tags_plain t H) as [Hp _]. split; [discriminate|]. left. exists (47%N :: t). split; [reflexivity | now apply boxable_plain].
  - unfold word1, word. rewrite esc_box. split; [discriminate|]. left. exists (flat_map esc5 w). split; [reflexivity|]. destruct H as [H _].
    split; apply esc_flat_no; try nope; apply (box_no w _ H); inl.
  - split; [discriminate|]. right. nope.
  - split; [discriminate|]. right. nope.
Qed.
Lemma P2_ok : word_ok P2.
Proof. split; [discriminate | right; nope]. Qed.
Lemma wordsB_ok : forall l, Forall (xpiece tags) l -> Forall word_ok (wordsB l).
Proof.
  intro l. induction l as [|r IH|r Hr IH|p r Hp IH] using pbreak_ind; intro H; [constructor| | |].
  - rewrite wordsB_2. constructor; [apply P2_ok | apply IH; now do 2 apply Forall_inv_tail in H].
  - rewrite wordsB_1 by exact Hr. constructor; [exact (word1_ok PB I) | apply IH; now apply Forall_inv_tail in H].
  - rewrite wordsB_c by exact Hp. apply Forall_cons_iff in H as [H1 H2]. constructor; [now apply word1_ok | now apply IH].
Qed.

(** the words after the first tags are replaced *)
Definition W1 (l : list piece) : list str := map (subs R1) (wordsB l).
Definition smooth (w : str) : Prop := ~ In 42%N w /\ (forall v, w = v ++ [47%N] -> False).
Lemma box_smooth : forall x, ~ In 42%N x -> smooth (box x).
Proof.
  intros x H. split.
  - intros [E | E]; [discriminate|]. apply in_app_iff in E. destruct E as [E | [E | []]]; [tauto | discriminate].
  - intros v E. assert (L : last (box x) 0%N = 93%N) by (unfold box; change (91%N :: x ++ [93%N]) with ((91%N :: x) ++ [93%N]); apply last_last).
    apply (last_neq (box x) v 47%N 93%N); [discriminate | exact L | discriminate | exact E].
Qed.
Lemma const_smooth : forall w c, existsb (N.eqb 42) w = false -> last w 0%N = c -> c <> 47%N -> w <> [] -> smooth w.
Proof.
  intros w c H1 H2 H3 H4. split.
  - intro Hi. assert (T : existsb (N.eqb 42) w = true) by (apply existsb_exists; exists 42%N; split; [exact Hi | apply N.eqb_refl]). congruence.
  - intros v E. exact (last_neq w v 47%N c H4 H2 H3 E).
Qed.
Lemma R1_smooth : forall r, In r R1 -> smooth (snd r) /\ match snd r with c :: _ => c = 60%N | [] => False end.
Proof.
  intros r H. cbn [R1 In] in H. repeat (destruct H as [<- | H]; [split; [apply (const_smooth _ 62%N); [vm_compute; reflexivity | vm_compute; reflexivity | discriminate | discriminate] | vm_compute; reflexivity]|]).
  contradiction.
Qed.
Lemma subs_cases : forall rs w, Forall box_rule rs -> subs rs w = w \/ exists r, In r rs /\ subs rs w = snd r.
Proof.
  induction rs as [|r rs IH]; intros w H; [now left|]. inversion H as [|? ? H1 H2]; subst. change (subs (r :: rs) w) with (subs rs (sub w r)). unfold sub.
  destruct (str_eqb w (fst r)) eqn:E.
  - right. exists r. split; [now left|]. apply sub_inert; [exact H2|]. destruct H1 as [_ [_ H1]]. unfold inert. destruct (snd r) as [|c v]; [exact I|].
    intro Ec. apply H1. now left.
  - destruct (IH w H2) as [F | [q [F1 F2]]]; [now left | right; exists q; split; [now right | exact F2]].
Qed.
Lemma R1_word : forall w, subs R1 w = w \/ exists r, In r R1 /\ subs R1 w = snd r.
Proof. intro w. apply subs_cases. apply R1_rules. Qed.
Definition w1 (p : piece) : str := subs R1 (word1 p).
Lemma w1_plain : forall p, match p with PC _ | PB | PCo | PCx => True | _ => False end -> xpiece tags p -> w1 p = word1 p.
Proof.
  intros p Hp H. unfold w1. apply sub_inert; [apply R1_rules|]. destruct p as [c | | t | t | w | |]; try contradiction; try (vm_compute; discriminate).
  cbn [word1 word flat_map]. rewrite app_nil_r. cbn [xpiece] in H. apply char_not in H. unfold inert, esc5.
  repeat match goal with |- context [N.eqb c ?k] => destruct (N.eqb c k); [vm_compute; discriminate|] end. tauto.
Qed.
Lemma w1_smooth : forall p, xpiece tags p -> match p with PB | PO _ | PX _ | PH _ => True | _ => False end -> smooth (w1 p).
Proof.
  intros p H Hp. unfold w1. destruct (R1_word (word1 p)) as [E | [r [Hr E]]]; rewrite E; [|now apply R1_smooth].
  destruct p as [c | | t | t | w | |]; try contradiction; cbn [xpiece] in H.
  - apply (const_smooth _ 62%N); [vm_compute; reflexivity | vm_compute; reflexivity | discriminate | discriminate].
  - rewrite (proj1 (word1_tag t H)). apply box_smooth. pose proof (tag_plain tags tags_plain t H) as [Hq _]. apply (plain_no t _ Hq). inl.
  - rewrite (proj2 (word1_tag t H)). apply box_smooth. pose proof (tag_plain tags tags_plain t H) as [Hq _]. intros [E1 | E1]; [discriminate|]. revert E1. apply (plain_no t _ Hq). inl.
  - unfold word1, word. rewrite esc_box. apply box_smooth. apply esc_flat_no; [|nope]. apply (box_no w _ (proj1 H)). inl.
Qed.
Definition head_is (x : N) (w : str) : bool := match w with c :: _ => N.eqb c x | [] => false end.
Lemma w1_head : forall p, xpiece tags p -> w1 p <> [] /\ (head_is 42 (w1 p) = true -> starry p = true) /\
  (head_is 47 (w1 p) = true -> match p with PC c => c = 47%N | PCo => True | _ => False end).
Proof.
  intros p H.
  assert (Q : forall w c r, w = c :: r -> c <> 42%N -> c <> 47%N -> w <> [] /\ (head_is 42 w = true -> starry p = true) /\ (head_is 47 w = true -> match p with PC c => c = 47%N | PCo => True | _ => False end)).
  { intros w c r -> H1 H2. split; [discriminate|]. unfold head_is. apply N.eqb_neq in H1, H2. rewrite H1, H2. split; discriminate. }
  destruct p as [c | | t | t | w | |].
  - rewrite w1_plain by auto. cbn [word1 word flat_map]. rewrite app_nil_r. split; [apply esc5_nonempty|]. unfold esc5.
    repeat match goal with |- context [N.eqb c ?k] => destruct (N.eqb c k); [split; intro X; vm_compute in X; discriminate X|] end. cbn [head_is starry]. split; [tauto | apply N.eqb_eq].
  - rewrite w1_plain by auto. (eapply Q; [reflexivity | discriminate | discriminate]).
  - unfold w1. destruct (R1_word (word1 (PO t))) as [E | [r [Hr E]]]; rewrite E; [rewrite (proj1 (word1_tag t H)); (eapply Q; [reflexivity | discriminate | discriminate])|].
    destruct (R1_smooth r Hr) as [_ Hs]. destruct (snd r) as [|x y]; [contradiction|]. subst x. (eapply Q; [reflexivity | discriminate | discriminate]).
  - unfold w1. destruct (R1_word (word1 (PX t))) as [E | [r [Hr E]]]; rewrite E; [rewrite (proj2 (word1_tag t H)); (eapply Q; [reflexivity | discriminate | discriminate])|].
    destruct (R1_smooth r Hr) as [_ Hs]. destruct (snd r) as [|x y]; [contradiction|]. subst x. (eapply Q; [reflexivity | discriminate | discriminate]).
  - unfold w1. destruct (R1_word (word1 (PH w))) as [E | [r [Hr E]]]; rewrite E; [unfold word1, word; rewrite esc_box; (eapply Q; [reflexivity | discriminate | discriminate])|].
    destruct (R1_smooth r Hr) as [_ Hs]. destruct (snd r) as [|x y]; [contradiction|]. subst x. (eapply Q; [reflexivity | discriminate | discriminate]).
  - rewrite w1_plain by auto. split; [discriminate|]. split; [discriminate | auto].
  - rewrite w1_plain by auto. split; [discriminate|]. split; [auto | discriminate].
Qed.
Lemma W1_cases : forall l, Forall (xpiece tags) l -> W1 l = [] /\ l = [] \/ exists p l' w r, l = p :: l' /\ W1 l = w :: r /\ (w = w1 p \/ w = P2).
Proof.
  intros l H. destruct l as [|p l]; [now left|]. right. assert (C : p = PB \/ p <> PB) by (destruct p; (now left) || (right; discriminate)). destruct C as [-> | C].
  - destruct (starts_pb l) eqn:E.
    + destruct l as [|q l]; [discriminate|]. destruct q; try discriminate. exists PB, (PB :: l), P2, (W1 l). split; [reflexivity|]. split; [reflexivity | now right].
    + exists PB, l, (w1 PB), (W1 l). split; [reflexivity|]. split; [|now left]. unfold W1. now rewrite wordsB_1.
  - exists p, l, (w1 p), (W1 l). split; [reflexivity|]. split; [|now left]. unfold W1. now rewrite wordsB_c.
Qed.
Lemma W1_star : forall l, Forall (xpiece tags) l -> firstn 1 (concat (W1 l)) = [42%N] -> match l with q :: _ => starry q = true | [] => False end.
Proof.
  intros l H E. destruct (W1_cases l H) as [[E1 E2] | [p [l' [w [r [-> [E2 E3]]]]]]]; [rewrite E1 in E; discriminate|].
  apply Forall_inv in H. rewrite E2 in E. cbn [concat] in E. destruct E3 as [-> | ->]; [|discriminate]. destruct (w1_head p H) as [Hn [Hh _]].
  destruct (w1 p) as [|c u]; [congruence|]. cbn [app firstn] in E. injection E as ->. apply Hh. reflexivity.
Qed.
Lemma esc5_42 : forall c, c <> 42%N -> ~ In 42%N (esc5 c).
Proof. intros c H. apply esc_no; [exact H | nope]. Qed.
Lemma esc5_slash : forall c v, esc5 c = v ++ [47%N] -> c = 47%N.
Proof.
  intros c v E. assert (L : last (esc5 c) 0%N = 47%N) by (rewrite E; apply last_last). unfold esc5 in L.
  repeat match type of L with context [N.eqb c ?k] => destruct (N.eqb c k); [vm_compute in L; discriminate|] end. exact L.
Qed.
Lemma W1_apart : forall l, Forall (xpiece tags) l -> chain l -> apart [47; 42]%N (W1 l).
Proof.
  assert (Sm : forall w x, smooth w -> length x <= 1 -> containsb [47; 42]%N (w ++ x) = false).
  { intros w x [H1 H2] Hx. apply no_mark_b; [exact Hx | exact H1|]. intros v E. exfalso. exact (H2 v E). }
  assert (S2 : smooth P2) by (apply (const_smooth _ 62%N); [vm_compute; reflexivity | vm_compute; reflexivity | discriminate | discriminate]).
  intro l. unfold W1. induction l as [|r IH|r Hr IH|p r Hp IH] using pbreak_ind; intros H C; [exact I| | |].
  - rewrite wordsB_2. cbn [map apart]. split; [right; change (subs R1 P2) with P2; apply Sm; [exact S2 | apply firstn1_len]|].
    apply IH; [now do 2 apply Forall_inv_tail in H | now do 2 apply chain_tl in C].
  - rewrite wordsB_1 by exact Hr. cbn [map apart]. split; [right; change (subs R1 P1) with (w1 PB); apply Sm; [now apply w1_smooth | apply firstn1_len]|].
    apply IH; [now apply Forall_inv_tail in H | now apply chain_tl in C].
  - rewrite wordsB_c by exact Hp. cbn [map apart]. fold (W1 r). fold (w1 p). apply Forall_cons_iff in H as [H1 H2].
    split; [|apply IH; [exact H2 | now apply chain_tl in C]].
    destruct p as [c | | t | t | w | |]; try (right; apply Sm; [now apply w1_smooth | apply firstn1_len]); try congruence.
    + right. rewrite w1_plain by auto. cbn [word1 word flat_map]. rewrite app_nil_r. destruct (N.eq_dec c 42) as [-> | Dc].
      * change (esc5 42) with [42%N]. apply no_mark_a; [apply firstn1_len|]. intros [E | []]. discriminate.
      * apply no_mark_b; [apply firstn1_len | now apply esc5_42|]. intros v Ev Ex. apply esc5_slash in Ev. subst c.
        apply W1_star in Ex; [|exact H2]. destruct r as [|q r]; [contradiction|]. destruct C as [C _]. unfold okpair in C. cbn [slashy] in C. rewrite Ex in C. discriminate.
    + left. rewrite w1_plain by auto. reflexivity.
    + right. rewrite w1_plain by auto. change (word1 PCx) with [42; 47]%N.
      destruct (firstn 1 (concat (W1 r))) as [|x [|y z]] eqn:Ef; [reflexivity | | pose proof (firstn1_len (concat (W1 r))) as K; rewrite Ef in K; cbn in K; lia].
      cbn [app]. destruct (N.eq_dec x 42) as [-> | Dx]; [|now apply mark3].
      exfalso. apply W1_star in Ef; [|exact H2]. destruct r as [|q r]; [contradiction|]. destruct C as [C _]. unfold okpair in C. cbn [slashy] in C. rewrite Ef in C. discriminate.
Qed.
End Names.
