(** The replacements of the tagged manuscript (odt_w_proof.py 53-110): the result, as in FormatXml2 and FormatXml3. *)
From Coq Require Import String List NArith ZArith Bool Lia Arith.
From Verif Require Import PyStr YwText WordCount WordCountProofs OdfXml OdfXmlProofs OdtText OdtTextProofs OdtTextProofs2 SpecOdf SpecFormat FormatWords FormatLines FormatXml FormatXml2 FormatXml3 FormatXml4 Proofing.
Import ListNotations.

Definition R1 : list (str * str) := [(s "[/i]", SC); (s "[/b]", SC)].
Lemma split_replacements : forall author, proof_replacements author = ODT_BREAKS ++ R1 ++ [(s "/*", AO author); (s "*/", AC)].
Proof. reflexivity. Qed.

Section Final.
Variables (author : str) (languages : list str).
Hypothesis names : names_ok author languages.
Let tags := tags_of languages.
Let tagsP : Forall plain_tag tags := tags_plain author languages names.
Ltac nope := vm_compute; intuition discriminate.
Let word1_tag := FormatXml2.word1_tag author languages names.
Let wordsB_ok := FormatXml2.wordsB_ok author languages names.
Let tags_plain := FormatXml2.tags_plain author languages names.
Let AO_no := FormatXml3.AO_no author languages names.

Lemma R1_rules : Forall box_rule R1.
Proof.
  assert (B : forall x v, existsb (N.eqb 91) x = false -> existsb (N.eqb 93) x = false -> v <> [] -> existsb (N.eqb 91) v = false -> box_rule (box x, v)).
  { intros x v H1 H2 H3 H4. assert (Q : forall (c : N) t, existsb (N.eqb c) t = false -> ~ In c t).
    { intros c t H Hi. assert (T : existsb (N.eqb c) t = true) by (apply existsb_exists; exists c; split; [exact Hi | apply N.eqb_refl]). congruence. }
    split; [exists x; split; [reflexivity | split; now apply Q]|]. split; [exact H3 | now apply Q]. }
  repeat constructor; apply (B (s "i")) || apply (B (s "/i")) || apply (B (s "b")) || apply (B (s "/b")); try (vm_compute; reflexivity); discriminate.
Qed.
Definition W1 (l : list piece) : list str := map (subs R1) (wordsB l).
Lemma R1_smooth : forall r, In r R1 -> smooth (snd r) /\ match snd r with c :: _ => c = 60%N | [] => False end.
Proof.
  intros r H. cbn [R1 In] in H. repeat (destruct H as [<- | H]; [split; [apply (const_smooth _ 62%N); [vm_compute; reflexivity | vm_compute; reflexivity | discriminate | discriminate] | vm_compute; reflexivity]|]).
  contradiction.
Qed.
Lemma R1_word : forall w, subs R1 w = w \/ exists r, In r R1 /\ subs R1 w = snd r.
Proof. intro w. apply subs_cases. apply R1_rules. Qed.
Definition w1 (p : piece) : str := subs R1 (word1 p).
Lemma w1_plain : forall p, match p with PC _ | PB | PCo | PCx => True | _ => False end -> xpiece tags p -> w1 p = word1 p.
Proof.
  intros p Hp H. unfold w1. apply sub_inert; [apply R1_rules|]. destruct p as [c | | t | t | w | |]; try contradiction; try (vm_compute; discriminate).
  cbn [word1 word flat_map]. rewrite app_nil_r. cbn [xpiece] in H. apply char_not in H. unfold inert, esc5.
  repeat match goal with |- context [N.eqb c ?k] => destruct (N.eqb c k); [vm_compute; discriminate|] end. tauto.
Qed.
Lemma w1_smooth : forall p, xpiece tags p -> match p with PB | PO _ | PX _ | PH _ => True | _ => False end -> smooth (w1 p).
Proof.
  intros p H Hp. unfold w1. destruct (R1_word (word1 p)) as [E | [r [Hr E]]]; rewrite E; [|now apply R1_smooth].
  destruct p as [c | | t | t | w | |]; try contradiction; cbn [xpiece] in H.
  - apply (const_smooth _ 62%N); [vm_compute; reflexivity | vm_compute; reflexivity | discriminate | discriminate].
  - rewrite (proj1 (word1_tag t H)). apply box_smooth. pose proof (tag_plain tags tags_plain t H) as [Hq _]. apply (plain_no t _ Hq). inl.
  - rewrite (proj2 (word1_tag t H)). apply box_smooth. pose proof (tag_plain tags tags_plain t H) as [Hq _]. intros [E1 | E1]; [discriminate|]. revert E1. apply (plain_no t _ Hq). inl.
  - unfold word1, word. rewrite esc_box. apply box_smooth. apply esc_flat_no; [|nope]. apply (box_no w _ (proj1 H)). inl.
Qed.
Lemma w1_head : forall p, xpiece tags p -> w1 p <> [] /\ (head_is 42 (w1 p) = true -> starry p = true) /\
  (head_is 47 (w1 p) = true -> match p with PC c => c = 47%N | PCo => True | _ => False end).
Proof.
  intros p H.
  assert (Q : forall w c r, w = c :: r -> c <> 42%N -> c <> 47%N -> w <> [] /\ (head_is 42 w = true -> starry p = true) /\ (head_is 47 w = true -> match p with PC c => c = 47%N | PCo => True | _ => False end)).
  { intros w c r -> H1 H2. split; [discriminate|]. unfold head_is. apply N.eqb_neq in H1, H2. rewrite H1, H2. split; discriminate. }
  destruct p as [c | | t | t | w | |].
  - rewrite w1_plain by auto. cbn [word1 word flat_map]. rewrite app_nil_r. split; [apply esc5_nonempty|]. unfold esc5.
    repeat match goal with |- context [N.eqb c ?k] => destruct (N.eqb c k); [split; intro X; vm_compute in X; discriminate X|] end. cbn [head_is starry]. split; [tauto | apply N.eqb_eq].
  - rewrite w1_plain by auto. (eapply Q; [reflexivity | discriminate | discriminate]).
  - unfold w1. destruct (R1_word (word1 (PO t))) as [E | [r [Hr E]]]; rewrite E; [rewrite (proj1 (word1_tag t H)); (eapply Q; [reflexivity | discriminate | discriminate])|].
    destruct (R1_smooth r Hr) as [_ Hs]. destruct (snd r) as [|x y]; [contradiction|]. subst x. (eapply Q; [reflexivity | discriminate | discriminate]).
  - unfold w1. destruct (R1_word (word1 (PX t))) as [E | [r [Hr E]]]; rewrite E; [rewrite (proj2 (word1_tag t H)); (eapply Q; [reflexivity | discriminate | discriminate])|].
    destruct (R1_smooth r Hr) as [_ Hs]. destruct (snd r) as [|x y]; [contradiction|]. subst x. (eapply Q; [reflexivity | discriminate | discriminate]).
  - unfold w1. destruct (R1_word (word1 (PH w))) as [E | [r [Hr E]]]; rewrite E; [unfold word1, word; rewrite esc_box; (eapply Q; [reflexivity | discriminate | discriminate])|].
    destruct (R1_smooth r Hr) as [_ Hs]. destruct (snd r) as [|x y]; [contradiction|]. subst x. (eapply Q; [reflexivity | discriminate | discriminate]).
  - rewrite w1_plain by auto. split; [discriminate|]. split; [discriminate | auto].
  - rewrite w1_plain by auto. split; [discriminate|]. split; [auto | discriminate].
Qed.
Lemma W1_cases : forall l, Forall (xpiece tags) l -> W1 l = [] /\ l = [] \/ exists p l' w r, l = p :: l' /\ W1 l = w :: r /\ (w = w1 p \/ w = P2).
Proof.
  intros l H. destruct l as [|p l]; [now left|]. right. assert (C : p = PB \/ p <> PB) by (destruct p; (now left) || (right; discriminate)). destruct C as [-> | C].
  - destruct (starts_pb l) eqn:E.
    + destruct l as [|q l]; [discriminate|]. destruct q; try discriminate. exists PB, (PB :: l), P2, (W1 l). split; [reflexivity|]. split; [reflexivity | now right].
    + exists PB, l, (w1 PB), (W1 l). split; [reflexivity|]. split; [|now left]. unfold W1. now rewrite wordsB_1.
  - exists p, l, (w1 p), (W1 l). split; [reflexivity|]. split; [|now left]. unfold W1. now rewrite wordsB_c.
Qed.
Lemma W1_star : forall l, Forall (xpiece tags) l -> firstn 1 (concat (W1 l)) = [42%N] -> match l with q :: _ => starry q = true | [] => False end.
Proof.
  intros l H E. destruct (W1_cases l H) as [[E1 E2] | [p [l' [w [r [-> [E2 E3]]]]]]]; [rewrite E1 in E; discriminate|].
  apply Forall_inv in H. rewrite E2 in E. cbn [concat] in E. destruct E3 as [-> | ->]; [|discriminate]. destruct (w1_head p H) as [Hn [Hh _]].
  destruct (w1 p) as [|c u]; [congruence|]. cbn [app firstn] in E. injection E as ->. apply Hh. reflexivity.
Qed.
Lemma W1_apart : forall l, Forall (xpiece tags) l -> chain l -> apart [47; 42]%N (W1 l).
Proof.
  assert (Sm : forall w x, smooth w -> length x <= 1 -> containsb [47; 42]%N (w ++ x) = false).
  { intros w x [H1 H2] Hx. apply no_mark_b; [exact Hx | exact H1|]. intros v E. exfalso. exact (H2 v E). }
  assert (S2 : smooth P2) by (apply (const_smooth _ 62%N); [vm_compute; reflexivity | vm_compute; reflexivity | discriminate | discriminate]).
  intro l. unfold W1. induction l as [|r IH|r Hr IH|p r Hp IH] using pbreak_ind; intros H C; [exact I| | |].
  - rewrite wordsB_2. cbn [map apart]. split; [right; change (subs R1 P2) with P2; apply Sm; [exact S2 | apply firstn1_len]|].
    apply IH; [now do 2 apply Forall_inv_tail in H | now do 2 apply chain_tl in C].
  - rewrite wordsB_1 by exact Hr. cbn [map apart]. split; [right; change (subs R1 P1) with (w1 PB); apply Sm; [now apply w1_smooth | apply firstn1_len]|].
    apply IH; [now apply Forall_inv_tail in H | now apply chain_tl in C].
  - rewrite wordsB_c by exact Hp. cbn [map apart]. fold (W1 r). fold (w1 p). apply Forall_cons_iff in H as [H1 H2].
    split; [|apply IH; [exact H2 | now apply chain_tl in C]].
    destruct p as [c | | t | t | w | |]; try (right; apply Sm; [now apply w1_smooth | apply firstn1_len]); try congruence.
    + right. rewrite w1_plain by auto. cbn [word1 word flat_map]. rewrite app_nil_r. destruct (N.eq_dec c 42) as [-> | Dc].
      * change (esc5 42) with [42%N]. apply no_mark_a; [apply firstn1_len|]. intros [E | []]. discriminate.
      * apply no_mark_b; [apply firstn1_len | now apply esc5_42|]. intros v Ev Ex. apply esc5_slash in Ev. subst c.
        apply W1_star in Ex; [|exact H2]. destruct r as [|q r]; [contradiction|]. destruct C as [C _]. unfold okpair in C. cbn [slashy] in C. rewrite Ex in C. discriminate.
    + left. rewrite w1_plain by auto. reflexivity.
    + right. rewrite w1_plain by auto. change (word1 PCx) with [42; 47]%N.
      destruct (firstn 1 (concat (W1 r))) as [|x [|y z]] eqn:Ef; [reflexivity | | pose proof (firstn1_len (concat (W1 r))) as K; rewrite Ef in K; cbn in K; lia].
      cbn [app]. destruct (N.eq_dec x 42) as [-> | Dx]; [|now apply mark3].
      exfalso. apply W1_star in Ef; [|exact H2]. destruct r as [|q r]; [contradiction|]. destruct C as [C _]. unfold okpair in C. cbn [slashy] in C. rewrite Ef in C. discriminate.
Qed.

(** the names of the styles *)
Definition style (t : str) : str := if str_eqb t (s "i") then ITALIC languages else if str_eqb t (s "b") then BOLD languages else match language_style 1 languages t with Some v => v | None => [] end.
Definition R4 : list (str * str) := R3 languages ++ proof_emphasis languages.

(** the words of the result *)
Definition xw (p : piece) : str :=
  match p with
  | PC c => esc5 c
  | PB => P1
  | PO t => SO (style t)
  | PX _ => SC
  | PH w => box (flat_map esc5 w)
  | PCo => AO author
  | PCx => AC
  end.
Fixpoint wordsX (l : list piece) : list str :=
  match l with
  | [] => []
  | PB :: PB :: r => P2 :: wordsX r
  | p :: r => xw p :: wordsX r
  end.
Lemma wordsX_2 : forall r, wordsX (PB :: PB :: r) = P2 :: wordsX r.
Proof. reflexivity. Qed.
Lemma wordsX_1 : forall r, starts_pb r = false -> wordsX (PB :: r) = P1 :: wordsX r.
Proof. intros [|p r] H; [reflexivity|]. destruct p; (discriminate || reflexivity). Qed.
Lemma wordsX_c : forall p r, p <> PB -> wordsX (p :: r) = xw p :: wordsX r.
Proof. intros p r H. destruct p; try reflexivity. congruence. Qed.

Definition m1 (w : str) : str := if str_eqb w [47; 42]%N then AO author else w.
Definition m2 (w : str) : str := if str_eqb w [42; 47]%N then AC else w.
Lemma m1_piece : forall p, xpiece tags p -> m1 (w1 p) = match p with PCo => AO author | _ => w1 p end.
Proof.
  intros p H. assert (B : forall w, match w with c :: _ => c = 91%N \/ c = 60%N | [] => True end -> str_eqb w [47; 42]%N = false).
  { intros w Hw. apply str_eqb_neq. intros ->. destruct Hw; discriminate. }
  assert (R : forall w, match w with c :: _ => c = 91%N \/ c = 60%N | [] => True end -> match subs R1 w with c :: _ => c = 91%N \/ c = 60%N | [] => True end).
  { intros w Hw. destruct (R1_word w) as [E | [r [Hr E]]]; rewrite E; [exact Hw|]. destruct (R1_smooth r Hr) as [_ Hs]. destruct (snd r); [exact I | now right]. }
  destruct p as [c | | t | t | w | |]; unfold m1.
  - rewrite (w1_plain) by auto. cbn [word1 word flat_map]. rewrite app_nil_r.
    assert (E : str_eqb (esc5 c) [47; 42]%N = false); [|now rewrite E]. unfold esc5.
    repeat match goal with |- context [N.eqb c ?k] => destruct (N.eqb c k); [reflexivity|] end. apply str_eqb_neq. discriminate.
  - reflexivity.
  - unfold w1. rewrite B; [reflexivity|]. apply R. rewrite (proj1 (word1_tag t H)). now left.
  - unfold w1. rewrite B; [reflexivity|]. apply R. rewrite (proj2 (word1_tag t H)). now left.
  - unfold w1. rewrite B; [reflexivity|]. apply R. unfold word1, word. rewrite esc_box. now left.
  - reflexivity.
  - reflexivity.
Qed.
Definition W2 (l : list piece) : list str := map m1 (W1 l).
Definition w2 (p : piece) : str := match p with PCo => AO author | _ => w1 p end.
Lemma W2_cases : forall l, Forall (xpiece tags) l -> W2 l = [] /\ l = [] \/ exists p l' w r, l = p :: l' /\ W2 l = w :: r /\ (w = w2 p \/ w = P2).
Proof.
  intros l H. destruct (W1_cases l H) as [[E1 E2] | [p [l' [w [r [-> [E2 E3]]]]]]]; [left; split; [unfold W2; now rewrite E1 | exact E2]|].
  right. exists p, l', (m1 w), (map m1 r). split; [reflexivity|]. split; [unfold W2; now rewrite E2|]. destruct E3 as [-> | ->]; [left | right; reflexivity].
  apply m1_piece. now apply Forall_inv in H.
Qed.
Lemma W2_slash : forall l, Forall (xpiece tags) l -> firstn 1 (concat (W2 l)) = [47%N] -> match l with PC c :: _ => c = 47%N | _ => False end.
Proof.
  intros l H E. destruct (W2_cases l H) as [[E1 E2] | [p [l' [w [r [-> [E2 E3]]]]]]]; [rewrite E1 in E; discriminate|].
  apply Forall_inv in H. rewrite E2 in E. cbn [concat] in E. destruct E3 as [-> | ->]; [|discriminate].
  destruct p as [c | | t | t | x | |]; try discriminate; unfold w2 in E; pose proof (w1_head _ H) as [Hn [_ Hh]];
    destruct (w1 _) as [|d u]; try congruence; cbn [app firstn] in E; injection E as ->; exact (Hh eq_refl).
Qed.
Lemma W2_apart : forall l, Forall (xpiece tags) l -> chain l -> apart [42; 47]%N (W2 l).
Proof.
  intro l. unfold W2, W1. induction l as [|r IH|r Hr IH|p r Hp IH] using pbreak_ind; intros H C; [exact I| | |].
  - rewrite wordsB_2. cbn [map apart]. split; [right; change (m1 (subs R1 P2)) with P2; apply no_mark_a; [apply firstn1_len | nope]|].
    apply IH; [now do 2 apply Forall_inv_tail in H | now do 2 apply chain_tl in C].
  - rewrite wordsB_1 by exact Hr. cbn [map apart]. split; [right; change (m1 (subs R1 P1)) with P1; apply no_mark_a; [apply firstn1_len | nope]|].
    apply IH; [now apply Forall_inv_tail in H | now apply chain_tl in C].
  - rewrite wordsB_c by exact Hp. cbn [map apart]. fold (W1 r). fold (W2 r). fold (w1 p). apply Forall_cons_iff in H as [H1 H2].
    split; [|apply IH; [exact H2 | now apply chain_tl in C]]. rewrite m1_piece by exact H1.
    destruct p as [c | | t | t | w | |]; try (right; apply no_mark_a; [apply firstn1_len | now apply star_smooth, (w1_smooth)]); try congruence.
    + right. rewrite (w1_plain) by auto. cbn [word1 word flat_map]. rewrite app_nil_r. destruct (N.eq_dec c 42) as [-> | Dc].
      * change (esc5 42) with [42%N]. destruct (firstn 1 (concat (W2 r))) as [|x [|y z]] eqn:Ef; [reflexivity | | pose proof (firstn1_len (concat (W2 r))) as K; rewrite Ef in K; cbn in K; lia].
        cbn [app]. destruct (N.eq_dec x 47) as [-> | Dx].
        -- exfalso. apply W2_slash in Ef; [|exact H2]. destruct r as [|q r]; [contradiction|]. destruct q; try contradiction. subst. destruct C as [C _]. vm_compute in C. discriminate.
        -- apply (no_mark_b 42 47 [42%N] [x]); [cbn; lia | intros [E | []]; discriminate | intros _ _ E; congruence].
      * apply no_mark_a; [apply firstn1_len | now apply esc5_42].
    + right. apply no_mark_a; [apply firstn1_len|]. apply AO_no. inl.
    + left. rewrite (w1_plain) by auto. reflexivity.
Qed.
Lemma R1_inert : forall w, inert w -> subs R1 w = w.
Proof. intros w H. apply sub_inert; [apply R1_rules | exact H]. Qed.
Lemma digits_no2 : forall n, ~ In 91%N (str_of_N n).
Proof. intro n. apply digits_no. lia. Qed.
Lemma R4_rules : Forall box_rule R4.
Proof.
  apply Forall_app. split; [apply (R3_rules author languages names)|].
  assert (B : forall x v, existsb (N.eqb 91) x = false -> existsb (N.eqb 93) x = false -> ~ In 91%N v -> box_rule (box x, SO v)).
  { intros x v H1 H2 H4. assert (Q : forall (c : N) t, existsb (N.eqb c) t = false -> ~ In c t).
    { intros c t H Hi. assert (T : existsb (N.eqb c) t = true) by (apply existsb_exists; exists c; split; [exact Hi | apply N.eqb_refl]). congruence. }
    split; [exists x; split; [reflexivity | split; now apply Q]|]. split; [discriminate|]. cbn [snd]. intro Hi. apply in_SO in Hi as [Hi | Hi]; [contradiction|]. revert Hi. nope. }
  assert (D : forall n, ~ In 91%N (84%N :: str_of_N n)) by (intros n [E | E]; [discriminate | revert E; apply digits_no2]).
  constructor; [apply (B (s "i") (ITALIC languages)); [reflexivity | reflexivity | apply D]|].
  constructor; [apply (B (s "b") (BOLD languages)); [reflexivity | reflexivity | apply D] | constructor].
Qed.
Lemma R4_inert : forall w, inert w -> subs R4 w = w.
Proof. intros w H. apply sub_inert; [apply R4_rules | exact H]. Qed.
Lemma subs_app : forall a b w, subs (a ++ b) w = subs b (subs a w).
Proof. intros. unfold subs. now rewrite fold_left_app. Qed.

Definition final (w : str) : str := subs R4 (m2 (m1 (subs R1 w))).
Lemma R4_split : forall w, subs R4 w = subs (proof_emphasis languages) (subs (R3 languages) w).
Proof. intro w. unfold R4. apply subs_app. Qed.
Lemma em_rules : Forall box_rule (proof_emphasis languages).
Proof. pose proof R4_rules as H. unfold R4 in H. now apply Forall_app in H. Qed.
Lemma em_inert : forall w, inert w -> subs (proof_emphasis languages) w = w.
Proof. intros w H. apply sub_inert; [apply em_rules | exact H]. Qed.
Lemma R3_other : forall x, (forall l, x <> s "lang=" ++ l /\ x <> 47%N :: s "lang=" ++ l) -> subs (R3 languages) (box x) = box x.
Proof.
  intros x H. apply sub_stranger. intros r Hr E. unfold R3 in Hr. apply lang_fst in Hr as [l [Hl Hr]].
  assert (I : forall x y, box x = box y -> x = y) by (intros u y F; unfold box in F; injection F as F; now apply app_inj_tail in F).
  destruct (H l) as [H1 H2]. destruct Hr as [F | F]; rewrite F in E; apply I in E; congruence.
Qed.
Lemma final_tag : forall t, In t tags -> final (box t) = SO (style t) /\ final (box (47%N :: t)) = SC.
Proof.
  intros t H. unfold final. unfold tags, tags_of in H. destruct H as [<- | [<- | H]].
  - split; [|change (m2 (m1 (subs R1 (box (47%N :: s "i"))))) with SC; apply R4_inert; discriminate].
    change (m2 (m1 (subs R1 (box (s "i"))))) with (box (s "i")). rewrite R4_split, R3_other by (intro l; split; discriminate).
    unfold proof_emphasis. rewrite subs_cons. change (str_eqb (box (s "i")) (s "[i]")) with true. cbv iota.
    pose proof em_rules as E. apply Forall_inv_tail in E. apply (sub_inert _ _ E). discriminate.
  - split; [|change (m2 (m1 (subs R1 (box (47%N :: s "b"))))) with SC; apply R4_inert; discriminate].
    change (m2 (m1 (subs R1 (box (s "b"))))) with (box (s "b")). rewrite R4_split, R3_other by (intro l; split; discriminate). reflexivity.
  - apply in_map_iff in H as [l [<- Hl]].
    assert (S1 : subs R1 (box (s "lang=" ++ l)) = box (s "lang=" ++ l)).
    { apply sub_stranger. intros r Hr. cbn [R1 In] in Hr. repeat (destruct Hr as [<- | Hr]; [cbn [fst]; discriminate|]). contradiction. }
    assert (S2 : subs R1 (box (47%N :: s "lang=" ++ l)) = box (47%N :: s "lang=" ++ l)).
    { apply sub_stranger. intros r Hr. cbn [R1 In] in Hr. repeat (destruct Hr as [<- | Hr]; [cbn [fst]; discriminate|]). contradiction. }
    rewrite S1, S2. change (m2 (m1 (box (s "lang=" ++ l)))) with (box (s "lang=" ++ l)). change (m2 (m1 (box (47%N :: s "lang=" ++ l)))) with (box (47%N :: s "lang=" ++ l)).
    pose proof (plain_langs author languages names) as PL. rewrite !R4_split.
    split; [|unfold R3; rewrite (lang_close languages 1 l PL Hl); apply em_inert; discriminate].
    unfold R3. rewrite (lang_open languages 1 l PL). unfold style.
    assert (F1 : str_eqb (s "lang=" ++ l) (s "i") = false) by (apply str_eqb_neq; discriminate). assert (F2 : str_eqb (s "lang=" ++ l) (s "b") = false) by (apply str_eqb_neq; discriminate).
    rewrite F1, F2. destruct (language_found languages 1 l Hl) as [v Ev]. rewrite Ev. apply em_inert. discriminate.
Qed.
Lemma final_box : forall w, ~ In w tags -> ~ In w (map (cons 47%N) tags) -> final (box (flat_map esc5 w)) = box (flat_map esc5 w).
Proof.
  intros w H1 H2. pose proof (boxes_no_tag author languages names w H1 H2) as B. unfold final. assert (Ti : In (s "i") tags) by now left. assert (Tb : In (s "b") tags) by (right; now left).
  assert (S1 : subs R1 (box (flat_map esc5 w)) = box (flat_map esc5 w)).
  { apply sub_stranger. intros r Hr E. cbn [R1 In] in Hr.
    destruct Hr as [<- | [<- | []]]; symmetry in E; cbn [fst] in E; [exact (proj2 (B _ Ti) E) | exact (proj2 (B _ Tb) E)]. }
  rewrite S1. change (m2 (m1 (box (flat_map esc5 w)))) with (box (flat_map esc5 w)). apply sub_stranger. intros r Hr E. unfold R4 in Hr. apply in_app_iff in Hr as [Hr | Hr].
  - unfold R3 in Hr. apply lang_fst in Hr as [l [Hl Hr]]. assert (Tl : In (s "lang=" ++ l) tags) by (right; right; apply in_map_iff; now exists l). symmetry in E.
    destruct Hr as [F | F]; rewrite F in E; [exact (proj1 (B _ Tl) E) | exact (proj2 (B _ Tl) E)].
  - symmetry in E. destruct Hr as [<- | [<- | []]]; cbn [fst] in E; [exact (proj1 (B _ Ti) E) | exact (proj1 (B _ Tb) E)].
Qed.
Lemma final_word : forall p, xpiece tags p -> final (word1 p) = xw p.
Proof.
  intros p H. destruct p as [c | | t | t | w | |]; cbn [xpiece xw] in *.
  - pose proof (w1_plain (PC c) I H) as E. unfold final. fold (w1 (PC c)). rewrite m1_piece by exact H. cbv iota. rewrite E.
    cbn [word1 word flat_map]. rewrite app_nil_r. assert (E2 : m2 (esc5 c) = esc5 c).
    { unfold m2, esc5. repeat match goal with |- context [N.eqb c ?k] => destruct (N.eqb c k); [reflexivity|] end. now rewrite (proj2 (str_eqb_neq _ _)) by discriminate. }
    rewrite E2. apply R4_inert. apply char_not in H. unfold inert, esc5. repeat match goal with |- context [N.eqb c ?k] => destruct (N.eqb c k); [vm_compute; discriminate|] end. tauto.
  - unfold final. change (m2 (m1 (subs R1 (word1 PB)))) with P1. apply R4_inert. discriminate.
  - rewrite (proj1 (word1_tag t H)). now apply final_tag.
  - rewrite (proj2 (word1_tag t H)). now apply (final_tag t H).
  - unfold word1, word. rewrite esc_box. apply final_box; tauto.
  - unfold final. change (subs R1 (word1 PCo)) with [47; 42]%N. change (m2 (m1 [47; 42]%N)) with (AO author). apply R4_inert. discriminate.
  - unfold final. change (m2 (m1 (subs R1 (word1 PCx)))) with AC. apply R4_inert. discriminate.
Qed.
Lemma final_words : forall l, Forall (xpiece tags) l -> map final (wordsB l) = wordsX l.
Proof.
  intro l. induction l as [|r IH|r Hr IH|p r Hp IH] using pbreak_ind; intro H; [reflexivity| | |].
  - rewrite wordsB_2, wordsX_2. cbn [map]. rewrite IH by now do 2 apply Forall_inv_tail in H. f_equal. unfold final. change (m2 (m1 (subs R1 P2))) with P2. apply R4_inert. discriminate.
  - rewrite wordsB_1, wordsX_1 by exact Hr. cbn [map]. rewrite IH by now apply Forall_inv_tail in H. f_equal. exact (final_word PB I).
  - rewrite wordsB_c, wordsX_c by exact Hp. apply Forall_cons_iff in H as [H1 H2]. cbn [map]. rewrite IH by exact H2. f_equal. now apply final_word.
Qed.
Lemma replaced : forall l, Forall (xpiece tags) l -> chain l ->
  apply_replacements (ODT_ENTITIES ++ proof_replacements author ++ language_replacements 1 languages ++ proof_emphasis languages) (render l) = concat (wordsX l).
Proof.
  intros l H C. rewrite split_replacements, !apply_rs_app, odt_entities, odt_breaks, (br_pieces tags tagsP l H).
  destruct (apply_boxes R1 (wordsB l) R1_rules (wordsB_ok l H)) as [A1 A2]. rewrite A1. fold (W1 l).
  assert (B : apply_replacements [(s "/*", AO author); (s "*/", AC)] (concat (W1 l)) = concat (map m2 (W2 l))).
  { rewrite apply_cons. cbn [fst snd]. change (s "/*") with [47; 42]%N. rewrite (replace_mark 47 42 (AO author) (W1 l) (W1_apart l H C)).
    rewrite apply_cons. cbn [fst snd]. change (s "*/") with [42; 47]%N. exact (replace_mark 42 47 AC (W2 l) (W2_apart l H C)). }
  rewrite B. assert (K : Forall word_ok (map m2 (W2 l))).
  { unfold W2. apply Forall_map, Forall_map. eapply Forall_impl; [|exact A2]. intros w Hw. unfold m1. destruct (str_eqb w [47; 42]%N).
    - assert (X : m2 (AO author) = AO author) by reflexivity. rewrite X. split; [discriminate|]. right. apply AO_no. inl.
    - unfold m2. destruct (str_eqb w [42; 47]%N); [split; [discriminate | right; nope] | exact Hw]. }
  destruct (apply_boxes R4 _ R4_rules K) as [A3 _]. unfold R4 in A3 at 1. unfold R3 in A3 at 1. rewrite apply_rs_app in A3. rewrite A3.
  unfold W2, W1. rewrite !map_map. fold final. rewrite <- (final_words l H). reflexivity.
Qed.
End Final.
