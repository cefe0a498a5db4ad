(** The replacements (odt_w_formatted.py 98-106): comments, languages, hidden tags. *)
From Coq Require Import String List NArith ZArith Bool Lia Arith.
From Verif Require Import PyStr YwText WordCount WordCountProofs OdfXml OdfXmlProofs OdtText OdtTextProofs OdtTextProofs2 SpecOdf SpecFormat FormatWords FormatLines FormatXml FormatXml2.
Import ListNotations.

Section Final.
Variables (author : str) (languages : list str).
Hypothesis names : names_ok author languages.
Let tags := tags_of languages.
Let tagsP : Forall plain_tag tags := tags_plain author languages names.
Ltac nope := vm_compute; intuition discriminate.

(** the words of the result *)
Definition xw (p : piece) : str :=
  match p with
  | PC c => esc5 c
  | PB => P1
  | PO t => SO (style_of languages t)
  | PX _ => SC
  | PH w => box (flat_map esc5 w)
  | PCo => AO author
  | PCx => AC
  end.
Fixpoint wordsX (l : list piece) : list str :=
  match l with
  | [] => []
  | PB :: PB :: r => P2 :: wordsX r
  | p :: r => xw p :: wordsX r
  end.
Lemma wordsX_2 : forall r, wordsX (PB :: PB :: r) = P2 :: wordsX r.
Proof. reflexivity. Qed.
Lemma wordsX_1 : forall r, starts_pb r = false -> wordsX (PB :: r) = P1 :: wordsX r.
Proof. intros [|p r] H; [reflexivity|]. destruct p; (discriminate || reflexivity). Qed.
Lemma wordsX_c : forall p r, p <> PB -> wordsX (p :: r) = xw p :: wordsX r.
Proof. intros p r H. destruct p; try reflexivity. congruence. Qed.

Definition m1 (w : str) : str := if str_eqb w [47; 42]%N then AO author else w.
Definition m2 (w : str) : str := if str_eqb w [42; 47]%N then AC else w.
Lemma author_no : forall x, In x (s "[]&<>*'""" ++ [10; 13]%N) -> ~ In x author.
Proof. intros x H. apply plain_no; [apply names | exact H]. Qed.
Lemma AO_no : forall x, In x (s "[]*") -> ~ In x (AO author).
Proof.
  intros x H Hi. unfold AO in Hi. rewrite !in_app_iff in Hi. destruct Hi as [Hi | [Hi | Hi]].
  - cbn in H. destruct H as [<- | [<- | [<- | []]]]; revert Hi; nope.
  - revert Hi. apply author_no. cbn in H. destruct H as [<- | [<- | [<- | []]]]; inl.
  - cbn in H. destruct H as [<- | [<- | [<- | []]]]; revert Hi; nope.
Qed.
Lemma m1_piece : forall p, xpiece tags p -> m1 (w1 p) = match p with PCo => AO author | _ => w1 p end.
Proof.
  intros p H. assert (B : forall w, match w with c :: _ => c = 91%N \/ c = 60%N | [] => True end -> str_eqb w [47; 42]%N = false).
  { intros w Hw. apply str_eqb_neq. intros ->. destruct Hw; discriminate. }
  assert (R : forall w, match w with c :: _ => c = 91%N \/ c = 60%N | [] => True end -> match subs R1 w with c :: _ => c = 91%N \/ c = 60%N | [] => True end).
  { intros w Hw. destruct (R1_word w) as [E | [r [Hr E]]]; rewrite E; [exact Hw|]. destruct (R1_smooth r Hr) as [_ Hs]. destruct (snd r); [exact I | now right]. }
  destruct p as [c | | t | t | w | |]; unfold m1.
  - rewrite (w1_plain languages) by auto. cbn [word1 word flat_map]. rewrite app_nil_r.
    assert (E : str_eqb (esc5 c) [47; 42]%N = false); [|now rewrite E]. unfold esc5.
    repeat match goal with |- context [N.eqb c ?k] => destruct (N.eqb c k); [reflexivity|] end. apply str_eqb_neq. discriminate.
  - reflexivity.
  - unfold w1. rewrite B; [reflexivity|]. apply R. rewrite (proj1 (word1_tag author languages names t H)). now left.
  - unfold w1. rewrite B; [reflexivity|]. apply R. rewrite (proj2 (word1_tag author languages names t H)). now left.
  - unfold w1. rewrite B; [reflexivity|]. apply R. unfold word1, word. rewrite esc_box. now left.
  - reflexivity.
  - reflexivity.
Qed.
Definition W2 (l : list piece) : list str := map m1 (W1 l).
Definition w2 (p : piece) : str := match p with PCo => AO author | _ => w1 p end.
Lemma W2_cases : forall l, Forall (xpiece tags) l -> W2 l = [] /\ l = [] \/ exists p l' w r, l = p :: l' /\ W2 l = w :: r /\ (w = w2 p \/ w = P2).
Proof.
  intros l H. destruct (W1_cases languages l H) as [[E1 E2] | [p [l' [w [r [-> [E2 E3]]]]]]]; [left; split; [unfold W2; now rewrite E1 | exact E2]|].
  right. exists p, l', (m1 w), (map m1 r). split; [reflexivity|]. split; [unfold W2; now rewrite E2|]. destruct E3 as [-> | ->]; [left | right; reflexivity].
  apply m1_piece. now apply Forall_inv in H.
Qed.
Lemma W2_slash : forall l, Forall (xpiece tags) l -> firstn 1 (concat (W2 l)) = [47%N] -> match l with PC c :: _ => c = 47%N | _ => False end.
Proof.
  intros l H E. destruct (W2_cases l H) as [[E1 E2] | [p [l' [w [r [-> [E2 E3]]]]]]]; [rewrite E1 in E; discriminate|].
  apply Forall_inv in H. rewrite E2 in E. cbn [concat] in E. destruct E3 as [-> | ->]; [|discriminate].
  destruct p as [c | | t | t | x | |]; try discriminate; unfold w2 in E; pose proof (w1_head author languages names _ H) as [Hn [_ Hh]];
    destruct (w1 _) as [|d u]; try congruence; cbn [app firstn] in E; injection E as ->; exact (Hh eq_refl).
Qed.
Lemma star_smooth : forall w, smooth w -> ~ In 42%N w.
Proof. intros w [H _]. exact H. Qed.
Lemma W2_apart : forall l, Forall (xpiece tags) l -> chain l -> apart [42; 47]%N (W2 l).
Proof.
  intro l. unfold W2, W1. induction l as [|r IH|r Hr IH|p r Hp IH] using pbreak_ind; intros H C; [exact I| | |].
  - rewrite wordsB_2. cbn [map apart]. split; [right; change (m1 (subs R1 P2)) with P2; apply no_mark_a; [apply firstn1_len | nope]|].
    apply IH; [now do 2 apply Forall_inv_tail in H | now do 2 apply chain_tl in C].
  - rewrite wordsB_1 by exact Hr. cbn [map apart]. split; [right; change (m1 (subs R1 P1)) with P1; apply no_mark_a; [apply firstn1_len | nope]|].
    apply IH; [now apply Forall_inv_tail in H | now apply chain_tl in C].
  - rewrite wordsB_c by exact Hp. cbn [map apart]. fold (W1 r). fold (W2 r). fold (w1 p). apply Forall_cons_iff in H as [H1 H2].
    split; [|apply IH; [exact H2 | now apply chain_tl in C]]. rewrite m1_piece by exact H1.
    destruct p as [c | | t | t | w | |]; try (right; apply no_mark_a; [apply firstn1_len | now apply star_smooth, (w1_smooth author languages names)]); try congruence.
    + right. rewrite (w1_plain languages) by auto. cbn [word1 word flat_map]. rewrite app_nil_r. destruct (N.eq_dec c 42) as [-> | Dc].
      * change (esc5 42) with [42%N]. destruct (firstn 1 (concat (W2 r))) as [|x [|y z]] eqn:Ef; [reflexivity | | pose proof (firstn1_len (concat (W2 r))) as K; rewrite Ef in K; cbn in K; lia].
        cbn [app]. destruct (N.eq_dec x 47) as [-> | Dx].
        -- exfalso. apply W2_slash in Ef; [|exact H2]. destruct r as [|q r]; [contradiction|]. destruct q; try contradiction. subst. destruct C as [C _]. vm_compute in C. discriminate.
        -- apply (no_mark_b 42 47 [42%N] [x]); [cbn; lia | intros [E | []]; discriminate | intros _ _ E; congruence].
      * apply no_mark_a; [apply firstn1_len | now apply esc5_42].
    + right. apply no_mark_a; [apply firstn1_len|]. apply AO_no. inl.
    + left. rewrite (w1_plain languages) by auto. reflexivity.
Qed.
Lemma R1_inert : forall w, inert w -> subs R1 w = w.
Proof. intros w H. apply sub_inert; [apply R1_rules | exact H]. Qed.
Lemma R3_inert : forall w, inert w -> subs (R3 languages) w = w.
Proof. intros w H. apply sub_inert; [apply (R3_rules author languages names) | exact H]. Qed.
Lemma subs_cons : forall a b rs w, subs ((a, b) :: rs) w = if str_eqb w a then subs rs b else subs rs w.
Proof. intros a b rs w. unfold subs. cbn [fold_left]. unfold sub at 2. cbn [fst snd]. now destruct (str_eqb w a). Qed.
Lemma box_lang : forall x, s "[lang=" ++ x ++ s "]" = box (s "lang=" ++ x).
Proof. intro x. unfold box. rewrite <- app_assoc. reflexivity. Qed.
Lemma box_unlang : forall x, s "[/lang=" ++ x ++ s "]" = box (47%N :: s "lang=" ++ x).
Proof. intro x. unfold box. cbn [app]. rewrite <- app_assoc. reflexivity. Qed.
Lemma plain_langs : Forall (Forall (fun c => plain_char c = true)) languages.
Proof. apply names. Qed.
Lemma lang_open : forall ls i l, Forall (Forall (fun c => plain_char c = true)) ls -> subs (language_replacements i ls) (box (s "lang=" ++ l)) =
  match language_style i ls (s "lang=" ++ l) with Some v => SO v | None => box (s "lang=" ++ l) end.
Proof.
  induction ls as [|x ls IH]; intros i l H; [reflexivity|]. apply Forall_cons_iff in H as [H1 H2]. cbn [language_replacements language_style].
  rewrite subs_cons, box_lang, box_eqb. destruct (str_eqb (s "lang=" ++ l) (s "lang=" ++ x)) eqn:E.
  - pose proof (lang_rules (x :: ls) i (Forall_cons _ H1 H2)) as R. apply Forall_inv_tail in R. apply (sub_inert _ _ R). discriminate.
  - rewrite subs_cons, box_unlang, box_eqb. assert (F : str_eqb (s "lang=" ++ l) (47%N :: s "lang=" ++ x) = false) by (apply str_eqb_neq; discriminate). rewrite F.
    now apply IH.
Qed.
Lemma lang_close : forall ls i l, Forall (Forall (fun c => plain_char c = true)) ls -> In l ls -> subs (language_replacements i ls) (box (47%N :: s "lang=" ++ l)) = SC.
Proof.
  induction ls as [|x ls IH]; intros i l H Hl; [contradiction|]. apply Forall_cons_iff in H as [H1 H2]. cbn [language_replacements].
  rewrite subs_cons, box_lang, box_eqb. assert (F : str_eqb (47%N :: s "lang=" ++ l) (s "lang=" ++ x) = false) by (apply str_eqb_neq; discriminate). rewrite F.
  rewrite subs_cons, box_unlang, box_eqb. destruct (str_eqb (47%N :: s "lang=" ++ l) (47%N :: s "lang=" ++ x)) eqn:E.
  - apply (sub_inert _ _ (lang_rules ls (N.succ i) H2)). discriminate.
  - apply IH; [exact H2|]. destruct Hl as [-> | Hl]; [|exact Hl]. rewrite str_eqb_refl in E. discriminate.
Qed.
Lemma language_found : forall ls i l, In l ls -> exists v, language_style i ls (s "lang=" ++ l) = Some v.
Proof.
  induction ls as [|x ls IH]; intros i l H; [contradiction|]. cbn [language_style]. destruct (str_eqb (s "lang=" ++ l) (s "lang=" ++ x)) eqn:E; [now eexists|].
  apply IH. destruct H as [-> | H]; [|exact H]. rewrite str_eqb_refl in E. discriminate.
Qed.
Definition final (w : str) : str := subs (R3 languages) (m2 (m1 (subs R1 w))).
Lemma final_tag : forall t, In t tags -> final (box t) = SO (style_of languages t) /\ final (box (47%N :: t)) = SC.
Proof.
  intros t H. unfold final. unfold tags, tags_of in H. destruct H as [<- | [<- | H]].
  - split; [change (m2 (m1 (subs R1 (box (s "i"))))) with (SO (s "Emphasis")) | change (m2 (m1 (subs R1 (box (47%N :: s "i"))))) with SC]; apply R3_inert; discriminate.
  - split; [change (m2 (m1 (subs R1 (box (s "b"))))) with (SO (s "Strong_20_Emphasis")) | change (m2 (m1 (subs R1 (box (47%N :: s "b"))))) with SC]; apply R3_inert; discriminate.
  - apply in_map_iff in H as [l [<- Hl]].
    assert (S1 : subs R1 (box (s "lang=" ++ l)) = box (s "lang=" ++ l)).
    { apply sub_stranger. intros r Hr. cbn [R1 In] in Hr. repeat (destruct Hr as [<- | Hr]; [cbn [fst]; discriminate|]). contradiction. }
    assert (S2 : subs R1 (box (47%N :: s "lang=" ++ l)) = box (47%N :: s "lang=" ++ l)).
    { apply sub_stranger. intros r Hr. cbn [R1 In] in Hr. repeat (destruct Hr as [<- | Hr]; [cbn [fst]; discriminate|]). contradiction. }
    rewrite S1, S2. change (m2 (m1 (box (s "lang=" ++ l)))) with (box (s "lang=" ++ l)). change (m2 (m1 (box (47%N :: s "lang=" ++ l)))) with (box (47%N :: s "lang=" ++ l)).
    split; [|apply (lang_close languages 1 l plain_langs Hl)].
    unfold R3. rewrite (lang_open languages 1 l plain_langs). unfold style_of.
    assert (F1 : str_eqb (s "lang=" ++ l) (s "i") = false) by (apply str_eqb_neq; discriminate). assert (F2 : str_eqb (s "lang=" ++ l) (s "b") = false) by (apply str_eqb_neq; discriminate).
    rewrite F1, F2. destruct (language_found languages 1 l Hl) as [v Ev]. now rewrite Ev.
Qed.
Lemma esc_amp : forall w, (forall c, In c w -> c <> 38%N /\ c <> 62%N /\ c <> 60%N /\ c <> 39%N /\ c <> 34%N) \/ In 38%N (flat_map esc5 w).
Proof.
  induction w as [|c w IH]; [left; intros c []|]. cbn [flat_map]. destruct IH as [IH | IH]; [|right; apply in_or_app; now right].
  assert (A : esc5 c = [c] /\ (c <> 38%N /\ c <> 62%N /\ c <> 60%N /\ c <> 39%N /\ c <> 34%N) \/ In 38%N (esc5 c)).
  { unfold esc5. repeat match goal with |- context [N.eqb c ?k] => destruct (N.eqb c k) eqn:?; [right; left; reflexivity|] end. left. split; [reflexivity|].
    repeat match goal with H : N.eqb _ _ = false |- _ => apply N.eqb_neq in H end. repeat split; assumption. }
  destruct A as [[_ A] | A]; [|right; apply in_or_app; now left]. left. intros d [<- | Hd]; [exact A | now apply IH].
Qed.
Lemma esc_same : forall w, (forall c, In c w -> c <> 38%N /\ c <> 62%N /\ c <> 60%N /\ c <> 39%N /\ c <> 34%N) -> flat_map esc5 w = w.
Proof.
  induction w as [|c w IH]; intro H; [reflexivity|]. cbn [flat_map]. rewrite IH by (intros d Hd; apply H; now right). destruct (H c (or_introl eq_refl)) as [H1 [H2 [H3 [H4 H5]]]].
  unfold esc5. apply N.eqb_neq in H1, H2, H3, H4, H5. now rewrite H1, H2, H3, H4, H5.
Qed.
Lemma esc_plain_inj : forall w t, Forall (fun c => plain_char c = true) t -> flat_map esc5 w = t -> w = t.
Proof.
  intros w t H E. destruct (esc_amp w) as [A | A]; [now rewrite esc_same in E|]. exfalso. rewrite E in A. revert A. apply (plain_no t _ H). inl.
Qed.
Lemma boxes_no_tag : forall w, ~ In w tags -> ~ In w (map (cons 47%N) tags) -> forall t, In t tags -> box (flat_map esc5 w) <> box t /\ box (flat_map esc5 w) <> box (47%N :: t).
Proof.
  intros w H1 H2 t Ht. pose proof (tag_plain tags tagsP t Ht) as [Hp _].
  assert (I : forall x y, box x = box y -> x = y) by (intros x y E; unfold box in E; injection E as E; now apply app_inj_tail in E).
  split; intro E; apply I in E; apply esc_plain_inj in E.
  - subst. contradiction.
  - exact Hp.
  - apply H2. apply in_map_iff. now exists t.
  - constructor; [reflexivity | exact Hp].
Qed.
Lemma lang_fst : forall ls i r, In r (language_replacements i ls) -> exists l, In l ls /\ (fst r = box (s "lang=" ++ l) \/ fst r = box (47%N :: s "lang=" ++ l)).
Proof.
  induction ls as [|x ls IH]; intros i r H; [contradiction|]. cbn [language_replacements In] in H. destruct H as [<- | [<- | H]].
  - exists x. split; [now left | left; apply box_lang].
  - exists x. split; [now left | right; apply box_unlang].
  - destruct (IH _ _ H) as [l [H1 H2]]. exists l. split; [now right | exact H2].
Qed.
Lemma final_box : forall w, ~ In w tags -> ~ In w (map (cons 47%N) tags) -> final (box (flat_map esc5 w)) = box (flat_map esc5 w).
Proof.
  intros w H1 H2. pose proof (boxes_no_tag w H1 H2) as B. unfold final.
  assert (S1 : subs R1 (box (flat_map esc5 w)) = box (flat_map esc5 w)).
  { apply sub_stranger. intros r Hr E. assert (Ti : In (s "i") tags) by now left. assert (Tb : In (s "b") tags) by (right; now left). cbn [R1 In] in Hr.
    destruct Hr as [<- | [<- | [<- | [<- | []]]]]; symmetry in E; cbn [fst] in E; [exact (proj1 (B _ Ti) E) | exact (proj2 (B _ Ti) E) | exact (proj1 (B _ Tb) E) | exact (proj2 (B _ Tb) E)]. }
  rewrite S1. change (m2 (m1 (box (flat_map esc5 w)))) with (box (flat_map esc5 w)). apply sub_stranger. intros r Hr E. unfold R3 in Hr.
  apply lang_fst in Hr as [l [Hl Hr]]. assert (Tl : In (s "lang=" ++ l) tags) by (right; right; apply in_map_iff; now exists l). symmetry in E.
  destruct Hr as [F | F]; rewrite F in E; [exact (proj1 (B _ Tl) E) | exact (proj2 (B _ Tl) E)].
Qed.
Lemma final_word : forall p, xpiece tags p -> final (word1 p) = xw p.
Proof.
  intros p H. destruct p as [c | | t | t | w | |]; cbn [xpiece xw] in *.
  - pose proof (w1_plain languages (PC c) I H) as E. unfold final. fold (w1 (PC c)). rewrite m1_piece by exact H. cbv iota. rewrite E.
    cbn [word1 word flat_map]. rewrite app_nil_r. assert (E2 : m2 (esc5 c) = esc5 c).
    { unfold m2, esc5. repeat match goal with |- context [N.eqb c ?k] => destruct (N.eqb c k); [reflexivity|] end. now rewrite (proj2 (str_eqb_neq _ _)) by discriminate. }
    rewrite E2. apply R3_inert. apply char_not in H. unfold inert, esc5. repeat match goal with |- context [N.eqb c ?k] => destruct (N.eqb c k); [vm_compute; discriminate|] end. tauto.
  - unfold final. change (m2 (m1 (subs R1 (word1 PB)))) with P1. apply R3_inert. discriminate.
  - rewrite (proj1 (word1_tag author languages names t H)). now apply final_tag.
  - rewrite (proj2 (word1_tag author languages names t H)). now apply (final_tag t H).
  - unfold word1, word. rewrite esc_box. apply final_box; tauto.
  - unfold final. change (subs R1 (word1 PCo)) with [47; 42]%N. change (m2 (m1 [47; 42]%N)) with (AO author). apply R3_inert. discriminate.
  - unfold final. change (m2 (m1 (subs R1 (word1 PCx)))) with AC. apply R3_inert. discriminate.
Qed.
Lemma final_words : forall l, Forall (xpiece tags) l -> map final (wordsB l) = wordsX l.
Proof.
  intro l. induction l as [|r IH|r Hr IH|p r Hp IH] using pbreak_ind; intro H; [reflexivity| | |].
  - rewrite wordsB_2, wordsX_2. cbn [map]. rewrite IH by now do 2 apply Forall_inv_tail in H. f_equal. unfold final. change (m2 (m1 (subs R1 P2))) with P2. apply R3_inert. discriminate.
  - rewrite wordsB_1, wordsX_1 by exact Hr. cbn [map]. rewrite IH by now apply Forall_inv_tail in H. f_equal. exact (final_word PB I).
  - rewrite wordsB_c, wordsX_c by exact Hp. apply Forall_cons_iff in H as [H1 H2]. cbn [map]. rewrite IH by exact H2. f_equal. now apply final_word.
Qed.
Lemma replaced : forall l, Forall (xpiece tags) l -> chain l ->
  apply_replacements (ODT_ENTITIES ++ format_replacements author ++ language_replacements 1 languages) (render l) = concat (wordsX l).
Proof.
  intros l H C. rewrite split_replacements, !apply_rs_app, odt_entities, odt_breaks, (br_pieces tags tagsP l H).
  destruct (apply_boxes R1 (wordsB l) R1_rules (wordsB_ok author languages names l H)) as [A1 A2]. rewrite A1. fold (W1 l).
  assert (B : apply_replacements [(s "/*", AO author); (s "*/", AC)] (concat (W1 l)) = concat (map m2 (W2 l))).
  { rewrite apply_cons. cbn [fst snd]. change (s "/*") with [47; 42]%N. rewrite (replace_mark 47 42 (AO author) (W1 l) (W1_apart author languages names l H C)).
    rewrite apply_cons. cbn [fst snd]. change (s "*/") with [42; 47]%N. exact (replace_mark 42 47 AC (W2 l) (W2_apart l H C)). }
  rewrite B. assert (K : Forall word_ok (map m2 (W2 l))).
  { unfold W2. apply Forall_map, Forall_map. eapply Forall_impl; [|exact A2]. intros w Hw. unfold m1. destruct (str_eqb w [47; 42]%N).
    - assert (X : m2 (AO author) = AO author) by reflexivity. rewrite X. split; [discriminate|]. right. apply AO_no. inl.
    - unfold m2. destruct (str_eqb w [42; 47]%N); [split; [discriminate | right; nope] | exact Hw]. }
  destruct (apply_boxes (R3 languages) _ (R3_rules author languages names) K) as [A3 _]. unfold R3 in A3 at 1. rewrite A3.
  unfold W2, W1. rewrite !map_map. fold final. rewrite <- (final_words l H). reflexivity.
Qed.
End Final.
