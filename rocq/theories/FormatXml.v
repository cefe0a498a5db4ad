(** The replacements (odt_w_formatted.py 98-106), word by word. *)
From Coq Require Import String List NArith ZArith Bool Lia Arith.
From Verif Require Import PyStr YwText WordCount WordCountProofs OdfXml OdfXmlProofs OdtText OdtTextProofs OdtTextProofs2 SpecOdf SpecFormat FormatWords FormatLines.
Import ListNotations.

(** ** Trailing white space *)
Definition pblank (p : piece) : bool := match p with PC c => is_space c | PB => true | _ => false end.
Lemma rstrip_snoc : forall t c, rstrip (t ++ [c]) = if is_space c then rstrip t else t ++ [c].
Proof.
  intros t c. unfold rstrip, rstrip_by. rewrite rev_app_distr. cbn [rev app lstrip_by]. destruct (is_space c); [reflexivity|].
  cbn [rev]. now rewrite rev_involutive.
Qed.
Lemma render_snoc : forall l p, render (l ++ [p]) = render l ++ word p.
Proof. intros l p. rewrite render_app. unfold render at 2. cbn [map concat]. now rewrite app_nil_r. Qed.
Lemma trim : forall l, exists F tail, l = F ++ tail /\ rstrip (render l) = render F /\ Forall (fun p => pblank p = true) tail.
Proof.
  intro l. induction l as [|p l IH] using rev_ind; [exists [], []; repeat split; constructor|].
  destruct (pblank p) eqn:E.
  - destruct IH as [F [tail [E1 [E2 E3]]]]. exists F, (tail ++ [p]). split; [rewrite E1; now rewrite <- app_assoc|]. split.
    + rewrite render_snoc. destruct p; try discriminate; cbn [pblank word] in *; rewrite rstrip_snoc; [rewrite E; exact E2 | exact E2].
    + apply Forall_app. split; [exact E3 | repeat constructor; exact E].
  - exists (l ++ [p]), []. split; [now rewrite app_nil_r|]. split; [|constructor]. rewrite render_snoc.
    assert (W : exists a c, word p = a ++ [c] /\ is_space c = false).
    { destruct p; try discriminate; cbn [word pblank] in *.
      - exists [], c. split; [reflexivity | exact E].
      - exists (91%N :: t), 93%N. split; reflexivity.
      - exists (91%N :: 47%N :: t), 93%N. split; reflexivity.
      - exists (91%N :: w), 93%N. split; reflexivity.
      - exists [47%N], 42%N. split; reflexivity.
      - exists [42%N], 47%N. split; reflexivity. }
    destruct W as [a [c [Ew Ec]]]. rewrite Ew, app_assoc, rstrip_snoc, Ec. reflexivity.
Qed.

(** ** Entities and line breaks *)
Definition word1 (p : piece) : str := match p with PB => P1 | p => flat_map esc5 (word p) end.
Fixpoint wordsB (l : list piece) : list str :=
  match l with
  | [] => []
  | PB :: PB :: r => P2 :: wordsB r
  | p :: r => word1 p :: wordsB r
  end.
Lemma wordsB_2 : forall r, wordsB (PB :: PB :: r) = P2 :: wordsB r.
Proof. reflexivity. Qed.
Definition starts_pb (r : list piece) : bool := match r with PB :: _ => true | _ => false end.
Lemma wordsB_1 : forall r, starts_pb r = false -> wordsB (PB :: r) = P1 :: wordsB r.
Proof. intros [|p r] H; [reflexivity|]. destruct p; (discriminate || reflexivity). Qed.
Lemma wordsB_c : forall p r, p <> PB -> wordsB (p :: r) = word1 p :: wordsB r.
Proof. intros p r H. destruct p; try reflexivity. congruence. Qed.
Lemma pbreak_ind : forall P : list piece -> Prop, P [] -> (forall r, P r -> P (PB :: PB :: r)) -> (forall r, starts_pb r = false -> P r -> P (PB :: r)) ->
  (forall p r, p <> PB -> P r -> P (p :: r)) -> forall l, P l.
Proof.
  intros P H0 H2 H1 Hc l. assert (G : P l /\ forall p, P (p :: l)); [|tauto]. induction l as [|b l [IH IH2]].
  - split; [exact H0|]. intro p. destruct p; try (apply Hc; [discriminate | exact H0]). apply H1; [reflexivity | exact H0].
  - split; [apply IH2|]. intro p. assert (C : p = PB \/ p <> PB) by (destruct p; (now left) || (right; discriminate)). destruct C as [-> | C]; [|apply Hc; [exact C | apply IH2]].
    assert (D : b = PB \/ b <> PB) by (destruct b; (now left) || (right; discriminate)). destruct D as [-> | D]; [now apply H2|].
    apply H1; [destruct b; (congruence || reflexivity) | apply IH2].
Qed.
Lemma br_word : forall w r, ~ In 10%N w -> ~ In 13%N w -> br (w ++ r) = flat_map esc5 w ++ br r.
Proof.
  induction w as [|c w IH]; intros r H1 H2; [reflexivity|]. cbn [app flat_map]. rewrite br_c by (intro E; apply H1; now left).
  assert (E : N.eqb c 13 = false) by (apply N.eqb_neq; intro E; apply H2; now left). rewrite E, IH; [now rewrite app_assoc | |]; intro Hi; [apply H1 | apply H2]; now right.
Qed.

(** what a piece must be for all this to work *)
Definition xpiece (tags : list str) (p : piece) : Prop :=
  match p with
  | PC c => char_ok c = true
  | PO t | PX t => In t tags
  | PH w => forallb box_char w = true /\ ~ In w tags /\ ~ In w (map (cons 47%N) tags)
  | _ => True
  end.
Definition plain_tag (t : str) : Prop := Forall (fun c => plain_char c = true) t /\ match t with c :: _ => c <> 47%N | [] => False end.
Lemma plain_not : forall c x, plain_char c = true -> In x (s "[]&<>*'""" ++ [10; 13]%N) -> c <> x.
Proof.
  intros c x H Hx E. subst x. unfold plain_char in H. apply andb_true_iff in H as [_ H]. apply negb_true_iff in H. unfold in_chars in H.
  assert (T : existsb (N.eqb c) (s "[]&<>*'""" ++ [10; 13]%N) = true) by (apply existsb_exists; exists c; split; [exact Hx | apply N.eqb_refl]). congruence.
Qed.
Lemma box_not : forall c x, box_char c = true -> In x (s "[]*" ++ [10; 13]%N) -> c <> x.
Proof.
  intros c x H Hx E. subst x. unfold box_char in H. apply andb_true_iff in H as [_ H]. apply negb_true_iff in H. unfold in_chars in H.
  assert (T : existsb (N.eqb c) (s "[]*" ++ [10; 13]%N) = true) by (apply existsb_exists; exists c; split; [exact Hx | apply N.eqb_refl]). congruence.
Qed.
Lemma char_not : forall c, char_ok c = true -> xml_char c = true /\ c <> 91%N /\ c <> 10%N /\ c <> 13%N.
Proof.
  intros c H. unfold char_ok in H. apply andb_true_iff in H as [H1 H]. apply negb_true_iff in H. apply orb_false_iff in H as [H H4]. apply orb_false_iff in H as [H2 H3].
  apply N.eqb_neq in H2, H3, H4. tauto.
Qed.
Lemma plain_no : forall t x, Forall (fun c => plain_char c = true) t -> In x (s "[]&<>*'""" ++ [10; 13]%N) -> ~ In x t.
Proof. intros t x H Hx Hi. rewrite Forall_forall in H. exact (plain_not x x (H x Hi) Hx eq_refl). Qed.
Lemma box_no : forall t x, forallb box_char t = true -> In x (s "[]*" ++ [10; 13]%N) -> ~ In x t.
Proof. intros t x H Hx Hi. rewrite forallb_forall in H. exact (box_not x x (H x Hi) Hx eq_refl). Qed.
Ltac inl := cbn; repeat (first [left; reflexivity | right]).
Lemma plain_tag_ok : forall t, plain_tag t -> tag_ok t.
Proof.
  intros t [H H0]. split; [split; apply (plain_no t _ H); inl|]. split; [apply (plain_no t _ H); inl | exact H0].
Qed.
Lemma xpiece_ok : forall tags p, xpiece tags p -> piece_ok tags p.
Proof.
  intros tags p H. destruct p; cbn [xpiece piece_ok] in *; try exact H.
  - apply char_not in H. tauto.
  - destruct H as [H1 [H2 H3]]. split; [split; apply (box_no w _ H1); inl|]. split; [apply (box_no w _ H1); inl | tauto].
Qed.
Lemma esc_plain : forall t, Forall (fun c => plain_char c = true) t -> flat_map esc5 t = t.
Proof.
  intros t H. induction t as [|c t IH]; [reflexivity|]. apply Forall_cons_iff in H as [H1 H2]. cbn [flat_map]. rewrite IH by exact H2.
  assert (E : esc5 c = [c]); [|now rewrite E].
  unfold esc5. rewrite (proj2 (N.eqb_neq c 38)) by (apply (plain_not c _ H1); inl). rewrite (proj2 (N.eqb_neq c 62)) by (apply (plain_not c _ H1); inl).
  rewrite (proj2 (N.eqb_neq c 60)) by (apply (plain_not c _ H1); inl). rewrite (proj2 (N.eqb_neq c 39)) by (apply (plain_not c _ H1); inl).
  now rewrite (proj2 (N.eqb_neq c 34)) by (apply (plain_not c _ H1); inl).
Qed.
Lemma esc_box : forall x, flat_map esc5 (box x) = box (flat_map esc5 x).
Proof. intro x. unfold box. cbn [flat_map]. rewrite flat_map_app. reflexivity. Qed.

Section Tags.
Variable tags : list str.
Hypothesis tags_plain : Forall plain_tag tags.
Lemma tag_plain : forall t, In t tags -> plain_tag t.
Proof. intros t H. rewrite Forall_forall in tags_plain. now apply tags_plain. Qed.
Lemma tags_ok : Forall tag_ok tags.
Proof. eapply Forall_impl; [|exact tags_plain]. apply plain_tag_ok. Qed.
Lemma word_breaks : forall p, xpiece tags p -> p <> PB -> ~ In 10%N (word p) /\ ~ In 13%N (word p).
Proof.
  intros p H Hp. split; [apply (word_no_lf tags tags_ok p); [now apply xpiece_ok | exact Hp]|].
  destruct p; cbn [word xpiece] in *; try congruence.
  - apply char_not in H. intros [E | []]. now apply H.
  - intros [E | E]; [discriminate|]. apply in_app_iff in E. destruct E as [E | [E | []]]; [|discriminate]. revert E. apply plain_no; [now apply tag_plain | inl].
  - intros [E | [E | E]]; try discriminate. apply in_app_iff in E. destruct E as [E | [E | []]]; [|discriminate]. revert E. apply plain_no; [now apply tag_plain | inl].
  - intros [E | E]; [discriminate|]. apply in_app_iff in E. destruct E as [E | [E | []]]; [|discriminate]. revert E. apply box_no; [tauto | inl].
  - intros [E | [E | []]]; discriminate.
  - intros [E | [E | []]]; discriminate.
Qed.
Lemma br_pieces : forall l, Forall (xpiece tags) l -> br (render l) = concat (wordsB l).
Proof.
  intro l. induction l as [|r IH|r Hr IH|p r Hp IH] using pbreak_ind; intro H; [reflexivity| | |].
  - rewrite wordsB_2. change (render (PB :: PB :: r)) with (10%N :: 10%N :: render r). rewrite br_2. cbn [concat]. f_equal. apply IH.
    now do 2 apply Forall_inv_tail in H.
  - rewrite wordsB_1 by exact Hr. change (render (PB :: r)) with (10%N :: render r). apply Forall_inv_tail in H. rewrite br_1; [cbn [concat]; f_equal; now apply IH|].
    destruct r as [|p r]; [exact I|]. rewrite render_cons. assert (Hp : p <> PB) by (destruct p; (discriminate || (intro; discriminate))).
    apply Forall_inv in H. pose proof (proj1 (word_breaks p H Hp)) as Hw. assert (Hn : word p <> []) by (destruct p; discriminate).
    destruct (word p) as [|c w]; [congruence|]. cbn. intro E. apply Hw. now left.
  - rewrite wordsB_c by exact Hp. rewrite render_cons. apply Forall_cons_iff in H as [H1 H2]. destruct (word_breaks p H1 Hp) as [W1 W2].
    rewrite br_word by assumption. cbn [concat]. rewrite IH by exact H2. f_equal. destruct p; (congruence || reflexivity).
Qed.

(** ** Tags and comment marks *)
Definition sub (w : str) (r : str * str) : str := if str_eqb w (fst r) then snd r else w.
Definition subs (rs : list (str * str)) (w : str) : str := fold_left sub rs w.
Definition box_rule (r : str * str) : Prop := (exists x, fst r = box x /\ boxable x) /\ snd r <> [] /\ ~ In 91%N (snd r).
Lemma sub_ok : forall w r, word_ok w -> box_rule r -> word_ok (sub w r).
Proof. intros w r Hw [_ [H1 H2]]. unfold sub. destruct (str_eqb w (fst r)); [split; [exact H1 | now right] | exact Hw]. Qed.
Lemma apply_boxes : forall rs ws, Forall box_rule rs -> Forall word_ok ws -> apply_replacements rs (concat ws) = concat (map (subs rs) ws) /\ Forall word_ok (map (subs rs) ws).
Proof.
  induction rs as [|r rs IH]; intros ws Hr Hw.
  - unfold subs. cbn [fold_left apply_replacements]. rewrite map_id. split; [reflexivity | exact Hw].
  - inversion Hr as [|? ? R1 R2]; subst. rewrite apply_cons. destruct R1 as [[x [Ex Hx]] Rn]. rewrite Ex. rewrite replace_box by assumption.
    assert (E : map (fun w => if str_eqb w (box x) then snd r else w) ws = map (fun w => sub w r) ws) by (apply map_ext; intro w; unfold sub; now rewrite Ex).
    rewrite E. assert (Hw' : Forall word_ok (map (fun w => sub w r) ws)).
    { apply Forall_map. eapply Forall_impl; [|exact Hw]. intros w Hw1. apply sub_ok; [exact Hw1|]. split; [exists x; split; assumption | exact Rn]. }
    destruct (IH _ R2 Hw') as [I1 I2]. rewrite map_map in I1, I2. split; [exact I1 | exact I2].
Qed.
Lemma subs_app : forall a b w, subs (a ++ b) w = subs b (subs a w).
Proof. intros. unfold subs. apply fold_left_app. Qed.
(** words that are no tags *)
Definition inert (w : str) : Prop := match w with c :: _ => c <> 91%N | [] => True end.
Lemma sub_inert : forall rs w, Forall box_rule rs -> inert w -> subs rs w = w.
Proof.
  induction rs as [|r rs IH]; intros w H Hw; [reflexivity|]. inversion H as [|? ? [[x [Ex _]] _] H2]; subst. unfold subs. cbn [fold_left].
  assert (E : sub w r = w); [|rewrite E; now apply IH]. unfold sub. rewrite Ex. assert (E : str_eqb w (box x) = false); [|now rewrite E].
  apply str_eqb_neq. intro E. subst w. now apply Hw.
Qed.
Lemma sub_stranger : forall rs w, (forall r, In r rs -> fst r <> w) -> subs rs w = w.
Proof.
  induction rs as [|r rs IH]; intros w H; [reflexivity|]. unfold subs. cbn [fold_left].
  assert (E : sub w r = w); [|rewrite E; apply IH; intros q Hq; apply H; now right]. unfold sub.
  assert (E : str_eqb w (fst r) = false); [|now rewrite E]. apply str_eqb_neq. intro E. symmetry in E. exact (H r (or_introl eq_refl) E).
Qed.
End Tags.
