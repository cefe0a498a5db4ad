(** The tags of lines (odt_w_formatted.py 73-96), piece by piece. *)
From Coq Require Import String List NArith ZArith Bool Lia Arith.
From Verif Require Import PyStr YwText WordCount WordCountProofs OdfXml OdtText OdtTextProofs SpecOdf SpecFormat FormatWords.
Import ListNotations.

Inductive piece := PC (c : N) | PB | PO (t : str) | PX (t : str) | PH (w : str) | PCo | PCx.
Definition word (p : piece) : str :=
  match p with PC c => [c] | PB => [10%N] | PO t => box t | PX t => box (47%N :: t) | PH w => box w | PCo => [47; 42]%N | PCx => [42; 47]%N end.
Definition render (l : list piece) : str := concat (map word l).
Lemma render_app : forall a b, render (a ++ b) = render a ++ render b.
Proof. intros. unfold render. now rewrite map_app, concat_app. Qed.
Lemma render_cons : forall p l, render (p :: l) = word p ++ render l.
Proof. reflexivity. Qed.

Definition note_piece (c : N) : piece := if N.eqb c 10 then PB else PC c.
Definition pieces1 (k : token) : list piece :=
  match k with
  | Chr c => [PC c] | Brk => [PB] | Opn t => [PO t] | Cls t => [PX t] | Box w => [PH w]
  | Com t => PCo :: map note_piece t ++ [PCx]
  end.
Definition pieces (ks : list token) : list piece := flat_map pieces1 ks.
Lemma render_notes : forall t, render (map note_piece t) = t.
Proof.
  induction t as [|c t IH]; [reflexivity|]. cbn [map]. rewrite render_cons, IH. unfold note_piece. destruct (N.eqb c 10) eqn:E; [|reflexivity].
  apply N.eqb_eq in E. now subst.
Qed.
Lemma typed_pieces : forall ks, typed ks = render (pieces ks).
Proof.
  induction ks as [|k ks IH]; [reflexivity|]. unfold typed, pieces in *. cbn [flat_map]. rewrite render_app, <- IH. f_equal.
  destruct k; cbn [typed1 pieces1]; try reflexivity; try (unfold render; cbn [map concat word]; now rewrite app_nil_r).
  rewrite render_cons, render_app, render_notes. unfold render. cbn [map concat word]. rewrite app_nil_r. reflexivity.
Qed.

Definition tag_ok (t : str) : Prop := boxable t /\ ~ In 10%N t /\ match t with c :: _ => c <> 47%N | [] => False end.
Definition piece_ok (tags : list str) (p : piece) : Prop :=
  match p with
  | PC c => c <> 91%N /\ c <> 10%N
  | PO t | PX t => In t tags
  | PH w => boxable w /\ ~ In 10%N w /\ ~ In w tags /\ ~ In w (map (cons 47%N) tags)
  | _ => True
  end.

Section Lines.
Variable tags : list str.
Hypothesis tags_ok : Forall tag_ok tags.

Lemma tag_facts : forall t, In t tags -> tag_ok t.
Proof. intros t H. rewrite Forall_forall in tags_ok. now apply tags_ok. Qed.
Lemma tag_boxable : forall t, In t tags -> boxable t /\ boxable (47%N :: t).
Proof.
  intros t H. destruct (tag_facts t H) as [[H1 H2] _]. split; [split; assumption|]. split; intros [E | E]; try discriminate; tauto.
Qed.
Lemma word_okay : forall p, piece_ok tags p -> word_ok (word p).
Proof.
  intros p H. destruct p; cbn [word piece_ok] in *; (split; [discriminate|]).
  - right. intros [E | []]. now apply (proj1 H).
  - right. intros [E | []]. discriminate.
  - left. exists t. split; [reflexivity | now apply tag_boxable].
  - left. exists (47%N :: t). split; [reflexivity | now apply tag_boxable].
  - left. exists w. split; [reflexivity | tauto].
  - right. intros [E | [E | []]]; discriminate.
  - right. intros [E | [E | []]]; discriminate.
Qed.
Lemma words_okay : forall l, Forall (piece_ok tags) l -> Forall word_ok (map word l).
Proof. intros l H. apply Forall_map. eapply Forall_impl; [|exact H]. apply word_okay. Qed.

Definition isO (t : str) (p : piece) : bool := match p with PO u => str_eqb u t | _ => false end.
Definition isX (t : str) (p : piece) : bool := match p with PX u => str_eqb u t | _ => false end.
Lemma no_box : forall (c d : N) x, str_eqb [c] (box x) = false /\ str_eqb [c; d] (box x) = (N.eqb c 91 && (N.eqb d 93 && match x with [] => true | _ => false end))%bool.
Proof.
  intros c d x. split.
  - destruct x as [|y x]; unfold box; cbn; [now destruct (N.eqb c 91)|]. destruct x; now destruct (N.eqb c 91).
  - destruct x as [|y x]; unfold box; cbn; [reflexivity|]. destruct x; cbn; destruct (N.eqb c 91), (N.eqb d y), (N.eqb d 93); reflexivity.
Qed.
Lemma word_open : forall t p, In t tags -> piece_ok tags p -> str_eqb (word p) (box t) = isO t p.
Proof.
  intros t p Ht H. destruct (tag_facts t Ht) as [_ [_ Hh]]. destruct p; cbn [word isO piece_ok] in *; rewrite ?box_eqb; try reflexivity.
  - apply no_box. exact 0%N.
  - apply str_eqb_neq. intro E. rewrite <- E in Hh. congruence.
  - apply str_eqb_neq. intro E. subst. tauto.
Qed.
Lemma word_close : forall t p, In t tags -> piece_ok tags p -> str_eqb (word p) (box (47%N :: t)) = isX t p.
Proof.
  intros t p Ht H. destruct p; cbn [word isX piece_ok] in *; rewrite ?box_eqb; try reflexivity.
  - apply no_box. exact 0%N.
  - apply str_eqb_neq. intro E. destruct (tag_facts t0 H) as [_ [_ Hh]]. rewrite E in Hh. congruence.
  - apply str_eqb_neq. intro E. subst. apply H. now apply in_map.
Qed.
Definition cnt (f : piece -> bool) (l : list piece) : nat := length (filter f l).
Lemma occ_map : forall x f l, (forall p, In p l -> str_eqb (word p) x = f p) -> occ x (map word l) = cnt f l.
Proof.
  intros x f l H. unfold occ, cnt. induction l as [|p l IH]; [reflexivity|]. cbn [map filter]. rewrite (H p) by now left.
  specialize (IH (fun q Hq => H q (or_intror Hq))). destruct (f p); [|exact IH]. exact (f_equal S IH).
Qed.
Lemma count_open : forall t l, In t tags -> Forall (piece_ok tags) l -> count (opening t) (render l) = cnt (isO t) l.
Proof.
  intros t l Ht H. change (opening t) with (box t). unfold render. rewrite count_box; [|now apply tag_boxable | now apply words_okay].
  apply occ_map. intros p Hp. apply word_open; [exact Ht|]. rewrite Forall_forall in H. now apply H.
Qed.
Lemma count_close : forall t l, In t tags -> Forall (piece_ok tags) l -> count (closing t) (render l) = cnt (isX t) l.
Proof.
  intros t l Ht H. change (closing t) with (box (47%N :: t)). unfold render. rewrite count_box; [|now apply tag_boxable | now apply words_okay].
  apply occ_map. intros p Hp. apply word_close; [exact Ht|]. rewrite Forall_forall in H. now apply H.
Qed.

(** the empty pairs *)
Fixpoint rmp (t : str) (l : list piece) : list piece :=
  match l with
  | a :: ((b :: r) as bs) => if isO t a && isX t b then rmp t r else a :: rmp t bs
  | l => l
  end.
Lemma piece_ind2 : forall P : list piece -> Prop, P [] -> (forall a, P [a]) -> (forall a b r, P r -> P (b :: r) -> P (a :: b :: r)) -> forall l, P l.
Proof.
  intros P H0 H1 H2 ws. assert (G : P ws /\ forall a, P (a :: ws)); [|tauto].
  induction ws as [|b ws [IH IH2]]; [split; auto|]. split; [apply IH2 | intro a; apply H2; [exact IH | apply IH2]].
Qed.
Lemma rmw_rmp : forall t l, In t tags -> Forall (piece_ok tags) l -> rmw (box t) (box (47%N :: t)) (map word l) = map word (rmp t l).
Proof.
  intros t l Ht. induction l as [|a|a b r IH1 IH2] using piece_ind2; intro H; [reflexivity | reflexivity|].
  inversion H as [|? ? Ha Hr]; subst. inversion Hr as [|? ? Hb Hr']; subst. cbn [map rmw rmp]. cbn [map] in IH2.
  rewrite (word_open t a Ht Ha), (word_close t b Ht Hb). destruct (isO t a && isX t b)%bool; [now apply IH1|]. cbn [map]. f_equal. now apply IH2.
Qed.
Lemma remove_pairs : forall t l, In t tags -> Forall (piece_ok tags) l -> replace (opening t ++ closing t) [] (render l) = render (rmp t l).
Proof.
  intros t l Ht H. change (opening t ++ closing t) with (box t ++ box (47%N :: t)). unfold render.
  rewrite replace_pair; [| now apply tag_boxable | now apply tag_boxable | now apply words_okay]. now rewrite rmw_rmp.
Qed.

(** one tag in one line *)
Definition adj1 (t : str) (b : bool) (l : list piece) : list piece * bool :=
  let l1 := if b then PO t :: l else l in
  let d := cnt (isO t) l1 - cnt (isX t) l1 in
  let l2 := l1 ++ repeat (PX t) d in
  let l3 := repeat (PO t) (cnt (isX t) l2 - cnt (isO t) l2) ++ l2 in
  (rmp t l3, 0 <? d).
Lemma cnt_app : forall f a b, cnt f (a ++ b) = cnt f a + cnt f b.
Proof. intros. unfold cnt. rewrite filter_app. apply app_length. Qed.
Lemma cnt_le : forall f l, cnt f l <= length (render l).
Proof.
  intros f l. induction l as [|p l IH]; [auto|]. rewrite render_cons, app_length. unfold cnt in *. cbn [filter].
  assert (1 <= length (word p)) by (destruct p; cbn; lia). destruct (f p); cbn [length]; lia.
Qed.
Lemma render_x : forall t l, render l ++ closing t = render (l ++ [PX t]).
Proof. intros t l. rewrite render_app. unfold render at 3. cbn [map concat word]. now rewrite app_nil_r. Qed.
Lemma render_o : forall t l, opening t ++ render l = render (PO t :: l).
Proof. reflexivity. Qed.
Lemma cnt_snoc : forall f l p, cnt f (l ++ [p]) = cnt f l + if f p then 1 else 0.
Proof. intros f l p. rewrite cnt_app. unfold cnt at 2. cbn [filter]. now destruct (f p). Qed.
Lemma close_pieces : forall t fuel l d, In t tags -> Forall (piece_ok tags) l -> d = cnt (isO t) l - cnt (isX t) l -> d < fuel ->
  close_line fuel t (render l) = Some (render (l ++ repeat (PX t) d), 0 <? d).
Proof.
  intros t fuel. induction fuel as [|fuel IH]; intros l d Ht H Hd Hf; [lia|]. cbn [close_line].
  rewrite count_open, count_close by assumption.
  destruct (Nat.ltb_spec (cnt (isX t) l) (cnt (isO t) l)) as [E | E].
  - rewrite render_x. assert (Hd1 : pred d = cnt (isO t) (l ++ [PX t]) - cnt (isX t) (l ++ [PX t])).
    { rewrite !cnt_snoc. cbn [isO isX]. rewrite str_eqb_refl. lia. }
    rewrite (IH (l ++ [PX t]) (pred d) Ht); [| apply Forall_app; split; [exact H | repeat constructor; exact Ht] | exact Hd1 | lia].
    destruct d as [|d]; [lia|]. cbn [pred repeat]. rewrite <- app_assoc. reflexivity.
  - assert (d = 0) by lia. subst d. rewrite H0. cbn [repeat]. now rewrite app_nil_r.
Qed.
Lemma open_pieces : forall t fuel l d, In t tags -> Forall (piece_ok tags) l -> d = cnt (isX t) l - cnt (isO t) l -> d < fuel ->
  open_line fuel t (render l) = Some (render (repeat (PO t) d ++ l)).
Proof.
  intros t fuel. induction fuel as [|fuel IH]; intros l d Ht H Hd Hf; [lia|]. cbn [open_line].
  rewrite count_open, count_close by assumption.
  destruct (Nat.ltb_spec (cnt (isO t) l) (cnt (isX t) l)) as [E | E].
  - rewrite render_o. assert (Hd1 : pred d = cnt (isX t) (PO t :: l) - cnt (isO t) (PO t :: l)).
    { change (PO t :: l) with ([PO t] ++ l). rewrite !cnt_app. unfold cnt at 1 3. cbn [filter isO isX]. rewrite str_eqb_refl. cbn [length]. lia. }
    rewrite (IH (PO t :: l) (pred d) Ht); [| constructor; [exact Ht | exact H] | exact Hd1 | lia].
    destruct d as [|d]; [lia|]. cbn [pred]. replace (repeat (PO t) (S d)) with (repeat (PO t) d ++ [PO t]) by (now rewrite <- repeat_cons).
    now rewrite <- app_assoc.
  - assert (d = 0) by lia. subst d. now rewrite H0.
Qed.
Lemma adj1_ok : forall t b l, In t tags -> Forall (piece_ok tags) l -> Forall (piece_ok tags) (fst (adj1 t b l)).
Proof.
  intros t b l Ht H. assert (R : forall l, Forall (piece_ok tags) l -> Forall (piece_ok tags) (rmp t l)).
  { clear l H. intro l. induction l as [|a|a c r IH1 IH2] using piece_ind2; intro H; [exact H | exact H|]. inversion H as [|? ? Ha Hr]; subst.
    inversion Hr as [|? ? Hb Hr']; subst. cbn [rmp]. destruct (isO t a && isX t c)%bool; [now apply IH1|]. constructor; [exact Ha | now apply IH2]. }
  unfold adj1. cbn [fst]. apply R. assert (H1 : Forall (piece_ok tags) (if b then PO t :: l else l)) by (destruct b; [constructor; [exact Ht | exact H] | exact H]).
  assert (Q : forall p n, piece_ok tags p -> Forall (piece_ok tags) (repeat p n)) by (intros p n Hp; induction n; constructor; assumption).
  apply Forall_app. split; [now apply Q|]. apply Forall_app. split; [exact H1 | now apply Q].
Qed.
Lemma tag_pieces : forall t b l, In t tags -> Forall (piece_ok tags) l -> prefixb GT (render l) = false ->
  tag_line (render l) t b = Some (render (fst (adj1 t b l)), snd (adj1 t b l)).
Proof.
  intros t b l Ht H HG. unfold tag_line. rewrite HG. unfold adj1. cbn [fst snd].
  assert (E1 : (if b then opening t ++ render l else render l) = render (if b then PO t :: l else l)) by (destruct b; reflexivity).
  rewrite E1. set (l1 := if b then PO t :: l else l).
  assert (H1 : Forall (piece_ok tags) l1) by (unfold l1; destruct b; [constructor; [exact Ht | exact H] | exact H]). clearbody l1. clear E1.
  assert (Q : forall p n, piece_ok tags p -> Forall (piece_ok tags) (repeat p n)) by (intros p n Hp; induction n; constructor; assumption).
  rewrite (close_pieces t _ l1 _ Ht H1 eq_refl); [|pose proof (cnt_le (isO t) l1); lia].
  set (l2 := l1 ++ repeat (PX t) (cnt (isO t) l1 - cnt (isX t) l1)).
  assert (H2 : Forall (piece_ok tags) l2) by (apply Forall_app; split; [exact H1 | now apply Q]).
  rewrite (open_pieces t _ l2 _ Ht H2 eq_refl); [|pose proof (cnt_le (isX t) l2); lia].
  rewrite remove_pairs; [reflexivity | exact Ht|]. apply Forall_app. split; [now apply Q | exact H2].
Qed.

(** what is not a tag stays *)
Definition untag (l : list piece) : list piece := filter (fun p => match p with PO _ | PX _ => false | _ => true end) l.
Lemma untag_app : forall a b, untag (a ++ b) = untag a ++ untag b.
Proof. intros. apply filter_app. Qed.
Lemma untag_rmp : forall t l, untag (rmp t l) = untag l.
Proof.
  intros t l. induction l as [|a|a b r IH1 IH2] using piece_ind2; [reflexivity | reflexivity|]. cbn [rmp].
  destruct (isO t a && isX t b)%bool eqn:E.
  - rewrite IH1. apply andb_true_iff in E as [E1 E2]. destruct a; try discriminate. destruct b; try discriminate. reflexivity.
  - change (untag (a :: rmp t (b :: r)) = untag (a :: b :: r)). change (a :: rmp t (b :: r)) with ([a] ++ rmp t (b :: r)).
    change (a :: b :: r) with ([a] ++ b :: r). rewrite !untag_app, IH2. reflexivity.
Qed.
Lemma untag_repeat : forall t n, untag (repeat (PO t) n) = [] /\ untag (repeat (PX t) n) = [].
Proof. intros t n. induction n as [|n [IH1 IH2]]; [split; reflexivity | split; [exact IH1 | exact IH2]]. Qed.
Lemma untag_adj1 : forall t b l, untag (fst (adj1 t b l)) = untag l.
Proof.
  intros t b l. unfold adj1. cbn [fst]. rewrite untag_rmp, !untag_app. rewrite (proj1 (untag_repeat t _)), (proj2 (untag_repeat t _)), app_nil_r.
  now destruct b.
Qed.
Lemma prefixb_split : forall g w r, prefixb g (w ++ r) = true -> prefixb g w = true \/ exists g', g = w ++ g' /\ prefixb g' r = true.
Proof.
  induction g as [|x g IH]; intros w r H; [now left|]. destruct w as [|y w]; [right; exists (x :: g); auto|]. cbn [app prefixb] in *.
  apply andb_true_iff in H as [H1 H2]. apply N.eqb_eq in H1. subst y. destruct (IH w r H2) as [E | [g' [E1 E2]]].
  - left. now rewrite N.eqb_refl.
  - right. exists g'. split; [now rewrite E1 | exact E2].
Qed.
Lemma prefixb_more : forall g a b, prefixb g a = true -> prefixb g (a ++ b) = true.
Proof. intros g a b H. apply prefixb_spec in H as [r E]. subst a. rewrite <- app_assoc. apply prefixb_app. Qed.
Lemma prefixb_cons_app : forall w g r, prefixb g r = true -> prefixb (w ++ g) (w ++ r) = true.
Proof. intros w g r H. apply prefixb_spec in H as [x E]. subst r. rewrite app_assoc. apply prefixb_app. Qed.
Lemma prefix_untag : forall l g, ~ In 91%N g -> prefixb g (render l) = true -> prefixb g (render (untag l)) = true.
Proof.
  induction l as [|p l IH]; intros g Hg H; [exact H|]. rewrite render_cons in H.
  destruct g as [|x g]; [reflexivity|].
  assert (C : (match p with PO _ | PX _ => True | _ => False end) \/ untag (p :: l) = p :: untag l) by (destruct p; cbn; auto).
  destruct C as [C | C].
  - exfalso. destruct p; try contradiction; cbn [word box app prefixb] in H; apply andb_true_iff in H as [H _]; apply N.eqb_eq in H; apply Hg; now left.
  - rewrite C, render_cons. destruct (prefixb_split _ _ _ H) as [E | [g' [E1 E2]]]; [now apply prefixb_more|]. rewrite E1.
    apply prefixb_cons_app. apply IH; [|exact E2]. intro Hi. apply Hg. rewrite E1. apply in_app_iff. now right.
Qed.
Lemma no_quote : forall l, containsb GT (render (untag l)) = false -> prefixb GT (render l) = false.
Proof.
  intros l H. destruct (prefixb GT (render l)) eqn:E; [|reflexivity]. apply prefix_untag in E.
  - exfalso. assert (C : containsb GT (render (untag l)) = true); [|congruence]. apply containsb_spec. apply prefixb_spec in E as [r E]. exists [], r. exact E.
  - intro Hi. assert (K : existsb (N.eqb 91) GT = true) by (apply existsb_exists; exists 91%N; split; [exact Hi | apply N.eqb_refl]). vm_compute in K. discriminate.
Qed.

(** all tags in all lines *)
Fixpoint adjs (l : list piece) (st : list (str * bool)) : list piece * list (str * bool) :=
  match st with
  | [] => (l, [])
  | (t, b) :: st' => let r := adjs (fst (adj1 t b l)) st' in (fst r, (t, snd (adj1 t b l)) :: snd r)
  end.
Fixpoint adjlines (ls : list (list piece)) (st : list (str * bool)) : list (list piece) :=
  match ls with [] => [] | l :: ls => fst (adjs l st) :: adjlines ls (snd (adjs l st)) end.
Lemma adjs_facts : forall st l, incl (map fst st) tags -> Forall (piece_ok tags) l ->
  Forall (piece_ok tags) (fst (adjs l st)) /\ untag (fst (adjs l st)) = untag l /\ map fst (snd (adjs l st)) = map fst st.
Proof.
  induction st as [|[t b] st IH]; intros l Hi H; [repeat split; exact H|]. cbn [adjs fst snd map] in *.
  assert (Ht : In t tags) by (apply Hi; now left).
  destruct (IH (fst (adj1 t b l))) as [H1 [H2 H3]]; [intros x Hx; apply Hi; now right | now apply adj1_ok|].
  split; [exact H1|]. split; [now rewrite H2, untag_adj1 | now rewrite H3].
Qed.
Lemma tags_pieces : forall st l, incl (map fst st) tags -> Forall (piece_ok tags) l -> containsb GT (render (untag l)) = false ->
  tags_line (render l) st = Some (render (fst (adjs l st)), snd (adjs l st)).
Proof.
  induction st as [|[t b] st IH]; intros l Hi H HG; [reflexivity|]. cbn [adjs fst snd tags_line map] in *.
  assert (Ht : In t tags) by (apply Hi; now left).
  rewrite tag_pieces; [|exact Ht | exact H | now apply no_quote].
  rewrite IH; [reflexivity | intros x Hx; apply Hi; now right | now apply adj1_ok | now rewrite untag_adj1].
Qed.
Lemma lines_pieces : forall ls st, incl (map fst st) tags -> Forall (Forall (piece_ok tags)) ls -> Forall (fun l => containsb GT (render (untag l)) = false) ls ->
  tags_lines (map render ls) st = Some (map render (adjlines ls st)).
Proof.
  induction ls as [|l ls IH]; intros st Hi H HG; [reflexivity|]. inversion H as [|? ? H1 H2]; subst. inversion HG as [|? ? G1 G2]; subst.
  cbn [map tags_lines adjlines]. rewrite tags_pieces by assumption. rewrite IH; [reflexivity | | assumption | assumption].
  destruct (adjs_facts st l Hi H1) as [_ [_ E]]. now rewrite E.
Qed.

(** the lines *)
Fixpoint plines (l : list piece) : list (list piece) :=
  match l with
  | [] => [[]]
  | PB :: r => [] :: plines r
  | p :: r => match plines r with h :: t => (p :: h) :: t | [] => [[p]] end
  end.
Fixpoint pjoin (ls : list (list piece)) : list piece :=
  match ls with [] => [] | [l] => l | l :: ls => l ++ PB :: pjoin ls end.
Lemma plines_cons : forall l, exists h t, plines l = h :: t.
Proof. induction l as [|p l [h [t E]]]; [exists [], []; reflexivity|]. destruct p; cbn [plines]; rewrite ?E; eauto. Qed.
Lemma pjoin_plines : forall l, pjoin (plines l) = l.
Proof.
  induction l as [|p l IH]; [reflexivity|]. destruct (plines_cons l) as [h [t E]].
  assert (G : forall q, q <> PB -> plines (q :: l) = (q :: h) :: t) by (intros q Hq; destruct q; try congruence; cbn [plines]; now rewrite E).
  destruct p; try (rewrite G by discriminate; rewrite E in IH; destruct t; cbn [pjoin] in *; rewrite <- IH; reflexivity).
  cbn [plines]. rewrite E in *. change (pjoin ([] :: h :: t)) with (PB :: pjoin (h :: t)). now rewrite IH.
Qed.
Lemma render_pjoin : forall ls, render (pjoin ls) = join [10%N] (map render ls).
Proof.
  induction ls as [|l ls IH]; [reflexivity|]. destruct ls as [|m ls]; [reflexivity|].
  change (pjoin (l :: m :: ls)) with (l ++ PB :: pjoin (m :: ls)).
  change (join [10%N] (map render (l :: m :: ls))) with (render l ++ [10%N] ++ join [10%N] (map render (m :: ls))).
  rewrite render_app, render_cons, <- IH. reflexivity.
Qed.
Lemma splitc_word : forall w r, ~ In 10%N w -> exists h t, splitc 10 r = h :: t /\ splitc 10 (w ++ r) = (w ++ h) :: t.
Proof.
  induction w as [|c w IH]; intros r H.
  - destruct (splitc 10 r) as [|h t] eqn:E; [|exists h, t; split; [reflexivity | exact E]].
    exfalso. revert E. destruct r as [|d r]; cbn [splitc]; [discriminate|]. destruct (N.eqb 10 d); [discriminate|]. destruct (splitc 10 r); discriminate.
  - destruct (IH r) as [h [t [E1 E2]]]; [intro Hi; apply H; now right|]. exists h, t. split; [exact E1|]. cbn [app]. 
    destruct (splitc_c c (w ++ r)) as [p [ps [F1 F2]]]; [intro Ec; apply H; now left|]. rewrite F2. rewrite E2 in F1. injection F1 as <- <-. reflexivity.
Qed.
Lemma word_no_lf : forall p, piece_ok tags p -> p <> PB -> ~ In 10%N (word p).
Proof.
  intros p H Hp. destruct p; cbn [word piece_ok] in *; try congruence.
  - intros [E | []]. now apply (proj2 H).
  - destruct (tag_facts t H) as [_ [Hl _]]. intros [E | E]; [discriminate|]. apply in_app_iff in E. destruct E as [E | [E | []]]; [tauto | discriminate].
  - destruct (tag_facts t H) as [_ [Hl _]]. intros [E | [E | E]]; try discriminate. apply in_app_iff in E. destruct E as [E | [E | []]]; [tauto | discriminate].
  - intros [E | E]; [discriminate|]. apply in_app_iff in E. destruct E as [E | [E | []]]; [tauto | discriminate].
  - intros [E | [E | []]]; discriminate.
  - intros [E | [E | []]]; discriminate.
Qed.
Lemma split_pieces : forall l, Forall (piece_ok tags) l -> splitc 10 (render l) = map render (plines l).
Proof.
  induction l as [|p l IH]; intro H; [reflexivity|]. inversion H as [|? ? Hp Hl]; subst. rewrite render_cons.
  assert (C : p = PB \/ p <> PB) by (destruct p; (now left) || (right; discriminate)). destruct C as [-> | C].
  - cbn [word app plines map]. now rewrite splitc_10, IH.
  - destruct (splitc_word (word p) (render l) (word_no_lf p Hp C)) as [h [t [E1 E2]]]. rewrite E2. rewrite IH in E1 by exact Hl.
    destruct (plines_cons l) as [h' [t' E]]. assert (G : plines (p :: l) = (p :: h') :: t') by (destruct p; try congruence; cbn [plines]; now rewrite E).
    rewrite G. rewrite E in E1. cbn [map] in *. injection E1 as <- <-. reflexivity.
Qed.
Lemma plines_ok : forall l, Forall (piece_ok tags) l -> Forall (Forall (piece_ok tags)) (plines l).
Proof.
  induction l as [|p l IH]; intro H; [repeat constructor|]. inversion H as [|? ? Hp Hl]; subst. specialize (IH Hl).
  destruct (plines_cons l) as [h [t E]]. rewrite E in IH. inversion IH as [|? ? I1 I2]; subst.
  assert (C : p = PB \/ p <> PB) by (destruct p; (now left) || (right; discriminate)). destruct C as [-> | C].
  - cbn [plines]. rewrite E. constructor; [constructor | exact IH].
  - assert (G : plines (p :: l) = (p :: h) :: t) by (destruct p; try congruence; cbn [plines]; now rewrite E). rewrite G.
    constructor; [now constructor | exact I2].
Qed.
End Lines.
