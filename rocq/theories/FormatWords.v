(** Replacing in texts made of words: bracketed words and words without an opening bracket. *)
From Coq Require Import String List NArith ZArith Bool Lia Arith.
From Verif Require Import PyStr WordCount WordCountProofs OdtText OdtTextProofs.
Import ListNotations.

Definition box (x : str) : str := 91%N :: x ++ [93%N].
Definition boxable (x : str) : Prop := ~ In 91%N x /\ ~ In 93%N x.
Definition word_ok (w : str) : Prop := w <> [] /\ ((exists y, w = box y /\ boxable y) \/ ~ In 91%N w).

Lemma prefix_close : forall x y r, ~ In 93%N x -> ~ In 93%N y -> prefixb (x ++ [93%N]) (y ++ 93%N :: r) = str_eqb x y.
Proof.
  induction x as [|a x IH]; intros y r Hx Hy.
  - destruct y as [|b y]; [reflexivity|]. cbn [app prefixb str_eqb]. destruct (N.eqb 93 b) eqn:E; [|reflexivity].
    exfalso. apply N.eqb_eq in E. apply Hy. left. now symmetry.
  - destruct y as [|b y].
    + cbn [app prefixb str_eqb]. destruct (N.eqb a 93) eqn:E; [|reflexivity]. exfalso. apply N.eqb_eq in E. apply Hx. now left.
    + cbn [app prefixb str_eqb]. rewrite IH; [reflexivity | |]; intro H; [apply Hx | apply Hy]; now right.
Qed.
Lemma prefix_box : forall x y r, boxable x -> boxable y -> prefixb (box x) (box y ++ r) = str_eqb x y.
Proof.
  intros x y r [_ Hx] [_ Hy]. unfold box. cbn [app prefixb]. rewrite N.eqb_refl. cbn [andb]. rewrite <- app_assoc. cbn [app].
  now apply prefix_close.
Qed.
Lemma box_eqb : forall x y, str_eqb (box x) (box y) = str_eqb x y.
Proof.
  intros x y. destruct (str_eqb x y) eqn:E.
  - apply str_eqb_eq in E. subst. apply str_eqb_refl.
  - apply str_eqb_neq. apply str_eqb_neq in E. intro H. apply E. unfold box in H. injection H as H. now apply app_inj_tail in H.
Qed.
Lemma box_rest : forall y, boxable y -> ~ In 91%N (y ++ [93%N]).
Proof. intros y [H _] Hi. apply in_app_iff in Hi. destruct Hi as [Hi | [Hi | []]]; [tauto | discriminate]. Qed.
Lemma not_box : forall w x, ~ In 91%N w -> str_eqb w (box x) = false.
Proof. intros w x H. apply str_eqb_neq. intro E. apply H. rewrite E. now left. Qed.

Lemma replace_box : forall x new ws, boxable x -> Forall word_ok ws ->
  replace (box x) new (concat ws) = concat (map (fun w => if str_eqb w (box x) then new else w) ws).
Proof.
  intros x new ws Hx. induction ws as [|w ws IH]; intro H; [reflexivity|]. inversion H as [|? ? [Hn Hw] Hs]; subst. cbn [concat map].
  destruct Hw as [[y [E Hy]] | Hw].
  - subst w. rewrite box_eqb. destruct (str_eqb y x) eqn:Ex.
    + apply str_eqb_eq in Ex. subst y. rewrite replace_hit by discriminate. now rewrite IH.
    + assert (E1 : prefixb (box x) (box y ++ concat ws) = false) by (rewrite prefix_box by assumption; now rewrite str_eqb_sym).
      unfold box at 2 in E1. cbn [app] in E1. unfold box at 2. cbn [app]. rewrite replace_miss by exact E1.
      unfold box at 1. rewrite replace_skip by now apply box_rest. fold (box x). rewrite IH by assumption. unfold box at 3. reflexivity.
  - rewrite not_box by exact Hw. unfold box at 1. rewrite replace_skip by exact Hw. fold (box x). now rewrite IH.
Qed.

Lemma count_go_skip : forall sub p t, count_go sub (length p) (p ++ t) = count_go sub 0 t.
Proof. induction p as [|c p IH]; intro t; [destruct t; reflexivity | apply IH]. Qed.
Lemma count_hit : forall sub t, sub <> [] -> count sub (sub ++ t) = S (count sub t).
Proof.
  intros sub t H. destruct sub as [|c p]; [congruence|]. unfold count. change ((c :: p) ++ t) with (c :: (p ++ t)) at 1.
  assert (E : prefixb (c :: p) (c :: p ++ t) = true) by apply (prefixb_app (c :: p)).
  cbn [count_go]. rewrite E. cbn [length]. rewrite Nat.sub_succ, Nat.sub_0_r. now rewrite count_go_skip.
Qed.
Lemma count_skip : forall x p a b, ~ In x a -> count (x :: p) (a ++ b) = count (x :: p) b.
Proof.
  intros x p a b. induction a as [|c a IH]; intro H; [reflexivity|]. unfold count. cbn [app count_go].
  assert (E : prefixb (x :: p) (c :: a ++ b) = false).
  { cbn [prefixb]. destruct (N.eqb x c) eqn:E; [|reflexivity]. apply N.eqb_eq in E. exfalso. apply H. left. now symmetry. }
  rewrite E. apply IH. intro Hi. apply H. now right.
Qed.
Lemma count_miss : forall sub c t, prefixb sub (c :: t) = false -> count sub (c :: t) = count sub t.
Proof. intros sub c t H. unfold count. cbn [count_go]. now rewrite H. Qed.
Definition occ (w : str) (ws : list str) : nat := length (filter (fun v => str_eqb v w) ws).
Lemma count_box : forall x ws, boxable x -> Forall word_ok ws -> count (box x) (concat ws) = occ (box x) ws.
Proof.
  intros x ws Hx. induction ws as [|w ws IH]; intro H; [reflexivity|]. inversion H as [|? ? [Hn Hw] Hs]; subst. cbn [concat].
  unfold occ. cbn [filter]. destruct Hw as [[y [E Hy]] | Hw].
  - subst w. rewrite box_eqb. destruct (str_eqb y x) eqn:Ex.
    + apply str_eqb_eq in Ex. subst y. rewrite count_hit by discriminate. cbn [length]. now rewrite IH.
    + assert (E1 : prefixb (box x) (box y ++ concat ws) = false) by (rewrite prefix_box by assumption; now rewrite str_eqb_sym).
      unfold box at 2 in E1. cbn [app] in E1. unfold box at 2. cbn [app]. rewrite count_miss by exact E1.
      unfold box at 1. rewrite count_skip by now apply box_rest. fold (box x). now apply IH.
  - rewrite not_box by exact Hw. unfold box at 1. rewrite count_skip by exact Hw. fold (box x). now apply IH.
Qed.

(** ** Two adjacent words *)
Fixpoint rmw (o c : str) (ws : list str) : list str :=
  match ws with
  | a :: ((b :: r) as bs) => if str_eqb a o && str_eqb b c then rmw o c r else a :: rmw o c bs
  | ws => ws
  end.
Lemma rmw_ind : forall P : list str -> Prop, P [] -> (forall a, P [a]) -> (forall a b r, P r -> P (b :: r) -> P (a :: b :: r)) -> forall ws, P ws.
Proof.
  intros P H0 H1 H2 ws. assert (G : P ws /\ forall a, P (a :: ws)); [|tauto].
  induction ws as [|b ws [IH IH2]]; [split; auto|]. split; [apply IH2 | intro a; apply H2; [exact IH | apply IH2]].
Qed.
Lemma prefix_words : forall x ws, boxable x -> Forall word_ok ws ->
  prefixb (box x) (concat ws) = match ws with w :: _ => str_eqb w (box x) | [] => false end.
Proof.
  intros x ws Hx H. destruct ws as [|w ws]; [reflexivity|]. inversion H as [|? ? [Hn Hw] Hs]; subst. cbn [concat].
  destruct Hw as [[y [E Hy]] | Hw].
  - subst w. rewrite prefix_box by assumption. rewrite box_eqb. apply str_eqb_sym.
  - rewrite not_box by exact Hw. destruct w as [|d w]; [congruence|]. cbn [app prefixb]. unfold box. cbn [prefixb].
    destruct (N.eqb 91 d) eqn:E; [|reflexivity]. exfalso. apply N.eqb_eq in E. apply Hw. left. now symmetry.
Qed.
Lemma prefixb_app_r : forall a b t, prefixb a t = true -> prefixb (a ++ b) t = prefixb b (skipn (length a) t).
Proof.
  induction a as [|x a IH]; intros b t H; [reflexivity|]. destruct t as [|y t]; [discriminate|]. cbn [prefixb] in H. apply andb_true_iff in H as [H1 H2].
  cbn [app prefixb length skipn]. rewrite H1. cbn [andb]. now apply IH.
Qed.
Lemma prefixb_app_false : forall a b t, prefixb a t = false -> prefixb (a ++ b) t = false.
Proof.
  induction a as [|x a IH]; intros b t H; [discriminate|]. destruct t as [|y t]; [reflexivity|]. cbn [app prefixb] in *.
  destruct (N.eqb x y); [cbn [andb] in *; now apply IH | reflexivity].
Qed.
Lemma skipn_app_len : forall (a b : str), skipn (length a) (a ++ b) = b.
Proof. induction a as [|x a IH]; intro b; [reflexivity | apply IH]. Qed.
Lemma skip_word : forall x p w r, word_ok w -> prefixb (91%N :: p) (w ++ r) = false -> replace (91%N :: p) x (w ++ r) = w ++ replace (91%N :: p) x r.
Proof.
  intros x p w r [Hn [[y [E Hy]] | Hw]] Hp.
  - subst w. unfold box in *. cbn [app] in *. rewrite replace_miss by exact Hp. now rewrite replace_skip by now apply box_rest.
  - now apply replace_skip.
Qed.
Lemma replace_pair : forall x y ws, boxable x -> boxable y -> Forall word_ok ws ->
  replace (box x ++ box y) [] (concat ws) = concat (rmw (box x) (box y) ws).
Proof.
  intros x y ws Hx Hy. induction ws as [|a|a b r IH1 IH2] using rmw_ind; intro H; [reflexivity| |].
  - cbn [rmw concat]. rewrite app_nil_r. inversion H as [|? ? Ha _]; subst. change (box x ++ box y) with (91%N :: (x ++ [93%N]) ++ box y).
    rewrite <- (app_nil_r a) at 1. rewrite skip_word; [now rewrite replace_nil, app_nil_r | exact Ha |].
    change (91%N :: (x ++ [93%N]) ++ box y) with (box x ++ box y).
    assert (E : prefixb (box x) (concat [a]) = str_eqb a (box x)) by now rewrite prefix_words. cbn [concat] in E.
    destruct (str_eqb a (box x)) eqn:Ea; [|now apply prefixb_app_false]. rewrite prefixb_app_r by exact E. apply str_eqb_eq in Ea. subst a.
    now rewrite skipn_app_len.
  - inversion H as [|? ? Ha Hr]; subst. pose proof Hr as Hr0. inversion Hr as [|? ? Hb Hr']; subst. cbn [rmw].
    destruct (str_eqb a (box x)) eqn:Ea; [destruct (str_eqb b (box y)) eqn:Eb|]; cbn [andb].
    + apply str_eqb_eq in Ea. apply str_eqb_eq in Eb. subst a b. cbn [concat]. rewrite app_assoc. rewrite replace_hit by discriminate. now apply IH1.
    + cbn [concat] in *. change (box x ++ box y) with (91%N :: (x ++ [93%N]) ++ box y).
      rewrite skip_word; [f_equal; now apply IH2 | exact Ha |]. change (91%N :: (x ++ [93%N]) ++ box y) with (box x ++ box y).
      apply str_eqb_eq in Ea. subst a. rewrite prefixb_app_r by now rewrite prefixb_app. rewrite skipn_app_len.
      pose proof (prefix_words y (b :: r) Hy Hr0) as E. cbn [concat] in E. rewrite E. exact Eb.
    + cbn [concat] in *. change (box x ++ box y) with (91%N :: (x ++ [93%N]) ++ box y).
      rewrite skip_word; [f_equal; now apply IH2 | exact Ha |]. change (91%N :: (x ++ [93%N]) ++ box y) with (box x ++ box y).
      apply prefixb_app_false. pose proof (prefix_words x (a :: b :: r) Hx H) as E. cbn [concat] in E. rewrite E. exact Ea.
Qed.

(** ** Marks of two characters *)
Fixpoint apart (m : str) (ws : list str) : Prop :=
  match ws with
  | [] => True
  | w :: r => (w = m \/ containsb m (w ++ firstn 1 (concat r)) = false) /\ apart m r
  end.
Lemma containsb_tail : forall m c t, containsb m (c :: t) = false -> prefixb m (c :: t) = false /\ containsb m t = false.
Proof. intros m c t H. cbn [containsb] in H. apply orb_false_iff in H. exact H. Qed.
Lemma prefix2 : forall (a b c d : N) (t : str), prefixb [a; b] (c :: d :: t) = (N.eqb a c && N.eqb b d)%bool.
Proof. intros. cbn [prefixb]. now rewrite andb_true_r. Qed.
Lemma replace2_skip : forall (x y : N) new w r, containsb [x; y] (w ++ firstn 1 r) = false -> replace [x; y] new (w ++ r) = w ++ replace [x; y] new r.
Proof.
  intros x y new w r. induction w as [|c w IH]; intro H; [reflexivity|]. cbn [app] in H. apply containsb_tail in H as [H1 H2].
  cbn [app]. rewrite replace_miss; [f_equal; now apply IH|]. destruct w as [|d w]; [|cbn [app] in *; now rewrite prefix2 in *].
  destruct r as [|d r]; [exact H1|]. cbn [app firstn] in *. now rewrite prefix2 in *.
Qed.
Lemma replace_mark : forall x y new ws, apart [x; y] ws ->
  replace [x; y] new (concat ws) = concat (map (fun w => if str_eqb w [x; y] then new else w) ws).
Proof.
  intros x y new ws. induction ws as [|w ws IH]; intro H; [reflexivity|]. destruct H as [H Hr]. cbn [concat map].
  destruct (str_eqb w [x; y]) eqn:E.
  - apply str_eqb_eq in E. subst w. rewrite replace_hit by discriminate. now rewrite IH.
  - destruct H as [H | H]; [apply str_eqb_neq in E; contradiction|]. rewrite replace2_skip by exact H. now rewrite IH.
Qed.
