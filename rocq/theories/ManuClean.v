(** Reading back: the markup cleaner takes back the tags that were closed and opened again at line breaks. *)
From Coq Require Import String List NArith ZArith Bool Lia Arith.
From Verif Require Import PyStr YwText WordCount WordCountProofs OdfXml OdtText OdtTextProofs SpecOdf SpecFormat SpecManuscript
  FormatWords FormatLines FormatRun FormatXml FormatXml2 FormatProofs OdtRead ManuText.
Import ListNotations.

(** ** Two characters in a row *)
Fixpoint ends (a : N) (t : str) : bool := match t with [] => false | [c] => N.eqb a c | _ :: r => ends a r end.
Definition begins (b : N) (t : str) : bool := match t with c :: _ => N.eqb b c | [] => false end.
Lemma cont2_app : forall a b x y, containsb [a; b] (x ++ y) = (containsb [a; b] x || containsb [a; b] y || (ends a x && begins b y))%bool.
Proof.
  intros a b x y. induction x as [|c x IH]; [cbn [app containsb ends]; now rewrite orb_false_r|].
  destruct x as [|d x].
  - cbn [app]. cbn [ends containsb]. change (prefixb [a; b] (c :: y)) with (N.eqb a c && prefixb [b] y)%bool. change (prefixb [a; b] [c]) with (N.eqb a c && prefixb [b] [])%bool. cbn [prefixb]. rewrite andb_false_r.
    destruct y as [|e y]; cbn [prefixb begins]; [rewrite !andb_false_r; reflexivity|]. rewrite andb_true_r. cbn [orb]. rewrite orb_comm. reflexivity.
  - change ((c :: d :: x) ++ y) with (c :: (d :: x) ++ y). change (containsb [a; b] (c :: (d :: x) ++ y)) with (prefixb [a; b] (c :: (d :: x) ++ y) || containsb [a; b] ((d :: x) ++ y))%bool. rewrite IH.
    change (containsb [a; b] (c :: d :: x)) with (prefixb [a; b] (c :: d :: x) || containsb [a; b] (d :: x))%bool. change (ends a (c :: d :: x)) with (ends a (d :: x)).
    change (prefixb [a; b] (c :: (d :: x) ++ y)) with (N.eqb a c && (N.eqb b d && true))%bool. change (prefixb [a; b] (c :: d :: x)) with (N.eqb a c && (N.eqb b d && true))%bool.
    now rewrite !orb_assoc.
Qed.
Lemma cont2_no : forall a b x, ~ In a x -> containsb [a; b] x = false /\ ends a x = false.
Proof.
  intros a b x. induction x as [|c x IH]; intro Hn; [split; reflexivity|]. destruct (IH (fun Hi => Hn (or_intror Hi))) as [I1 I2].
  assert (E : N.eqb a c = false) by (apply N.eqb_neq; intros ->; apply Hn; now left). split.
  - cbn [containsb]. rewrite I1, orb_false_r. change (prefixb [a; b] (c :: x)) with (N.eqb a c && prefixb [b] x)%bool. now rewrite E.
  - destruct x; [exact E | exact I2].
Qed.
Definition GTS : str := [62; 32]%N.
Section Clean.
Variable tags : list str.
Hypothesis tags_ok : Forall tag_ok tags.

Definition token_in (k : token) : Prop := match k with Opn t | Cls t => In t tags | _ => True end.
Lemma begins_app : forall b x y, x <> [] -> begins b (x ++ y) = begins b x.
Proof. intros b [|c x] y Hn; [congruence | reflexivity]. Qed.
(** ** Patterns that begin with a closing tag *)
Lemma prefix_X : forall t l more, In t tags -> Forall (piece_ok tags) l ->
  prefixb (box (47%N :: t) ++ more) (render l) = match l with p :: r => isX t p && prefixb more (render r) | [] => false end.
Proof.
  intros t l more Ht H. pose proof (prefix_words (47%N :: t) (map word l) (proj2 (tag_boxable tags tags_ok t Ht)) (words_okay tags tags_ok l H)) as P. fold (render l) in P.
  destruct l as [|p r]; [apply prefixb_app_false; exact P|]. cbn [map] in P. apply Forall_cons_iff in H as [Hp Hr]. rewrite (word_close tags tags_ok t p Ht Hp) in P.
  destruct (isX t p) eqn:E; cbn [andb].
  - rewrite prefixb_app_r by exact P. f_equal. destruct p; try discriminate. cbn [isX] in E. apply str_eqb_eq in E. subst t0. rewrite render_cons. cbn [word]. apply skipn_app_len.
  - now apply prefixb_app_false.
Qed.
Lemma prefix_O : forall t l, In t tags -> Forall (piece_ok tags) l -> prefixb (box t) (render l) = match l with p :: _ => isO t p | [] => false end.
Proof.
  intros t l Ht H. pose proof (prefix_words t (map word l) (proj1 (tag_boxable tags tags_ok t Ht)) (words_okay tags tags_ok l H)) as P. fold (render l) in P.
  destruct l as [|p r]; [exact P|]. cbn [map] in P. apply Forall_cons_iff in H as [Hp _]. now rewrite (word_open tags tags_ok t p Ht Hp) in P.
Qed.
Lemma prefix_B : forall l more, Forall (piece_ok tags) l -> prefixb (10%N :: more) (render l) = match l with PB :: r => prefixb more (render r) | _ => false end.
Proof.
  intros l more H. destruct l as [|p r]; [reflexivity|]. apply Forall_cons_iff in H as [Hp _]. rewrite render_cons. destruct p; try reflexivity.
  cbn [word app prefixb piece_ok] in *. rewrite (proj2 (N.eqb_neq 10 c)) by (intros <-; now apply (proj2 Hp)). reflexivity.
Qed.
Lemma skip_word2 : forall x more new w r, word_ok w -> prefixb (box x ++ more) (w ++ r) = false -> replace (box x ++ more) new (w ++ r) = w ++ replace (box x ++ more) new r.
Proof. intros x more new w r. exact (skip_word new ((x ++ [93%N]) ++ more) w r). Qed.
(** the words are skipped where the pattern does not occur *)
Lemma skip_pieces : forall t more new m l, In t tags -> Forall (piece_ok tags) m -> forallb (fun p => negb (isX t p)) m = true -> Forall (piece_ok tags) l ->
  replace (box (47%N :: t) ++ more) new (render (m ++ l)) = render m ++ replace (box (47%N :: t) ++ more) new (render l).
Proof.
  intros t more new m l Ht Hm Hx Hl. induction m as [|p m IH]; [reflexivity|]. apply Forall_cons_iff in Hm as [Hp Hm]. cbn [forallb] in Hx. apply andb_true_iff in Hx as [Hx1 Hx2]. apply negb_true_iff in Hx1.
  change ((p :: m) ++ l) with (p :: m ++ l). rewrite !render_cons. rewrite <- app_assoc, <- IH by assumption. apply skip_word2.
  - now apply (word_okay tags tags_ok).
  - assert (K : Forall (piece_ok tags) (p :: m ++ l)) by (constructor; [exact Hp|]; apply Forall_app; now split).
    pose proof (prefix_X t (p :: m ++ l) more Ht K) as P. cbv iota in P. rewrite Hx1 in P. cbn [andb] in P. rewrite render_cons in P. exact P.
Qed.
Lemma skip_piece : forall t more new p l, In t tags -> Forall (piece_ok tags) (p :: l) -> isX t p && prefixb more (render l) = false ->
  replace (box (47%N :: t) ++ more) new (render (p :: l)) = word p ++ replace (box (47%N :: t) ++ more) new (render l).
Proof.
  intros t more new p l Ht H E. rewrite render_cons. apply skip_word2.
  - apply Forall_inv in H. now apply (word_okay tags tags_ok).
  - pose proof (prefix_X t (p :: l) more Ht H) as P. cbv iota in P. rewrite E in P. rewrite render_cons in P. exact P.
Qed.
Lemma never_replaced : forall t more new l, In t tags -> Forall (piece_ok tags) l -> (forall a b p, l = a ++ p :: b -> isX t p && prefixb more (render b) = false) ->
  replace (box (47%N :: t) ++ more) new (render l) = render l.
Proof.
  intros t more new l Ht. induction l as [|p l IH]; intros H N0; [reflexivity|]. rewrite skip_piece; [| exact Ht | exact H | exact (N0 [] l p eq_refl)]. rewrite render_cons. f_equal. apply IH; [now apply Forall_inv_tail in H|].
  intros a b q E. apply (N0 (p :: a) b q). now rewrite E.
Qed.

Lemma head_O : forall f t open r p l, spread f open r = p :: l -> isO t p = true -> exists r', r = Opn t :: r'.
Proof.
  intros f t open r p l E H. destruct r as [|k r]; [discriminate|]. destruct k; cbn [spread pieces1 app] in E; try (injection E as <- _; discriminate).
  - destruct open as [|u open]; [injection E as <- _; discriminate|]. destruct (f u); injection E as <- _; discriminate.
  - injection E as <- _. cbn [isO] in H. apply str_eqb_eq in H. subst. eauto.
Qed.
Lemma head_BO : forall f t open r p l, spread f open r = PB :: p :: l -> isO t p = true -> exists r', r = Brk :: Opn t :: r'.
Proof.
  intros f t open r p l E H. destruct r as [|k r]; [discriminate|]. destruct k; cbn [spread pieces1 app] in E; try discriminate.
  assert (G : spread f open r = p :: l) by (destruct open as [|u open]; [now injection E|]; destruct (f u); [discriminate | now injection E]).
  destruct (head_O f t open r p l G H) as [r' ->]. eauto.
Qed.
Lemma spread_ok : forall f ks open, Forall (piece_ok tags) (pieces ks) -> incl open tags -> well_tagged open ks = true -> Forall (piece_ok tags) (spread f open ks).
Proof.
  intros f. induction ks as [|k ks IH]; intros open H Ho W; [constructor|]. change (pieces (k :: ks)) with (pieces1 k ++ pieces ks) in H. apply Forall_app in H as [H1 H2].
  destruct k as [c | | t | t | w | t]; cbn [spread well_tagged] in *.
  - apply Forall_app. split; [exact H1 | now apply IH].
  - assert (W' : well_tagged open ks = true) by (destruct open as [|u [|v open]]; try discriminate; [exact W | now apply andb_true_iff in W]). apply Forall_app. split; [|now apply IH].
    destruct open as [|u open]; [exact H1|]. destruct (f u); [|exact H1]. assert (Hu : In u tags) by (apply Ho; now left). repeat constructor; exact Hu.
  - apply andb_true_iff in W as [_ W]. constructor; [now apply Forall_inv in H1|]. apply IH; [exact H2 | | exact W]. apply Forall_inv in H1. intros x [<- | Hx]; [exact H1 | now apply Ho].
  - destruct open as [|u open]; [discriminate|]. apply andb_true_iff in W as [_ W]. constructor; [now apply Forall_inv in H1|]. apply IH; [exact H2 | intros x Hx; apply Ho; now right | exact W].
  - apply andb_true_iff in W as [_ W]. apply Forall_app. split; [exact H1 | now apply IH].
  - apply andb_true_iff in W as [_ W]. apply Forall_app. split; [exact H1 | now apply IH].
Qed.
Definition minus (f : str -> bool) (t : str) : str -> bool := fun u => f u && negb (str_eqb t u).
Lemma not_X : forall t l, forallb neutral l = true -> forallb (fun p => negb (isX t p)) l = true.
Proof. intros t l H. apply forallb_forall. intros p Hp. rewrite forallb_forall in H. specialize (H p Hp). destruct p; try discriminate; reflexivity. Qed.
(** step by step through the tokens: a pattern that begins with a closing tag, and what becomes of the text *)
Lemma walk : forall (f f' : str -> bool) (t more new : str), In t tags ->
  (forall (u : str) (l : list piece), f u = true -> Forall (piece_ok tags) (PX u :: PB :: PO u :: l) -> In u tags ->
     replace (box (47%N :: t) ++ more) new (render (PX u :: PB :: PO u :: l)) = render (if f' u then [PX u; PB; PO u] else [PB]) ++ replace (box (47%N :: t) ++ more) new (render l)) ->
  (forall u, f u = false -> f' u = false) ->
  (forall (open : list str) (r : list token) (v : str), well_tagged open r = true -> Forall (piece_ok tags) (spread f open r) -> reopened v r = false ->
     isX t (PX v) && prefixb more (render (spread f open r)) = false) ->
  forall ks open, Forall (piece_ok tags) (pieces ks) -> incl open tags -> well_tagged open ks = true ->
  replace (box (47%N :: t) ++ more) new (render (spread f open ks)) = render (spread f' open ks).
Proof.
  intros f f' t more new Ht Hb Hf Hc. induction ks as [|k ks IH]; intros open H Ho W; [reflexivity|]. pose proof (spread_ok f (k :: ks) open H Ho W) as SK.
  change (pieces (k :: ks)) with (pieces1 k ++ pieces ks) in H. apply Forall_app in H as [H1 H2].
  assert (Skip : forall open', spread f open (k :: ks) = pieces1 k ++ spread f open' ks -> spread f' open (k :: ks) = pieces1 k ++ spread f' open' ks -> forallb (fun p => negb (isX t p)) (pieces1 k) = true ->
    incl open' tags -> well_tagged open' ks = true -> replace (box (47%N :: t) ++ more) new (render (spread f open (k :: ks))) = render (spread f' open (k :: ks))).
  { intros open' E1 E2 Nx Ho' W'. rewrite E1, E2. rewrite E1 in SK. apply Forall_app in SK as [_ SK]. rewrite skip_pieces by assumption. rewrite IH by assumption. now rewrite render_app. }
  destruct k as [c | | u | u | w | u]; cbn [well_tagged] in W.
  - apply (Skip open); try reflexivity; assumption.
  - assert (W' : well_tagged open ks = true) by (destruct open as [|u [|v open]]; try discriminate; [exact W | now apply andb_true_iff in W]).
    destruct open as [|u open]; [apply (Skip []); try reflexivity; assumption|]. destruct (f u) eqn:Fu.
    + clear Skip. cbn [spread] in *. rewrite Fu in *. cbn [app] in SK |- *. rewrite (Hb u _ Fu SK) by (apply Ho; now left). rewrite IH by assumption. rewrite render_app. reflexivity.
    + apply (Skip (u :: open)); try assumption; try reflexivity; cbn [spread]; [now rewrite Fu | now rewrite (Hf u Fu)].
  - apply andb_true_iff in W as [_ W]. apply (Skip (u :: open)); try reflexivity; [|exact W]. intros x [<- | Hx]; [now apply Forall_inv in H1 | now apply Ho].
  - clear Skip. destruct open as [|x open]; [discriminate|]. apply andb_true_iff in W as [W W2]. apply andb_true_iff in W as [_ W1]. cbn [spread tl] in *.
    rewrite skip_piece; [| exact Ht | exact SK |]; [rewrite IH by (try assumption; intros y Hy; apply Ho; now right); now rewrite render_cons|].
    apply Hc; [exact W2 | now apply Forall_inv_tail in SK|]. now apply negb_true_iff.
  - apply andb_true_iff in W as [_ W]. apply (Skip open); try reflexivity; assumption.
  - apply andb_true_iff in W as [W W2]. apply andb_true_iff in W as [W _]. apply andb_true_iff in W as [W _]. apply negb_true_iff in W. apply (Skip open); try reflexivity; try assumption.
    apply not_X. cbn [pieces1 forallb neutral andb]. rewrite forallb_app, (neutral_notes u W). reflexivity.
Qed.
Lemma three : forall t u more new l, In t tags -> In u tags -> Forall (piece_ok tags) (PX u :: PB :: PO u :: l) -> isX t (PX u) && prefixb more (render (PB :: PO u :: l)) = false ->
  replace (box (47%N :: t) ++ more) new (render (PX u :: PB :: PO u :: l)) = render [PX u; PB; PO u] ++ replace (box (47%N :: t) ++ more) new (render l).
Proof.
  intros t u more new l Ht Hu H E. rewrite skip_piece by assumption. apply Forall_inv_tail in H. change (PB :: PO u :: l) with ([PB; PO u] ++ l). rewrite skip_pieces; try assumption; try reflexivity.
  - change (render [PX u; PB; PO u]) with (render ([PX u] ++ [PB; PO u])). rewrite (render_app [PX u]). rewrite <- app_assoc. f_equal. unfold render. cbn [map concat]. now rewrite app_nil_r.
  - repeat constructor. exact Hu.
  - do 2 apply Forall_inv_tail in H. exact H.
Qed.
(** [/t][t] does not occur *)
Lemma clean_a : forall f t ks, In t tags -> Forall (piece_ok tags) (pieces ks) -> well_tagged [] ks = true ->
  replace (box (47%N :: t) ++ box t) [] (render (spread f [] ks)) = render (spread f [] ks).
Proof.
  intros f t ks Ht H W. apply walk; try assumption; [| tauto | |intros x []].
  - intros u l Fu K Hu. rewrite Fu. apply three; try assumption. rewrite prefix_O; [| exact Ht | now apply Forall_inv_tail in K]. cbn [isO]. apply andb_false_r.
  - intros open r v W1 K E. destruct (isX t (PX v)) eqn:X; [|reflexivity]. cbn [isX] in X. apply str_eqb_eq in X. subst v. cbn [andb]. rewrite prefix_O by assumption.
    destruct (spread f open r) as [|p l] eqn:S; [reflexivity|]. destruct (isO t p) eqn:O; [|reflexivity]. destruct (head_O f t open r p l S O) as [r' ->]. cbn [reopened] in E. rewrite str_eqb_refl in E. discriminate.
Qed.
(** [/t] [t] around a line break vanish *)
Lemma clean_b : forall f t ks, In t tags -> Forall (piece_ok tags) (pieces ks) -> well_tagged [] ks = true ->
  replace (box (47%N :: t) ++ [10%N] ++ box t) [10%N] (render (spread f [] ks)) = render (spread (minus f t) [] ks).
Proof.
  intros f t ks Ht H W. apply walk; try assumption; [| |  |intros x []].
  - intros u l Fu K Hu. unfold minus. rewrite Fu. destruct (str_eqb t u) eqn:E; cbn [andb negb].
    + apply str_eqb_eq in E. subst u. change (render (PX t :: PB :: PO t :: l)) with (box (47%N :: t) ++ [10%N] ++ box t ++ render l). rewrite !app_assoc. rewrite <- (app_assoc _ [10%N] (box t)). rewrite replace_hit by discriminate. reflexivity.
    + apply three; try assumption. cbn [isX]. rewrite str_eqb_sym, E. reflexivity.
  - intros u Fu. unfold minus. now rewrite Fu.
  - intros open r v W1 K E. destruct (isX t (PX v)) eqn:X; [|reflexivity]. cbn [isX] in X. apply str_eqb_eq in X. subst v. cbn [andb].
    change ([10%N] ++ box t) with (10%N :: box t). rewrite prefix_B by assumption. destruct (spread f open r) as [|q l] eqn:S; [reflexivity|]. destruct q; try reflexivity.
    rewrite prefix_O; [| exact Ht | now apply Forall_inv_tail in K]. destruct l as [|p l]; [reflexivity|]. destruct (isO t p) eqn:O; [|reflexivity]. destruct (head_BO f t open r p l S O) as [r' ->]. cbn [reopened] in E. rewrite str_eqb_refl in E. discriminate.
Qed.
(** [/t] [t] around the beginning of a quotation do not occur *)
Lemma head_C : forall f c open r l, spread f open r = PC c :: l -> exists r', r = Chr c :: r' /\ l = spread f open r'.
Proof.
  intros f c open r l E. destruct r as [|k r]; [discriminate|]. destruct k; cbn [spread pieces1 app] in E; try discriminate.
  - injection E as -> <-. eauto.
  - destruct open as [|u open]; [discriminate|]. destruct (f u); discriminate.
Qed.
Lemma head_B : forall f open r l, spread f open r = PB :: l -> exists r', r = Brk :: r' /\ l = spread f open r'.
Proof.
  intros f open r l E. destruct r as [|k r]; [discriminate|]. destruct k; cbn [spread pieces1 app] in E; try discriminate.
  destruct open as [|u open]; [injection E as <-; eauto|]. destruct (f u); [discriminate|]. injection E as <-. eauto.
Qed.
Lemma prefix_C : forall l c more, ~ In c [91; 47; 42]%N -> Forall (piece_ok tags) l -> prefixb (c :: more) (render l) = true -> c <> 10%N -> exists r, l = PC c :: r /\ prefixb more (render r) = true.
Proof.
  intros l c more Hc H P Hn. destruct l as [|p r]; [discriminate|]. rewrite render_cons in P. destruct p as [d | | t | t | w | |]; cbn [word] in P; unfold box in P; cbn [app prefixb] in P; apply andb_true_iff in P as [P1 P2]; apply N.eqb_eq in P1.
  - subst d. exists r. split; [reflexivity | exact P2].
  - congruence.
  - subst c. exfalso. apply Hc. now left.
  - subst c. exfalso. apply Hc. now left.
  - subst c. exfalso. apply Hc. now left.
  - subst c. exfalso. apply Hc. right. now left.
  - subst c. exfalso. apply Hc. do 2 right. now left.
Qed.
Lemma clean_c : forall f t ks new, In t tags -> Forall (piece_ok tags) (pieces ks) -> well_tagged [] ks = true ->
  replace (box (47%N :: t) ++ [10%N] ++ s "> " ++ box t) new (render (spread f [] ks)) = render (spread f [] ks).
Proof.
  intros f t ks new Ht H W. apply walk; try assumption; [| tauto | |intros x []].
  - intros u l Fu K Hu. rewrite Fu. apply three; try assumption. change ([10%N] ++ s "> " ++ box t) with (10%N :: s "> " ++ box t). rewrite prefix_B by now apply Forall_inv_tail in K.
    rewrite render_cons. change (word (PO u)) with (box u). change (prefixb (s "> " ++ box t) (box u ++ render l)) with false. apply andb_false_r.
  - intros open r v W1 K E. destruct (isX t (PX v)) eqn:X; [|reflexivity]. cbn [isX] in X. apply str_eqb_eq in X. subst v. cbn [andb].
    change ([10%N] ++ s "> " ++ box t) with (10%N :: s "> " ++ box t). rewrite prefix_B by assumption. destruct (spread f open r) as [|q l] eqn:S; [reflexivity|]. destruct q; try reflexivity.
    destruct (prefixb (s "> " ++ box t) (render l)) eqn:P; [|reflexivity]. exfalso. apply Forall_inv_tail in K.
    change (s "> " ++ box t) with (62%N :: 32%N :: box t) in P. apply prefix_C in P as [l1 [-> P]]; [| intros [A | [A | [A | []]]]; discriminate | exact K | discriminate]. apply Forall_inv_tail in K.
    apply prefix_C in P as [l2 [-> P]]; [| intros [A | [A | [A | []]]]; discriminate | exact K | discriminate]. apply Forall_inv_tail in K. rewrite prefix_O in P by assumption. destruct l2 as [|p l2]; [discriminate|].
    apply head_B in S as [r1 [-> S]]. symmetry in S. apply head_C in S as [r2 [-> S]]. symmetry in S. apply head_C in S as [r3 [-> S]]. symmetry in S. destruct (head_O f t open r3 p l2 S P) as [r4 ->]. cbn [reopened] in E. rewrite str_eqb_refl in E. discriminate.
Qed.
Lemma cleanup_step : forall f t ks, In t tags -> Forall (piece_ok tags) (pieces ks) -> well_tagged [] ks = true ->
  cleanup_tag (render (spread f [] ks)) t = render (spread (minus f t) [] ks).
Proof.
  intros f t ks Ht H W. unfold cleanup_tag. change (s "[" ++ t ++ s "]") with (box t). change (s "[/" ++ t ++ s "]") with (box (47%N :: t)).
  rewrite clean_a by assumption. rewrite clean_b by assumption. now apply clean_c.
Qed.
Lemma cleanup_all : forall ts f ks, incl ts tags -> Forall (piece_ok tags) (pieces ks) -> well_tagged [] ks = true ->
  fold_left cleanup_tag ts (render (spread f [] ks)) = render (spread (fold_left minus ts f) [] ks).
Proof.
  induction ts as [|t ts IH]; intros f ks Hi H W; [reflexivity|]. cbn [fold_left]. rewrite cleanup_step by (try assumption; apply Hi; now left). apply IH; try assumption. intros x Hx. apply Hi. now right.
Qed.
Lemma fold_minus : forall ts f u, fold_left minus ts f u = f u && negb (smem u ts).
Proof.
  induction ts as [|t ts IH]; intros f u; [cbn; now rewrite andb_true_r|]. cbn [fold_left]. rewrite IH. unfold minus. rewrite <- andb_assoc. f_equal. unfold smem. cbn [existsb]. rewrite negb_orb. now rewrite (str_eqb_sym t u).
Qed.
End Clean.

Lemma spread_used : forall f ks open, (forall t, In (Opn t) ks -> f t = false) -> Forall (fun t => f t = false) open -> spread f open ks = pieces ks.
Proof.
  intros f ks. induction ks as [|k ks IH]; intros open Hf Ho; [reflexivity|]. assert (Hf2 : forall t, In (Opn t) ks -> f t = false) by (intros t Hi; apply Hf; now right).
  unfold pieces in *. cbn [flat_map spread]. destruct k; cbn [pieces1 app]; try now rewrite IH.
  - rewrite IH by assumption. destruct open as [|u open]; [reflexivity|]. apply Forall_inv in Ho. now rewrite Ho.
  - rewrite IH; [reflexivity | exact Hf2|]. constructor; [apply Hf; now left | exact Ho].
  - rewrite IH; [reflexivity | exact Hf2|]. destruct open; [exact Ho | now apply Forall_inv_tail in Ho].
Qed.

Lemma reopened_snoc : forall t ks, reopened t (ks ++ [Brk]) = reopened t ks.
Proof.
  intros t ks. destruct ks as [|k1 ks]; [reflexivity|]. destruct k1; try reflexivity. destruct ks as [|k2 ks]; [reflexivity|]. destruct k2; try reflexivity.
  destruct ks as [|k3 ks]; [reflexivity|]. destruct k3; try reflexivity. destruct ks as [|k4 ks]; [reflexivity|]. destruct k4; reflexivity.
Qed.
Lemma well_snoc : forall ks open, well_tagged open ks = true -> well_tagged open (ks ++ [Brk]) = true.
Proof.
  induction ks as [|k ks IH]; intros open W; [destruct open; [reflexivity | discriminate]|]. cbn [app]. destruct k as [c | | t | t | w | t]; cbn [well_tagged] in *.
  - now apply IH.
  - destruct open as [|u [|v open]]; [now apply IH | | discriminate]. apply andb_true_iff in W as [W1 W2]. rewrite (IH _ W2), andb_true_r. destruct ks as [|k ks]; [discriminate|]. exact W1.
  - apply andb_true_iff in W as [W W2]. rewrite (IH _ W2), andb_true_r. apply andb_true_iff in W as [W W1]. rewrite W. cbn [andb]. destruct ks as [|k ks]; [discriminate|]. exact W1.
  - destruct open as [|u open]; [discriminate|]. apply andb_true_iff in W as [W W2]. rewrite (IH _ W2), andb_true_r. apply andb_true_iff in W as [W W1]. rewrite W. cbn [andb]. now rewrite reopened_snoc.
  - apply andb_true_iff in W as [W W2]. now rewrite (IH _ W2), W.
  - apply andb_true_iff in W as [W W2]. now rewrite (IH _ W2), W.
Qed.
Lemma rstrip_feed : forall t, rstrip (t ++ [10%N]) = rstrip t.
Proof. intro t. rewrite rstrip_snoc. reflexivity. Qed.
Definition opened (ls : list str) (ks : list token) : Prop := forall l, In (Opn (s "lang=" ++ l)) ks -> In l ls.
Theorem cleaned : forall author languages ls ks, names_ok author languages -> forallb (token_ok languages) ks = true -> well_tagged [] ks = true ->
  rstrip (typed ks) = typed ks -> incl ls languages -> opened ls ks ->
  rstrip (cleanup_scene ls (render (spread everywhere [] ks) ++ [10%N])) = typed ks.
Proof.
  intros author languages ls ks Hn Hk W R Hi Ho. unfold cleanup_scene. change ([s "i"; s "b"] ++ map (fun l => s "lang=" ++ l) ls) with (tags_of ls).
  assert (Kt : forallb (token_ok languages) (ks ++ [Brk]) = true) by (rewrite forallb_app, Hk; reflexivity).
  pose proof (well_snoc ks [] W) as W2. change (render (spread everywhere [] ks) ++ [10%N]) with (render (spread everywhere [] ks) ++ word PB). rewrite <- (render_snoc (spread everywhere [] ks) PB), <- (well_end ks [] W2).
  rewrite (cleanup_all (tags_of languages)).
  - rewrite spread_used; [|intros t Ht; rewrite fold_minus | constructor].
    + rewrite <- typed_pieces, typed_snoc. cbn [typed1]. rewrite rstrip_feed. exact R.
    + apply in_app_iff in Ht as [Ht | [Ht | []]]; [|discriminate]. rewrite forallb_forall in Hk. specialize (Hk _ Ht) as Ht2. cbn [token_ok] in Ht2. apply smem_In in Ht2.
      assert (G : smem t (tags_of ls) = true); [|rewrite G; apply andb_false_r]. apply smem_In. destruct Ht2 as [<- | [<- | Ht2]]; [now left | right; now left|]. right. right.
      apply in_map_iff in Ht2 as [l [<- Hl]]. apply in_map_iff. exists l. split; [reflexivity | now apply Ho].
  - exact (FormatXml.tags_ok _ (tags_plain author languages Hn)).
  - intros t Ht. destruct Ht as [<- | [<- | Ht]]; [now left | right; now left|]. right. right. apply in_map_iff in Ht as [l [<- Hl]]. apply in_map_iff. exists l. split; [reflexivity | now apply Hi].
  - pose proof (xpiece_tokens languages (ks ++ [Brk]) Kt) as X. eapply Forall_impl; [|exact X]. intros p. apply xpiece_ok.
  - exact W2.
Qed.
