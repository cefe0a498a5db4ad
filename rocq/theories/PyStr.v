(** Python strings.

    Trusted modelling layer (no source file of its own): the behaviour of the CPython [str]
    methods that PyWriter calls.  A string is the list of its Unicode code points. *)
From Coq Require Import Ascii String.
From Coq Require Import List NArith ZArith Bool Lia Arith.
From Coq Require Decimal DecimalN DecimalPos.

Import ListNotations.
Export String.StringSyntax.

Definition str := list N.

(** Literals: [s "abc"] is the Python literal 'abc' (ASCII only). *)
Definition s (x : string) : str := map N_of_ascii (list_ascii_of_string x).
Arguments s _%string_scope.

(** == on strings *)
Fixpoint str_eqb (a b : str) : bool :=
  match a, b with
  | [], [] => true
  | x :: a', y :: b' => N.eqb x y && str_eqb a' b'
  | _, _ => false
  end.

Lemma str_eqb_eq : forall a b, str_eqb a b = true <-> a = b.
Proof.
  induction a as [|x a IH]; destruct b as [|y b]; simpl; split; intro H; try easy.
  - apply andb_true_iff in H as [H1 H2]. apply N.eqb_eq in H1. apply IH in H2. subst; reflexivity.
  - injection H as -> ->. rewrite N.eqb_refl; simpl. apply IH; reflexivity.
Qed.

Lemma str_eqb_refl : forall a, str_eqb a a = true.
Proof. intro a. apply str_eqb_eq. reflexivity. Qed.

Lemma str_eqb_neq : forall a b, str_eqb a b = false <-> a <> b.
Proof.
  intros a b. destruct (str_eqb a b) eqn:E; split; intro H; try easy.
  - apply str_eqb_eq in E. contradiction.
  - intro Hab. apply str_eqb_eq in Hab. congruence.
Qed.

Lemma str_eqb_sym : forall a b, str_eqb a b = str_eqb b a.
Proof.
  intros a b. destruct (str_eqb a b) eqn:E.
  - apply str_eqb_eq in E. subst. symmetry. apply str_eqb_refl.
  - symmetry. apply str_eqb_neq. apply str_eqb_neq in E. congruence.
Qed.

Lemma str_eq_dec : forall a b : str, {a = b} + {a <> b}.
Proof. intros a b. destruct (str_eqb a b) eqn:E; [left; now apply str_eqb_eq | right; now apply str_eqb_neq]. Defined.

(** x in list-of-strings *)
Definition smem (x : str) (l : list str) : bool := existsb (str_eqb x) l.

Lemma smem_In : forall x l, smem x l = true <-> In x l.
Proof.
  intros x l. unfold smem. rewrite existsb_exists. split.
  - intros [y [Hy E]]. apply str_eqb_eq in E. subst; exact Hy.
  - intro H. exists x. split; [exact H | apply str_eqb_refl].
Qed.

Lemma smem_false : forall x l, smem x l = false <-> ~ In x l.
Proof.
  intros x l. rewrite <- smem_In. destruct (smem x l); split; intro H; try easy.
Qed.

(** Python truth value of a string *)
Definition truthy (t : str) : bool := match t with [] => false | _ => true end.

(** truth value of an attribute that is None or a string *)
Definition otruthy (t : option str) : bool := match t with Some (_ :: _) => true | _ => false end.

(** str.startswith *)
Fixpoint prefixb (p t : str) : bool :=
  match p, t with
  | [], _ => true
  | x :: p', y :: t' => N.eqb x y && prefixb p' t'
  | _ :: _, [] => false
  end.

Lemma prefixb_spec : forall p t, prefixb p t = true <-> exists r, t = p ++ r.
Proof.
  induction p as [|x p IH]; intro t; simpl.
  - split; intro H; [exists t; reflexivity | reflexivity].
  - destruct t as [|y t]; [split; [easy | intros [r Hr]; discriminate] |].
    rewrite andb_true_iff, N.eqb_eq, IH. split.
    + intros [-> [r ->]]. exists r. reflexivity.
    + intros [r Hr]. injection Hr as -> ->. split; [reflexivity | exists r; reflexivity].
Qed.

Lemma prefixb_app : forall p r, prefixb p (p ++ r) = true.
Proof. intros p r. apply prefixb_spec. exists r. reflexivity. Qed.

Lemma prefixb_app_long : forall p t r, length p <= length t -> prefixb p (t ++ r) = prefixb p t.
Proof.
  induction p as [|x p IH]; intros t r H; [reflexivity|].
  destruct t as [|y t]; simpl in *; [lia|]. rewrite IH by lia. reflexivity.
Qed.

(** str.endswith *)
Definition suffixb (p t : str) : bool := prefixb (rev p) (rev t).

Lemma suffixb_spec : forall p t, suffixb p t = true <-> exists r, t = r ++ p.
Proof.
  intros p t. unfold suffixb. rewrite prefixb_spec. split; intros [r Hr].
  - exists (rev r). rewrite <- (rev_involutive t), Hr, rev_app_distr, rev_involutive. reflexivity.
  - exists (rev r). subst. rewrite rev_app_distr. reflexivity.
Qed.

(** substring test: p in t *)
Fixpoint containsb (p t : str) : bool :=
  prefixb p t || match t with [] => false | _ :: t' => containsb p t' end.

Lemma containsb_spec : forall p t, containsb p t = true <-> exists a b, t = a ++ p ++ b.
Proof.
  intros p t. induction t as [|y t IH]; simpl.
  - rewrite orb_false_r, prefixb_spec. split.
    + intros [r Hr]. exists [], r. exact Hr.
    + intros [a [b Hab]]. destruct a; [exists b; exact Hab | discriminate].
  - rewrite orb_true_iff, IH, prefixb_spec. split.
    + intros [[r Hr] | [a [b Hab]]].
      * exists [], r. exact Hr.
      * exists (y :: a), b. subst. reflexivity.
    + intros [a [b Hab]]. destruct a as [|z a].
      * left. exists b. exact Hab.
      * right. injection Hab as -> ->. exists a, b. reflexivity.
Qed.

(** str.replace(old, new), old non-empty: leftmost non-overlapping occurrences *)
Fixpoint replace_go (old new : str) (skip : nat) (t : str) : str :=
  match t with
  | [] => []
  | c :: t' =>
      match skip with
      | S k => replace_go old new k t'
      | O => if prefixb old t then new ++ replace_go old new (length old - 1) t'
             else c :: replace_go old new 0 t'
      end
  end.
Definition replace (old new t : str) : str := replace_go old new 0 t.

Lemma replace_go_skip : forall old new p t, replace_go old new (length p) (p ++ t) = replace_go old new 0 t.
Proof. induction p as [|x p IH]; intro t; simpl; [reflexivity | apply IH]. Qed.

Lemma replace_nil : forall old new, replace old new [] = [].
Proof. reflexivity. Qed.

Lemma replace_hit : forall old new t, old <> [] -> replace old new (old ++ t) = new ++ replace old new t.
Proof.
  intros old new t H. destruct old as [|x p]; [congruence|].
  unfold replace. change ((x :: p) ++ t) with (x :: (p ++ t)). cbn [replace_go].
  change (x :: p ++ t) with ((x :: p) ++ t). rewrite prefixb_app.
  cbn [length]. rewrite Nat.sub_succ, Nat.sub_0_r. rewrite replace_go_skip. reflexivity.
Qed.

Lemma replace_miss : forall old new c t, prefixb old (c :: t) = false ->
  replace old new (c :: t) = c :: replace old new t.
Proof. intros old new c t H. unfold replace. cbn [replace_go]. rewrite H. reflexivity. Qed.

Lemma replace_absent : forall old new t, containsb old t = false -> replace old new t = t.
Proof.
  intros old new t. induction t as [|c t IH]; intro H; [reflexivity|].
  cbn [containsb] in H. apply orb_false_iff in H as [H1 H2].
  rewrite replace_miss by exact H1. rewrite IH by exact H2. reflexivity.
Qed.

(** single-character patterns act like a map *)
Lemma replace_char : forall c new t,
  replace [c] new t = flat_map (fun x => if N.eqb c x then new else [x]) t.
Proof.
  intros c new t. induction t as [|x t IH]; [reflexivity|].
  cbn [flat_map]. destruct (N.eqb c x) eqn:E.
  - apply N.eqb_eq in E. subst x.
    change (c :: t) with ([c] ++ t). rewrite replace_hit by discriminate. rewrite IH. reflexivity.
  - rewrite replace_miss by (simpl; rewrite E; reflexivity). rewrite IH. reflexivity.
Qed.

(** str.split(sep), sep non-empty.  [split_go] returns the pieces, the first being extended by the caller. *)
Fixpoint split_go (sep : str) (skip : nat) (t : str) : list str :=
  match t with
  | [] => [[]]
  | c :: t' =>
      match skip with
      | S k => split_go sep k t'
      | O => if prefixb sep t then [] :: split_go sep (length sep - 1) t'
             else match split_go sep 0 t' with
                  | [] => [[c]]            (* unreachable: split_go never returns [] *)
                  | p :: ps => (c :: p) :: ps
                  end
      end
  end.
Definition split (sep t : str) : list str := split_go sep 0 t.

(** the one-character case written directly *)
Fixpoint splitc (c : N) (t : str) : list str :=
  match t with
  | [] => [[]]
  | x :: t' =>
      if N.eqb c x then [] :: splitc c t'
      else match splitc c t' with
           | [] => [[x]]
           | p :: ps => (x :: p) :: ps
           end
  end.

Lemma split_splitc : forall c t, split [c] t = splitc c t.
Proof.
  intros c t. unfold split. induction t as [|x t IH]; [reflexivity|].
  cbn [split_go splitc prefixb length Nat.sub]. rewrite andb_true_r.
  destruct (N.eqb c x); rewrite IH; reflexivity.
Qed.

Lemma splitc_nonempty : forall c t, splitc c t <> [].
Proof.
  intros c t. destruct t as [|x t]; simpl; [discriminate|].
  destruct (N.eqb c x); [discriminate|]. destruct (splitc c t); discriminate.
Qed.

(** sep.join(l) *)
Fixpoint join (sep : str) (l : list str) : str :=
  match l with
  | [] => []
  | [x] => x
  | x :: l' => x ++ sep ++ join sep l'
  end.

Lemma join_cons : forall sep x l, l <> [] -> join sep (x :: l) = x ++ sep ++ join sep l.
Proof. intros sep x l H. destruct l; [congruence | reflexivity]. Qed.

Lemma join_splitc : forall c t, join [c] (splitc c t) = t.
Proof.
  intros c t. induction t as [|x t IH]; [reflexivity|].
  cbn [splitc]. destruct (N.eqb c x) eqn:E.
  - apply N.eqb_eq in E. subst x. rewrite join_cons by apply splitc_nonempty. rewrite IH. reflexivity.
  - destruct (splitc c t) as [|p ps] eqn:Es; [now apply splitc_nonempty in Es|].
    destruct ps as [|q ps].
    + simpl in *. rewrite IH. reflexivity.
    + rewrite join_cons in * by discriminate. rewrite <- IH. reflexivity.
Qed.

Lemma splitc_pieces : forall c t p, In p (splitc c t) -> ~ In c p.
Proof.
  intros c t. induction t as [|x t IH]; intros p H.
  - destruct H as [<- | []]. intros [].
  - cbn [splitc] in H. destruct (N.eqb c x) eqn:E.
    + destruct H as [<- | H]; [intros [] | now apply IH].
    + destruct (splitc c t) as [|q qs] eqn:Es; [now apply splitc_nonempty in Es|].
      destruct H as [<- | H].
      * intros [Hx | Hq]; [subst; now rewrite N.eqb_refl in E | exact (IH q (or_introl eq_refl) Hq)].
      * apply IH. right; exact H.
Qed.

Lemma splitc_app_sep : forall c a t, ~ In c a -> splitc c (a ++ c :: t) = a :: splitc c t.
Proof.
  intros c a t. induction a as [|x a IH]; intro H.
  - simpl. rewrite N.eqb_refl. reflexivity.
  - cbn [app splitc]. destruct (N.eqb c x) eqn:E.
    + apply N.eqb_eq in E. subst. elim H. left; reflexivity.
    + rewrite IH by (intro Hi; apply H; right; exact Hi). reflexivity.
Qed.

Lemma splitc_nosep : forall c a, ~ In c a -> splitc c a = [a].
Proof.
  intros c a. induction a as [|x a IH]; intro H; [reflexivity|].
  cbn [splitc]. destruct (N.eqb c x) eqn:E.
  - apply N.eqb_eq in E. subst. elim H. left; reflexivity.
  - rewrite IH by (intro Hi; apply H; right; exact Hi). reflexivity.
Qed.

Lemma splitc_join : forall c l, l <> [] -> (forall x, In x l -> ~ In c x) -> splitc c (join [c] l) = l.
Proof.
  intros c l. induction l as [|x l IH]; intros Hn H; [congruence|].
  destruct l as [|y l].
  - simpl. apply splitc_nosep. apply H. left; reflexivity.
  - rewrite join_cons by discriminate.
    change (x ++ [c] ++ join [c] (y :: l)) with (x ++ c :: join [c] (y :: l)).
    rewrite splitc_app_sep by (apply H; left; reflexivity).
    rewrite IH; [reflexivity | discriminate | intros z Hz; apply H; right; exact Hz].
Qed.

(** str.isspace() code points of CPython (Unicode White_Space plus 1C-1F) *)
Definition is_space (c : N) : bool :=
  ((9 <=? c) && (c <=? 13) || (28 <=? c) && (c <=? 32) || (c =? 133) || (c =? 160) || (c =? 5760)
   || (8192 <=? c) && (c <=? 8202) || (c =? 8232) || (c =? 8233) || (c =? 8239) || (c =? 8287) || (c =? 12288))%N.

(** str.lstrip / rstrip / strip with a character class *)
Fixpoint lstrip_by (f : N -> bool) (t : str) : str :=
  match t with
  | [] => []
  | c :: t' => if f c then lstrip_by f t' else t
  end.
Definition rstrip_by (f : N -> bool) (t : str) : str := rev (lstrip_by f (rev t)).
Definition strip_by (f : N -> bool) (t : str) : str := rstrip_by f (lstrip_by f t).
Definition lstrip := lstrip_by is_space.
Definition rstrip := rstrip_by is_space.
Definition strip := strip_by is_space.

(** the character class of str.strip(chars) *)
Definition in_chars (chars : str) (c : N) : bool := existsb (N.eqb c) chars.

(** a string that strip leaves alone: empty, or first and last character are not in the class *)
Definition stripped_by (f : N -> bool) (t : str) : Prop :=
  match t with [] => True | c :: _ => f c = false end /\
  match rev t with [] => True | c :: _ => f c = false end.
Definition stripped := stripped_by is_space.

Lemma lstrip_by_head : forall f t, match lstrip_by f t with [] => True | c :: _ => f c = false end.
Proof. induction t as [|c t IH]; simpl; [exact I|]. destruct (f c) eqn:E; [exact IH | exact E]. Qed.

Lemma lstrip_by_id : forall f t, match t with [] => True | c :: _ => f c = false end -> lstrip_by f t = t.
Proof. intros f [|c t] H; simpl; [reflexivity|]. rewrite H. reflexivity. Qed.

Lemma lstrip_by_suffix : forall f t, exists p, t = p ++ lstrip_by f t /\ forallb f p = true.
Proof.
  intros f t. induction t as [|c t IH]; simpl.
  - exists []. split; reflexivity.
  - destruct (f c) eqn:E.
    + destruct IH as [p [Hp Hf]]. exists (c :: p). simpl. rewrite E, Hf, <- Hp. split; reflexivity.
    + exists []. split; reflexivity.
Qed.

Lemma lstrip_by_In : forall f t x, In x (lstrip_by f t) -> In x t.
Proof.
  intros f t x H. destruct (lstrip_by_suffix f t) as [p [Hp _]]. rewrite Hp. apply in_or_app. right; exact H.
Qed.

Lemma rstrip_by_prefix : forall f t, exists p, t = rstrip_by f t ++ p /\ forallb f p = true.
Proof.
  intros f t. unfold rstrip_by. destruct (lstrip_by_suffix f (rev t)) as [p [Hp Hf]].
  exists (rev p). split.
  - rewrite <- rev_app_distr, <- Hp, rev_involutive. reflexivity.
  - rewrite forallb_forall in *. intros x Hx. apply Hf. apply in_rev. exact Hx.
Qed.

Lemma strip_by_decomp : forall f t, exists p q, t = p ++ strip_by f t ++ q /\ forallb f p = true /\ forallb f q = true.
Proof.
  intros f t. unfold strip_by. destruct (lstrip_by_suffix f t) as [p [Hp Hf]].
  destruct (rstrip_by_prefix f (lstrip_by f t)) as [q [Hq Hg]].
  exists p, q. rewrite <- Hq. auto.
Qed.

Lemma rstrip_by_tail : forall f t, match rev (rstrip_by f t) with [] => True | c :: _ => f c = false end.
Proof. intros f t. unfold rstrip_by. rewrite rev_involutive. apply lstrip_by_head. Qed.

Lemma strip_by_stripped : forall f t, stripped_by f (strip_by f t).
Proof.
  intros f t. split.
  - unfold strip_by. pose proof (lstrip_by_head f t) as H.
    destruct (rstrip_by_prefix f (lstrip_by f t)) as [q [Hq _]].
    destruct (rstrip_by f (lstrip_by f t)) as [|c r] eqn:E; [exact I|].
    rewrite Hq in H. exact H.
  - unfold strip_by. apply rstrip_by_tail.
Qed.

Lemma strip_by_id : forall f t, stripped_by f t -> strip_by f t = t.
Proof.
  intros f t [H1 H2]. unfold strip_by. rewrite (lstrip_by_id f t H1).
  unfold rstrip_by. rewrite (lstrip_by_id f (rev t) H2). apply rev_involutive.
Qed.

Lemma strip_by_In : forall f t x, In x (strip_by f t) -> In x t.
Proof.
  intros f t x H. destruct (strip_by_decomp f t) as [p [q [Ht _]]]. rewrite Ht.
  apply in_or_app. right. apply in_or_app. left. exact H.
Qed.

(** str.split() without argument: maximal runs of non-space characters *)
Fixpoint words_go (cur : str) (t : str) : list str :=   (* cur: current word, reversed *)
  match t with
  | [] => match cur with [] => [] | _ => [rev cur] end
  | c :: t' =>
      if is_space c then match cur with [] => words_go [] t' | _ => rev cur :: words_go [] t' end
      else words_go (c :: cur) t'
  end.
Definition words (t : str) : list str := words_go [] t.

(** str.lower() restricted to ASCII letters (simplification: other letters are kept) *)
Definition lower_char (c : N) : N := if ((65 <=? c) && (c <=? 90))%N then (c + 32)%N else c.
Definition lower (t : str) : str := map lower_char t.

(** str.count(c) for one character *)
Definition countc (c : N) (t : str) : nat := length (filter (N.eqb c) t).

(** str.zfill(2) for strings without sign prefix; a leading sign is kept in front as CPython does *)
Definition zfill2 (t : str) : str :=
  match t with
  | [] => s "00"
  | [c] => if ((c =? 43) || (c =? 45))%N then [c; 48%N] else [48%N; c]
  | _ => t
  end.

(** str(n) for a natural number: decimal digits without leading zeros *)
Fixpoint uint_str (u : Decimal.uint) : str :=
  match u with
  | Decimal.Nil => []
  | Decimal.D0 u' => 48%N :: uint_str u'
  | Decimal.D1 u' => 49%N :: uint_str u'
  | Decimal.D2 u' => 50%N :: uint_str u'
  | Decimal.D3 u' => 51%N :: uint_str u'
  | Decimal.D4 u' => 52%N :: uint_str u'
  | Decimal.D5 u' => 53%N :: uint_str u'
  | Decimal.D6 u' => 54%N :: uint_str u'
  | Decimal.D7 u' => 55%N :: uint_str u'
  | Decimal.D8 u' => 56%N :: uint_str u'
  | Decimal.D9 u' => 57%N :: uint_str u'
  end.
Definition str_of_N (n : N) : str := uint_str (N.to_uint n).

Lemma uint_str_inj : forall u v, uint_str u = uint_str v -> u = v.
Proof.
  induction u; destruct v; simpl; intro H; try discriminate; try reflexivity;
    injection H as H; f_equal; now apply IHu.
Qed.

Lemma str_of_N_inj : forall a b, str_of_N a = str_of_N b -> a = b.
Proof.
  intros a b H. apply uint_str_inj in H.
  rewrite <- (DecimalN.Unsigned.of_to a), <- (DecimalN.Unsigned.of_to b), H. reflexivity.
Qed.

Lemma str_of_N_digits : forall n c, In c (str_of_N n) -> (48 <= c <= 57)%N.
Proof.
  intros n c. unfold str_of_N. induction (N.to_uint n); simpl; intro H;
    try contradiction; destruct H as [<- | H]; try lia; auto.
Qed.

Lemma str_of_N_nonempty : forall n, str_of_N n <> [].
Proof.
  intros n. unfold str_of_N. destruct (N.to_uint n) eqn:E; simpl; try discriminate.
  exfalso. destruct n; simpl in E; [discriminate|].
  now apply DecimalPos.Unsigned.to_uint_nonnil in E.
Qed.

(** str(z) for an integer *)
Definition str_of_Z (z : Z) : str :=
  match z with
  | Z0 => s "0"
  | Zpos p => str_of_N (Npos p)
  | Zneg p => 45%N :: str_of_N (Npos p)
  end.

(** int(text): optional surrounding white space and sign, ASCII digits, single underscores between digits.
    (Simplification: digits of other scripts, which int() also accepts, are rejected.) *)
Definition is_digit (c : N) : bool := ((48 <=? c) && (c <=? 57))%N.
Fixpoint parse_digits (acc : N) (afterDigit : bool) (t : str) : option N :=
  match t with
  | [] => if afterDigit then Some acc else None
  | c :: t' =>
      if is_digit c then parse_digits (10 * acc + (c - 48))%N true t'
      else if ((c =? 95)%N && afterDigit) then
        match t' with [] => None | _ => parse_digits acc false t' end
      else None
  end.
Definition parse_int (t : str) : option Z :=
  match strip t with
  | [] => None
  | c :: t' =>
      if (c =? 45)%N then option_map (fun n => Z.opp (Z.of_N n)) (parse_digits 0 false t')
      else if (c =? 43)%N then option_map Z.of_N (parse_digits 0 false t')
      else option_map Z.of_N (parse_digits 0 false (c :: t'))
  end.

Fixpoint uval (acc : N) (u : Decimal.uint) : N :=
  match u with
  | Decimal.Nil => acc
  | Decimal.D0 u' => uval (10 * acc) u'
  | Decimal.D1 u' => uval (10 * acc + 1) u'
  | Decimal.D2 u' => uval (10 * acc + 2) u'
  | Decimal.D3 u' => uval (10 * acc + 3) u'
  | Decimal.D4 u' => uval (10 * acc + 4) u'
  | Decimal.D5 u' => uval (10 * acc + 5) u'
  | Decimal.D6 u' => uval (10 * acc + 6) u'
  | Decimal.D7 u' => uval (10 * acc + 7) u'
  | Decimal.D8 u' => uval (10 * acc + 8) u'
  | Decimal.D9 u' => uval (10 * acc + 9) u'
  end.

Lemma parse_digits_uint : forall u acc b, u <> Decimal.Nil \/ b = true ->
  parse_digits acc b (uint_str u) = Some (uval acc u).
Proof.
  induction u; intros acc b Hb; simpl;
    [destruct Hb as [Hb | ->]; [congruence | reflexivity] | ..];
    rewrite IHu by (right; reflexivity); f_equal; f_equal; lia.
Qed.

Lemma uval_acc : forall u p, uval (Npos p) u = Npos (Pos.of_uint_acc u p).
Proof.
  induction u; intros p; cbn [uval Pos.of_uint_acc]; [reflexivity | ..];
    rewrite <- IHu; f_equal; lia.
Qed.

Lemma uval_of_uint : forall u, uval 0 u = N.of_uint u.
Proof.
  unfold N.of_uint. induction u; cbn [uval Pos.of_uint]; [reflexivity | exact IHu | ..];
    rewrite <- uval_acc; reflexivity.
Qed.

Lemma parse_digits_str_of_N : forall n, parse_digits 0 false (str_of_N n) = Some n.
Proof.
  intro n. unfold str_of_N. rewrite parse_digits_uint.
  - rewrite uval_of_uint, DecimalN.Unsigned.of_to. reflexivity.
  - left. intro E. apply (str_of_N_nonempty n). unfold str_of_N. rewrite E. reflexivity.
Qed.

Lemma digits_stripped : forall t, (forall c, In c t -> (33 <= c <= 127)%N) -> stripped t.
Proof.
  assert (Hs : forall c, (33 <= c <= 127)%N -> is_space c = false).
  { intros c Hc. unfold is_space.
    repeat match goal with
    | |- context [(?a <=? ?b)%N] => destruct (N.leb_spec a b); try lia
    | |- context [(?a =? ?b)%N] => destruct (N.eqb_spec a b); try lia
    end; reflexivity. }
  intros t H. split.
  - destruct t as [|c t]; [exact I|]. apply Hs, H. left; reflexivity.
  - destruct (rev t) as [|c r] eqn:E; [exact I|]. apply Hs, H. apply in_rev. rewrite E. left; reflexivity.
Qed.

Lemma str_of_N_stripped : forall n, stripped (str_of_N n).
Proof. intro n. apply digits_stripped. intros c H. apply str_of_N_digits in H. lia. Qed.

Lemma parse_int_str_of_N : forall n, parse_int (str_of_N n) = Some (Z.of_N n).
Proof.
  intro n. unfold parse_int, strip. rewrite strip_by_id by apply str_of_N_stripped.
  pose proof (parse_digits_str_of_N n) as Hp. pose proof (str_of_N_digits n) as Hd.
  destruct (str_of_N n) as [|c t] eqn:E; [now apply str_of_N_nonempty in E|].
  specialize (Hd c (or_introl eq_refl)).
  destruct (N.eqb_spec c 45); [lia|]. destruct (N.eqb_spec c 43); [lia|]. rewrite Hp. reflexivity.
Qed.

Lemma parse_int_str_of_Z : forall z, parse_int (str_of_Z z) = Some z.
Proof.
  intros [|p|p]; [reflexivity | apply (parse_int_str_of_N (Npos p)) |].
  unfold parse_int, strip. rewrite strip_by_id.
  - simpl str_of_Z. cbv iota beta. rewrite N.eqb_refl.
    rewrite parse_digits_str_of_N. reflexivity.
  - apply digits_stripped. intros c [<- | H]; [lia|]. apply str_of_N_digits in H. lia.
Qed.

Lemma truthy_true : forall t, truthy t = true <-> t <> [].
Proof. intros [|c t]; simpl; split; intro H; congruence. Qed.

(** evaluate string literals in the goal / in a hypothesis *)
Ltac lits := repeat match goal with |- context [s ?x] =>
  let v := eval vm_compute in (s x) in change (s x) with v end.
Ltac lits_in H := repeat match type of H with context [s ?x] =>
  let v := eval vm_compute in (s x) in change (s x) with v in H end.
