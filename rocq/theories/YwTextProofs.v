(** The text of a project file: what the parser gets back from what was written. *)
From Coq Require Import String List NArith ZArith Bool Lia Arith.
From Verif Require Import PyStr PyDict NovelModel YwTree Yw7Build Yw7Read YwTreeProofs Yw7SceneProofs YwText.
Import ListNotations.

(** ** Substrings and a character that the pattern does not contain *)
Lemma prefixb_false_sep : forall p c a b, ~ In c p -> prefixb p (a ++ c :: b) = prefixb p a.
Proof.
  induction p as [|x p IH]; intros c a b H; [destruct a; reflexivity|].
  destruct a as [|y a]; cbn [app prefixb].
  - replace (N.eqb x c) with false; [reflexivity|]. symmetry. apply N.eqb_neq. intro E. apply H. left. exact E.
  - rewrite IH; [reflexivity|]. intro H2. apply H. right. exact H2.
Qed.

Lemma containsb_sep : forall p c a b, ~ In c p -> p <> [] -> containsb p (a ++ c :: b) = containsb p a || containsb p b.
Proof.
  intros p c a b H Hp. induction a as [|x a IH].
  - cbn [app containsb]. assert (E : prefixb p (c :: b) = false).
    { change (c :: b) with ([] ++ c :: b). rewrite prefixb_false_sep by exact H. destruct p; [congruence | reflexivity]. }
    rewrite E. destruct p; [congruence | reflexivity].
  - cbn [app containsb]. change (x :: a ++ c :: b) with ((x :: a) ++ c :: b). rewrite prefixb_false_sep by exact H. rewrite IH. destruct (prefixb p (x :: a)); reflexivity.
Qed.

Lemma containsb_cons_sep : forall p c b, ~ In c p -> p <> [] -> containsb p (c :: b) = containsb p b.
Proof. intros p c b H Hp. change (c :: b) with ([] ++ c :: b). rewrite containsb_sep by assumption. destruct p; [congruence | reflexivity]. Qed.

Lemma containsb_none : forall p a, p <> [] -> (forall c, In c a -> ~ In c p) -> containsb p a = false.
Proof.
  intros p a Hp. induction a as [|c a IH]; intro H; [destruct p; [congruence | reflexivity]|].
  rewrite containsb_cons_sep; [apply IH; intros x Hx; apply H; right; exact Hx | apply H; left; reflexivity | exact Hp].
Qed.

(** ** Line by line *)
Lemma replace_app_sep : forall p q c a b, ~ In c p -> p <> [] -> replace p q (a ++ c :: b) = replace p q a ++ c :: replace p q b.
Proof.
  intros p q c a b Hc Hp. unfold replace.
  assert (G : forall a k, k <= length a -> replace_go p q k (a ++ c :: b) = replace_go p q k a ++ c :: replace_go p q 0 b).
  { clear a. induction a as [|x a IH]; intros k Hk.
    - cbn [length] in Hk. assert (k = 0) by lia. subst k. cbn [app replace_go].
      change (c :: b) with ([] ++ c :: b) at 1. rewrite prefixb_false_sep by exact Hc. destruct p; [congruence | reflexivity].
    - cbn [app replace_go]. destruct k as [|k]; [|apply IH; cbn [length] in Hk; lia].
      change (x :: a ++ c :: b) with ((x :: a) ++ c :: b). rewrite prefixb_false_sep by exact Hc. destruct (prefixb p (x :: a)) eqn:E.
      + rewrite IH, app_assoc; [reflexivity|]. apply prefixb_spec in E. destruct E as [r E]. apply (f_equal (@length N)) in E. rewrite app_length in E. cbn [length] in E. lia.
      + rewrite IH by lia. reflexivity. }
  apply G. lia.
Qed.

Lemma join_map_splitc : forall (f : str -> str) c, (forall a b, f (a ++ c :: b) = f a ++ c :: f b) ->
  forall t, join [c] (map f (splitc c t)) = f t.
Proof.
  intros f c Hf t. induction t as [|x t IH]; [reflexivity|].
  assert (H : exists l ls, splitc c t = l :: ls) by (pose proof (splitc_nonempty c t); destruct (splitc c t) as [|l ls]; [congruence | eauto]).
  cbn [splitc]. destruct (N.eqb c x) eqn:E.
  - apply N.eqb_eq in E. subst x. cbn [map]. change (c :: t) with ([] ++ c :: t). rewrite Hf, <- IH.
    rewrite join_cons; [reflexivity|]. destruct H as (l & ls & ->). discriminate.
  - (* the piece containing x *)
    clear IH.
    assert (G : forall u pre, join [c] (map f (match splitc c u with l :: ls => (pre ++ l) :: ls | [] => [pre] end)) = f (pre ++ u)).
    { clear -Hf. induction u as [|y u IHu]; intro pre; [reflexivity|]. cbn [splitc]. destruct (N.eqb c y) eqn:E.
      - apply N.eqb_eq in E. subst y. cbn [map]. rewrite app_nil_r. rewrite Hf.
        assert (Q : join [c] (map f (splitc c u)) = f u).
        { specialize (IHu []). cbn [app] in IHu. rewrite <- IHu. pose proof (splitc_nonempty c u). destruct (splitc c u); [congruence | reflexivity]. }
        rewrite <- Q. rewrite join_cons; [reflexivity|]. pose proof (splitc_nonempty c u). destruct (splitc c u); [congruence | discriminate].
      - specialize (IHu (pre ++ [y])). rewrite <- app_assoc in IHu. cbn [app] in IHu. rewrite <- IHu. destruct (splitc c u) as [|l ls]; [rewrite ?app_nil_r; reflexivity|].
        rewrite <- app_assoc. reflexivity. }
    specialize (G t [x]). cbn [app] in G. rewrite <- G. destruct (splitc c t); reflexivity.
Qed.

(** ** Replacing whole tags *)
Definition no_lt (t : str) : Prop := ~ In 60%N t.
Definition no_gt (t : str) : Prop := ~ In 62%N t.
Definition tagged (b : str) : str := 60%N :: b ++ [62%N].
Definition cdata_open : str := s "<![CDATA[".
Inductive chunk_ok : str -> Prop :=
| CText : forall m, no_lt m -> chunk_ok m
| CTag : forall b, no_lt b -> no_gt b -> chunk_ok (tagged b)
| CCdata : chunk_ok cdata_open.

Lemma replace_no_lt : forall p' q a b, no_lt a -> replace (60%N :: p') q (a ++ b) = a ++ replace (60%N :: p') q b.
Proof.
  intros p' q a b. induction a as [|c a IH]; intro H; [reflexivity|]. cbn [app]. rewrite replace_miss.
  - rewrite IH; [reflexivity|]. intro H2. apply H. right. exact H2.
  - cbn [prefixb]. replace (N.eqb 60 c) with false; [reflexivity|]. symmetry. apply N.eqb_neq. intros <-. apply H. left. reflexivity.
Qed.

Lemma prefixb_gt : forall a b r, no_gt a -> no_gt b -> prefixb (a ++ [62%N]) (b ++ 62%N :: r) = str_eqb a b.
Proof.
  induction a as [|x a IH]; intros b r Ha Hb.
  - destruct b as [|y b]; [reflexivity|]. cbn [app prefixb str_eqb]. replace (N.eqb 62 y) with false; [reflexivity|].
    symmetry. apply N.eqb_neq. intros <-. apply Hb. left. reflexivity.
  - destruct b as [|y b]; cbn [app prefixb str_eqb].
    + replace (N.eqb x 62) with false; [reflexivity|]. symmetry. apply N.eqb_neq. intros ->. apply Ha. left. reflexivity.
    + rewrite IH; [reflexivity | intro H; apply Ha; right; exact H | intro H; apply Hb; right; exact H].
Qed.

Lemma tagged_inj : forall a b, tagged a = tagged b -> a = b.
Proof. intros a b H. unfold tagged in H. injection H as H. apply app_inv_tail in H. exact H. Qed.

Lemma str_eqb_tagged : forall a b, str_eqb (tagged a) (tagged b) = str_eqb a b.
Proof.
  intros a b. destruct (str_eqb a b) eqn:E; [apply str_eqb_eq in E; subst; apply str_eqb_refl|].
  apply str_eqb_neq. intro H. apply tagged_inj in H. apply str_eqb_neq in E. auto.
Qed.

Lemma replace_chunk : forall a q m r, no_lt a -> no_gt a -> prefixb (s "!") a = false -> chunk_ok m ->
  replace (tagged a) q (m ++ r) = (if str_eqb m (tagged a) then q else m) ++ replace (tagged a) q r.
Proof.
  intros a q m r La Ga Hx Hm. unfold tagged at 1 2 3. destruct Hm as [m Hm | b Lb Gb | ].
  - rewrite replace_no_lt by exact Hm. replace (str_eqb m (60%N :: a ++ [62%N])) with false; [reflexivity|]. symmetry. apply str_eqb_neq.
    intros ->. apply Hm. left. reflexivity.
  - change (60%N :: a ++ [62%N]) with (tagged a). rewrite str_eqb_tagged. destruct (str_eqb b a) eqn:E.
    + apply str_eqb_eq in E. subst b. apply replace_hit. discriminate.
    + unfold tagged at 2. cbn [app]. rewrite replace_miss.
      * rewrite <- app_assoc. cbn [app]. unfold tagged at 1. rewrite replace_no_lt by exact Lb. change (60%N :: a ++ [62%N]) with (tagged a).
        change (62%N :: r) with ([62%N] ++ r). unfold tagged at 1. rewrite replace_no_lt by (intros [H | []]; discriminate H). change (60%N :: a ++ [62%N]) with (tagged a).
        unfold tagged at 2. cbn [app]. rewrite <- app_assoc. reflexivity.
      * unfold tagged. cbn [prefixb]. rewrite N.eqb_refl. cbn [andb]. rewrite <- app_assoc. cbn [app]. rewrite prefixb_gt by assumption. rewrite str_eqb_sym. exact E.
  - replace (str_eqb cdata_open (60%N :: a ++ [62%N])) with false.
    + unfold cdata_open. change (s "<![CDATA[" ++ r) with (60%N :: (s "![CDATA[" ++ r)). rewrite replace_miss.
      * rewrite replace_no_lt by (intro H; cbn in H; repeat (destruct H as [H | H]; [discriminate H|]); exact H). reflexivity.
      * cbn [prefixb]. rewrite N.eqb_refl. cbn [andb]. destruct a as [|c a]; [reflexivity|]. change (s "![CDATA[" ++ r) with (33%N :: (s "[CDATA[" ++ r)).
        cbn [app prefixb]. change (s "!") with [33%N] in Hx. cbn [prefixb] in Hx. rewrite andb_true_r in Hx. rewrite N.eqb_sym, Hx. reflexivity.
    + symmetry. apply str_eqb_neq. intro H. unfold cdata_open in H. apply (f_equal (@rev N)) in H. cbn [rev] in H. rewrite rev_app_distr in H. discriminate H.
Qed.

Lemma replace_chunks : forall a q cs, no_lt a -> no_gt a -> prefixb (s "!") a = false -> Forall chunk_ok cs ->
  replace (tagged a) q (concat cs) = concat (map (fun m => if str_eqb m (tagged a) then q else m) cs).
Proof.
  intros a q cs La Ga Hx H. induction H as [|m cs Hm H IH]; [reflexivity|]. cbn [concat map]. rewrite replace_chunk by assumption. rewrite IH. reflexivity.
Qed.

(** ** Pieces of the text *)
Inductive piece := Op (t : str) | Cl (t : str) | Em (t : str) | Tx (x : str).

Fixpoint joinl {A} (sep : list A) (l : list (list A)) : list A :=
  match l with [] => [] | [x] => x | x :: l' => x ++ sep ++ joinl sep l' end.

Fixpoint pieces (level : nat) (e : elem) : list piece :=
  match e with
  | Elem t x [] => match x with Some ((_ :: _) as v) => [Op t; Tx v; Cl t] | _ => [Em t] end
  | Elem t x k =>
      Op t :: Tx (if blank x then nl (S level) else or_empty x) ::
      joinl [Tx (nl (S level))] (map (pieces (S level)) k) ++ [Tx (nl level); Cl t]
  end.

(** the tags To (Tc) have their opening (closing) CDATA marks already *)
Definition chunks (To Tc : str -> bool) (p : piece) : list str :=
  match p with
  | Op t => if To t then [tagged t; cdata_open] else [tagged t]
  | Cl t => if Tc t then [s "]]>"; tagged (47%N :: t)] else [tagged (47%N :: t)]
  | Em t => [tagged (t ++ s " /")]
  | Tx x => [escape x]
  end.
Definition show (To Tc : str -> bool) (ps : list piece) : str := concat (flat_map (chunks To Tc) ps).

Lemma show_app : forall To Tc a b, show To Tc (a ++ b) = show To Tc a ++ show To Tc b.
Proof. intros. unfold show. rewrite flat_map_app, concat_app. reflexivity. Qed.

Lemma join_show : forall To Tc sep l, join (show To Tc sep) (map (show To Tc) l) = show To Tc (joinl sep l).
Proof.
  intros To Tc sep l. induction l as [|x l IH]; [reflexivity|]. destruct l as [|y l]; [reflexivity|].
  cbn [map] in *. rewrite join_cons by discriminate. rewrite IH. cbn [joinl]. rewrite !show_app. reflexivity.
Qed.

Lemma escape_app : forall a b, escape (a ++ b) = escape a ++ escape b.
Proof. intros. unfold escape. apply flat_map_app. Qed.

Lemma nl_chars : forall n c, In c (nl n) -> c = 10%N \/ c = 32%N.
Proof.
  intros n c [<- | H]; [left; reflexivity|]. right. induction n as [|n IH]; [destruct H|]. cbn in H. destruct H as [<- | [<- | H]]; auto.
Qed.

Lemma escape_id : forall t, (forall c, In c t -> c <> 38 /\ c <> 60 /\ c <> 62)%N -> escape t = t.
Proof.
  induction t as [|c t IH]; intro H; [reflexivity|]. unfold escape in *. cbn [flat_map]. rewrite IH by (intros x Hx; apply H; right; exact Hx).
  destruct (H c (or_introl eq_refl)) as (H1 & H2 & H3). apply N.eqb_neq in H1, H2, H3. unfold esc_char. rewrite H1, H2, H3. reflexivity.
Qed.

Lemma escape_nl : forall n, escape (nl n) = nl n.
Proof. intro n. apply escape_id. intros c Hc. apply nl_chars in Hc. destruct Hc; subst; repeat split; discriminate. Qed.

Fixpoint elem_rect2 (P : elem -> Prop) (H : forall t x k, Forall P k -> P (Elem t x k)) (e : elem) : P e :=
  match e with
  | Elem t x k => H t x k ((fix go (l : list elem) : Forall P l := match l with [] => Forall_nil P | a :: l' => Forall_cons a (elem_rect2 P H a) (go l') end) k)
  end.

Definition none : str -> bool := fun _ => false.

Lemma ser_show : forall e lv, ser lv e = show none none (pieces lv e).
Proof.
  apply (elem_rect2 (fun e => forall lv, ser lv e = show none none (pieces lv e))). intros t x k IH lv.
  assert (Ot : open_tag t = tagged t) by reflexivity. assert (Ct : close_tag t = tagged (47%N :: t)) by reflexivity.
  assert (Et : empty_tag t = tagged (t ++ s " /")) by (unfold empty_tag, tagged; rewrite <- app_assoc; reflexivity).
  destruct k as [|a k].
  - cbn [ser pieces]. destruct x as [[|c v]|]; unfold show; cbn [flat_map chunks none concat app]; rewrite ?app_nil_r, ?Ot, ?Ct, ?Et; reflexivity.
  - cbn [ser pieces]. rewrite Ot, Ct. rewrite Forall_forall in IH.
    assert (M : map (ser (S lv)) (a :: k) = map (show none none) (map (pieces (S lv)) (a :: k))).
    { rewrite map_map. apply map_ext_in. intros e He. apply IH. exact He. }
    rewrite M. replace (nl (S lv)) with (show none none [Tx (nl (S lv))]) at 2 by (unfold show; cbn [flat_map chunks concat app]; rewrite !app_nil_r; apply escape_nl).
    rewrite join_show.
    change (Op t :: Tx (if blank x then nl (S lv) else or_empty x) :: ?z) with ([Op t; Tx (if blank x then nl (S lv) else or_empty x)] ++ z).
    rewrite !show_app. unfold show at 2 4. cbn [flat_map chunks none concat app]. rewrite !app_nil_r, escape_nl, <- !app_assoc. reflexivity.
Qed.

(** ** The CDATA marks *)
Definition piece_ok (p : piece) : Prop := match p with Op t | Cl t | Em t => name_ok t = true | Tx _ => True end.

Lemma name_ok_chars : forall t c, name_ok t = true -> In c t -> name_char c = true.
Proof. intros t c H Hc. unfold name_ok in H. apply andb_prop in H. destruct H as [_ H]. rewrite forallb_forall in H. apply H. exact Hc. Qed.

Lemma name_not : forall t c, name_ok t = true -> name_char c = false -> ~ In c t.
Proof. intros t c H Hc Hi. rewrite (name_ok_chars t c H Hi) in Hc. discriminate. Qed.

Ltac nn H E := exfalso; eapply name_not; [exact H | | exact E]; reflexivity.

Lemma escape_no_lt : forall x, no_lt (escape x).
Proof.
  intros x H. unfold escape in H. apply in_flat_map in H. destruct H as (c & _ & H). unfold esc_char in H.
  destruct (N.eqb c 38) eqn:E1; [cbn in H; repeat (destruct H as [H | H]; [discriminate H|]); exact H|].
  destruct (N.eqb c 60) eqn:E2; [cbn in H; repeat (destruct H as [H | H]; [discriminate H|]); exact H|].
  destruct (N.eqb c 62) eqn:E3; [cbn in H; repeat (destruct H as [H | H]; [discriminate H|]); exact H|].
  destruct H as [-> | []]. discriminate E2.
Qed.

Lemma chunks_ok : forall To Tc p, piece_ok p -> Forall chunk_ok (chunks To Tc p).
Proof.
  intros To Tc [t|t|t|x] H; cbn [chunks piece_ok] in *.
  - assert (G : chunk_ok (tagged t)) by (apply CTag; [unfold no_lt | unfold no_gt]; apply (name_not t _ H); reflexivity).
    destruct (To t); [constructor; [exact G | constructor; [exact CCdata | constructor]] | constructor; [exact G | constructor]].
  - assert (G : chunk_ok (tagged (47%N :: t))).
    { apply CTag; [intros [E | E]; [discriminate E|] | intros [E | E]; [discriminate E|]]; nn H E. }
    destruct (Tc t); [constructor; [|constructor; [exact G | constructor]] | constructor; [exact G | constructor]]. apply CText. intro E. cbn in E. repeat (destruct E as [E | E]; [discriminate E|]). exact E.
  - constructor; [|constructor]. apply CTag; intro E; apply in_app_or in E; (destruct E as [E | E]; [nn H E|]);
      cbn in E; repeat (destruct E as [E | E]; [discriminate E|]); exact E.
  - constructor; [|constructor]. apply CText. apply escape_no_lt.
Qed.

Lemma no_excl : forall t, name_ok t = true -> prefixb (s "!") t = false.
Proof.
  intros [|c t] H; [reflexivity|]. change (s "!") with [33%N]. cbn [prefixb]. rewrite andb_true_r. apply N.eqb_neq. intros <-. discriminate H.
Qed.

Lemma replace_pieces : forall a q To Tc To' Tc' ps, no_lt a -> no_gt a -> prefixb (s "!") a = false -> Forall piece_ok ps ->
  (forall p, In p ps -> concat (map (fun m => if str_eqb m (tagged a) then q else m) (chunks To Tc p)) = concat (chunks To' Tc' p)) ->
  replace (tagged a) q (show To Tc ps) = show To' Tc' ps.
Proof.
  intros a q To Tc To' Tc' ps La Ga Hx Hps Hp. unfold show. rewrite replace_chunks; try assumption.
  - induction ps as [|p ps IH]; [reflexivity|]. cbn [flat_map]. rewrite map_app, !concat_app. rewrite (Hp p (or_introl eq_refl)), IH; [reflexivity | inversion Hps; assumption|].
    intros p' Hp'. apply Hp. right. exact Hp'.
  - apply Forall_forall. intros m Hm. apply in_flat_map in Hm. destruct Hm as (p & Hp1 & Hp2). rewrite Forall_forall in Hps.
    pose proof (chunks_ok To Tc p (Hps p Hp1)) as H. rewrite Forall_forall in H. apply H. exact Hp2.
Qed.

Lemma tagged_neq_text : forall m a, no_lt m -> str_eqb m (tagged a) = false.
Proof. intros m a H. apply str_eqb_neq. intros ->. apply H. left. reflexivity. Qed.

Lemma str_eqb_cdata : forall a, str_eqb cdata_open (tagged a) = false.
Proof. intro a. apply str_eqb_neq. intro H. apply (f_equal (@rev N)) in H. unfold tagged in H. cbn [rev] in H. rewrite rev_app_distr in H. discriminate H. Qed.

Definition or_tag (a : str) (T : str -> bool) : str -> bool := fun t => str_eqb t a || T t.

Lemma slash_neq : forall t a, name_ok a = true -> str_eqb (47%N :: t) a = false.
Proof. intros t a Ha. apply str_eqb_neq. intros <-. discriminate Ha. Qed.
Lemma slash_neq2 : forall t a, name_ok a = true -> str_eqb (t ++ s " /") a = false.
Proof. intros t a Ha. apply str_eqb_neq. intros <-. apply (name_not _ 47%N Ha eq_refl). apply in_or_app. right. right. left. reflexivity. Qed.
Lemma slash_neq3 : forall t a, name_ok t = true -> name_ok a = true -> str_eqb (t ++ s " /") (47%N :: a) = false.
Proof.
  intros t a Ht Ha. apply str_eqb_neq. intro H. destruct t as [|c t]; [discriminate Ht|]. cbn [app] in H. injection H as -> H. discriminate Ht.
Qed.

Lemma cdata_tag_show : forall a To Tc ps, name_ok a = true -> Forall piece_ok ps -> To a = false -> Tc a = false ->
  cdata_tag (show To Tc ps) a = show (or_tag a To) (or_tag a Tc) ps.
Proof.
  intros a To Tc ps Ha Hps HTo HTc. unfold cdata_tag. rewrite Forall_forall in Hps.
  assert (La : no_lt a) by exact (name_not a 60%N Ha eq_refl). assert (Ga : no_gt a) by exact (name_not a 62%N Ha eq_refl).
  change (open_tag a) with (tagged a). change (close_tag a) with (tagged (47%N :: a)).
  rewrite (replace_pieces a _ To Tc (or_tag a To) Tc); try assumption; [|apply no_excl; exact Ha | apply Forall_forall; exact Hps |].
  - apply replace_pieces.
    + intros [E | E]; [discriminate E | exact (La E)].
    + intros [E | E]; [discriminate E | exact (Ga E)].
    + reflexivity.
    + apply Forall_forall. exact Hps.
    + intros [t|t|t|x] Hp; specialize (Hps _ Hp); cbn [piece_ok] in Hps; cbn [chunks].
      * assert (Q : str_eqb (tagged t) (tagged (47%N :: a)) = false).
        { rewrite str_eqb_tagged. rewrite str_eqb_sym. apply slash_neq. exact Hps. }
        destruct (or_tag a To t); cbn [map concat]; rewrite ?Q, ?str_eqb_cdata; reflexivity.
      * unfold or_tag. destruct (str_eqb t a) eqn:E; cbn [orb].
        -- apply str_eqb_eq in E. subst t. rewrite HTc. cbn [map concat]. rewrite str_eqb_refl, !app_nil_r. reflexivity.
        -- assert (Q : str_eqb (tagged (47%N :: t)) (tagged (47%N :: a)) = false) by (rewrite str_eqb_tagged; cbn [str_eqb]; rewrite N.eqb_refl; exact E).
           destruct (Tc t); cbn [map concat]; rewrite Q; [|reflexivity]. rewrite tagged_neq_text; [reflexivity|].
           intro H. cbn in H. repeat (destruct H as [H | H]; [discriminate H|]). exact H.
      * cbn [map concat]. rewrite str_eqb_tagged, slash_neq3 by assumption. reflexivity.
      * cbn [map concat]. rewrite tagged_neq_text by apply escape_no_lt. reflexivity.
  - intros [t|t|t|x] Hp; specialize (Hps _ Hp); cbn [piece_ok] in Hps; cbn [chunks].
    + unfold or_tag. destruct (str_eqb t a) eqn:E; cbn [orb].
      * apply str_eqb_eq in E. subst t. rewrite HTo. cbn [map concat]. rewrite str_eqb_refl, !app_nil_r. reflexivity.
      * destruct (To t); cbn [map concat]; rewrite str_eqb_tagged, E, ?str_eqb_cdata; reflexivity.
    + assert (Q : str_eqb (tagged (47%N :: t)) (tagged a) = false) by (rewrite str_eqb_tagged; apply slash_neq; exact Ha).
      destruct (Tc t); cbn [map concat]; rewrite Q; [|reflexivity]. rewrite tagged_neq_text; [reflexivity|].
      intro H. cbn in H. repeat (destruct H as [H | H]; [discriminate H|]). exact H.
    + cbn [map concat]. rewrite str_eqb_tagged, slash_neq2 by assumption. reflexivity.
    + cbn [map concat]. rewrite tagged_neq_text by apply escape_no_lt. reflexivity.
Qed.

Lemma show_ext : forall To Tc To' Tc' ps, (forall t, To t = To' t) -> (forall t, Tc t = Tc' t) -> show To Tc ps = show To' Tc' ps.
Proof.
  intros To Tc To' Tc' ps H1 H2. unfold show. f_equal. induction ps as [|p ps IH]; [reflexivity|]. cbn [flat_map]. rewrite IH. f_equal.
  destruct p; cbn [chunks]; rewrite ?H1, ?H2; reflexivity.
Qed.

Lemma cdata_fold : forall ts T ps, NoDup ts -> (forall a, In a ts -> name_ok a = true /\ T a = false) -> Forall piece_ok ps ->
  fold_left cdata_tag ts (show T T ps) = show (fun t => smem t ts || T t) (fun t => smem t ts || T t) ps.
Proof.
  induction ts as [|a ts IH]; intros T ps Hn Ha Hps; [reflexivity|]. cbn [fold_left]. destruct (Ha a (or_introl eq_refl)) as [A1 A2].
  rewrite cdata_tag_show by assumption. rewrite IH; try assumption; [|inversion Hn; assumption|].
  - apply show_ext; intro t; unfold or_tag; change (smem t (a :: ts)) with (str_eqb t a || smem t ts); destruct (str_eqb t a), (smem t ts); reflexivity.
  - intros b Hb. split; [apply Ha; right; exact Hb|]. unfold or_tag. replace (str_eqb b a) with false; [apply Ha; right; exact Hb|].
    symmetry. apply str_eqb_neq. intros ->. inversion Hn; auto.
Qed.

Definition cd (t : str) : bool := smem t CDATA_TAGS.

Lemma cdata_tags_ok : NoDup CDATA_TAGS /\ forall a, In a CDATA_TAGS -> name_ok a = true.
Proof.
  split.
  - assert (H : forall l : list str, (fix nd l := match l with [] => true | x :: l' => negb (smem x l') && nd l' end) l = true -> NoDup l).
    { induction l as [|x l IH]; intro H; constructor; apply andb_prop in H; destruct H as [H1 H2]; [|apply IH; exact H2].
      apply negb_true_iff in H1. apply smem_false. exact H1. }
    apply H. vm_compute. reflexivity.
  - intros a Ha. assert (H : forallb name_ok CDATA_TAGS = true) by (vm_compute; reflexivity). rewrite forallb_forall in H. apply H. exact Ha.
Qed.

Lemma cdata_line_show : forall ps, Forall piece_ok ps -> cdata_line (show none none ps) = show cd cd ps.
Proof.
  intros ps H. unfold cdata_line. rewrite cdata_fold; [|apply cdata_tags_ok | intros a Ha; split; [apply cdata_tags_ok; exact Ha | reflexivity] | exact H].
  apply show_ext; intro t; unfold cd, none; rewrite orb_false_r; reflexivity.
Qed.

Lemma cdata_line_nl : forall a b, cdata_line (a ++ 10%N :: b) = cdata_line a ++ 10%N :: cdata_line b.
Proof.
  unfold cdata_line. pose proof (proj2 cdata_tags_ok) as H. revert H. generalize CDATA_TAGS as ts. induction ts as [|t ts IH]; intros H a b; [reflexivity|].
  cbn [fold_left]. assert (E : cdata_tag (a ++ 10%N :: b) t = cdata_tag a t ++ 10%N :: cdata_tag b t).
  { unfold cdata_tag. assert (N1 : ~ In 10%N t) by (apply name_not; [apply H; left; reflexivity | reflexivity]).
    rewrite replace_app_sep; [|intro E; cbn in E; destruct E as [E | E]; [discriminate E|]; apply in_app_or in E; destruct E as [E | [E | []]]; [exact (N1 E) | discriminate E] | discriminate].
    rewrite replace_app_sep; [reflexivity| |discriminate].
    intro E; cbn in E; destruct E as [E | [E | E]]; [discriminate E | discriminate E|]; apply in_app_or in E; destruct E as [E | [E | []]]; [exact (N1 E) | discriminate E]. }
  rewrite E. apply IH. intros x Hx. apply H. right. exact Hx.
Qed.

(** ** Texts that can be stored *)
(** all chunks of a text read as character data *)
Fixpoint texts_of (ts : list tok) : option str :=
  match ts with
  | [] => Some []
  | TText x :: ts' => option_map (app x) (texts_of ts')
  | _ => None
  end.
(** character data: the text without entities; None if it is not well-formed *)
Definition decode (v : str) : option str := match lex v with Some ts => texts_of ts | None => None end.

Definition p_open : str := s "[CDATA[ " ++ [10%N].
Definition p_close : str := 10%N :: s "]]".
Definition char_ok (c : N) : bool := (xml_char c && kept c && negb (N.eqb c 13))%bool.

Definition cdata_ok (v : str) : Prop :=
  forallb char_ok v = true /\ containsb (s "]]>") v = false /\ containsb p_open (s "[CDATA[" ++ v) = false /\ containsb p_close (v ++ s "]]") = false.
Definition plain_ok (v : str) : Prop :=
  forallb char_ok v = true /\ no_lt v /\ decode v <> None /\ containsb p_open v = false /\ containsb p_close v = false.
Definition text_ok (t : str) (x : option str) : Prop :=
  match x with None => True | Some v => if cd t then cdata_ok v else plain_ok v end.

Inductive clean : elem -> Prop :=
| Clean : forall t x k, name_ok t = true -> text_ok t x -> k = [] \/ cd t = false -> Forall clean k -> clean (Elem t x k).

(** what such a text becomes *)
Definition out_text (t : str) (x : option str) : option str :=
  match x with
  | None => None
  | Some v => let y := if cd t then v else match decode v with Some y => y | None => v end in
              match y with [] => None | _ => Some y end
  end.

Lemma containsb_missing : forall p c a, In c p -> ~ In c a -> containsb p a = false.
Proof.
  intros p c a Hp Ha. destruct (containsb p a) eqn:E; [|reflexivity]. apply containsb_spec in E. destruct E as (x & y & ->).
  exfalso. apply Ha. apply in_or_app. right. apply in_or_app. left. exact Hp.
Qed.

Lemma not_in_bool : forall c (t : str), existsb (N.eqb c) t = false -> ~ In c t.
Proof. intros c t H Hi. assert (E : existsb (N.eqb c) t = true) by (apply existsb_exists; exists c; split; [exact Hi | apply N.eqb_refl]). rewrite E in H. discriminate. Qed.
Lemma in_bool : forall c (t : str), existsb (N.eqb c) t = true -> In c t.
Proof. intros c t H. apply existsb_exists in H. destruct H as (x & Hx & E). apply N.eqb_eq in E. subst. exact Hx. Qed.

Lemma containsb_escape : forall p, p <> [] -> (forall c, In c (s "&amp;lt;gt;<>") -> ~ In c p) ->
  forall v u w, containsb p (u ++ escape v ++ w) = containsb p (u ++ v ++ w).
Proof.
  intros p Hp Hc. induction v as [|c v IH]; intros u w; [reflexivity|]. unfold escape in *. cbn [flat_map]. rewrite <- app_assoc.
  assert (Sp : forall c0 l, In c0 (s "&amp;lt;gt;<>") -> (forall d, In d l -> In d (s "&amp;lt;gt;<>")) ->
     forall e, containsb p (u ++ (e :: l) ++ flat_map esc_char v ++ w) = (containsb p u || containsb p (flat_map esc_char v ++ w))%bool -> True) by auto. clear Sp.
  assert (Q : forall l r, (forall d, In d l -> In d (s "&amp;lt;gt;<>")) -> containsb p (l ++ r) = containsb p r).
  { clear -Hp Hc. induction l as [|d l IHl]; intros r Hl; [reflexivity|]. cbn [app]. rewrite containsb_cons_sep; [|apply Hc; apply Hl; left; reflexivity | exact Hp].
    apply IHl. intros x Hx. apply Hl. right. exact Hx. }
  assert (S3 : forall e l, In e (s "&amp;lt;gt;<>") -> (forall d, In d l -> In d (s "&amp;lt;gt;<>")) -> In c (s "&amp;lt;gt;<>") ->
     containsb p (u ++ (e :: l) ++ flat_map esc_char v ++ w) = containsb p (u ++ (c :: v) ++ w)).
  { intros e l He Hl Hcc. cbn [app]. rewrite !containsb_sep by (try apply Hc; assumption). rewrite Q by exact Hl. rewrite (IH [] w : containsb p (flat_map esc_char v ++ w) = containsb p (v ++ w)). reflexivity. }
  unfold esc_char at 1. destruct (N.eqb c 38) eqn:E1; [|destruct (N.eqb c 60) eqn:E2; [|destruct (N.eqb c 62) eqn:E3]].
  - apply N.eqb_eq in E1. subst c. apply S3; [left; reflexivity | | apply in_bool; reflexivity].
    intros d Hd. apply in_bool. cbn in Hd. repeat (destruct Hd as [<- | Hd]; [reflexivity|]). destruct Hd.
  - apply N.eqb_eq in E2. subst c. apply S3; [left; reflexivity | | apply in_bool; reflexivity].
    intros d Hd. apply in_bool. cbn in Hd. repeat (destruct Hd as [<- | Hd]; [reflexivity|]). destruct Hd.
  - apply N.eqb_eq in E3. subst c. apply S3; [left; reflexivity | | apply in_bool; reflexivity].
    intros d Hd. apply in_bool. cbn in Hd. repeat (destruct Hd as [<- | Hd]; [reflexivity|]). destruct Hd.
  - specialize (IH (u ++ [c]) w). rewrite <- !app_assoc in IH. cbn [app] in *. exact IH.
Qed.

Ltac flat := repeat (cbn [app]; rewrite <- app_assoc); cbn [app].

Section NoPattern.
Variable p : str.
Hypothesis p_ne : p <> [].
Hypothesis p_chars : forall c, In c (s "&amp;lt;gt;<>!") -> ~ In c p.
Hypothesis p_bracket : In 91%N p \/ In 93%N p.
Hypothesis p_text : forall t v, text_ok t (Some v) -> if cd t then containsb p (s "[CDATA[" ++ v ++ s "]]") = false else containsb p v = false.

Let lt_p : ~ In 60%N p. Proof. apply p_chars. apply in_bool. reflexivity. Qed.
Let gt_p : ~ In 62%N p. Proof. apply p_chars. apply in_bool. reflexivity. Qed.
Let esc_p : forall c, In c (s "&amp;lt;gt;<>") -> ~ In c p.
Proof. intros c Hc. apply p_chars. apply in_bool. cbn in Hc. repeat (destruct Hc as [<- | Hc]; [reflexivity|]). destruct Hc. Qed.

Let no_bracket : forall a, ~ In 91%N a -> ~ In 93%N a -> containsb p a = false.
Proof. intros a H1 H2. destruct p_bracket as [H | H]; eapply containsb_missing; eauto. Qed.

Let name_p : forall t, name_ok t = true -> containsb p t = false.
Proof. intros t H. apply no_bracket; apply name_not; auto. Qed.

Lemma sep_all : forall c a b, ~ In c p -> containsb p a = false -> containsb p b = false -> containsb p (a ++ c :: b) = false.
Proof. intros c a b Hc Ha Hb. rewrite containsb_sep by assumption. rewrite Ha, Hb. reflexivity. Qed.
Lemma sep_head : forall c b, ~ In c p -> containsb p b = false -> containsb p (c :: b) = false.
Proof. intros c b Hc Hb. rewrite containsb_cons_sep by assumption. exact Hb. Qed.

Definition framed (w : str) : Prop := exists u, w = 60%N :: u ++ [62%N] /\ containsb p u = false.

Lemma framed_join : forall sep l, containsb p sep = false -> l <> [] -> Forall framed l -> framed (join sep l).
Proof.
  intros sep l Hs Hl H. induction H as [|w l Hw H IH]; [congruence|]. destruct l as [|w2 l]; [exact Hw|].
  rewrite join_cons by discriminate. destruct Hw as (u & -> & Hu). destruct IH as (u2 & E & Hu2); [discriminate|]. rewrite E.
  exists (u ++ 62%N :: sep ++ 60%N :: u2). split; [cbn [app]; rewrite <- !app_assoc; cbn [app]; rewrite <- !app_assoc; reflexivity|].
  apply sep_all; [exact gt_p | exact Hu|]. apply sep_all; [exact lt_p | exact Hs | exact Hu2].
Qed.

Lemma nl_p : forall n, containsb p (nl n) = false.
Proof. intro n. apply no_bracket; intro H; apply nl_chars in H; destruct H as [H | H]; discriminate H. Qed.

Lemma join_map_joinl : forall To Tc n l, join (nl n) (map (show To Tc) l) = show To Tc (joinl [Tx (nl n)] l).
Proof. intros. rewrite <- join_show. f_equal. unfold show. cbn [flat_map chunks concat app]. rewrite !app_nil_r, escape_nl. reflexivity. Qed.

Lemma clean_framed : forall e lv, clean e -> framed (show cd cd (pieces lv e)).
Proof.
  apply (elem_rect2 (fun e => forall lv, clean e -> framed (show cd cd (pieces lv e)))). intros t x k IH lv Hc.
  inversion Hc as [? ? ? Hn Ht Hk Hks]; subst.
  assert (Np : containsb p t = false) by (apply name_p; exact Hn).
  assert (N47 : containsb p (47%N :: t) = false).
  { apply no_bracket; (intros [E | E]; [discriminate E|]); nn Hn E. }
  destruct k as [|a k].
  - assert (Em_ok : framed (show cd cd [Em t])).
    { exists (t ++ s " /"). split; [unfold show, tagged; cbn [flat_map chunks concat app]; rewrite app_nil_r; reflexivity|].
      apply no_bracket; intro E; apply in_app_or in E; (destruct E as [E | E]; [nn Hn E|]); cbn in E; repeat (destruct E as [E | E]; [discriminate E|]); exact E. }
    cbn [pieces]. destruct x as [[|c v]|]; [exact Em_ok | | exact Em_ok]. clear Em_ok.
    pose proof (p_text t (c :: v) Ht) as Hp. unfold show. cbn [flat_map chunks concat app]. destruct (cd t).
    + exists (t ++ 62%N :: 60%N :: 33%N :: (s "[CDATA[" ++ escape (c :: v) ++ s "]]") ++ 62%N :: 60%N :: 47%N :: t). split.
      * unfold tagged. cbn [concat app]. rewrite <- !app_assoc. cbn. rewrite <- !app_assoc. cbn. reflexivity.
      * apply sep_all; [exact gt_p | exact Np|]. apply sep_head; [exact lt_p|]. apply sep_head; [apply p_chars; apply in_bool; reflexivity|].
        apply sep_all; [exact gt_p | | apply sep_head; [exact lt_p | exact N47]]. rewrite containsb_escape by assumption. exact Hp.
    + exists (t ++ 62%N :: escape (c :: v) ++ 60%N :: 47%N :: t). split.
      * unfold tagged. cbn [concat app]. rewrite <- !app_assoc. cbn [app]. rewrite <- !app_assoc. cbn [app]. reflexivity.
      * apply sep_all; [exact gt_p | exact Np|]. apply sep_all; [exact lt_p | | exact N47].
        pose proof (containsb_escape p p_ne esc_p (c :: v) [] []) as E. cbn [app] in E. rewrite !app_nil_r in E. rewrite E. exact Hp.
  - destruct Hk as [Hk | Hk]; [discriminate Hk|].
    assert (J : framed (show cd cd (joinl [Tx (nl (S lv))] (map (pieces (S lv)) (a :: k))))).
    { rewrite <- join_map_joinl. apply framed_join; [apply nl_p | discriminate|]. rewrite map_map. apply Forall_forall. intros w Hw. apply in_map_iff in Hw.
      destruct Hw as (e & <- & He). rewrite Forall_forall in IH, Hks. apply IH; [exact He | apply Hks; exact He]. }
    destruct J as (u & J1 & J2). cbn [pieces].
    change (Op t :: Tx (if blank x then nl (S lv) else or_empty x) :: ?z) with ([Op t; Tx (if blank x then nl (S lv) else or_empty x)] ++ z).
    rewrite !show_app. rewrite J1. unfold show. cbn [flat_map chunks concat app]. rewrite Hk.
    set (tx := if blank x then nl (S lv) else or_empty x).
    exists (t ++ 62%N :: escape tx ++ 60%N :: u ++ 62%N :: nl lv ++ 60%N :: 47%N :: t). split.
    + unfold tagged. cbn [concat app]. rewrite escape_nl. flat. reflexivity.
    + apply sep_all; [exact gt_p | exact Np|]. apply sep_all; [exact lt_p | |].
      * pose proof (containsb_escape p p_ne esc_p tx [] []) as E. cbn [app] in E. rewrite !app_nil_r in E. rewrite E.
        unfold tx. destruct (blank x) eqn:B; [apply nl_p|]. destruct x as [v|]; [|discriminate B]. pose proof (p_text t v Ht) as Hp. rewrite Hk in Hp. exact Hp.
      * apply sep_all; [exact gt_p | exact J2|]. apply sep_all; [exact lt_p | apply nl_p | exact N47].
Qed.
End NoPattern.

Lemma p_open_text : forall t v, text_ok t (Some v) -> if cd t then containsb p_open (s "[CDATA[" ++ v ++ s "]]") = false else containsb p_open v = false.
Proof.
  intros t v H. cbn [text_ok] in H. destruct (cd t); [|apply H]. destruct H as (_ & _ & H & _). change (s "]]") with [93%N; 93%N].
  rewrite app_assoc, containsb_sep, H; [reflexivity | apply not_in_bool; reflexivity | discriminate].
Qed.

Lemma p_close_text : forall t v, text_ok t (Some v) -> if cd t then containsb p_close (s "[CDATA[" ++ v ++ s "]]") = false else containsb p_close v = false.
Proof.
  intros t v H. cbn [text_ok] in H. destruct (cd t); [|apply H]. destruct H as (_ & _ & _ & H). change (s "[CDATA[") with [91; 67; 68; 65; 84; 65; 91]%N. cbn [app].
  do 7 (rewrite containsb_cons_sep by (try (apply not_in_bool; reflexivity); discriminate)). exact H.
Qed.

Lemma open_framed : forall e lv, clean e -> framed p_open (show cd cd (pieces lv e)).
Proof.
  apply clean_framed.
  - discriminate.
  - intros c Hc. apply not_in_bool. cbn in Hc. repeat (destruct Hc as [<- | Hc]; [reflexivity|]). destruct Hc.
  - left. left. reflexivity.
  - exact p_open_text.
Qed.

Lemma close_framed : forall e lv, clean e -> framed p_close (show cd cd (pieces lv e)).
Proof.
  apply clean_framed.
  - discriminate.
  - intros c Hc. apply not_in_bool. cbn in Hc. repeat (destruct Hc as [<- | Hc]; [reflexivity|]). destruct Hc.
  - right. right. left. reflexivity.
  - exact p_close_text.
Qed.

(** ** Unescaping *)
Lemma unescape_plain : forall ent a b, ~ In 38%N a -> unescape ent (a ++ b) = a ++ unescape ent b.
Proof.
  intros ent a b. induction a as [|c a IH]; intro H; [reflexivity|]. unfold unescape in *. cbn [app unescape_go].
  replace (N.eqb c 38) with false; [rewrite IH; [reflexivity | intro H2; apply H; right; exact H2]|].
  symmetry. apply N.eqb_neq. intros ->. apply H. left. reflexivity.
Qed.

Lemma unescape_go_skip : forall ent p t, unescape_go ent (length p) (p ++ t) = unescape_go ent 0 t.
Proof. induction p as [|x p IH]; intro t; [destruct t; reflexivity | apply IH]. Qed.

Lemma unescape_escape : forall ent x b, unescape ent (escape x ++ b) = x ++ unescape ent b.
Proof.
  intros ent x b. induction x as [|c x IH]; [reflexivity|]. unfold escape in *. cbn [flat_map]. rewrite <- app_assoc.
  unfold esc_char at 1. destruct (N.eqb c 38) eqn:E1; [|destruct (N.eqb c 60) eqn:E2; [|destruct (N.eqb c 62) eqn:E3]].
  - apply N.eqb_eq in E1. subst c. set (r := flat_map esc_char x ++ b) in *. unfold unescape in *.
    change (unescape_go ent 0 (s "&amp;" ++ r)) with (s "&" ++ unescape_go ent 4 (s "amp;" ++ r)). change 4 with (length (s "amp;")). rewrite unescape_go_skip, IH. reflexivity.
  - apply N.eqb_eq in E2. subst c. set (r := flat_map esc_char x ++ b) in *. unfold unescape in *.
    change (unescape_go ent 0 (s "&lt;" ++ r)) with (s "<" ++ unescape_go ent 3 (s "lt;" ++ r)). change 3 with (length (s "lt;")). rewrite unescape_go_skip, IH. reflexivity.
  - apply N.eqb_eq in E3. subst c. set (r := flat_map esc_char x ++ b) in *. unfold unescape in *.
    change (unescape_go ent 0 (s "&gt;" ++ r)) with (s ">" ++ unescape_go ent 3 (s "gt;" ++ r)). change 3 with (length (s "gt;")). rewrite unescape_go_skip, IH. reflexivity.
  - change ([c] ++ flat_map esc_char x ++ b) with (c :: flat_map esc_char x ++ b). unfold unescape in *. cbn [unescape_go]. rewrite E1, IH. reflexivity.
Qed.

(** the final text *)
Definition raw1 (p : piece) : str :=
  match p with
  | Op t => if cd t then tagged t ++ cdata_open else tagged t
  | Cl t => if cd t then s "]]>" ++ tagged (47%N :: t) else tagged (47%N :: t)
  | Em t => tagged (t ++ s " /")
  | Tx x => x
  end.
Definition raw (ps : list piece) : str := flat_map raw1 ps.

Lemma tagged_no_amp : forall t, ~ In 38%N t -> ~ In 38%N (tagged t).
Proof. intros t H [E | E]; [discriminate E|]. apply in_app_or in E. destruct E as [E | [E | []]]; [exact (H E) | discriminate E]. Qed.

Lemma unescape_show : forall ent ps, Forall piece_ok ps -> unescape ent (show cd cd ps) = raw ps.
Proof.
  intros ent ps H. induction H as [|p ps Hp H IH]; [reflexivity|].
  change (show cd cd (p :: ps)) with (concat (chunks cd cd p ++ flat_map (chunks cd cd) ps)). rewrite concat_app. fold (show cd cd ps).
  change (raw (p :: ps)) with (raw1 p ++ raw ps). destruct p as [t|t|t|x]; cbn [piece_ok chunks raw1] in *.
  - assert (Nt : ~ In 38%N (tagged t)) by (apply tagged_no_amp; intro E; nn Hp E).
    destruct (cd t); cbn [concat]; rewrite ?app_nil_r; rewrite ?unescape_plain; rewrite ?IH; auto.
    intro E. apply in_app_or in E. destruct E as [E | E]; [exact (Nt E)|]. cbn in E. repeat (destruct E as [E | E]; [discriminate E|]). exact E.
  - assert (Nt : ~ In 38%N (tagged (47%N :: t))) by (apply tagged_no_amp; intros [E | E]; [discriminate E | nn Hp E]).
    destruct (cd t); cbn [concat]; rewrite ?app_nil_r; rewrite ?unescape_plain; rewrite ?IH; auto.
    intro E. apply in_app_or in E. destruct E as [E | E]; [|exact (Nt E)]. cbn in E. repeat (destruct E as [E | E]; [discriminate E|]). exact E.
  - cbn [concat]. rewrite app_nil_r, unescape_plain, IH; [reflexivity|]. apply tagged_no_amp. intro E. apply in_app_or in E. destruct E as [E | E]; [nn Hp E|].
    cbn in E. repeat (destruct E as [E | E]; [discriminate E|]). exact E.
  - cbn [concat]. rewrite app_nil_r, unescape_escape, IH. reflexivity.
Qed.

(** <CHAPTERS /> *)
Definition fix_chapters (p : piece) : list piece :=
  match p with Em t => if str_eqb t (s "CHAPTERS") then [Op t; Cl t] else [p] | _ => [p] end.

Lemma show_fix : forall ps, Forall piece_ok ps ->
  replace (s "<CHAPTERS />") (s "<CHAPTERS></CHAPTERS>") (show cd cd ps) = show cd cd (flat_map fix_chapters ps).
Proof.
  intros ps H. change (s "<CHAPTERS />") with (tagged (s "CHAPTERS" ++ s " /")). unfold show. rewrite replace_chunks.
  - induction H as [|p ps Hp H IH]; [reflexivity|]. cbn [flat_map]. rewrite map_app, flat_map_app, !concat_app, IH. f_equal.
    destruct p as [t|t|t|x]; cbn [piece_ok chunks fix_chapters] in *.
    + assert (Q : str_eqb (tagged t) (tagged (s "CHAPTERS" ++ s " /")) = false).
      { rewrite str_eqb_tagged, str_eqb_sym. apply slash_neq2. exact Hp. }
      cbn [flat_map chunks app]. destruct (cd t); cbn [map app]; rewrite Q, ?str_eqb_cdata; reflexivity.
    + assert (Q : str_eqb (tagged (47%N :: t)) (tagged (s "CHAPTERS" ++ s " /")) = false) by (rewrite str_eqb_tagged; reflexivity).
      cbn [flat_map chunks app]. destruct (cd t); cbn [map app]; rewrite Q; [|reflexivity]. rewrite tagged_neq_text; [reflexivity|].
      intro E. cbn in E. repeat (destruct E as [E | E]; [discriminate E|]). exact E.
    + cbn [map]. rewrite str_eqb_tagged.
      assert (E2 : str_eqb (t ++ s " /") (s "CHAPTERS" ++ s " /") = str_eqb t (s "CHAPTERS")).
      { destruct (str_eqb t (s "CHAPTERS")) eqn:E; [apply str_eqb_eq in E; subst; apply str_eqb_refl|]. apply str_eqb_neq. intro E2. apply app_inv_tail in E2.
        apply str_eqb_neq in E. auto. }
      rewrite E2. destruct (str_eqb t (s "CHAPTERS")) eqn:E; [|reflexivity]. apply str_eqb_eq in E. subst t. reflexivity.
    + cbn [map flat_map chunks app]. rewrite tagged_neq_text by apply escape_no_lt. reflexivity.
  - apply not_in_bool. reflexivity.
  - apply not_in_bool. reflexivity.
  - reflexivity.
  - apply Forall_forall. intros m Hm. apply in_flat_map in Hm. destruct Hm as (p & Hp1 & Hp2). rewrite Forall_forall in H.
    pose proof (chunks_ok cd cd p (H p Hp1)) as G. rewrite Forall_forall in G. apply G. exact Hp2.
Qed.

(** ** The whole file *)
Definition piece_good (p : piece) : Prop := match p with Op t | Cl t | Em t => name_ok t = true | Tx x => forallb char_ok x = true end.
Lemma piece_good_ok : forall ps, Forall piece_good ps -> Forall piece_ok ps.
Proof. intros ps H. eapply Forall_impl; [|exact H]. intros [t|t|t|x] G; first [exact G | exact I]. Qed.

Lemma nl_ok : forall n, forallb char_ok (nl n) = true.
Proof. intro n. apply forallb_forall. intros c Hc. apply nl_chars in Hc. destruct Hc; subst; reflexivity. Qed.

Lemma Forall_joinl : forall {A} (P : A -> Prop) sep l, Forall P sep -> Forall (Forall P) l -> Forall P (joinl sep l).
Proof.
  intros A P sep l Hs H. induction H as [|x l Hx H IH]; [constructor|]. cbn [joinl]. destruct l; [exact Hx|]. apply Forall_app. split; [exact Hx|].
  apply Forall_app. split; [exact Hs | exact IH].
Qed.

Lemma text_ok_chars : forall t v, text_ok t (Some v) -> forallb char_ok v = true.
Proof. intros t v H. cbn [text_ok] in H. destruct (cd t); apply H. Qed.

Lemma pieces_good : forall e lv, clean e -> Forall piece_good (pieces lv e).
Proof.
  apply (elem_rect2 (fun e => forall lv, clean e -> Forall piece_good (pieces lv e))). intros t x k IH lv Hc.
  inversion Hc as [? ? ? Hn Ht Hk Hks]; subst. destruct k as [|a k].
  - cbn [pieces]. destruct x as [[|c v]|]; repeat constructor; try exact Hn. exact (text_ok_chars t (c :: v) Ht).
  - cbn [pieces]. constructor; [exact Hn|]. constructor.
    + cbn [piece_good]. destruct (blank x) eqn:B; [apply nl_ok|]. destruct x as [v|]; [exact (text_ok_chars t v Ht) | discriminate B].
    + apply Forall_app. split; [|repeat constructor; [apply nl_ok | exact Hn]]. apply Forall_joinl; [repeat constructor; apply nl_ok|].
      apply Forall_forall. intros ps Hps. apply in_map_iff in Hps. destruct Hps as (e & <- & He). rewrite Forall_forall in IH, Hks. apply IH; [exact He | apply Hks; exact He].
Qed.

Lemma unl_id : forall t, ~ In 13%N t -> unl t = t.
Proof.
  induction t as [|c t IH]; intro H; [reflexivity|]. cbn [unl]. replace (N.eqb c 13) with false.
  - rewrite IH; [reflexivity | intro H2; apply H; right; exact H2].
  - symmetry. apply N.eqb_neq. intros ->. apply H. left. reflexivity.
Qed.

Lemma name_char_kept : forall c, name_char c = true -> char_ok c = true.
Proof.
  intros c H. unfold name_char, name_start, is_digit in H. unfold char_ok, xml_char, kept.
  repeat rewrite orb_true_iff in H. repeat rewrite andb_true_iff in H. rewrite !N.leb_le, !N.eqb_eq in H.
  assert (B : (45 <= c <= 122)%N) by lia.
  assert (X : xml_char c = true). { unfold xml_char. replace (32 <=? c)%N with true by (symmetry; apply N.leb_le; lia). replace (c <=? 55295)%N with true by (symmetry; apply N.leb_le; lia). rewrite !orb_true_r. reflexivity. }
  unfold xml_char in X. rewrite X. cbn [andb].
  replace (c <=? 8)%N with false by (symmetry; apply N.leb_gt; lia). replace (c <=? 12)%N with false by (symmetry; apply N.leb_gt; lia).
  replace (c <=? 31)%N with false by (symmetry; apply N.leb_gt; lia). replace (N.eqb c 124) with false by (symmetry; apply N.eqb_neq; lia). replace (N.eqb c 13) with false by (symmetry; apply N.eqb_neq; lia).
  rewrite !andb_false_r. reflexivity.
Qed.

Lemma forallb_app : forall {A} (f : A -> bool) a b, forallb f (a ++ b) = forallb f a && forallb f b.
Proof. intros A f a b. induction a as [|x a IH]; [reflexivity|]. cbn [app forallb]. rewrite IH, andb_assoc. reflexivity. Qed.

Lemma name_chars_ok : forall t, name_ok t = true -> forallb char_ok t = true.
Proof. intros t H. apply forallb_forall. intros c Hc. apply name_char_kept. exact (name_ok_chars t c H Hc). Qed.

Lemma tagged_chars : forall b, forallb char_ok b = true -> forallb char_ok (tagged b) = true.
Proof. intros b H. unfold tagged. cbn [forallb]. rewrite forallb_app, H. reflexivity. Qed.

Lemma escape_chars : forall x, forallb char_ok x = true -> forallb char_ok (escape x) = true.
Proof.
  induction x as [|c x IH]; intro H; [reflexivity|]. cbn [forallb] in H. apply andb_prop in H. destruct H as [H1 H2]. unfold escape in *. cbn [flat_map]. rewrite forallb_app, IH by exact H2.
  rewrite andb_true_r. unfold esc_char. destruct (N.eqb c 38); [reflexivity|]. destruct (N.eqb c 60); [reflexivity|]. destruct (N.eqb c 62); [reflexivity|]. cbn [forallb]. rewrite H1. reflexivity.
Qed.

Lemma show_chars : forall To Tc ps, Forall piece_good ps -> forallb char_ok (show To Tc ps) = true.
Proof.
  intros To Tc ps H. induction H as [|p ps Hp H IH]; [reflexivity|].
  change (show To Tc (p :: ps)) with (concat (chunks To Tc p ++ flat_map (chunks To Tc) ps)). rewrite concat_app, forallb_app. fold (show To Tc ps). rewrite IH, andb_true_r.
  destruct p as [t|t|t|x]; cbn [piece_good chunks] in *.
  - pose proof (tagged_chars t (name_chars_ok t Hp)) as Q. destruct (To t); cbn [concat]; rewrite !forallb_app, Q; reflexivity.
  - assert (Q : forallb char_ok (tagged (47%N :: t)) = true) by (apply tagged_chars; cbn [forallb]; rewrite (name_chars_ok t Hp); reflexivity).
    destruct (Tc t); cbn [concat]; rewrite !forallb_app, Q; reflexivity.
  - cbn [concat]. rewrite app_nil_r. apply tagged_chars. rewrite forallb_app, (name_chars_ok t Hp). reflexivity.
  - cbn [concat]. rewrite app_nil_r. apply escape_chars. exact Hp.
Qed.

Lemma raw_chars : forall ps, Forall piece_good ps -> forallb char_ok (raw ps) = true.
Proof.
  intros ps H. induction H as [|p ps Hp H IH]; [reflexivity|]. unfold raw in *. cbn [flat_map]. rewrite forallb_app, IH, andb_true_r.
  destruct p as [t|t|t|x]; cbn [piece_good raw1] in *.
  - pose proof (tagged_chars t (name_chars_ok t Hp)) as Q. destruct (cd t); rewrite ?forallb_app, Q; reflexivity.
  - assert (Q : forallb char_ok (tagged (47%N :: t)) = true) by (apply tagged_chars; cbn [forallb]; rewrite (name_chars_ok t Hp); reflexivity).
    destruct (cd t); rewrite ?forallb_app, Q; reflexivity.
  - apply tagged_chars. rewrite forallb_app, (name_chars_ok t Hp). reflexivity.
  - exact Hp.
Qed.

Lemma chars_no_cr : forall t, forallb char_ok t = true -> ~ In 13%N t.
Proof. intros t H Hi. rewrite forallb_forall in H. specialize (H _ Hi). discriminate H. Qed.

Lemma chars_kept : forall t, forallb char_ok t = true -> filter kept t = t.
Proof.
  induction t as [|c t IH]; intro H; [reflexivity|]. cbn [forallb] in H. apply andb_prop in H. destruct H as [H1 H2]. cbn [filter].
  unfold char_ok in H1. apply andb_prop in H1. destruct H1 as [H1 _]. apply andb_prop in H1. destruct H1 as [_ H1]. rewrite H1, IH by exact H2. reflexivity.
Qed.

Definition fixed (nc : bool) (ps : list piece) : list piece := if nc then flat_map fix_chapters ps else ps.

Lemma fixed_good : forall nc ps, Forall piece_good ps -> Forall piece_good (fixed nc ps).
Proof.
  intros nc ps H. unfold fixed. destruct nc; [|exact H]. apply Forall_forall. intros p Hp. apply in_flat_map in Hp. destruct Hp as (q & Hq & Hp).
  rewrite Forall_forall in H. specialize (H q Hq). destruct q as [t|t|t|x]; cbn [fix_chapters] in Hp; try (destruct Hp as [<- | []]; exact H).
  destruct (str_eqb t (s "CHAPTERS")); [destruct Hp as [<- | [<- | []]]; exact H | destruct Hp as [<- | []]; exact H].
Qed.

Definition header_body : str := s "?xml version=""1.0"" encoding=""utf-8""?".
Lemma header_tagged : xml_header = tagged header_body.
Proof. reflexivity. Qed.

Theorem file_text_raw : forall ent nc r, Forall clean r ->
  file_text ent nc r = xml_header ++ 10%N :: raw (fixed nc (pieces 0 (Elem (s "YWRITER7") None r))) ++ [10%N].
Proof.
  intros ent nc r Hr. assert (Hc : clean (Elem (s "YWRITER7") None r)) by (constructor; [reflexivity | exact I | right; reflexivity | exact Hr]).
  pose proof (pieces_good _ 0 Hc) as Hg. set (ps := pieces 0 (Elem (s "YWRITER7") None r)) in *.
  unfold file_text, postprocess, tree_text. rewrite ser_show. fold ps. pose proof (show_chars none none ps Hg) as Ch.
  rewrite unl_id by (apply chars_no_cr; rewrite forallb_app, Ch; reflexivity). rewrite split_splitc.
  rewrite join_cons by (destruct (splitc _ _) eqn:E; [exfalso; exact (splitc_nonempty _ _ E) | discriminate]).
  rewrite (join_map_splitc cdata_line 10%N cdata_line_nl). rewrite cdata_line_nl, cdata_line_show by (apply piece_good_ok; exact Hg).
  change (cdata_line []) with (@nil N). set (T := show cd cd ps) in *.
  assert (Pat : forall p, p <> [] -> ~ In 60%N p -> ~ In 62%N p -> framed p T -> containsb p header_body = false -> containsb p [10%N] = false ->
     containsb p (xml_header ++ [10%N] ++ T ++ [10%N]) = false).
  { intros p Hp H60 H62 (u & E & Hu) Hh H10. rewrite E, header_tagged. unfold tagged.
    replace ((60%N :: header_body ++ [62%N]) ++ [10%N] ++ (60%N :: u ++ [62%N]) ++ [10%N]) with (60%N :: header_body ++ 62%N :: [10%N] ++ 60%N :: u ++ 62%N :: [10%N]) by (flat; reflexivity).
    apply sep_head; [exact Hp | exact H60|]. apply sep_all; [exact Hp | exact H62 | exact Hh|]. apply sep_all; [exact Hp | exact H60 | exact H10|]. apply sep_all; assumption. }
  change (s "[CDATA[ " ++ [10%N]) with p_open. change (10%N :: s "]]") with p_close.
  rewrite (replace_absent p_open); [|apply Pat; [discriminate | apply not_in_bool; reflexivity | apply not_in_bool; reflexivity | apply open_framed; exact Hc | reflexivity | reflexivity]].
  rewrite (replace_absent p_close); [|apply Pat; [discriminate | apply not_in_bool; reflexivity | apply not_in_bool; reflexivity | apply close_framed; exact Hc | reflexivity | reflexivity]].
  assert (Nc : (if nc then replace (s "<CHAPTERS />") (s "<CHAPTERS></CHAPTERS>") (xml_header ++ [10%N] ++ T ++ [10%N]) else xml_header ++ [10%N] ++ T ++ [10%N])
     = xml_header ++ [10%N] ++ show cd cd (fixed nc ps) ++ [10%N]).
  { unfold fixed. destruct nc; [|reflexivity]. change (s "<CHAPTERS />") with (tagged (s "CHAPTERS /")).
    assert (R : forall q, replace (tagged (s "CHAPTERS /")) q (xml_header ++ [10%N] ++ T ++ [10%N]) = xml_header ++ [10%N] ++ replace (tagged (s "CHAPTERS /")) q (T ++ [10%N])).
    { intro q. rewrite header_tagged. rewrite replace_chunk; [|apply not_in_bool; reflexivity | apply not_in_bool; reflexivity | reflexivity | apply CTag; apply not_in_bool; reflexivity].
      rewrite str_eqb_tagged. change (str_eqb header_body (s "CHAPTERS /")) with false. cbv iota. reflexivity. }
    rewrite R. f_equal. f_equal. rewrite replace_app_sep; [|apply not_in_bool; reflexivity | discriminate].
    change (tagged (s "CHAPTERS /")) with (s "<CHAPTERS />"). rewrite <- show_fix by (apply piece_good_ok; exact Hg). reflexivity. }
  rewrite Nc. rewrite header_tagged. rewrite unescape_plain by (apply tagged_no_amp; apply not_in_bool; reflexivity).
  rewrite unescape_plain by (apply not_in_bool; reflexivity). cbn [app]. f_equal. f_equal. f_equal.
  assert (L : forall qs, Forall piece_ok qs -> unescape ent (show cd cd qs ++ [10%N]) = raw qs ++ [10%N]).
  { intros qs Hq. pose proof (unescape_show ent (qs ++ [Tx [10%N]])) as U. rewrite show_app in U. unfold show at 2 in U. cbn [flat_map chunks concat app] in U.
    change (escape [10%N] ++ []) with [10%N] in U. rewrite U; [unfold raw; rewrite flat_map_app; reflexivity|]. apply Forall_app. split; [exact Hq | repeat constructor]. }
  apply L. apply piece_good_ok. apply fixed_good. exact Hg.
Qed.

(** ** Parsing *)
Lemma lex_go_skip : forall p t, lex_go (length p) (p ++ t) = lex_go 0 t.
Proof. induction p as [|x p IH]; intro t; [reflexivity | apply IH]. Qed.

Lemma lex_tok : forall k p rest, p <> [] -> look (p ++ rest) = Some (k, length p) -> lex (p ++ rest) = option_map (cons k) (lex rest).
Proof.
  intros k p rest Hp H. destruct p as [|c p]; [congruence|]. unfold lex. cbn [app lex_go]. change (c :: p ++ rest) with ((c :: p) ++ rest). rewrite H.
  cbn [length pred]. rewrite lex_go_skip. reflexivity.
Qed.

Lemma span_len_name : forall (f : N -> bool) t c r m, forallb f t = true -> f c = false -> length t <= m -> span_len f m (t ++ c :: r) = length t.
Proof.
  intros f t c r. induction t as [|x t IH]; intros m Ht Hc Hm; cbn [app span_len length] in *.
  - destruct m; [reflexivity|]. cbn [span_len]. rewrite Hc. reflexivity.
  - cbn [forallb] in Ht. apply andb_prop in Ht. destruct Ht as [H1 H2]. destruct m as [|m]; [lia|]. cbn [span_len]. rewrite H1. f_equal. apply IH; [exact H2 | exact Hc | lia].
Qed.

Lemma firstn_len : forall {A} (a b : list A), firstn (length a) (a ++ b) = a.
Proof. intros A a b. induction a as [|x a IH]; [reflexivity|]. cbn. rewrite IH. reflexivity. Qed.
Lemma skipn_len : forall {A} (a b : list A), skipn (length a) (a ++ b) = b.
Proof. intros A a b. induction a as [|x a IH]; [reflexivity|]. exact IH. Qed.

Lemma look_name_end : forall t c r, name_ok t = true -> name_char c = false -> xml_space c = false ->
  look_name (t ++ c :: r) = Some (t, length t, c :: r).
Proof.
  intros t c r Ht Hc Hs. unfold look_name. assert (F : forallb name_char t = true) by (unfold name_ok in Ht; apply andb_prop in Ht; apply Ht).
  rewrite (span_len_name name_char t c r) by (try assumption; rewrite app_length; lia). rewrite firstn_len, skipn_len, Ht. cbn [span_len length]. rewrite Hs. cbn [skipn].
  rewrite Nat.add_0_r. reflexivity.
Qed.

Lemma look_name_space : forall t r, name_ok t = true -> look_name (t ++ 32%N :: 47%N :: r) = Some (t, length t + 1, 47%N :: r).
Proof.
  intros t r Ht. unfold look_name. assert (F : forallb name_char t = true) by (unfold name_ok in Ht; apply andb_prop in Ht; apply Ht).
  rewrite (span_len_name name_char t 32%N (47%N :: r)) by (try assumption; try reflexivity; rewrite app_length; lia). rewrite firstn_len, skipn_len, Ht. reflexivity.
Qed.

Lemma look_start : forall t r, name_ok t = true -> look (60%N :: t ++ r) =
  match look_name (t ++ r) with
  | Some (name, n, 62%N :: _) => Some (TOpen name, 1 + n + 1)
  | Some (name, n, 47%N :: 62%N :: _) => Some (TEmpty name, 1 + n + 2)
  | _ => None end.
Proof.
  intros t r Ht. unfold look. cbn [N.eqb Pos.eqb]. destruct t as [|c t]; [discriminate Ht|]. cbn [app].
  assert (Hc : name_start c = true) by (unfold name_ok in Ht; apply andb_prop in Ht; apply Ht).
  assert (E1 : prefixb (s "![CDATA[") (c :: t ++ r) = false).
  { change (s "![CDATA[") with (33%N :: s "[CDATA["). cbn [prefixb]. replace (N.eqb 33 c) with false; [reflexivity|]. symmetry. apply N.eqb_neq. intros <-. discriminate Hc. }
  rewrite E1. destruct c as [|p]; [discriminate Hc|]. do 6 (destruct p as [p|p|]; try reflexivity); try discriminate Hc.
Qed.

Lemma lex_open : forall t r, name_ok t = true -> lex (tagged t ++ r) = option_map (cons (TOpen t)) (lex r).
Proof.
  intros t r Ht. apply lex_tok; [discriminate|]. unfold tagged. cbn [app]. rewrite <- app_assoc. rewrite look_start by exact Ht. cbn [app].
  rewrite look_name_end by (try assumption; reflexivity). cbn [length]. rewrite app_length. cbn [length]. f_equal; f_equal; lia.
Qed.

Lemma lex_empty : forall t r, name_ok t = true -> lex (tagged (t ++ s " /") ++ r) = option_map (cons (TEmpty t)) (lex r).
Proof.
  intros t r Ht. apply lex_tok; [discriminate|]. unfold tagged. cbn [app]. rewrite <- !app_assoc. rewrite look_start by exact Ht.
  change (s " /" ++ [62%N] ++ r) with (32%N :: 47%N :: 62%N :: r). rewrite look_name_space by exact Ht. cbn [length]. rewrite !app_length. cbn [length]. f_equal; f_equal; change (length (s " /")) with 2; lia.
Qed.

Lemma lex_close : forall t r, name_ok t = true -> lex (tagged (47%N :: t) ++ r) = option_map (cons (TClose t)) (lex r).
Proof.
  intros t r Ht. apply lex_tok; [discriminate|]. unfold tagged. cbn [app]. rewrite <- app_assoc. unfold look. cbn [N.eqb Pos.eqb app].
  change (prefixb (s "![CDATA[") (47%N :: t ++ 62%N :: r)) with false. cbv iota. rewrite look_name_end by (try assumption; reflexivity).
  cbn [length]. rewrite app_length. cbn [length]. f_equal; f_equal; lia.
Qed.

Lemma before_app : forall v r, containsb (s "]]>") v = false -> before (s "]]>") (v ++ s "]]>" ++ r) = Some v.
Proof.
  induction v as [|c v IH]; intros r H; [reflexivity|]. cbn [containsb] in H. apply orb_false_iff in H. destruct H as [H1 H2].
  assert (Q : prefixb (s "]]>") ((c :: v) ++ s "]]>" ++ r) = false).
  { destruct v as [|c2 [|c3 v]].
    - cbn. destruct c as [|p]; [reflexivity|]. do 7 (destruct p as [p|p|]; try reflexivity).
    - cbn. destruct c as [|p]; [reflexivity|]. do 7 (destruct p as [p|p|]; try reflexivity). all: destruct c2 as [|q]; [reflexivity|]; do 7 (destruct q as [q|q|]; try reflexivity).
    - rewrite prefixb_app_long by (cbn; lia). exact H1. }
  cbn [app before] in *. rewrite Q. rewrite IH by exact H2. reflexivity.
Qed.

Lemma lex_cdata : forall v r, forallb xml_char v = true -> containsb (s "]]>") v = false ->
  lex (cdata_open ++ v ++ s "]]>" ++ r) = option_map (cons (TText v)) (lex r).
Proof.
  intros v r Hx Hc. replace (cdata_open ++ v ++ s "]]>" ++ r) with ((cdata_open ++ v ++ s "]]>") ++ r) by (rewrite <- !app_assoc; reflexivity).
  apply lex_tok; [discriminate|]. rewrite <- !app_assoc. change (cdata_open ++ v ++ s "]]>" ++ r) with (60%N :: (s "![CDATA[" ++ v ++ s "]]>" ++ r)).
  unfold look. cbn [N.eqb Pos.eqb]. rewrite prefixb_app. change (skipn 8 (s "![CDATA[" ++ v ++ s "]]>" ++ r)) with (v ++ s "]]>" ++ r).
  rewrite before_app by exact Hc. rewrite Hx. rewrite !app_length. f_equal; f_equal; cbn; lia.
Qed.

Lemma look_entity_sep : forall l t r, (forall p v, In (p, v) l -> ~ In 60%N p) -> look_entity l (t ++ 60%N :: r) = look_entity l t.
Proof.
  induction l as [|[p v] l IH]; intros t r H; [reflexivity|]. cbn [look_entity]. rewrite prefixb_false_sep by (apply (H p v); left; reflexivity).
  destruct (prefixb p t); [reflexivity|]. apply IH. intros p' v' Hp. apply (H p' v'). right. exact Hp.
Qed.

Lemma look_entity_len : forall l t k n, look_entity l t = Some (k, n) -> n <= length t.
Proof.
  induction l as [|[p v] l IH]; intros t k n H; [discriminate|]. cbn [look_entity] in H. destruct (prefixb p t) eqn:E; [|eapply IH; exact H].
  injection H as _ <-. apply prefixb_spec in E. destruct E as [r ->]. rewrite app_length. lia.
Qed.

Lemma look_sep : forall c t r, c <> 60%N -> look ((c :: t) ++ 60%N :: r) = look (c :: t).
Proof.
  intros c t r Hc. unfold look. cbn [app]. apply N.eqb_neq in Hc. rewrite Hc. change (c :: t ++ 60%N :: r) with ((c :: t) ++ 60%N :: r).
  rewrite look_entity_sep.
  - rewrite prefixb_false_sep by (apply not_in_bool; reflexivity). reflexivity.
  - intros p v Hp. cbn in Hp. repeat (destruct Hp as [E | Hp]; [injection E as <- <-; apply not_in_bool; reflexivity|]). destruct Hp.
Qed.

Lemma look_len : forall c t k n, c <> 60%N -> look (c :: t) = Some (k, n) -> pred n <= length t.
Proof.
  intros c t k n Hc H. unfold look in H. apply N.eqb_neq in Hc. rewrite Hc in H. destruct (N.eqb c 38).
  - apply look_entity_len in H. cbn [length] in H. lia.
  - destruct (prefixb _ _); [discriminate|]. destruct (xml_char c); [|discriminate]. injection H as _ <-. cbn. lia.
Qed.

Lemma lex_text : forall v j ts r, no_lt v -> j <= length v -> lex_go j v = Some ts -> lex_go j (v ++ 60%N :: r) = option_map (app ts) (lex (60%N :: r)).
Proof.
  induction v as [|c v IH]; intros j ts r Hv Hj H.
  - cbn [length] in Hj. assert (j = 0) by lia. subst j. injection H as <-. cbn [app]. unfold lex. destruct (lex_go 0 (60%N :: r)); reflexivity.
  - assert (Hv' : no_lt v) by (intro E; apply Hv; right; exact E). cbn [app lex_go] in *. destruct j as [|j]; [|apply IH; [exact Hv' | cbn [length] in Hj; lia | exact H]].
    assert (Hc : c <> 60%N) by (intros ->; apply Hv; left; reflexivity).
    change (c :: v ++ 60%N :: r) with ((c :: v) ++ 60%N :: r). rewrite look_sep by exact Hc. destruct (look (c :: v)) as [[k n]|] eqn:E; [|discriminate].
    apply look_len in E; [|exact Hc]. destruct (lex_go (pred n) v) as [ts'|] eqn:E2; [|discriminate]. injection H as <-. rewrite (IH _ ts' r Hv' E E2).
    destruct (lex (60%N :: r)); reflexivity.
Qed.

(** tokens of a plain text *)
Lemma plain_tokens : forall v y, no_lt v -> decode v = Some y -> exists ts, texts_of ts = Some y /\ forall r, lex (v ++ 60%N :: r) = option_map (app ts) (lex (60%N :: r)).
Proof.
  intros v y Hv H. unfold decode in H. destruct (lex v) as [ts|] eqn:E; [|discriminate]. exists ts. split; [exact H|]. intro r.
  apply (lex_text v 0 ts r Hv); [lia | exact E].
Qed.

Definition no_special (v : str) : Prop := forallb xml_char v = true /\ ~ In 38%N v /\ ~ In 60%N v /\ ~ In 93%N v.
Lemma decode_plain : forall v, no_special v -> decode v = Some v.
Proof.
  intro v. induction v as [|c v IH]; intros (H1 & H2 & H3 & H4); [reflexivity|]. unfold decode, lex in *. cbn [lex_go]. unfold look.
  replace (N.eqb c 60) with false by (symmetry; apply N.eqb_neq; intros ->; apply H3; left; reflexivity).
  replace (N.eqb c 38) with false by (symmetry; apply N.eqb_neq; intros ->; apply H2; left; reflexivity).
  replace (prefixb (s "]]>") (c :: v)) with false.
  2: { symmetry. change (s "]]>") with (93%N :: s "]>"). cbn [prefixb]. replace (N.eqb 93 c) with false; [reflexivity|]. symmetry. apply N.eqb_neq. intros <-. apply H4. left. reflexivity. }
  cbn [forallb] in H1. apply andb_prop in H1. destruct H1 as [H0 H1]. rewrite H0. cbn [pred].
  assert (Q : match lex_go 0 v with Some ts => texts_of ts | None => None end = Some v).
  { apply IH. repeat split; [exact H1 | intro E; apply H2; right; exact E | intro E; apply H3; right; exact E | intro E; apply H4; right; exact E]. }
  destruct (lex_go 0 v) as [ts|]; [|discriminate]. cbn [option_map texts_of]. rewrite Q. reflexivity.
Qed.

Lemma nl_special : forall n, no_special (nl n).
Proof.
  intro n. split; [apply forallb_forall; intros c Hc; apply nl_chars in Hc; destruct Hc; subst; reflexivity|].
  repeat split; intro H; apply nl_chars in H; destruct H as [H | H]; discriminate H.
Qed.

Definition acc_text (x : option str) (y : str) : option str := match y with [] => x | _ => Some (or_empty x ++ y) end.

Lemma make_texts : forall ts y, texts_of ts = Some y -> forall t x st root more,
  make (ts ++ more) ((t, x, []) :: st) root = make more ((t, acc_text x y, []) :: st) root.
Proof.
  induction ts as [|k ts IH]; intros y H t x st root more; [injection H as <-; reflexivity|].
  destruct k as [u|u|u|v]; try discriminate H. cbn [texts_of] in H. destruct (texts_of ts) as [y'|] eqn:E; [|discriminate]. injection H as <-.
  cbn [app make]. destruct v as [|c v]; cbn [add_text].
  - rewrite (IH y' eq_refl). reflexivity.
  - rewrite (IH y' eq_refl). f_equal. f_equal. f_equal. f_equal. unfold acc_text. cbn [app]. destruct y'; cbn [or_empty]; [rewrite app_nil_r; reflexivity | rewrite <- app_assoc; reflexivity].
Qed.

Lemma make_tails : forall ts y, texts_of ts = Some y -> forall t x a k st root more,
  make (ts ++ more) ((t, x, a :: k) :: st) root = make more ((t, x, a :: k) :: st) root.
Proof.
  induction ts as [|k ts IH]; intros y H t x a kk st root more; [reflexivity|].
  destruct k as [u|u|u|v]; try discriminate H. cbn [texts_of] in H. destruct (texts_of ts) as [y'|] eqn:E; [|discriminate]. cbn [app make add_text]. apply (IH y' eq_refl).
Qed.

Definition deliver (e : elem) (st : list frame) (root : option elem) : list frame * option elem :=
  match st with f :: st' => (add_kid e f :: st', root) | [] => ([], Some e) end.

(** the text w is parsed to one element like e *)
Definition parses (e : elem) (w : str) : Prop :=
  exists ts e', settled out_text e e' /\ (forall r, lex (w ++ r) = option_map (app ts) (lex r)) /\ (exists w', w = 60%N :: w') /\
  forall st root more, (st = [] -> root = None) -> make (ts ++ more) st root = make more (fst (deliver e' st root)) (snd (deliver e' st root)).

Lemma make_close : forall t x k st root more, make (TClose t :: more) ((t, x, k) :: st) root = make more (fst (deliver (Elem t x (rev k)) st root)) (snd (deliver (Elem t x (rev k)) st root)).
Proof. intros. cbn [make fst]. rewrite str_eqb_refl. destruct st; reflexivity. Qed.

Lemma make_open : forall t more st root, (st = [] -> root = None) -> make (TOpen t :: more) st root = make more ((t, None, []) :: st) root.
Proof. intros t more st root H. cbn [make]. destruct st; [rewrite (H eq_refl); reflexivity | reflexivity]. Qed.

Lemma option_map_app2 : forall {A} (a b : list A) o, option_map (app a) (option_map (app b) o) = option_map (app (a ++ b)) o.
Proof. intros A a b [o|]; [cbn; rewrite app_assoc; reflexivity | reflexivity]. Qed.

Lemma lex_cons_app : forall (k : tok) o, option_map (cons k) o = option_map (app [k]) o.
Proof. intros k [o|]; reflexivity. Qed.

Lemma char_xml : forall v, forallb char_ok v = true -> forallb xml_char v = true.
Proof.
  intros v H. apply forallb_forall. intros c Hc. rewrite forallb_forall in H. specialize (H c Hc). unfold char_ok in H. apply andb_prop in H. destruct H as [H _].
  apply andb_prop in H. apply H.
Qed.

Lemma raw_app : forall a b, raw (a ++ b) = raw a ++ raw b.
Proof. intros. unfold raw. apply flat_map_app. Qed.
Lemma fixed_app : forall nc a b, fixed nc (a ++ b) = fixed nc a ++ fixed nc b.
Proof. intros [|] a b; [apply flat_map_app | reflexivity]. Qed.
Lemma fixed_cons : forall nc p b, fixed nc (p :: b) = fixed nc [p] ++ fixed nc b.
Proof. intros nc p b. apply (fixed_app nc [p] b). Qed.
Lemma fixed_op : forall nc t, fixed nc [Op t] = [Op t]. Proof. intros [|] t; reflexivity. Qed.
Lemma fixed_cl : forall nc t, fixed nc [Cl t] = [Cl t]. Proof. intros [|] t; reflexivity. Qed.
Lemma fixed_tx : forall nc t, fixed nc [Tx t] = [Tx t]. Proof. intros [|] t; reflexivity. Qed.

Lemma cd_chapters : cd (s "CHAPTERS") = false.
Proof. reflexivity. Qed.

(** the sub-elements, separated by white space *)
Lemma parses_kids : forall nc lv kids, kids <> [] -> Forall (fun e => parses e (raw (fixed nc (pieces lv e)))) kids ->
  exists ts kids', Forall2 (settled out_text) kids kids' /\
  (forall r, lex (raw (fixed nc (joinl [Tx (nl lv)] (map (pieces lv) kids))) ++ r) = option_map (app ts) (lex r)) /\
  (exists w', raw (fixed nc (joinl [Tx (nl lv)] (map (pieces lv) kids))) = 60%N :: w') /\
  forall t x k0 st root more, make (ts ++ more) ((t, x, k0) :: st) root = make more ((t, x, rev kids' ++ k0) :: st) root.
Proof.
  intros nc lv kids Hne H. induction H as [|e kids He H IH]; [congruence|]. destruct He as (ts & e' & S1 & L1 & (w1 & W1) & M1).
  destruct kids as [|e2 kids].
  - exists ts, [e']. split; [constructor; [exact S1 | constructor]|]. cbn [map joinl]. split; [exact L1|]. split; [exists w1; exact W1|].
    intros t x k0 st root more. rewrite M1 by discriminate. reflexivity.
  - destruct IH as (ts2 & kids' & S2 & L2 & (w2 & W2) & M2); [discriminate|].
    cbn [map] in *. set (J := joinl [Tx (nl lv)] (pieces lv e2 :: map (pieces lv) kids)) in *.
    change (joinl [Tx (nl lv)] (pieces lv e :: pieces lv e2 :: map (pieces lv) kids)) with (pieces lv e ++ [Tx (nl lv)] ++ J).
    destruct (plain_tokens (nl lv) (nl lv)) as (tn & Tn & Ln); [apply nl_special | apply decode_plain; apply nl_special|].
    exists (ts ++ tn ++ ts2), (e' :: kids'). split; [constructor; assumption|]. rewrite !fixed_app, fixed_tx, !raw_app. split; [|split].
    + intro r. rewrite <- !app_assoc. rewrite L1. change (raw [Tx (nl lv)]) with (nl lv ++ []). rewrite app_nil_r. rewrite W2. cbn [app]. rewrite Ln.
      change (60%N :: w2 ++ r) with ((60%N :: w2) ++ r). rewrite <- W2, L2. rewrite !option_map_app2, <- ?app_assoc. reflexivity.
    + rewrite W1. eexists. reflexivity.
    + intros t x k0 st root more. rewrite <- !app_assoc. rewrite M1 by discriminate. cbn [deliver add_kid fst snd]. rewrite (make_tails tn _ Tn), M2.
      cbn [rev]. rewrite <- app_assoc. reflexivity.
Qed.

Theorem clean_parses : forall nc e lv, clean e -> parses e (raw (fixed nc (pieces lv e))).
Proof.
  intro nc. apply (elem_rect2 (fun e => forall lv, clean e -> parses e (raw (fixed nc (pieces lv e))))). intros t x k IH lv Hc.
  inversion Hc as [? ? ? Hn Ht Hk Hks]; subst.
  assert (Lc : forall r, lex (tagged (47%N :: t) ++ r) = option_map (app [TClose t]) (lex r)) by (intro r; rewrite lex_close by exact Hn; apply lex_cons_app).
  assert (Lo : forall r, lex (tagged t ++ r) = option_map (app [TOpen t]) (lex r)) by (intro r; rewrite lex_open by exact Hn; apply lex_cons_app).
  destruct k as [|a k].
  - assert (Empty : out_text t x = None -> parses (Elem t x []) (raw (fixed nc [Em t]))).
    { intro Ho. assert (St : settled out_text (Elem t x []) (Elem t None [])) by (rewrite <- Ho; constructor).
      destruct (nc && str_eqb t (s "CHAPTERS")) eqn:E.
      - apply andb_prop in E. destruct E as [-> E]. assert (Ec : t = s "CHAPTERS") by (apply str_eqb_eq; exact E).
        exists ([TOpen t] ++ [TClose t]), (Elem t None []). split; [exact St|]. cbn [fixed flat_map fix_chapters]. rewrite E. unfold raw. cbn [flat_map app raw1]. assert (Cf : cd t = false) by (rewrite Ec; exact cd_chapters). rewrite ?Cf.
        rewrite app_nil_r. split; [|split].
        + intro r. rewrite <- app_assoc, Lo, Lc. rewrite option_map_app2. reflexivity.
        + eexists. reflexivity.
        + intros st root more Hr. cbn [app]. rewrite make_open by exact Hr. rewrite make_close. reflexivity.
      - exists [TEmpty t], (Elem t None []). split; [exact St|].
        assert (F : fixed nc [Em t] = [Em t]) by (destruct nc; cbn [fixed flat_map fix_chapters]; [cbn [andb] in E; rewrite E; reflexivity | reflexivity]).
        rewrite F. unfold raw. cbn [flat_map raw1]. rewrite app_nil_r. split; [|split].
        + intro r. rewrite lex_empty by exact Hn. apply lex_cons_app.
        + eexists. reflexivity.
        + intros st root more Hr. cbn [app make]. destruct st; [rewrite (Hr eq_refl); reflexivity | reflexivity]. }
    cbn [pieces]. destruct x as [[|c v]|].
    + apply Empty. cbn [out_text]. destruct (cd t); reflexivity.
    + clear Empty. rewrite (fixed_cons nc (Op t)), (fixed_cons nc (Tx (c :: v))), fixed_op, fixed_tx, fixed_cl. unfold raw. cbn [app flat_map raw1]. cbn [text_ok] in Ht.
      destruct (cd t) eqn:Ecd.
      * destruct Ht as (H1 & H2 & _). exists ([TOpen t] ++ [TText (c :: v)] ++ [TClose t]), (Elem t (Some (c :: v)) []). split.
        { assert (Q : out_text t (Some (c :: v)) = Some (c :: v)) by (cbn [out_text]; rewrite Ecd; reflexivity). assert (Z : settled out_text (Elem t (Some (c :: v)) []) (Elem t (out_text t (Some (c :: v))) [])) by constructor. rewrite Q in Z. exact Z. }
        split; [|split; [eexists; reflexivity|]].
        -- intro r. rewrite app_nil_r. rewrite <- !app_assoc. rewrite Lo.
           replace ((c :: v ++ s "]]>" ++ tagged (47%N :: t)) ++ r) with ((c :: v) ++ s "]]>" ++ (tagged (47%N :: t) ++ r)) by (cbn [app]; rewrite <- !app_assoc; reflexivity).
           rewrite lex_cdata by (try exact H2; apply char_xml; exact H1). rewrite Lc, lex_cons_app, !option_map_app2, <- ?app_assoc. reflexivity.
        -- intros st root more Hr. cbn [app]. rewrite make_open by exact Hr. change (make (TText (c :: v) :: TClose t :: more) ((t, None, []) :: st) root) with (make (TClose t :: more) ((t, Some (c :: v), []) :: st) root).
           rewrite make_close. reflexivity.
      * destruct Ht as (H1 & H2 & H3 & _). destruct (decode (c :: v)) as [y|] eqn:Ed; [|congruence]. destruct (plain_tokens (c :: v) y H2 Ed) as (tv & Tv & Lv).
        exists ([TOpen t] ++ tv ++ [TClose t]), (Elem t (acc_text None y) []). split.
        { assert (Q : out_text t (Some (c :: v)) = acc_text None y) by (cbn [out_text]; rewrite Ecd, Ed; destruct y; reflexivity). assert (Z : settled out_text (Elem t (Some (c :: v)) []) (Elem t (out_text t (Some (c :: v))) [])) by constructor. rewrite Q in Z. exact Z. }
        split; [|split; [eexists; reflexivity|]].
        -- intro r. rewrite app_nil_r. rewrite <- !app_assoc. rewrite Lo. match goal with |- context [lex ?z] => replace z with ((c :: v) ++ 60%N :: (((47%N :: t) ++ [62%N]) ++ r)) by (unfold tagged; cbn [app]; rewrite <- ?app_assoc; cbn [app]; rewrite <- ?app_assoc; reflexivity) end. rewrite Lv. change (60%N :: (((47%N :: t) ++ [62%N]) ++ r)) with (tagged (47%N :: t) ++ r).
           rewrite Lc, !option_map_app2, <- ?app_assoc. reflexivity.
        -- intros st root more Hr. cbn [app]. rewrite make_open by exact Hr. rewrite <- app_assoc, (make_texts tv y Tv). cbn [app]. rewrite make_close. reflexivity.
    + apply Empty. reflexivity.
  - destruct Hk as [Hk | Hk]; [discriminate Hk|].
    destruct (parses_kids nc (S lv) (a :: k)) as (tk & kids' & Sk & Lk & (wk & Wk) & Mk); [discriminate | |].
    { rewrite Forall_forall in *. intros e He. apply IH; [exact He | apply Hks; exact He]. }
    cbn [pieces]. set (J := joinl [Tx (nl (S lv))] (map (pieces (S lv)) (a :: k))) in *.
    set (tx := if blank x then nl (S lv) else or_empty x).
    assert (Dx : exists y, (no_lt tx /\ decode tx = Some y) /\ node_text out_text t x (acc_text None y)).
    { unfold tx, node_text. destruct (blank x) eqn:B; [exists (nl (S lv)); split; [split; [apply nl_special | apply decode_plain; apply nl_special]|]|].
      { left. split; [reflexivity|]. cbn [nl acc_text white]. split; [discriminate|]. intros c0 [<- | Hc0]; [left; reflexivity|]. apply in_flat_map in Hc0. destruct Hc0 as (u & _ & [<- | [<- | []]]); right; reflexivity. }
      destruct x as [v|]; [|discriminate B]. cbn [text_ok] in Ht. rewrite Hk in Ht. destruct Ht as (_ & H2 & H3 & _). cbn [or_empty]. destruct (decode v) as [y|] eqn:Ey; [|congruence]. exists y. split; [auto|]. right. split; [reflexivity|]. cbn [out_text]. rewrite Hk, Ey. destruct y; reflexivity. }
    destruct Dx as (y & (Dx1 & Dx2) & Dy). destruct (plain_tokens tx y Dx1 Dx2) as (tt & Tt & Lt).
    destruct (plain_tokens (nl lv) (nl lv)) as (tn & Tn & Ln); [apply nl_special | apply decode_plain; apply nl_special|].
    assert (Kne : exists b bs, kids' = b :: bs) by (inversion Sk; eauto). destruct Kne as (b & bs & Kb).
    exists ([TOpen t] ++ tt ++ tk ++ tn ++ [TClose t]), (Elem t (acc_text None y) kids'). split; [|split; [|split]].
    + rewrite Kb in *. constructor; [exact Sk | exact Dy].
    + intro r. rewrite (fixed_cons nc (Op t)), (fixed_cons nc (Tx tx)), fixed_op, fixed_tx. rewrite fixed_app. rewrite (fixed_cons nc (Tx (nl lv))), fixed_tx, fixed_cl.
      rewrite !raw_app. unfold raw at 1 2 4 5. cbn [flat_map raw1]. rewrite Hk, !app_nil_r. rewrite <- !app_assoc. rewrite Lo. rewrite Wk. cbn [app]. rewrite Lt.
      match goal with |- context [60%N :: wk ++ ?z] => change (60%N :: wk ++ z) with ((60%N :: wk) ++ z) end. rewrite <- Wk, Lk.
      change (nl lv ++ tagged (47%N :: t) ++ r) with (nl lv ++ 60%N :: (((47%N :: t) ++ [62%N]) ++ r)). rewrite Ln.
      change (60%N :: (((47%N :: t) ++ [62%N]) ++ r)) with (tagged (47%N :: t) ++ r). rewrite Lc, ?option_map_app2. destruct (lex r); cbn [option_map app]; rewrite <- ?app_assoc; reflexivity.
    + rewrite (fixed_cons nc (Op t)), fixed_op, raw_app. unfold raw at 1. cbn [flat_map raw1]. rewrite Hk. eexists. reflexivity.
    + intros st root more Hr. cbn [app]. rewrite make_open by exact Hr. rewrite <- !app_assoc. rewrite (make_texts tt y Tt), Mk, app_nil_r.
      assert (Rv : exists c0 cs, rev kids' = c0 :: cs) by (destruct (rev kids') eqn:E; [apply (f_equal (@length _)) in E; rewrite rev_length, Kb in E; discriminate E | eauto]).
      destruct Rv as (c0 & cs & Rv). rewrite Rv, (make_tails tn _ Tn). cbn [app]. rewrite make_close, <- Rv, rev_involutive. reflexivity.
Qed.

(** What is parsed from the file is the tree that was written, up to the texts given by [out_text] *)
Theorem file_parses : forall ent nc r, Forall clean r ->
  exists root, parse_xml (filter kept (unl (file_text ent nc r))) = Some root /\ Forall2 (settled out_text) r (e_kids root) /\ e_tag root = s "YWRITER7".
Proof.
  intros ent nc r Hr. assert (Hc : clean (Elem (s "YWRITER7") None r)) by (constructor; [reflexivity | exact I | right; reflexivity | exact Hr]).
  rewrite file_text_raw by exact Hr. set (ps := pieces 0 (Elem (s "YWRITER7") None r)). set (W := raw (fixed nc ps)).
  assert (Ch : forallb char_ok (xml_header ++ 10%N :: W ++ [10%N]) = true).
  { rewrite forallb_app. cbn [forallb]. rewrite forallb_app. unfold W. rewrite raw_chars by (apply fixed_good; apply pieces_good; exact Hc). reflexivity. }
  rewrite unl_id by (apply chars_no_cr; exact Ch). rewrite chars_kept by exact Ch.
  destruct (clean_parses nc (Elem (s "YWRITER7") None r) 0 Hc) as (ts & e' & S1 & L1 & (w1 & W1) & M1). fold ps in L1, W1. fold W in L1, W1.
  exists e'. split; [|split; [exact (settled_kids out_text _ _ S1) | rewrite (settled_tag out_text _ _ S1); reflexivity]].
  unfold parse_xml, skip_declaration. change (prefixb (s "<?xml") (xml_header ++ 10%N :: W ++ [10%N])) with true. cbv iota.
  assert (B : before (s "?>") (xml_header ++ 10%N :: W ++ [10%N]) = Some (s "<?xml version=""1.0"" encoding=""utf-8""")) by reflexivity.
  rewrite B. change (skipn (length (s "<?xml version=""1.0"" encoding=""utf-8""") + 2) (xml_header ++ 10%N :: W ++ [10%N])) with (10%N :: W ++ [10%N]).
  destruct (plain_tokens [10%N] [10%N]) as (tn & Tn & Ln); [apply (nl_special 0) | apply (decode_plain [10%N]); apply (nl_special 0)|].
  assert (E : lex (10%N :: W ++ [10%N]) = Some (TText [10%N] :: ts ++ [TText [10%N]])).
  { unfold lex at 1. cbn [lex_go]. assert (Lk : look (10%N :: W ++ [10%N]) = Some (TText [10%N], 1)) by reflexivity. rewrite Lk. cbn [pred]. fold (lex (W ++ [10%N])). rewrite L1. reflexivity. }
  rewrite E. cbn [make forallb]. change (forallb xml_space [10%N]) with true. cbv iota. change (xml_space 10%N && true) with true. cbv iota. rewrite M1 by reflexivity. reflexivity.
Qed.
