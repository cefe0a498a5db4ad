(** Proofs about configuration files (C31). *)
From Coq Require Import List NArith Bool Lia Arith.
From Verif Require Import PyStr PyDict YwText YwTextProofs Config SpecConfig.
Import ListNotations.

Lemma splitc_app : forall c a b, splitc c (a ++ c :: b) = splitc c a ++ splitc c b.
Proof.
  intros c a b. induction a as [|x a IH]; cbn [app splitc].
  - rewrite N.eqb_refl. reflexivity.
  - destruct (N.eqb c x); [rewrite IH; reflexivity|]. rewrite IH. destruct (splitc c a) as [|p ps] eqn:E; [now apply splitc_nonempty in E | reflexivity].
Qed.
Lemma splitc_indent : forall v, splitc 10 (replace [10%N] [10; 9]%N v) = match splitc 10 v with h :: t => h :: map (cons 9%N) t | [] => [] end.
Proof.
  intro v. rewrite replace_char. induction v as [|x v IH]; [reflexivity|]. cbn [flat_map splitc].
  destruct (N.eqb_spec 10 x) as [<- | N].
  - cbn [app splitc]. rewrite N.eqb_refl. change (N.eqb 10 9) with false. cbv iota. rewrite IH. destruct (splitc 10 v) as [|h t] eqn:E; [now apply splitc_nonempty in E | reflexivity].
  - cbn [app splitc]. apply N.eqb_neq in N. rewrite N, IH. destruct (splitc 10 v) as [|h t] eqn:E; [now apply splitc_nonempty in E | reflexivity].
Qed.

(** lines of an entry *)
Definition entry_lines (kv : str * str) : list str :=
  match splitc 10 (snd kv) with h :: t => (fst kv ++ s " = " ++ h) :: map (cons 9%N) t | [] => [] end.
Lemma splitc_prefix : forall a b, ~ In 10%N a -> splitc 10 (a ++ b) = match splitc 10 b with h :: t => (a ++ h) :: t | [] => [] end.
Proof.
  intros a b H. induction a as [|x a IH]; cbn [app splitc].
  - destruct (splitc 10 b) eqn:E; [now apply splitc_nonempty in E | reflexivity].
  - rewrite IH by (intro X; apply H; right; exact X). destruct (N.eqb_spec 10 x) as [<- | N]; [contradiction H; left; reflexivity|].
    destruct (splitc 10 b) eqn:E; [now apply splitc_nonempty in E | reflexivity].
Qed.
Lemma no_nl : forall k, ~ In 10%N k -> ~ In 10%N (k ++ s " = ").
Proof. intros k H X. apply in_app_or in X. destruct X as [X | X]; [exact (H X)|]. cbv in X. intuition discriminate. Qed.
Lemma entry_lines_ok : forall k v rest, ~ In 10%N k ->
  splitc 10 (k ++ s " = " ++ replace [10%N] [10; 9]%N v ++ [10%N] ++ rest) = entry_lines (k, v) ++ splitc 10 rest.
Proof.
  intros k v rest H. change (replace [10%N] [10; 9]%N v ++ [10%N] ++ rest) with (replace [10%N] [10; 9]%N v ++ 10%N :: rest).
  rewrite (app_assoc k), (app_assoc (k ++ s " = ")), splitc_app. f_equal. rewrite (splitc_prefix _ _ (no_nl k H)), splitc_indent.
  unfold entry_lines. cbn [fst snd]. destruct (splitc 10 v) as [|h t] eqn:E; [now apply splitc_nonempty in E|]. rewrite <- app_assoc. reflexivity.
Qed.
Definition section_lines (sn : str) (d : dict str) : list str := (s "[" ++ sn ++ s "]") :: flat_map entry_lines d ++ [[]].
Lemma section_lines_ok : forall sn d rest, ~ In 10%N sn -> (forall k, In k (dkeys d) -> ~ In 10%N k) ->
  splitc 10 (write_section sn d ++ rest) = section_lines sn d ++ splitc 10 rest.
Proof.
  intros sn d rest Hs Hd. unfold write_section, section_lines. rewrite <- !app_assoc. change ([10%N] ++ ?x) with (10%N :: x).
  rewrite (app_assoc (s "[")), (app_assoc (s "[" ++ sn)).
  assert (X : forall y, (s "[" ++ sn) ++ s "]" ++ 10%N :: y = ((s "[" ++ sn) ++ s "]") ++ 10%N :: y) by (intro y; rewrite <- !app_assoc; reflexivity).
  rewrite <- !app_assoc. rewrite (app_assoc (s "[") sn). rewrite X. rewrite splitc_app_sep.
  2:{ rewrite <- app_assoc. intro Y. apply in_app_or in Y. destruct Y as [Y | Y]; [cbv in Y; intuition discriminate|]. apply in_app_or in Y. destruct Y as [Y | Y]; [exact (Hs Y) | cbv in Y; intuition discriminate]. }
  rewrite <- app_assoc. cbn [app]. f_equal. rewrite <- app_assoc. clear X.
  induction d as [|[k v] d IH].
  - cbn [flat_map app]. cbn [splitc]. rewrite N.eqb_refl. reflexivity.
  - cbn [flat_map fst snd]. rewrite <- !app_assoc. change ([10%N] ++ ?x) with (10%N :: x).
    rewrite <- IH by (intros k' Hk; apply Hd; right; exact Hk).
    rewrite <- (entry_lines_ok k v) by (apply Hd; left; reflexivity). reflexivity.
Qed.

(** ** reading them *)
Lemma stripped_last : forall v, stripped v -> rstrip v = v.
Proof. intros v [_ H]. unfold rstrip, rstrip_by. rewrite (lstrip_by_id _ _ H). apply rev_involutive. Qed.
Lemma rstrip_space : forall k c, stripped k -> is_space c = true -> rstrip (k ++ [c]) = k.
Proof. intros k c H Hc. unfold rstrip, rstrip_by. rewrite rev_app_distr. cbn [rev app lstrip_by]. rewrite Hc. destruct H as [_ H]. rewrite (lstrip_by_id _ _ H). apply rev_involutive. Qed.
Lemma strip_indent : forall c v, is_space c = true -> strip (c :: v) = strip v.
Proof. intros c v H. unfold strip, strip_by. cbn [lstrip_by]. rewrite H. reflexivity. Qed.
Lemma stripped_strip : forall v, stripped v -> strip v = v.
Proof. intros v H. apply strip_by_id. exact H. Qed.
Lemma at_delimiter_key : forall k r, ~ In 61%N k -> ~ In 58%N k -> at_delimiter (k ++ s " =" ++ r) = Some (k ++ [32%N], r).
Proof.
  intros k r H1 H2. induction k as [|c k IH]; [reflexivity|]. change ((c :: k) ++ s " =" ++ r) with (c :: (k ++ s " =" ++ r)). cbn [at_delimiter].
  assert (D : delimiter c = false).
  { unfold delimiter. destruct (N.eqb_spec c 61) as [-> |]; [contradiction H1; left; reflexivity|]. destruct (N.eqb_spec c 58) as [-> |]; [contradiction H2; left; reflexivity | reflexivity]. }
  rewrite D, IH; [reflexivity | intro X; apply H1; right; exact X | intro X; apply H2; right; exact X].
Qed.
Lemma key_line : forall k h, plain_key k -> stripped h ->
  strip (k ++ s " = " ++ h) = k ++ s " =" ++ (match h with [] => [] | _ => 32%N :: h end).
Proof.
  intros k h (Hn & Hk & _) Hh. destruct h as [|c h].
  - rewrite app_nil_r. change (s " = ") with (s " =" ++ [32%N]). rewrite (app_assoc k). unfold strip, strip_by.
    assert (E : lstrip_by is_space ((k ++ s " =") ++ [32%N]) = (k ++ s " =") ++ [32%N]).
    { apply lstrip_by_id. destruct k as [|x k]; [congruence|]. exact (proj1 Hk). }
    rewrite E, app_nil_r. apply rstrip_space; [|reflexivity]. split; [destruct k as [|x k]; [congruence | exact (proj1 Hk)]|]. rewrite rev_app_distr. reflexivity.
  - apply stripped_strip. split; [destruct k as [|x k]; [congruence | exact (proj1 Hk)]|].
    rewrite (app_assoc k), rev_app_distr. change (rev (32%N :: c :: h)) with (rev (c :: h) ++ [32%N]). destruct (rev (c :: h)) as [|y r] eqn:E; [apply (f_equal (@length N)) in E; rewrite rev_length in E; discriminate|].
    destruct Hh as [_ Hh]. rewrite E in Hh. exact Hh.
Qed.
Lemma indent_key : forall k r, plain_key k -> indent_of (k ++ r) = 0.
Proof. intros k r (Hn & Hk & _). destruct k as [|c k]; [congruence|]. cbn [app indent_of]. rewrite (proj1 Hk). reflexivity. Qed.
Lemma sect_last : forall p sn d, ~ In sn (dkeys p) -> sect sn (p ++ [(sn, d)]) = d.
Proof. intros p sn d H. unfold sect. assert (E : dget sn (p ++ [(sn, d)]) = Some d).
  { induction p as [|[k v] p IH]; cbn [app dget]; [rewrite str_eqb_refl; reflexivity|]. destruct (str_eqb sn k) eqn:E; [apply str_eqb_eq in E; contradiction H; left; cbn; congruence|].
    apply IH. intro X. apply H. right. exact X. }
  rewrite E. reflexivity. Qed.
Lemma dset_last : forall {A} (p : dict A) sn d x, ~ In sn (dkeys p) -> dset sn x (p ++ [(sn, d)]) = p ++ [(sn, x)].
Proof.
  intros A p sn d x H. induction p as [|[k v] p IH]; cbn [app dset]; [rewrite str_eqb_refl; reflexivity|].
  destruct (str_eqb sn k) eqn:E; [apply str_eqb_eq in E; contradiction H; left; cbn; congruence|]. rewrite IH; [reflexivity|]. intro X. apply H. right. exact X.
Qed.
Lemma dget_last : forall {A} (p : dict A) k v, ~ In k (dkeys p) -> dget k (p ++ [(k, v)]) = Some v.
Proof.
  intros A p k v H. induction p as [|[k0 v0] p IH]; cbn [app dget]; [rewrite str_eqb_refl; reflexivity|].
  destruct (str_eqb k k0) eqn:E; [apply str_eqb_eq in E; contradiction H; left; cbn; congruence|]. apply IH. intro X. apply H. right. exact X.
Qed.
Lemma foldM_app : forall {A B} (f : B -> A -> res B) a b x, foldM f (a ++ b) x = (do y <- foldM f a x; foldM f b y).
Proof. intros A B f a. induction a as [|y a IH]; intros b x; [reflexivity|]. cbn [app foldM]. destruct (f x y); [apply IH | reflexivity]. Qed.

Section Reading.
Context (xform : str -> str) (p : dict (dict (list str))) (sn : str) (Hp : ~ In sn (dkeys p)).
Definition state (d : dict (list str)) (o : option str) : ini := {| in_sections := p ++ [(sn, d)]; in_cur := Some sn; in_opt := o; in_indent := 0 |}.

Lemma append_state : forall d o l v, ~ In o (dkeys d) -> append_line (state (d ++ [(o, l)]) (Some o)) v = state (d ++ [(o, l ++ [v])]) (Some o).
Proof.
  intros d o l v Ho. unfold append_line, state. cbn [in_cur in_opt in_sections in_indent]. rewrite (sect_last _ _ _ Hp), (dset_last _ _ _ _ Hp), (dget_last _ _ _ Ho), (dset_last _ _ _ _ Ho). reflexivity.
Qed.
Lemma read_more : forall ls d o l, ~ In o (dkeys d) -> (forall x, In x ls -> stripped x /\ comment_start x = false) ->
  foldM (read_line xform) (map (cons 9%N) ls) (state (d ++ [(o, l)]) (Some o)) = Ok (state (d ++ [(o, l ++ ls)]) (Some o)).
Proof.
  induction ls as [|x ls IH]; intros d o l Ho H; [rewrite app_nil_r; reflexivity|]. cbn [map foldM].
  destruct (H x (or_introl eq_refl)) as [Hs Hc].
  assert (E : read_line xform (state (d ++ [(o, l)]) (Some o)) (9%N :: x) = Ok (state (d ++ [(o, l ++ [x])]) (Some o))).
  { unfold read_line. rewrite strip_indent by reflexivity. rewrite (stripped_strip _ Hs), Hc. destruct x as [|c x].
    - rewrite append_state by exact Ho. reflexivity.
    - unfold continues, state at 1. cbn [in_cur in_opt in_indent indent_of]. change (is_space 9) with true. cbv iota. cbn [Nat.ltb Nat.leb]. rewrite append_state by exact Ho. reflexivity. }
  rewrite E. cbn [bind]. rewrite IH; [rewrite <- app_assoc; reflexivity | exact Ho|]. intros y Hy. apply H. right. exact Hy.
Qed.
Lemma read_key : forall k h d o, plain_key k -> xform k = k -> ~ In k (dkeys d) -> stripped h ->
  read_line xform (state d o) (k ++ s " = " ++ h) = Ok (state (d ++ [(k, [h])]) (Some k)).
Proof.
  intros k h d o Hk Hx Hd Hh. unfold read_line. rewrite (key_line k h Hk Hh). pose proof Hk as (Hn & Hs & H1 & H2 & H3 & H4).
  destruct k as [|c k]; [congruence|]. set (tl := match h with [] => [] | _ => _ end).
  assert (C0 : comment_start ((c :: k) ++ s " =" ++ tl) = false).
  { unfold comment_start. cbn [app prefixb]. cbn in H4. destruct H4 as (A & B & C). change (s "#") with [35%N]. change (s ";") with [59%N]. cbn [prefixb]. apply N.eqb_neq in A, B.
    rewrite (N.eqb_sym 35), (N.eqb_sym 59), A, B. reflexivity. }
  rewrite C0. change ((c :: k) ++ s " =" ++ tl) with (c :: (k ++ s " =" ++ tl)) at 1.
  assert (C1 : continues (state d o) ((c :: k) ++ s " = " ++ h) = false).
  { unfold continues, state. cbn [in_cur in_opt in_indent]. rewrite (indent_key (c :: k) _ Hk). destruct o; reflexivity. }
  rewrite C1.
  assert (C2 : section_header ((c :: k) ++ s " =" ++ tl) = None).
  { cbn [app section_header]. destruct H4 as (A & B & C). cbn in C. apply N.eqb_neq in C. rewrite C. reflexivity. }
  rewrite C2. unfold state at 1. cbn [in_cur]. rewrite (at_delimiter_key (c :: k) tl H2 H3). rewrite (rstrip_space (c :: k) 32%N Hs eq_refl), Hx.
  unfold state. cbn [in_sections in_cur]. rewrite (sect_last _ _ _ Hp).
  assert (M : dmem (c :: k) d = false) by (apply dmem_false; apply dget_None; exact Hd). rewrite M, (dset_last _ _ _ _ Hp), (dset_new _ _ _ Hd), (indent_key (c :: k) _ Hk).
  assert (T : strip tl = h). { unfold tl. destruct h as [|y h]; [reflexivity|]. rewrite strip_indent by reflexivity. apply stripped_strip. exact Hh. }
  rewrite T. reflexivity.
Qed.
Lemma read_entry : forall k v d o, plain_key k -> xform k = k -> ~ In k (dkeys d) -> plain_value v ->
  foldM (read_line xform) (entry_lines (k, v)) (state d o) = Ok (state (d ++ [(k, splitc 10 v)]) (Some k)).
Proof.
  intros k v d o Hk Hx Hd (V1 & V2 & _). unfold entry_lines. cbn [fst snd]. destruct (splitc 10 v) as [|h t] eqn:E; [now apply splitc_nonempty in E|].
  cbn [foldM]. rewrite read_key by (try assumption; apply V1; left; reflexivity). cbn [bind]. rewrite read_more; [reflexivity | exact Hd|].
  intros x Hx'. split; [apply V1; right; exact Hx'|]. apply V2. exact Hx'.
Qed.
Lemma read_entries : forall e d o, (forall k v, In (k, v) e -> plain_key k /\ xform k = k /\ plain_value v) -> NoDup (dkeys d ++ dkeys e) ->
  exists o', foldM (read_line xform) (flat_map entry_lines e) (state d o) = Ok (state (d ++ map (fun kv => (fst kv, splitc 10 (snd kv))) e) o') /\
    (e <> [] -> exists e0 k v, e = e0 ++ [(k, v)] /\ o' = Some k).
Proof.
  induction e as [|[k v] e IH]; intros d o He Hd.
  - exists o. cbn [flat_map foldM map]. rewrite app_nil_r. split; [reflexivity | congruence].
  - cbn [flat_map]. rewrite foldM_app. destruct (He k v (or_introl eq_refl)) as (K1 & K2 & K3).
    assert (Hk : ~ In k (dkeys d)). { intro X. apply NoDup_remove_2 in Hd. apply Hd. apply in_or_app. left. exact X. }
    rewrite (read_entry k v d o K1 K2 Hk K3). cbn [bind].
    destruct (IH (d ++ [(k, splitc 10 v)]) (Some k)) as (o' & E1 & E2).
    + intros k' v' H'. apply He. right. exact H'.
    + unfold dkeys in *. rewrite map_app. cbn [map fst] in *. rewrite <- app_assoc. exact Hd.
    + exists o'. rewrite E1, <- app_assoc. split; [reflexivity|]. intros _. destruct e as [|x e].
      * exists [], k, v. split; [reflexivity|]. cbn [flat_map foldM map] in E1. injection E1 as _ E1. congruence.
      * destruct (E2 ltac:(discriminate)) as (e0 & k0 & v0 & E3 & E4). exists ((k, v) :: e0), k0, v0. rewrite E3. split; [reflexivity | exact E4].
Qed.
End Reading.

(** ** a whole section, the whole file *)
Definition lines_of (d : dict str) : dict (list str) := map (fun kv => (fst kv, splitc 10 (snd kv))) d.
Lemma dkeys_lines : forall d, dkeys (lines_of d) = dkeys d.
Proof. intro d. unfold dkeys, lines_of. rewrite map_map. reflexivity. Qed.
Definition value_like (v : str) (l : list str) : Prop := rstrip (join [10%N] l) = v.
Lemma join_app_nil : forall l, l <> [] -> join [10%N] (l ++ [[]]) = join [10%N] l ++ [10%N].
Proof.
  induction l as [|x l IH]; intro H; [congruence|]. destruct l as [|y l]; [cbn; rewrite ?app_nil_r; reflexivity|].
  change ((x :: y :: l) ++ [[]]) with (x :: ((y :: l) ++ [[]])). rewrite !join_cons by (try discriminate; destruct l; discriminate).
  rewrite IH by discriminate. rewrite <- !app_assoc. reflexivity.
Qed.
Lemma rstrip_nl : forall v, rstrip v = v -> rstrip (v ++ [10%N]) = v.
Proof. intros v H. unfold rstrip, rstrip_by in *. rewrite rev_app_distr. cbn [rev app lstrip_by]. change (is_space 10) with true. cbv iota. exact H. Qed.
Lemma join_last : forall v, plain_value v -> rstrip (join [10%N] (splitc 10 v ++ [[]])) = v.
Proof. intros v (_ & _ & V & _). rewrite join_app_nil by apply splitc_nonempty. rewrite join_splitc. exact (rstrip_nl v V). Qed.

Lemma read_section : forall xform p sn d, ~ In sn (dkeys p) -> section_header (s "[" ++ sn ++ s "]") = Some sn -> strip (s "[" ++ sn ++ s "]") = s "[" ++ sn ++ s "]" ->
  d <> [] -> (forall k v, In (k, v) d -> plain_key k /\ xform k = k /\ plain_value v) -> NoDup (dkeys d) ->
  forall cur o, exists D o', foldM (read_line xform) (section_lines sn d) {| in_sections := p; in_cur := cur; in_opt := o; in_indent := 0 |} =
    Ok {| in_sections := p ++ [(sn, D)]; in_cur := Some sn; in_opt := o'; in_indent := 0 |} /\ join_values D = d.
Proof.
  intros xform p sn d Hp Hh Hst Hne Hd HN cur o. unfold section_lines. cbn [foldM].
  assert (E : read_line xform {| in_sections := p; in_cur := cur; in_opt := o; in_indent := 0 |} (s "[" ++ sn ++ s "]") = Ok (state p sn [] None)).
  { unfold read_line. rewrite Hst. assert (C : comment_start (s "[" ++ sn ++ s "]") = false) by reflexivity. rewrite C. change (s "[" ++ sn ++ s "]") with (91%N :: (sn ++ s "]")) at 1.
    assert (CC : continues {| in_sections := p; in_cur := cur; in_opt := o; in_indent := 0 |} (s "[" ++ sn ++ s "]") = false).
    { unfold continues. cbn [in_cur in_opt in_indent]. change (indent_of (s "[" ++ sn ++ s "]")) with 0. destruct cur, o; reflexivity. }
    rewrite CC, Hh. cbn [in_sections]. assert (M : dmem sn p = false) by (apply dmem_false, dget_None; exact Hp). rewrite M. cbn [andb]. rewrite (dset_new _ _ _ Hp). reflexivity. }
  rewrite E. cbn [bind]. rewrite foldM_app.
  destruct (read_entries xform p sn Hp d [] None Hd HN) as (o' & E1 & E2). rewrite E1. cbn [bind app foldM].
  destruct (E2 Hne) as (e0 & k & v & -> & ->). unfold read_line. change (strip []) with (@nil N). change (comment_start []) with false. cbv iota.
  rewrite map_app. cbn [map fst snd].
  assert (Hk : ~ In k (dkeys (lines_of e0))).
  { rewrite dkeys_lines. unfold dkeys in HN. rewrite map_app in HN. cbn [map fst] in HN. apply NoDup_remove_2 in HN. rewrite app_nil_r in HN. exact HN. }
  change (map (fun kv => (fst kv, splitc 10 (snd kv))) e0) with (lines_of e0).
  rewrite (append_state p sn Hp (lines_of e0) k (splitc 10 v) [] Hk). cbn [bind]. eexists. eexists. split; [reflexivity|].
  unfold join_values, lines_of. rewrite map_app, map_map. cbn [map fst snd]. rewrite join_last by (eapply Hd; apply in_or_app; right; left; reflexivity). f_equal.
  rewrite <- (map_id e0) at 2. apply map_ext_in. intros [k' v'] H'. cbn [fst snd]. rewrite join_splitc. f_equal. apply (Hd k' v'). apply in_or_app. left. exact H'.
Qed.

Definition renamed (xform : str -> str) {A} (d : dict A) : dict A := map (fun kv => (xform (fst kv), snd kv)) d.
Lemma no_keys_id : forall v k, ~ In 37%N v -> k = 0 -> no_keys k v = v.
Proof.
  induction v as [|c v IH]; intros k H ->; [reflexivity|]. cbn [no_keys]. assert (P : prefixb (s "%(") (c :: v) = false).
  { change (s "%(") with [37; 40]%N. cbn [prefixb]. destruct (N.eqb_spec 37 c) as [<-|]; [contradiction H; left; reflexivity | reflexivity]. }
  rewrite P, IH; [reflexivity | intro X; apply H; right; exact X | reflexivity].
Qed.
Lemma contains_percent : forall v, ~ In 37%N v -> containsb (s "%%") v = false.
Proof.
  intros v H. apply not_true_is_false. intro C. apply containsb_spec in C. destruct C as (a & b & ->). apply H. apply in_or_app. right. left. reflexivity.
Qed.
Lemma value_ok_plain : forall v, ~ In 37%N v -> value_ok v = true.
Proof.
  intros v H. unfold value_ok. rewrite replace_absent by (apply contains_percent; exact H). rewrite (no_keys_id v 0 H eq_refl).
  apply negb_true_iff. apply not_true_is_false. intro E. apply existsb_exists in E. destruct E as (c & Hc & E). apply N.eqb_eq in E. subst c. exact (H Hc).
Qed.
Lemma set_all_ok : forall xform l, (forall kv, In kv l -> ~ In 37%N (snd kv)) -> NoDup (dkeys (renamed xform l)) -> set_all xform l = Ok (renamed xform l).
Proof.
  intros xform l H HN. unfold set_all.
  assert (G : forall l d, (forall kv, In kv l -> ~ In 37%N (snd kv)) -> NoDup (dkeys d ++ dkeys (renamed xform l)) ->
    foldM (fun d kv => if value_ok (snd kv) then Ok (dset (xform (fst kv)) (snd kv) d) else Err ValueError) l d = Ok (d ++ renamed xform l)).
  { clear. induction l as [|[k v] l IH]; intros d H HN; [cbn [foldM renamed map]; rewrite app_nil_r; reflexivity|]. cbn [foldM fst snd].
    rewrite value_ok_plain by (apply (H (k, v)); left; reflexivity). cbn [bind]. cbn [renamed map dkeys fst snd] in HN.
    assert (Hk : ~ In (xform k) (dkeys d)). { intro X. apply NoDup_remove_2 in HN. apply HN. apply in_or_app. left. exact X. }
    rewrite (dset_new _ _ _ Hk), IH.
    - rewrite <- app_assoc. reflexivity.
    - intros kv Hkv. apply H. right. exact Hkv.
    - unfold dkeys in *. rewrite map_app. cbn [map fst]. rewrite <- app_assoc. exact HN. }
  rewrite (G l [] H); [reflexivity | exact HN].
Qed.
Lemma interpolate_plain : forall d xform m v, ~ In 37%N v -> interpolate (S d) xform m v = Ok v.
Proof.
  intros d xform m v H. cbn [interpolate]. revert H. 
  match goal with |- _ -> ?f 0 v = _ => set (go := f) end. intro H. induction v as [|c v IH]; [reflexivity|].
  change (go 0 (c :: v)) with (if negb (N.eqb c 37) then do r <- go 0 v; Ok (c :: r) else
              match v with
              | c2 :: t2 => if N.eqb c2 37 then do r <- go 1 v; Ok (c :: r)
                  else if N.eqb c2 40 then
                    match key_at t2 with
                    | None => Err ParseError
                    | Some (name, n) =>
                        match dget (xform name) m with
                        | None => Err ParseError
                        | Some v0 => do x <- (if existsb (N.eqb 37) v0 then interpolate d xform m v0 else Ok v0);
                                    do r <- go (n + 3) v; Ok (x ++ r)
                        end
                    end
                  else Err ParseError
              | [] => Err ParseError
              end).
  destruct (N.eqb_spec c 37) as [->|N]; [contradiction H; left; reflexivity|]. cbn [negb]. rewrite IH by (intro X; apply H; right; exact X). reflexivity.
Qed.
Lemma dget_renamed : forall xform {A} (l : dict A) k v, NoDup (dkeys (renamed xform l)) -> In (k, v) l -> dget (xform k) (renamed xform l) = Some v.
Proof. intros xform A l k v HN H. apply In_dget; [exact HN|]. unfold renamed. apply in_map_iff. exists (k, v). split; [reflexivity | exact H]. Qed.
Lemma mapM_same : forall {A} (f : str * A -> res (str * A)) l l0, dkeys l0 = dkeys l -> (forall k v, In (k, v) l -> forall v0, f (k, v0) = Ok (k, v)) -> mapM f l0 = Ok l.
Proof.
  intros A f l. induction l as [|[k v] l IH]; intros [|[k0 v0] l0] E H; try discriminate; [reflexivity|]. cbn [dkeys map fst] in E. injection E as -> E.
  cbn [mapM]. rewrite (H k v (or_introl eq_refl)). cbn [bind]. rewrite (IH l0 E) by (intros k' v' H'; apply H; right; exact H'). reflexivity.
Qed.
Lemma yes_no_plain : forall b, plain_value (yes_no b).
Proof.
  intros [|]; (split; [intros l [<- | []]; split; reflexivity|]); (split; [intros l []|]); (split; [reflexivity|]); split; intro X; cbv in X; intuition discriminate.
Qed.
Lemma to_boolean_yes_no : forall b, to_boolean (yes_no b) = Ok b.
Proof. intros [|]; reflexivity. Qed.

Lemma removelast_app_nil : forall {A} (l : list A) x, removelast (l ++ [x]) = l.
Proof. intros. rewrite removelast_app by discriminate. cbn. apply app_nil_r. Qed.
Lemma file_lines_nl : forall t l, splitc 10 t = l ++ [[]] -> file_lines t = l.
Proof. intros t l E. unfold file_lines. rewrite E, last_last, removelast_app_nil. reflexivity. Qed.

(** the file after writing *)
Definition file_of (a b : dict str) : str := (match a with [] => [] | _ => write_section (s "SETTINGS") a end) ++ (match b with [] => [] | _ => write_section (s "OPTIONS") b end).
Definition parsed (a b : dict str) : dict (dict str) := (match a with [] => [] | _ => [(s "SETTINGS", a)] end) ++ (match b with [] => [] | _ => [(s "OPTIONS", b)] end).
Lemma ini_read_file : forall xform a b,
  (forall k v, In (k, v) a \/ In (k, v) b -> plain_key k /\ xform k = k /\ plain_value v) -> NoDup (dkeys a) -> NoDup (dkeys b) ->
  ini_read xform (file_of a b) = Ok (parsed a b).
Proof.
  intros xform a b H HA HB. unfold ini_read.
  assert (NL : forall (d : dict str), (forall k v, In (k, v) d -> plain_key k) -> forall k, In k (dkeys d) -> ~ In 10%N k).
  { intros d Hd k Hk. apply in_map_iff in Hk. destruct Hk as ([k' v] & <- & Hk). cbn [fst]. destruct (Hd _ _ Hk) as (_ & _ & [X _] & _). exact X. }
  assert (NA : forall k, In k (dkeys a) -> ~ In 10%N k) by (apply NL; intros k v Hkv; apply (H k v); left; exact Hkv).
  assert (NB : forall k, In k (dkeys b) -> ~ In 10%N k) by (apply NL; intros k v Hkv; apply (H k v); right; exact Hkv).
  assert (N1 : ~ In 10%N (s "SETTINGS")) by (cbv; intuition discriminate). assert (N2 : ~ In 10%N (s "OPTIONS")) by (cbv; intuition discriminate).
  set (la := match a with [] => [] | _ => section_lines (s "SETTINGS") a end). set (lb := match b with [] => [] | _ => section_lines (s "OPTIONS") b end).
  assert (FL : file_lines (file_of a b) = la ++ lb).
  { apply file_lines_nl. unfold file_of, la, lb.
    assert (SB : splitc 10 (match b with [] => [] | _ => write_section (s "OPTIONS") b end) = (match b with [] => [] | _ => section_lines (s "OPTIONS") b end) ++ [[]]).
    { destruct b as [|y b]; [reflexivity|]. pose proof (section_lines_ok (s "OPTIONS") (y :: b) [] N2 NB) as X. rewrite app_nil_r in X. exact X. }
    destruct a as [|x a]; [exact SB|]. rewrite (section_lines_ok _ _ _ N1 NA), <- app_assoc. f_equal. exact SB. }
  rewrite FL, foldM_app.
  assert (RA : exists DA cur o, foldM (read_line xform) la {| in_sections := []; in_cur := None; in_opt := None; in_indent := 0 |} =
     Ok {| in_sections := match a with [] => [] | _ => [(s "SETTINGS", DA)] end; in_cur := cur; in_opt := o; in_indent := 0 |} /\ join_values DA = a).
  { unfold la. destruct a as [|x a]; [exists [], None, None; split; reflexivity|].
    destruct (read_section xform [] (s "SETTINGS") (x :: a) (fun X => X) eq_refl eq_refl ltac:(discriminate) (fun k v Hkv => H k v (or_introl Hkv)) HA None None) as (D & o & E1 & E2).
    exists D, (Some (s "SETTINGS")), o. split; [exact E1 | exact E2]. }
  destruct RA as (DA & cur & o & E1 & E2). rewrite E1. cbn [bind].
  assert (NP : ~ In (s "OPTIONS") (dkeys (match a with [] => [] | _ => [(s "SETTINGS", DA)] end))) by (destruct a; cbn [dkeys map fst In]; [intros [] | intros [X | []]; vm_compute in X; discriminate]).
  unfold lb. destruct b as [|y b].
  - cbn [foldM bind in_sections]. unfold parsed. destruct a as [|x a]; [reflexivity|]. cbn [map fst snd app]. rewrite E2. reflexivity.
  - destruct (read_section xform _ (s "OPTIONS") (y :: b) NP eq_refl eq_refl ltac:(discriminate) (fun k v Hkv => H k v (or_intror Hkv)) HB cur o) as (D & o2 & E3 & E4).
    rewrite E3. cbn [bind in_sections]. rewrite map_app. cbn [map fst snd]. rewrite E4. unfold parsed. destruct a as [|x a]; [reflexivity|]. cbn [map fst snd app]. rewrite E2. reflexivity.
Qed.

Lemma in_renamed : forall xform {A} (l : dict A) k v, In (k, v) (renamed xform l) -> exists k0, In (k0, v) l /\ k = xform k0.
Proof. intros xform A l k v H. apply in_map_iff in H. destruct H as ([k0 v0] & E & H). cbn [fst snd] in E. injection E as <- <-. exists k0. split; [exact H | reflexivity]. Qed.

Lemma in_indent : forall c v, c <> 10%N -> c <> 9%N -> In c (replace [10%N] [10; 9]%N v) -> In c v.
Proof.
  intros c v H1 H2. rewrite replace_char. induction v as [|x v IH]; [intros []|]. cbn [flat_map]. intro H. apply in_app_or in H. destruct H as [H | H]; [|right; exact (IH H)].
  destruct (N.eqb 10 x); [destruct H as [H | [H | []]]; congruence | destruct H as [H | []]; left; exact H].
Qed.
Lemma write_section_no_cr : forall sn d, ~ In 13%N sn -> (forall k v, In (k, v) d -> plain_key k /\ plain_value v) -> ~ In 13%N (write_section sn d).
Proof.
  intros sn d Hs Hd X. unfold write_section in X. apply in_app_or in X. destruct X as [X | X]; [cbv in X; intuition discriminate|]. apply in_app_or in X. destruct X as [X | X]; [exact (Hs X)|].
  apply in_app_or in X. destruct X as [X | X]; [cbv in X; intuition discriminate|]. apply in_app_or in X. destruct X as [X | X]; [cbv in X; intuition discriminate|].
  apply in_app_or in X. destruct X as [X | X]; [|cbv in X; intuition discriminate]. apply in_flat_map in X. destruct X as ([k v] & Hkv & X). cbn [fst snd] in X. destruct (Hd k v Hkv) as [K V].
  apply in_app_or in X. destruct X as [X | X]; [destruct K as (_ & _ & [_ K] & _); exact (K X)|]. apply in_app_or in X. destruct X as [X | X]; [cbv in X; intuition discriminate|].
  apply in_app_or in X. destruct X as [X | X]; [|cbv in X; intuition discriminate]. apply in_indent in X; [|discriminate|discriminate]. destruct V as (_ & _ & _ & _ & V). exact (V X).
Qed.
Lemma file_no_cr : forall a b, (forall k v, In (k, v) a \/ In (k, v) b -> plain_key k /\ plain_value v) -> ~ In 13%N (file_of a b).
Proof.
  intros a b H X. unfold file_of in X. apply in_app_or in X. destruct X as [X | X].
  - destruct a as [|x a]; [exact X|]. revert X. apply write_section_no_cr; [cbv; intuition discriminate|]. intros k v Hkv. apply (H k v). left. exact Hkv.
  - destruct b as [|x b]; [exact X|]. revert X. apply write_section_no_cr; [cbv; intuition discriminate|]. intros k v Hkv. apply (H k v). right. exact Hkv.
Qed.
Theorem config_roundtrip : forall xform c c0 t,
  (forall k v, In (k, v) (settings c) -> plain_key (xform k) /\ xform (xform k) = xform k /\ plain_value v) ->
  (forall k v, In (k, v) (options c) -> plain_key (xform k) /\ xform (xform k) = xform k) ->
  NoDup (map xform (dkeys (settings c))) -> NoDup (map xform (dkeys (options c))) ->
  dkeys (settings c0) = dkeys (settings c) -> dkeys (options c0) = dkeys (options c) ->
  config_write xform c = Ok t -> config_read xform (Some t) c0 = Ok c.
Proof.
  intros xform c c0 t HS HO NS NO KS KO HW. set (op := map (fun kv => (fst kv, yes_no (snd kv))) (options c)).
  assert (NS' : NoDup (dkeys (renamed xform (settings c)))) by (unfold dkeys, renamed in *; rewrite map_map in *; exact NS).
  assert (NO' : NoDup (dkeys (renamed xform op))) by (unfold op, dkeys, renamed in *; rewrite !map_map in *; exact NO).
  assert (E1 : set_all xform (settings c) = Ok (renamed xform (settings c))) by (apply set_all_ok; [intros [k v] Hkv; apply (HS k v Hkv) | exact NS']).
  assert (E2 : set_all xform op = Ok (renamed xform op)).
  { apply set_all_ok; [|exact NO']. intros [k v] Hkv. apply in_map_iff in Hkv. destruct Hkv as ([k0 v0] & E & _). injection E as <- <-. apply yes_no_plain. }
  assert (T : t = file_of (renamed xform (settings c)) (renamed xform op)).
  { unfold config_write in HW. fold op in HW. rewrite E1, E2 in HW. unfold file_of, op. destruct (settings c) as [|x1 l1]; destruct (options c) as [|x2 l2]; cbn [bind renamed map] in *; injection HW as <-; reflexivity. }
  assert (PL : forall k v, In (k, v) (renamed xform (settings c)) \/ In (k, v) (renamed xform op) -> plain_key k /\ xform k = k /\ plain_value v).
  { intros k v [Hkv | Hkv]; apply in_renamed in Hkv; destruct Hkv as (k0 & Hkv & ->).
    - destruct (HS k0 v Hkv) as (A & B & C). auto.
    - apply in_map_iff in Hkv. destruct Hkv as ([k1 v1] & E & Hkv). cbn [fst snd] in E. injection E as <- <-. destruct (HO k1 v1 Hkv) as (A & B). split; [exact A|]. split; [exact B | apply yes_no_plain]. }
  assert (RF : ini_read xform t = Ok (parsed (renamed xform (settings c)) (renamed xform op))) by (rewrite T; apply ini_read_file; assumption).
  assert (HCR : ~ In 13%N t). { rewrite T. apply file_no_cr. intros k v Hkv. destruct (PL k v Hkv) as (A & _ & B). split; assumption. }
  unfold config_read. rewrite (unl_id t HCR), RF. cbn [bind].
  assert (G1 : (if has_section (parsed (renamed xform (settings c)) (renamed xform op)) (s "SETTINGS")
     then mapM (fun kv => do v <- section_get xform (parsed (renamed xform (settings c)) (renamed xform op)) (s "SETTINGS") (fst kv) (fun x => Ok x) (snd kv); Ok (fst kv, v)) (settings c0)
     else Ok (settings c0)) = Ok (settings c)).
  { destruct (settings c) as [|x1 l1] eqn:ES.
    - destruct (settings c0); [|discriminate]. match goal with |- (if ?b then _ else _) = _ => destruct b; reflexivity end.
    - rewrite <- ES in *. assert (HH : has_section (parsed (renamed xform (settings c)) (renamed xform op)) (s "SETTINGS") = true) by (rewrite ES; reflexivity). rewrite HH.
      apply mapM_same; [exact KS|]. intros k v Hkv v0. cbn [fst snd]. unfold section_get.
      assert (D1 : dget (s "SETTINGS") (parsed (renamed xform (settings c)) (renamed xform op)) = Some (renamed xform (settings c))) by (rewrite ES; reflexivity).
      assert (D2 : dget DEFAULT (parsed (renamed xform (settings c)) (renamed xform op)) = None) by (rewrite ES; unfold parsed; destruct (renamed xform op); reflexivity).
      rewrite D1, D2, app_nil_r, (dget_renamed xform _ k v NS' Hkv). rewrite interpolate_plain by apply (HS k v Hkv). reflexivity. }
  assert (G2 : (if has_section (parsed (renamed xform (settings c)) (renamed xform op)) (s "OPTIONS")
     then mapM (fun kv => do v <- section_get xform (parsed (renamed xform (settings c)) (renamed xform op)) (s "OPTIONS") (fst kv) to_boolean (snd kv); Ok (fst kv, v)) (options c0)
     else Ok (options c0)) = Ok (options c)).
  { destruct (options c) as [|x1 l1] eqn:ES.
    - destruct (options c0); [|discriminate]. match goal with |- (if ?b then _ else _) = _ => destruct b; reflexivity end.
    - assert (NE : exists y r, renamed xform op = y :: r) by (unfold op; cbn [map renamed]; eexists; eexists; reflexivity). destruct NE as (y & r & NE).
      assert (HH : has_section (parsed (renamed xform (settings c)) (renamed xform op)) (s "OPTIONS") = true) by (rewrite NE; unfold parsed; destruct (renamed xform (settings c)); reflexivity). rewrite HH.
      apply mapM_same; [exact KO|]. intros k v Hkv v0. cbn [fst snd]. unfold section_get.
      assert (D1 : dget (s "OPTIONS") (parsed (renamed xform (settings c)) (renamed xform op)) = Some (renamed xform op)) by (rewrite NE; unfold parsed; destruct (renamed xform (settings c)); reflexivity).
      assert (D2 : dget DEFAULT (parsed (renamed xform (settings c)) (renamed xform op)) = None) by (rewrite NE; unfold parsed; destruct (renamed xform (settings c)); reflexivity).
      assert (HI : In (k, yes_no v) op) by (unfold op; apply in_map_iff; exists (k, v); split; [reflexivity | exact Hkv]).
      rewrite D1, D2, app_nil_r, (dget_renamed xform _ k (yes_no v) NO' HI). rewrite interpolate_plain by apply yes_no_plain. cbn [bind]. rewrite to_boolean_yes_no. reflexivity. }
  rewrite G1. cbn [bind]. rewrite G2. cbn [bind]. destruct c. reflexivity.
Qed.

(** ** arbitrary files *)
(** [named xform t k]: some line of the file gives a value for the name k *)
Definition names (xform : str -> str) (lines : list str) (k : str) : Prop :=
  exists l a d b, In l lines /\ strip l = a ++ d :: b /\ (d = 61%N \/ d = 58%N) /\ ~ In 61%N a /\ ~ In 58%N a /\ k = xform (rstrip a).
Lemma at_delimiter_some : forall t a b, at_delimiter t = Some (a, b) -> exists d, t = a ++ d :: b /\ (d = 61%N \/ d = 58%N) /\ ~ In 61%N a /\ ~ In 58%N a.
Proof.
  induction t as [|c t IH]; intros a b H; [discriminate|]. cbn [at_delimiter] in H. destruct (delimiter c) eqn:D.
  - injection H as <- <-. exists c. unfold delimiter in D. apply orb_prop in D. split; [reflexivity|]. split; [destruct D as [D | D]; apply N.eqb_eq in D; auto|]. split; intros [].
  - destruct (at_delimiter t) as [[a' b']|]; [|discriminate]. injection H as <- <-. destruct (IH a' b' eq_refl) as (d & -> & Hd & N1 & N2). exists d.
    unfold delimiter in D. apply orb_false_iff in D. destruct D as [D1 D2]. apply N.eqb_neq in D1, D2. split; [reflexivity|]. split; [exact Hd|]. split; intros [X | X]; [congruence | exact (N1 X) | congruence | exact (N2 X)].
Qed.
Definition all_named (xform : str -> str) (lines : list str) (st : ini) : Prop :=
  (forall sn d k, In (sn, d) (in_sections st) -> In k (dkeys d) -> names xform lines k) /\
  (forall sn o, in_cur st = Some sn -> in_opt st = Some o -> names xform lines o).
Lemma sect_in : forall sn d k, In k (dkeys (sect sn d)) -> exists x, In (sn, x) d /\ In k (dkeys x).
Proof. intros sn d k H. unfold sect in H. destruct (dget sn d) as [x|] eqn:E; [|destruct H]. exists x. split; [apply dget_In; exact E | exact H]. Qed.
Lemma in_dset : forall {A} k (v : A) d k' v', In (k', v') (dset k v d) -> (k' = k /\ v' = v) \/ In (k', v') d.
Proof.
  intros A k v d k' v'. induction d as [|[k0 v0] d IH]; cbn [dset]; intro H.
  - destruct H as [H | []]. injection H as <- <-. auto.
  - destruct (str_eqb k k0) eqn:E.
    + apply str_eqb_eq in E. destruct H as [H | H]; [injection H as <- <-; left; auto | right; right; exact H].
    + destruct H as [H | H]; [right; left; exact H|]. destruct (IH H) as [X | X]; [left; exact X | right; right; exact X].
Qed.
Lemma append_named : forall xform lines st v, all_named xform lines st -> all_named xform lines (append_line st v).
Proof.
  intros xform lines st v H. unfold append_line. destruct (in_cur st) as [sn|] eqn:E1; [|exact H]. destruct (in_opt st) as [o|] eqn:E2; [|exact H].
  destruct H as [H1 H2]. pose proof (H2 sn o E1 E2) as HO. split; cbn [in_sections in_cur in_opt].
  - intros sn' d k Hin Hk. apply in_dset in Hin. destruct Hin as [[-> ->] | Hin]; [|exact (H1 _ _ _ Hin Hk)].
    apply dkeys_dset in Hk. destruct Hk as [-> | Hk]; [exact HO|]. apply sect_in in Hk. destruct Hk as (x & Hx & Hk). exact (H1 _ _ _ Hx Hk).
  - intros sn' o' X Y. apply (H2 sn' o'); congruence.
Qed.
Lemma read_line_named : forall xform lines st line st', In line lines -> all_named xform lines st -> read_line xform st line = Ok st' -> all_named xform lines st'.
Proof.
  intros xform lines st line st' Hl H E. unfold read_line in E. destruct (comment_start (strip line)); [injection E as <-; exact H|].
  destruct (strip line) as [|c v] eqn:Ev; [injection E as <-; apply append_named; exact H|].
  destruct (continues st line); [injection E as <-; apply append_named; exact H|]. destruct H as [H1 H2].
  destruct (section_header (c :: v)) as [h|].
  - destruct (dmem h (in_sections st) && negb (str_eqb h DEFAULT)); [discriminate|]. injection E as <-. split; cbn [in_sections in_cur in_opt]; [|discriminate].
    intros sn d k Hin Hk. destruct (dmem h (in_sections st)); [exact (H1 _ _ _ Hin Hk)|]. apply in_dset in Hin. destruct Hin as [[-> ->] | Hin]; [destruct Hk | exact (H1 _ _ _ Hin Hk)].
  - destruct (in_cur st) as [sn|] eqn:EC; [|discriminate]. destruct (at_delimiter (c :: v)) as [[a b]|] eqn:EA; [|discriminate].
    destruct (at_delimiter_some _ _ _ EA) as (d & E1 & Hd & N1 & N2).
    assert (NM : names xform lines (xform (rstrip a))). { exists line, a, d, b. split; [exact Hl|]. split; [rewrite Ev; exact E1|]. auto. }
    destruct (rstrip a) as [|r0 r] eqn:ER; [discriminate|]. destruct (dmem _ _); [discriminate|]. injection E as <-. split; cbn [in_sections in_cur in_opt].
    + intros sn' d' k Hin Hk. apply in_dset in Hin. destruct Hin as [[-> ->] | Hin]; [|exact (H1 _ _ _ Hin Hk)].
      apply dkeys_dset in Hk. destruct Hk as [-> | Hk]; [exact NM|]. apply sect_in in Hk. destruct Hk as (x & Hx & Hk). exact (H1 _ _ _ Hx Hk).
    + intros sn' o' _ X. injection X as <-. exact NM.
Qed.
Lemma read_lines_named : forall xform lines ls st st', (forall l, In l ls -> In l lines) -> all_named xform lines st -> foldM (read_line xform) ls st = Ok st' -> all_named xform lines st'.
Proof.
  intros xform lines ls. induction ls as [|l ls IH]; intros st st' Hl H E; [injection E as <-; exact H|]. cbn [foldM] in E. apply bind_ok in E. destruct E as (st1 & E1 & E2).
  apply (IH st1 st'); [intros x Hx; apply Hl; right; exact Hx | | exact E2]. exact (read_line_named _ _ _ _ _ (Hl l (or_introl eq_refl)) H E1).
Qed.
Lemma ini_read_named : forall xform t d sn x k, ini_read xform t = Ok d -> In (sn, x) d -> In k (dkeys x) -> names xform (file_lines t) k.
Proof.
  intros xform t d sn x k H Hin Hk. unfold ini_read in H. apply bind_ok in H. destruct H as (st & E & H). injection H as <-. apply in_map_iff in Hin. destruct Hin as ([sn0 x0] & E0 & Hin). cbn [fst snd] in E0. injection E0 as <- <-.
  assert (Hk' : In k (dkeys x0)) by (unfold join_values, dkeys in *; rewrite map_map in Hk; exact Hk).
  refine (proj1 (read_lines_named xform (file_lines t) (file_lines t) _ st (fun l X => X) _ E) sn0 x0 k Hin Hk'). split; [intros ? ? ? [] | discriminate].
Qed.
Lemma dget_app_none : forall {A} k (a b : dict A), dget k a = None -> dget k b = None -> dget k (a ++ b) = None.
Proof. intros A k a b HA HB. apply dget_None. unfold dkeys. rewrite map_app. intro X. apply in_app_or in X. destruct X as [X | X]; [apply dget_None in HA; exact (HA X) | apply dget_None in HB; exact (HB X)]. Qed.
Lemma section_get_fallback : forall {A} xform t d sn o (conv : str -> res A) fb, ini_read xform t = Ok d -> ~ names xform (file_lines t) (xform o) -> section_get xform d sn o conv fb = Ok fb.
Proof.
  intros A xform t d sn o conv fb H HN. unfold section_get. rewrite dget_app_none; [reflexivity| |].
  - destruct (dget sn d) as [x|] eqn:E; [|reflexivity]. apply dget_None. intro X. apply HN. apply dget_In in E. exact (ini_read_named _ _ _ _ _ _ H E X).
  - destruct (dget DEFAULT d) as [x|] eqn:E; [|reflexivity]. apply dget_None. intro X. apply HN. apply dget_In in E. exact (ini_read_named _ _ _ _ _ _ H E X).
Qed.
Lemma mapM_entries : forall {A} (f : str -> A -> res A) (l l' : dict A), mapM (fun kv => do v <- f (fst kv) (snd kv); Ok (fst kv, v)) l = Ok l' ->
  dkeys l' = dkeys l /\ forall k v, NoDup (dkeys l) -> dget k l = Some v -> (exists v', f k v = Ok v' /\ dget k l' = Some v').
Proof.
  intros A f l. induction l as [|[k0 v0] l IH]; intros l' H; cbn [mapM] in H.
  - injection H as <-. split; [reflexivity | discriminate].
  - apply bind_ok in H. destruct H as (y & E & H). apply bind_ok in H. destruct H as (ys & E2 & H). injection H as <-. cbn [fst snd] in E. apply bind_ok in E. destruct E as (v1 & E1 & E). injection E as <-.
    destruct (IH ys E2) as [K1 K2]. split; [cbn [dkeys map fst]; f_equal; exact K1|]. intros k v HN Hg. inversion HN as [|? ? HX HY]; subst. cbn [dget] in *. destruct (str_eqb k k0) eqn:E.
    + apply str_eqb_eq in E. subst k0. injection Hg as ->. exists v1. split; [exact E1 | reflexivity].
    + exact (K2 k v HY Hg).
Qed.

Theorem config_read_frame : forall xform file c c', config_read xform file c = Ok c' ->
  dkeys (settings c') = dkeys (settings c) /\ dkeys (options c') = dkeys (options c) /\
  forall k, (forall t, file = Some t -> ~ names xform (file_lines (unl t)) (xform k)) ->
    (NoDup (dkeys (settings c)) -> dget k (settings c') = dget k (settings c)) /\ (NoDup (dkeys (options c)) -> dget k (options c') = dget k (options c)).
Proof.
  intros xform file c c' H. unfold config_read in H. destruct file as [t|]; [|injection H as <-; auto].
  apply bind_ok in H. destruct H as (d & ED & H). apply bind_ok in H. destruct H as (st & ES & H). apply bind_ok in H. destruct H as (op & EO & H). injection H as <-. cbn [settings options].
  assert (S1 : dkeys st = dkeys (settings c) /\ forall k, ~ names xform (file_lines (unl t)) (xform k) -> NoDup (dkeys (settings c)) -> dget k st = dget k (settings c)).
  { destruct (has_section d (s "SETTINGS")); [|injection ES as <-; auto].
    destruct (mapM_entries (fun k v => section_get xform d (s "SETTINGS") k (fun x => Ok x) v) _ _ ES) as [K1 K2]. split; [exact K1|]. intros k HN ND.
    destruct (dget k (settings c)) as [v|] eqn:E; [|apply dget_None in E; apply dget_None; rewrite K1; exact E].
    destruct (K2 k v ND E) as (v' & F & G). rewrite (section_get_fallback xform (unl t) d _ k _ v ED HN) in F. injection F as <-. exact G. }
  assert (S2 : dkeys op = dkeys (options c) /\ forall k, ~ names xform (file_lines (unl t)) (xform k) -> NoDup (dkeys (options c)) -> dget k op = dget k (options c)).
  { destruct (has_section d (s "OPTIONS")); [|injection EO as <-; auto].
    destruct (mapM_entries (fun k v => section_get xform d (s "OPTIONS") k to_boolean v) _ _ EO) as [K1 K2]. split; [exact K1|]. intros k HN ND.
    destruct (dget k (options c)) as [v|] eqn:E; [|apply dget_None in E; apply dget_None; rewrite K1; exact E].
    destruct (K2 k v ND E) as (v' & F & G). rewrite (section_get_fallback xform (unl t) d _ k _ v ED HN) in F. injection F as <-. exact G. }
  split; [apply S1|]. split; [apply S2|]. intros k HN. specialize (HN t eq_refl). split; [exact (proj2 S1 k HN) | exact (proj2 S2 k HN)].
Qed.
