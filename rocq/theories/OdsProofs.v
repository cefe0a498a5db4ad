From Coq Require Import String List NArith ZArith Bool Lia Arith.
From Verif Require Import PyStr PyDict Globals NovelModel YwText OdfXml OdtText Export TemplateProofs GlobalsProofs OdsRead SpecOds.
Import ListNotations.

(** * Rows *)
Lemma cell_text_some : forall c, ~ blank_cell c -> cell_text c = Some (shown_text c).
Proof. intros c H. unfold cell_text, findall, shown_text. unfold blank_cell in H. destruct (filter (named (s "text:p")) (kids_of c)); [congruence | reflexivity]. Qed.
Lemma cell_text_none : forall c, blank_cell c -> cell_text c = None /\ shown_text c = [].
Proof. intros c H. unfold cell_text, findall, shown_text. unfold blank_cell in H. now rewrite H. Qed.
Lemma cell_text_cases : forall c, cell_text c = Some (shown_text c) \/ (cell_text c = None /\ shown_text c = []).
Proof. intro c. unfold cell_text, findall, shown_text. destruct (filter (named (s "text:p")) (kids_of c)); auto. Qed.

Lemma row_step : forall k acc i c l, (0 < i \/ ~ blank_cell c) -> columns c <> None ->
  row_cells k acc i (c :: l) = if k <=? S i then Ok (acc ++ [shown_text c])
    else let m := Nat.min (width c - 1) (k - S i) in row_cells k ((acc ++ [shown_text c]) ++ repeat (shown_text c) m) (S i + m) l.
Proof.
  intros k acc i c l Hi Hc.
  assert (E : row_cells k acc i (c :: l) = if k <=? S i then Ok (acc ++ [shown_text c]) else match attribute REPEATED c with
     | Some ((_ :: _) as a) => match parse_int a with
        | Some z => let m := Nat.min (Z.to_nat (z - 1)) (k - S i) in row_cells k ((acc ++ [shown_text c]) ++ repeat (shown_text c) m) (S i + m) l
        | None => Err ValueError end
     | _ => row_cells k (acc ++ [shown_text c]) (S i) l end).
  { cbn [row_cells]. destruct (cell_text_cases c) as [E|[E E']]; rewrite E; [reflexivity|]. rewrite E'.
    destruct Hi as [Hi|Hi]; [|exfalso; rewrite (cell_text_some c Hi) in E; discriminate]. assert (L : (0 <? i) = true) by now apply Nat.ltb_lt. rewrite L. reflexivity. }
  rewrite E. destruct (k <=? S i); [reflexivity|]. unfold width, columns in *. change (s "table:number-columns-repeated") with REPEATED in *.
  destruct (attribute REPEATED c) as [[|d a]|].
  - cbn [Nat.sub Nat.min repeat]. cbv zeta. now rewrite app_nil_r, Nat.add_0_r.
  - destruct (parse_int (d :: a)) as [z|]; [|congruence].
    assert (F : Z.to_nat (z - 1) = Nat.max 1 (Z.to_nat z) - 1) by lia. rewrite F. reflexivity.
  - cbn [Nat.sub Nat.min repeat]. cbv zeta. now rewrite app_nil_r, Nat.add_0_r.
Qed.
Lemma width_pos : forall c, 1 <= width c.
Proof. intro c. unfold width, columns. destruct (attribute _ c) as [[|d a]|]; [lia| |lia]. destruct (parse_int (d :: a)); lia. Qed.
Lemma repeat_app_one : forall {A} (x : A) m, [x] ++ repeat x m = repeat x (S m).
Proof. reflexivity. Qed.
Lemma firstn_repeat_app : forall {A} (x : A) a b (r : list A), a <= b -> firstn a (repeat x b ++ r) = repeat x a.
Proof.
  intros A x a b r H. rewrite firstn_app, repeat_length. replace (a - b) with 0 by lia. rewrite firstn_O, app_nil_r.
  revert b H. induction a as [|a IH]; intros b H; [reflexivity|]. destruct b as [|b]; [lia|]. cbn. now rewrite IH by lia.
Qed.

Lemma row_full : forall k acc l, well_formed l -> length acc = k -> 0 < k ->
  row_cells k acc k l = Ok (acc ++ match l with [] => [] | c :: _ => [shown_text c] end).
Proof.
  intros k acc [|c l] W H K; [cbn; now rewrite app_nil_r|]. inversion W; subst.
  rewrite row_step by auto. assert (L : (length acc <=? S (length acc)) = true) by (apply Nat.leb_le; lia). now rewrite L.
Qed.
Definition fits_from (k i : nat) (l : list node) : Prop :=
  forall l1 c l2, l = l1 ++ c :: l2 -> S (i + length (expanded l1)) < k -> k <= i + length (expanded (l1 ++ [c])) -> l2 = [].
Lemma expanded_cons : forall c l, expanded (c :: l) = repeat (shown_text c) (width c) ++ expanded l.
Proof. reflexivity. Qed.
Lemma fits_cons : forall k i c l, fits_from k i (c :: l) -> fits_from k (i + width c) l.
Proof.
  intros k i c l H l1 d l2 E H1 H2. apply (H (c :: l1) d l2); [now rewrite E| |]; cbn [app]; rewrite expanded_cons, app_length, repeat_length; lia.
Qed.
Lemma row_spec : forall l k acc, well_formed l -> length acc < k -> (acc = [] -> match l with c :: _ => ~ blank_cell c | [] => True end) ->
  exists r, row_cells k acc (length acc) l = Ok r /\ firstn k r = firstn k (acc ++ expanded l) /\ length r <= S k /\
            (fits_from k (length acc) l -> r = firstn k (acc ++ expanded l)).
Proof.
  induction l as [|c l IH]; intros k acc W H Hb.
  - exists acc. cbn [row_cells expanded flat_map]. rewrite app_nil_r. repeat split; [lia|]. intros _. now rewrite firstn_all2 by lia.
  - inversion W as [|? ? Wc Wl]; subst. rewrite row_step; [|destruct acc; [right; now apply Hb | left; cbn; lia] | exact Wc].
    pose proof (width_pos c) as Hw. rewrite expanded_cons. set (x := shown_text c) in *.
    destruct (Nat.leb_spec k (S (length acc))) as [L|L].
    + exists (acc ++ [x]). assert (K : k = S (length acc)) by lia. repeat split.
      * rewrite K. rewrite firstn_all2 by (rewrite app_length; cbn; lia).
        rewrite firstn_app, firstn_all2 by lia. replace (S (length acc) - length acc) with 1 by lia. now rewrite firstn_repeat_app by lia.
      * rewrite app_length. cbn. lia.
      * intros _. rewrite K, firstn_app, firstn_all2 by lia. replace (S (length acc) - length acc) with 1 by lia. now rewrite firstn_repeat_app by lia.
    + cbv zeta. set (m := Nat.min (width c - 1) (k - S (length acc))). rewrite <- app_assoc, repeat_app_one.
      assert (La : S (length acc) + m = length (acc ++ repeat x (S m))) by (rewrite app_length, repeat_length; lia). rewrite La.
      assert (Hacc : acc ++ repeat x (S m) <> []) by (destruct acc; discriminate).
      destruct (Nat.lt_ge_cases (length (acc ++ repeat x (S m))) k) as [M|M].
      * assert (Em : S m = width c) by (rewrite app_length, repeat_length in M; lia).
        destruct (IH k (acc ++ repeat x (S m)) Wl M) as [r [R1 [R2 [R3 R4]]]]; [intro Z; contradiction|].
        exists r. rewrite <- app_assoc, Em in R2, R4. rewrite Em in R1. split; [rewrite Em; exact R1|]. repeat split; [exact R2 | exact R3|].
        intro F. apply R4. rewrite app_length, repeat_length. now apply (fits_cons k (length acc) c l).
      * assert (Ek : length (acc ++ repeat x (S m)) = k) by (rewrite app_length, repeat_length in M |- *; lia).
        rewrite Ek. rewrite row_full by (auto; lia). eexists. split; [reflexivity|].
        assert (Ef : firstn k (acc ++ repeat x (width c) ++ expanded l) = acc ++ repeat x (S m)).
        { rewrite <- Ek at 1. rewrite app_length, repeat_length, firstn_app, firstn_all2 by lia. f_equal. replace (length acc + S m - length acc) with (S m) by lia.
          apply firstn_repeat_app. lia. }
        rewrite Ef. repeat split.
        -- rewrite <- Ek at 1. rewrite firstn_app, firstn_all, Nat.sub_diag, firstn_O, app_nil_r. reflexivity.
        -- rewrite app_length, Ek. destruct l; cbn; lia.
        -- intro F. assert (l = []); [|subst l; now rewrite app_nil_r].
           apply (F [] c l eq_refl); cbn [expanded flat_map app length]; [lia|]. rewrite app_nil_r, repeat_length. rewrite app_length, repeat_length in Ek. lia.
Qed.

Theorem row_read : forall k cells, well_formed cells -> 0 < k -> match cells with c :: _ => ~ blank_cell c | [] => True end ->
  exists r, row_cells k [] 0 cells = Ok r /\ firstn k r = firstn k (expanded cells) /\ length r <= S k /\ (fits k cells -> r = firstn k (expanded cells)).
Proof.
  intros k cells W K H. destruct (row_spec cells k [] W) as [r R]; [exact K | intros _; exact H|]. exists r. exact R.
Qed.
Theorem row_blank : forall k c cells, blank_cell c -> row_cells k [] 0 (c :: cells) = Ok [].
Proof. intros k c cells H. cbn [row_cells]. rewrite (proj1 (cell_text_none c H)). reflexivity. Qed.

(** * Tables *)
Lemma need_find : forall name x y, first_kid name x y -> need (find name x) = Ok y.
Proof. intros name x y [l H]. unfold find, findall. now rewrite H. Qed.
Lemma counts_cases : forall cells, counts cells = true /\ (exists c l, cells = c :: l /\ ~ blank_cell c) \/ counts cells = false /\ (cells = [] \/ exists c l, cells = c :: l /\ blank_cell c).
Proof.
  intros [|c l]; [right; split; [reflexivity | now left]|]. cbn [counts].
  assert (B : blank_cell c <-> filter (named (s "text:p")) (kids_of c) = []) by reflexivity.
  destruct (filter (named (s "text:p")) (kids_of c)) as [|p ps].
  - right. split; [reflexivity|]. right. exists c, l. split; [reflexivity | now apply B].
  - left. split; [reflexivity|]. exists c, l. split; [reflexivity | intro H; apply B in H; discriminate].
Qed.
Lemma mapM_map : forall {A B C} (g : A -> B) (f : B -> res C) l, mapM (fun x => f (g x)) l = mapM f (map g l).
Proof. induction l as [|x l IH]; [reflexivity|]. cbn. now rewrite IH. Qed.
Theorem table_read : forall root table k, table_of root table -> Forall well_formed (rows_of table) -> 0 < k ->
  exists rs, get_rows root k = Ok rs /\ Forall2 (row_result k) (filter counts (rows_of table)) rs.
Proof.
  intros root table k [body [sheet [H1 [H2 H3]]]] W K. unfold get_rows.
  rewrite (need_find _ _ _ H1). cbn [bind]. rewrite (need_find _ _ _ H2). cbn [bind]. rewrite (need_find _ _ _ H3). cbn [bind].
  rewrite (mapM_map (findall (s "table:table-cell")) (row_cells k [] 0)).
  change (map (findall (s "table:table-cell")) (findall (s "table:table-row") table)) with (rows_of table).
  induction (rows_of table) as [|cells rows IH]; [exists []; split; [reflexivity | constructor]|].
  inversion W as [|? ? Wc Wr]; subst. destruct (IH Wr) as [rs [E F]]. cbn [mapM filter].
  destruct (mapM (row_cells k [] 0) rows) as [all|] eqn:Em; cbn [bind] in E; [|discriminate].
  destruct (counts_cases cells) as [[Ec [c [l [Eq Hb]]]]|[Ec Hc]]; rewrite Ec.
  - destruct (row_read k cells Wc K) as [r [R1 [R2 [R3 R4]]]]; [subst; exact Hb|]. rewrite R1. cbn [bind].
    assert (Hr : r <> []).
    { intros ->. subst cells. rewrite firstn_nil in R2. destruct k; [lia|]. rewrite expanded_cons in R2. pose proof (width_pos c). destruct (width c); [lia|]. discriminate. }
    exists (r :: rs). injection E as E. split; [destruct r; [congruence|]; cbn [filter]; now rewrite E|]. constructor; [now repeat split | exact F].
  - assert (R : row_cells k [] 0 cells = Ok []) by (destruct Hc as [->|[c [l [-> Hb]]]]; [reflexivity | now apply row_blank]).
    rewrite R. cbn [bind filter]. exists rs. injection E as E. split; [now rewrite E | exact F].
Qed.
Theorem no_table : forall root k, (forall t, ~ table_of root t) -> get_rows root k = Err AttributeError.
Proof.
  intros root k H. unfold get_rows, find. destruct (findall (s "office:body") root) as [|body bl] eqn:E1; [reflexivity|]. cbn [need bind].
  destruct (findall (s "office:spreadsheet") body) as [|sheet sl] eqn:E2; [reflexivity|]. cbn [need bind].
  destruct (findall (s "table:table") sheet) as [|table tl] eqn:E3; [reflexivity|]. exfalso. apply (H table). exists body, sheet. repeat split; eexists; eassumption.
Qed.

(** * Marks *)
Lemma unmarked_iff : forall mark t, containsb mark t = false <-> unmarked mark t.
Proof.
  intros mark t. split.
  - intros H a b E. assert (T : containsb mark t = true) by (apply containsb_spec; now exists a, b). congruence.
  - intro H. destruct (containsb mark t) eqn:E; [|reflexivity]. apply containsb_spec in E as [a [b E]]. destruct (H a b E).
Qed.
Lemma is_digit_iff : forall c, is_digit c = true <-> (48 <= c <= 57)%N.
Proof. intro c. unfold is_digit. rewrite andb_true_iff, !N.leb_le. reflexivity. Qed.
Lemma digits_iff : forall t, digits t <-> t <> [] /\ forallb is_digit t = true.
Proof.
  intro t. unfold digits. rewrite Forall_forall, forallb_forall. split; intros [H1 H2]; (split; [exact H1|]); intros c Hc; now apply is_digit_iff, H2.
Qed.
Lemma here_digits : forall t, (0 <? span is_digit t) = true <-> exists i b, t = i ++ b /\ digits i.
Proof.
  intro t. destruct (span_split is_digit t) as [a [b [-> [L [D N]]]]]. rewrite <- L. split.
  - intro H. apply Nat.ltb_lt in H. exists a, b. split; [reflexivity|]. apply digits_iff. split; [intros ->; cbn in H; lia | exact D].
  - intros [i [b' [E H]]]. apply digits_iff in H as [H1 H2]. destruct a as [|x a]; [|reflexivity]. exfalso. cbn in E. subst b. destruct i as [|d i]; [congruence|].
    cbn in N, H2. rewrite N in H2. discriminate.
Qed.
Lemma search_some : forall mark t i, mark <> [] -> search_id mark t = Some i -> marks mark i t.
Proof.
  intros mark t i Hm. induction t as [|c t IH]; intro H; [discriminate|]. cbn [search_id] in H.
  destruct (prefixb mark (c :: t) && (0 <? span is_digit (skipn (length mark) (c :: t)))) eqn:E.
  - apply andb_true_iff in E as [E1 E2]. apply prefixb_spec in E1 as [r E1]. rewrite E1 in *. rewrite skipn_app, skipn_all, Nat.sub_diag in *. cbn [skipn app] in *.
    destruct (span_split is_digit r) as [a [b [-> [L [D N]]]]]. rewrite <- L in H, E2. rewrite firstn_app, firstn_all, Nat.sub_diag, firstn_O, app_nil_r in H. injection H as <-.
    exists [], b. split; [reflexivity|]. split; [apply digits_iff; split; [intros ->; discriminate | exact D]|]. split; [|intros; cbn; lia].
    intros d r' ->. intro Hd. apply is_digit_iff in Hd. congruence.
  - destruct (IH H) as [a [b [E1 [E2 [E3 E4]]]]]. exists (c :: a), b. split; [now rewrite E1|]. split; [exact E2|]. split; [exact E3|].
    intros a' i' b' E' D'. destruct a' as [|c' a'].
    + exfalso. cbn [app] in E'. rewrite E' in E. rewrite prefixb_app, skipn_app, skipn_all, Nat.sub_diag in E. cbn [skipn app andb] in E.
      assert (T : (0 <? span is_digit (i' ++ b')) = true) by (apply here_digits; now exists i', b'). congruence.
    + cbn [app] in E'. injection E' as <- E'. cbn [length]. apply le_n_S. eapply E4; eassumption.
Qed.
Lemma search_none : forall mark t i, mark <> [] -> search_id mark t = None -> ~ marks mark i t.
Proof.
  intros mark t i Hm H [a [b [E [D _]]]]. revert t H E. induction a as [|c a IH]; intros t H E; subst t.
  - destruct mark as [|m mark]; [congruence|]. cbn [app search_id] in H.
    change (m :: mark ++ i ++ b) with ((m :: mark) ++ i ++ b) in H. rewrite prefixb_app, skipn_app, skipn_all, Nat.sub_diag in H. cbn [skipn app andb] in H.
    assert (T : (0 <? span is_digit (i ++ b)) = true) by (apply here_digits; now exists i, b). rewrite T in H. discriminate.
  - cbn [app search_id] in H. destruct (prefixb _ _ && _); [discriminate|]. eapply IH; [exact H | reflexivity].
Qed.

(** * Lists of elements *)
Section Rows.
Context {A : Type} (mark : str) (new : A) (upd : list str -> A -> A).
Definition gen_row (st : dict A * list str) (cells : list str) : res (dict A * list str) :=
  if containsb mark (cell 0 cells) then
    do i <- need (search_id mark (cell 0 cells));
    let c := match dget i (fst st) with Some c => c | None => new end in
    Ok (dset i (upd cells c) (fst st), snd st ++ [i])
  else Ok st.
Hypothesis Hmark : mark <> [].
Lemma gen_rows : forall rows d ids d' ids', foldM gen_row rows (d, ids) = Ok (d', ids') ->
  exists ps, listed mark rows ps /\ ids' = ids ++ map fst ps /\ d' = fold_left (fun d p => dset (fst p) (upd (snd p) (match dget (fst p) d with Some c => c | None => new end)) d) ps d.
Proof.
  induction rows as [|r rows IH]; intros d ids d' ids' H; cbn [foldM] in H.
  - injection H as <- <-. exists []. cbn. rewrite app_nil_r. repeat split. constructor.
  - unfold gen_row at 1 in H. destruct (containsb mark (cell 0 r)) eqn:E.
    + destruct (search_id mark (cell 0 r)) as [i|] eqn:Es; cbn [need bind] in H; [|discriminate].
      destruct (IH _ _ _ _ H) as [ps [P1 [P2 P3]]]. exists ((i, r) :: ps). cbn [map fst snd fold_left] in *. rewrite <- app_assoc in P2. cbn [app] in P2. repeat split; [|exact P2|exact P3].
      constructor; [now apply search_some | exact P1].
    + cbn [bind] in H. destruct (IH _ _ _ _ H) as [ps [P1 P2]]. exists ps. split; [|exact P2]. constructor; [now apply unmarked_iff | exact P1].
Qed.
Lemma gen_total : forall rows d ids, Forall (fun r => ~ broken mark r) rows -> exists st, foldM gen_row rows (d, ids) = Ok st.
Proof.
  induction rows as [|r rows IH]; intros d ids H; [eexists; reflexivity|]. inversion H as [|? ? H1 H2]; subst. cbn [foldM]. unfold gen_row at 1.
  destruct (containsb mark (cell 0 r)) eqn:E; [|cbn [bind]; now apply IH].
  destruct (search_id mark (cell 0 r)) as [i|] eqn:Es; cbn [need bind]; [now apply IH|]. exfalso. apply H1. split.
  - intro U. apply unmarked_iff in U. unfold cell in E. congruence.
  - intros i. now apply search_none.
Qed.
Lemma gen_broken : forall rows r rows' d ids, Forall (fun r => ~ broken mark r) rows -> broken mark r -> foldM gen_row (rows ++ r :: rows') (d, ids) = Err AttributeError.
Proof.
  induction rows as [|q rows IH]; intros r rows' d ids H B; cbn [app foldM]; unfold gen_row at 1.
  - destruct B as [B1 B2]. destruct (containsb mark (cell 0 r)) eqn:E; [|exfalso; apply B1; now apply unmarked_iff].
    destruct (search_id mark (cell 0 r)) as [i|] eqn:Es; [|reflexivity]. destruct (B2 i). now apply search_some.
  - inversion H as [|? ? H1 H2]; subst. destruct (containsb mark (cell 0 q)) eqn:E; [|cbn [bind]; now apply IH].
    destruct (search_id mark (cell 0 q)) as [i|] eqn:Es; cbn [need bind]; [now apply IH|]. exfalso. apply H1. split.
    + intro U. apply unmarked_iff in U. unfold cell in E. congruence.
    + intros i. now apply search_none.
Qed.
Lemma gen_fold : forall (ps : list (str * list str)) d,
  let d' := fold_left (fun d p => dset (fst p) (upd (snd p) (match dget (fst p) d with Some c => c | None => new end)) d) ps d in
  (forall i, ~ In i (map fst ps) -> dget i d' = dget i d) /\
  (NoDup (map fst ps) -> forall i r, In (i, r) ps -> dget i d' = Some (upd r (match dget i d with Some y => y | None => new end))).
Proof.
  induction ps as [|[i r] ps IH]; intro d; cbn [fold_left map fst snd]; [split; [reflexivity | intros _ i r []]|].
  set (d1 := dset i (upd r (match dget i d with Some c => c | None => new end)) d). specialize (IH d1). cbv zeta in IH. destruct IH as [F G]. split.
  - intros j Hj. rewrite F by (intro; apply Hj; now right). unfold d1. apply dget_dset_other. intro; subst. apply Hj. now left.
  - intros Hn j q Hin. inversion Hn as [|? ? Hi Hps]; subst. destruct Hin as [E|Hin].
    + injection E as <- <-. rewrite F by exact Hi. unfold d1. now rewrite dget_dset_same.
    + rewrite (G Hps j q Hin). unfold d1. rewrite dget_dset_other; [reflexivity|]. intros ->. apply Hi. apply in_map_iff. now exists (i, q).
Qed.
End Rows.

(** * Cells to fields *)
Lemma div_hit : forall t, split DIVIDER (44%N :: 32%N :: t) = [] :: split DIVIDER t.
Proof. intro t. reflexivity. Qed.
Lemma div_miss : forall c t, prefixb DIVIDER (c :: t) = false -> split DIVIDER (c :: t) = match split DIVIDER t with [] => [[c]] | p :: ps => (c :: p) :: ps end.
Proof. intros c t H. unfold split. cbn [split_go]. rewrite H. reflexivity. Qed.
Lemma div_nonempty : forall t, split DIVIDER t <> [].
Proof.
  intro t. assert (G : forall n t, length t <= n -> split DIVIDER t <> []); [|exact (G _ t (le_n _))]. clear t.
  induction n as [|n IH]; intros [|c t] H; try (cbn in H; lia); try discriminate.
  destruct (prefixb DIVIDER (c :: t)) eqn:E.
  - apply prefixb_spec in E as [r E]. cbn in E. injection E as -> ->. rewrite div_hit. discriminate.
  - rewrite div_miss by exact E. destruct (split DIVIDER t); discriminate.
Qed.
Lemma div_join : forall t, join DIVIDER (split DIVIDER t) = t /\ forall p, In p (split DIVIDER t) -> containsb DIVIDER p = false.
Proof.
  intro t. assert (G : forall n t, length t <= n -> join DIVIDER (split DIVIDER t) = t /\ forall p, In p (split DIVIDER t) -> containsb DIVIDER p = false); [|exact (G _ t (le_n _))]. clear t.
  induction n as [|n IH]; intros [|c t] H; try (cbn in H; lia); try (split; [reflexivity | intros p [<-|[]]; reflexivity]).
  destruct (prefixb DIVIDER (c :: t)) eqn:E.
  - apply prefixb_spec in E as [r E]. cbn in E. injection E as -> ->. rewrite div_hit.
    destruct (IH r) as [J F]; [cbn in H; lia|]. split; [rewrite join_cons by apply div_nonempty; rewrite J; reflexivity|]. intros p [<-|Hp]; [reflexivity | now apply F].
  - rewrite div_miss by exact E. destruct (IH t) as [J F]; [cbn in H; lia|].
    destruct (split DIVIDER t) as [|p ps] eqn:Es; [now apply div_nonempty in Es|]. split.
    + destruct ps as [|q ps]; [cbn [join] in *; now rewrite J | rewrite join_cons in * by discriminate; cbn [app]; now rewrite J].
    + intros q [<-|Hq]; [|apply F; now right]. assert (P : containsb DIVIDER p = false) by (apply F; now left).
      cbn [containsb]. rewrite P, orb_false_r. destruct p as [|x p]; [change DIVIDER with [44%N; 32%N]; cbn [prefixb]; apply andb_false_r|].
      assert (Ec : prefixb DIVIDER (c :: x :: p) = prefixb DIVIDER (c :: t)); [|now rewrite Ec].
      assert (Et : exists r, t = x :: r) by (rewrite <- J; destruct ps; eexists; reflexivity). destruct Et as [r ->].
      change DIVIDER with [44%N; 32%N]. reflexivity.
Qed.
Lemma div_app : forall a t, containsb DIVIDER a = false -> split DIVIDER (a ++ DIVIDER ++ t) = a :: split DIVIDER t.
Proof.
  induction a as [|c a IH]; intros t H; [reflexivity|]. cbn [app containsb] in *. apply orb_false_iff in H as [H1 H2].
  rewrite div_miss; [now rewrite (IH t H2)|]. destruct a as [|x a]; [|exact H1]. cbn [app]. change DIVIDER with [44%N; 32%N]. cbn [app prefixb].
  destruct (44 =? c)%N; reflexivity.
Qed.
Lemma div_one : forall a, containsb DIVIDER a = false -> split DIVIDER a = [a].
Proof.
  induction a as [|c a IH]; intros H; [reflexivity|]. cbn [containsb] in H. apply orb_false_iff in H as [H1 H2]. rewrite div_miss by exact H1. now rewrite (IH H2).
Qed.
Lemma div_split_join : forall l, l <> [] -> (forall x, In x l -> containsb DIVIDER x = false) -> split DIVIDER (join DIVIDER l) = l.
Proof.
  induction l as [|x l IH]; intros Hn H; [congruence|]. destruct l as [|y l].
  - cbn [join]. apply div_one. apply H. now left.
  - rewrite join_cons by discriminate. rewrite div_app by (apply H; now left). f_equal. apply IH; [discriminate|]. intros z Hz. apply H. now right.
Qed.
Lemma words_ok : forall c, words c (string_to_list (Some c) DIVIDER).
Proof.
  intro c. exists (split DIVIDER c). change (s ", ") with DIVIDER. destruct (div_join c) as [J F]. split; [now rewrite J|]. split.
  - intros p a b Hp E. specialize (F p Hp). assert (T : containsb DIVIDER p = true) by (apply containsb_spec; now exists a, b). congruence.
  - unfold string_to_list. change DIVIDER with (44%N :: [32%N]) at 1. cbv iota. rewrite s2l_fold_dedup. cbn [app]. apply dedup_first_occ0.
Qed.
Lemma truthy_iff : forall c : str, truthy c = false <-> c = [].
Proof. intros [|c l]; split; intro H; try reflexivity; discriminate. Qed.
Lemma field_ok : forall old c v, field_from old c v (renew old c v).
Proof.
  intros old c v. unfold field_from, renew. split.
  - intros [-> H]. destruct H as [->| ->]; reflexivity.
  - intro H. destruct (otruthy old || truthy c) eqn:E; [reflexivity|]. exfalso. apply H. apply orb_false_iff in E as [E1 E2]. split; [now apply truthy_iff|].
    destruct old as [[|x o]|]; [right; reflexivity | discriminate | left; reflexivity].
Qed.
Lemma tags_ok : forall old c, tags_from old c (renew_tags old c).
Proof.
  intros old c. unfold tags_from, renew_tags. split.
  - intros [-> H]. destruct H as [->| ->]; reflexivity.
  - intro H. destruct (match old with Some (_ :: _) => true | _ => false end || truthy c) eqn:E; [eexists; split; [reflexivity | apply words_ok]|].
    exfalso. apply H. apply orb_false_iff in E as [E1 E2]. split; [now apply truthy_iff|]. destruct old as [[|x o]|]; [right; reflexivity | discriminate | left; reflexivity].
Qed.
Lemma character_ok : forall r x, character_from r x (char_cells r x).
Proof.
  intros r x. unfold character_from, char_cells, cell. cbn. repeat split; try apply field_ok; try apply tags_ok.
  eexists. split; [reflexivity|]. apply containsb_spec.
Qed.
Lemma world_ok : forall r x, world_from r x (world_cells r x).
Proof. intros r x. unfold world_from, world_cells, cell. cbn. repeat split; try apply field_ok; apply tags_ok. Qed.
Lemma rating_ok : forall c, rating_from c (Some (rating c)).
Proof.
  intro c. unfold rating_from, rating. destruct (smem c SCENE_RATINGS) eqn:E.
  - apply smem_In in E. unfold SCENE_RATINGS in E. cbn [In] in E.
    repeat match type of E with _ \/ _ => destruct E as [E|E] | False => destruct E end; subst c;
    [exists 2%N|exists 3%N|exists 4%N|exists 5%N|exists 6%N|exists 7%N|exists 8%N|exists 9%N|exists 10%N]; (split; [vm_compute; reflexivity|]); left; split; try lia; vm_compute; reflexivity.
  - exists 1%N. split; [vm_compute; reflexivity|]. right. split; [reflexivity|]. apply smem_false in E. intros j Hj ->. apply E.
    assert (D : j = 2%N \/ j = 3%N \/ j = 4%N \/ j = 5%N \/ j = 6%N \/ j = 7%N \/ j = 8%N \/ j = 9%N \/ j = 10%N) by lia.
    apply smem_In. repeat destruct D as [D|D]; subst j; vm_compute; reflexivity.
Qed.

Lemma index_of_ok : forall c : str, match index_of c 0 STATUS with
  | Some k => In (k, c) [(1%Z, s "Outline"); (2%Z, s "Draft"); (3%Z, s "1st Edit"); (4%Z, s "2nd Edit"); (5%Z, s "Done")]
  | None => ~ In c [s "Outline"; s "Draft"; s "1st Edit"; s "2nd Edit"; s "Done"] end.
Proof.
  intro c. unfold STATUS. cbn [index_of].
  repeat match goal with |- context[if str_eqb ?a ?b then _ else _] => let E := fresh "E" in destruct (str_eqb a b) eqn:E; [apply str_eqb_eq in E; subst c; cbn [In]; auto 8 |] end.
  repeat match goal with H : str_eqb _ _ = false |- _ => apply str_eqb_neq in H end. cbn [In]. intuition congruence.
Qed.
Lemma scene_eta : forall x, set_sc_title (sc_title x) (set_sc_desc (sc_desc x) (set_sc_tags (sc_tags x) (set_sc_notes (sc_notes x) (set_sc_isReactionScene (sc_isReactionScene x)
    (set_sc_goal (sc_goal x) (set_sc_conflict (sc_conflict x) (set_sc_outcome (sc_outcome x) (set_sc_field1 (sc_field1 x) (set_sc_field2 (sc_field2 x)
    (set_sc_field3 (sc_field3 x) (set_sc_field4 (sc_field4 x) (set_sc_status (sc_status x) x)))))))))))) = x.
Proof. intros []. reflexivity. Qed.
Lemma reaction_ok : forall c, containsb (lower (s "R")) c = true <-> In 114%N c.
Proof.
  intro c. rewrite containsb_spec. change (lower (s "R")) with [114%N]. split.
  - intros [a [b ->]]. apply in_or_app. right. now left.
  - intro H. apply in_split in H as [a [b ->]]. now exists a, b.
Qed.
Lemma scene_ok : forall r x, scene_from r x (scene_cells r x).
Proof.
  intros r x. unfold scene_from, scene_cells. pose proof (index_of_ok (cell 17 r)) as HI. unfold cell in *.
  destruct (index_of (nth 17 r []) 0 STATUS) as [k|].
  - destruct x; cbn. repeat split; try apply field_ok; try apply tags_ok; try apply rating_ok.
    + eexists. split; [reflexivity | apply reaction_ok].
    + intros k' name Hin E. rewrite E in HI. cbn [In] in HI, Hin. 
      repeat match type of HI with _ \/ _ => destruct HI as [HI|HI] | False => destruct HI end; injection HI as <- HI;
      repeat match type of Hin with _ \/ _ => destruct Hin as [Hin|Hin] | False => destruct Hin end; injection Hin as <- Hin; first [reflexivity | exfalso; rewrite <- HI in Hin; vm_compute in Hin; discriminate Hin].
    + intro H. exfalso. apply H. cbn [In] in *. repeat match type of HI with _ \/ _ => destruct HI as [HI|HI] | False => destruct HI end; injection HI as _ HI; auto 8.
  - destruct x; cbn. repeat split; try apply field_ok; try apply tags_ok; try apply rating_ok.
    + eexists. split; [reflexivity | apply reaction_ok].
    + intros k' name Hin E. exfalso. apply HI. rewrite E. cbn [In] in *. repeat match type of Hin with _ \/ _ => destruct Hin as [Hin|Hin] | False => destruct Hin end; injection Hin as _ Hin; auto 8.
Qed.

(** * The readers *)
Lemma charlist_ok : forall content n n', read_charlist content n = Ok n' ->
  exists rows ps, read_table content 10 = Ok rows /\ listed (s "CrID:") rows ps /\ nv_srtCharacters n' = map fst ps /\
    updated new_character character_from ps (nv_characters n) (nv_characters n') /\
    n' = set_nv_srtCharacters (nv_srtCharacters n') (set_nv_characters (nv_characters n') n).
Proof.
  intros content n n' H. unfold read_charlist in H. destruct (read_table content 10) as [rows|] eqn:E; cbn [bind] in H; [|discriminate].
  destruct (foldM char_row rows (nv_characters n, [])) as [[d ids]|] eqn:F; cbn [bind fst snd] in H; [|discriminate]. injection H as <-.
  assert (Hm : s "CrID:" <> []) by discriminate.
  destruct (gen_rows (s "CrID:") new_character char_cells Hm rows _ _ _ _ F) as [ps [P1 [P2 P3]]]. exists rows, ps.
  destruct n; cbn in *. split; [reflexivity|]. split; [exact P1|]. split; [exact P2|]. split; [|reflexivity].
  destruct (gen_fold new_character char_cells ps nv_characters) as [G1 G2]. cbv zeta in *. rewrite <- P3 in G1, G2. split; [exact G1|].
  intros Hn i r Hir. eexists. split; [apply G2; eassumption | apply character_ok].
Qed.
Lemma loclist_ok : forall content n n', read_loclist content n = Ok n' ->
  exists rows ps, read_table content 5 = Ok rows /\ listed (s "LcID:") rows ps /\ nv_srtLocations n' = map fst ps /\
    updated new_world world_from ps (nv_locations n) (nv_locations n') /\
    n' = set_nv_srtLocations (nv_srtLocations n') (set_nv_locations (nv_locations n') n).
Proof.
  intros content n n' H. unfold read_loclist in H. destruct (read_table content 5) as [rows|] eqn:E; cbn [bind] in H; [|discriminate].
  destruct (foldM (world_row (s "LcID:")) rows (nv_locations n, [])) as [[d ids]|] eqn:F; cbn [bind fst snd] in H; [|discriminate]. injection H as <-.
  assert (Hm : s "LcID:" <> []) by discriminate.
  destruct (gen_rows (s "LcID:") new_world world_cells Hm rows _ _ _ _ F) as [ps [P1 [P2 P3]]]. exists rows, ps.
  destruct n; cbn in *. split; [reflexivity|]. split; [exact P1|]. split; [exact P2|]. split; [|reflexivity].
  destruct (gen_fold new_world world_cells ps nv_locations) as [G1 G2]. cbv zeta in *. rewrite <- P3 in G1, G2. split; [exact G1|].
  intros Hn i r Hir. eexists. split; [apply G2; eassumption | apply world_ok].
Qed.
Lemma itemlist_ok : forall content n n', read_itemlist content n = Ok n' ->
  exists rows ps, read_table content 5 = Ok rows /\ listed (s "ItID:") rows ps /\ nv_srtItems n' = map fst ps /\
    updated new_world world_from ps (nv_items n) (nv_items n') /\
    n' = set_nv_srtItems (nv_srtItems n') (set_nv_items (nv_items n') n).
Proof.
  intros content n n' H. unfold read_itemlist in H. destruct (read_table content 5) as [rows|] eqn:E; cbn [bind] in H; [|discriminate].
  destruct (foldM (world_row (s "ItID:")) rows (nv_items n, [])) as [[d ids]|] eqn:F; cbn [bind fst snd] in H; [|discriminate]. injection H as <-.
  assert (Hm : s "ItID:" <> []) by discriminate.
  destruct (gen_rows (s "ItID:") new_world world_cells Hm rows _ _ _ _ F) as [ps [P1 [P2 P3]]]. exists rows, ps.
  destruct n; cbn in *. split; [reflexivity|]. split; [exact P1|]. split; [exact P2|]. split; [|reflexivity].
  destruct (gen_fold new_world world_cells ps nv_items) as [G1 G2]. cbv zeta in *. rewrite <- P3 in G1, G2. split; [exact G1|].
  intros Hn i r Hir. eexists. split; [apply G2; eassumption | apply world_ok].
Qed.
Lemma scene_fold : forall rows d ids, foldM scene_row rows d = match foldM (gen_row (s "ScID:") new_scene scene_cells) rows (d, ids) with Ok st => Ok (fst st) | Err e => Err e end.
Proof.
  induction rows as [|r rows IH]; intros d ids; [reflexivity|]. cbn [foldM]. unfold scene_row at 1, gen_row at 1. cbn [fst snd].
  destruct (containsb (s "ScID:") (cell 0 r)); [|cbn [bind]; apply IH]. destruct (search_id (s "ScID:") (cell 0 r)); cbn [need bind]; [apply IH | reflexivity].
Qed.
Lemma scenelist_ok : forall content n n', read_scenelist content n = Ok n' ->
  exists rows ps, read_table content 21 = Ok rows /\ listed (s "ScID:") rows ps /\
    updated new_scene scene_from ps (nv_scenes n) (nv_scenes n') /\ n' = set_nv_scenes (nv_scenes n') n.
Proof.
  intros content n n' H. unfold read_scenelist in H. destruct (read_table content 21) as [rows|] eqn:E; cbn [bind] in H; [|discriminate].
  rewrite (scene_fold rows (nv_scenes n) []) in H.
  destruct (foldM (gen_row (s "ScID:") new_scene scene_cells) rows (nv_scenes n, [])) as [[d ids]|] eqn:F; cbn [bind fst snd] in H; [|discriminate]. injection H as <-.
  assert (Hm : s "ScID:" <> []) by discriminate.
  destruct (gen_rows (s "ScID:") new_scene scene_cells Hm rows _ _ _ _ F) as [ps [P1 [P2 P3]]]. exists rows, ps.
  destruct n; cbn in *. split; [reflexivity|]. split; [exact P1|]. split; [|reflexivity].
  destruct (gen_fold new_scene scene_cells ps nv_scenes) as [G1 G2]. cbv zeta in *. rewrite <- P3 in G1, G2. split; [exact G1|].
  intros Hn i r Hir. eexists. split; [apply G2; eassumption | apply scene_ok].
Qed.
Lemma reader_total : forall rd k mark content n rows, list_reader rd k mark -> read_table content k = Ok rows -> Forall (fun r => ~ broken mark r) rows ->
  exists n', rd content n = Ok n'.
Proof.
  intros rd k mark content n rows R E H. destruct R.
  - unfold read_charlist. rewrite E. cbn [bind]. destruct (gen_total (s "CrID:") new_character char_cells ltac:(discriminate) rows (nv_characters n) [] H) as [st F].
    change (foldM (gen_row (s "CrID:") new_character char_cells)) with (foldM char_row) in F. rewrite F. eexists; reflexivity.
  - unfold read_loclist. rewrite E. cbn [bind]. destruct (gen_total (s "LcID:") new_world world_cells ltac:(discriminate) rows (nv_locations n) [] H) as [st F].
    change (foldM (gen_row (s "LcID:") new_world world_cells)) with (foldM (world_row (s "LcID:"))) in F. rewrite F. eexists; reflexivity.
  - unfold read_itemlist. rewrite E. cbn [bind]. destruct (gen_total (s "ItID:") new_world world_cells ltac:(discriminate) rows (nv_items n) [] H) as [st F].
    change (foldM (gen_row (s "ItID:") new_world world_cells)) with (foldM (world_row (s "ItID:"))) in F. rewrite F. eexists; reflexivity.
  - unfold read_scenelist. rewrite E. cbn [bind]. destruct (gen_total (s "ScID:") new_scene scene_cells ltac:(discriminate) rows (nv_scenes n) [] H) as [st F].
    rewrite (scene_fold rows _ []), F. eexists; reflexivity.
Qed.
Lemma reader_broken : forall rd k mark content n rows r rows', list_reader rd k mark -> read_table content k = Ok (rows ++ r :: rows') ->
  Forall (fun r => ~ broken mark r) rows -> broken mark r -> rd content n = Err AttributeError.
Proof.
  intros rd k mark content n rows r rows' R E H B. destruct R.
  - unfold read_charlist. rewrite E. cbn [bind].
    pose proof (gen_broken (s "CrID:") new_character char_cells ltac:(discriminate) rows r rows' (nv_characters n) [] H B) as F.
    change (foldM (gen_row (s "CrID:") new_character char_cells)) with (foldM char_row) in F. rewrite F. reflexivity.
  - unfold read_loclist. rewrite E. cbn [bind].
    pose proof (gen_broken (s "LcID:") new_world world_cells ltac:(discriminate) rows r rows' (nv_locations n) [] H B) as F.
    change (foldM (gen_row (s "LcID:") new_world world_cells)) with (foldM (world_row (s "LcID:"))) in F. rewrite F. reflexivity.
  - unfold read_itemlist. rewrite E. cbn [bind].
    pose proof (gen_broken (s "ItID:") new_world world_cells ltac:(discriminate) rows r rows' (nv_items n) [] H B) as F.
    change (foldM (gen_row (s "ItID:") new_world world_cells)) with (foldM (world_row (s "ItID:"))) in F. rewrite F. reflexivity.
  - unfold read_scenelist. rewrite E. cbn [bind]. rewrite (scene_fold _ _ []).
    pose proof (gen_broken (s "ScID:") new_scene scene_cells ltac:(discriminate) rows r rows' (nv_scenes n) [] H B) as F. rewrite F. reflexivity.
Qed.
Lemma reader_fails : forall rd k mark content n e, list_reader rd k mark -> read_table content k = Err e -> rd content n = Err e.
Proof.
  intros rd k mark content n e R E.
  destruct R; [unfold read_charlist | unfold read_loclist | unfold read_itemlist | unfold read_scenelist]; rewrite E; reflexivity.
Qed.
(** ** the structure check *)
Lemma check_ok : forall k rows, Forall (fun r => length r = k) rows -> check_rows k rows = Ok rows.
Proof.
  intros k rows H. unfold check_rows. assert (E : forallb (fun r => Nat.eqb (length r) k) rows = true); [|now rewrite E].
  apply forallb_forall. intros r Hr. apply Nat.eqb_eq. rewrite Forall_forall in H. now apply H.
Qed.
Lemma check_wrong : forall k rows r, In r rows -> length r <> k -> check_rows k rows = Err wrong_structure.
Proof.
  intros k rows r H N. unfold check_rows. destruct (forallb (fun r => Nat.eqb (length r) k) rows) eqn:E; [|reflexivity].
  rewrite forallb_forall in E. specialize (E r H). apply Nat.eqb_eq in E. contradiction.
Qed.
