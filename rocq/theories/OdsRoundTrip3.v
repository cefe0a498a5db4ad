(** Lists written and read, continued. *)
From Coq Require Import String List NArith ZArith Bool Lia Arith.
From Verif Require Import PyStr PyDict Globals GlobalsProofs NovelModel ConfigProofs YwText YwTextProofs OdfXml OdfXmlProofs OdtText Template TemplateProofs Export Templates OdsRead SpecOdf SpecOds SpecRedesc SpecRelist Redesc OdsProofs OdsTree OdsWrite OdsRoundTrip OdsRoundTrip2.
Import ListNotations.

Lemma rstrip_tail : forall a x : str, x <> [] -> rstrip x = x -> rstrip (a ++ x) = a ++ x.
Proof.
  intros a x Nx H. unfold rstrip, rstrip_by in *. rewrite rev_app_distr. destruct (rev x) as [|c r] eqn:E.
  - destruct x; [congruence|]. cbn in E. destruct (rev x); discriminate.
  - assert (Hc : is_space c = false).
    { destruct (is_space c) eqn:Ec; [|reflexivity]. exfalso. cbn [lstrip_by] in H. rewrite Ec in H. apply (f_equal (@rev N)) in H. rewrite rev_involutive, E in H.
      pose proof (lstrip_by_head is_space r) as P. rewrite H in P. congruence. }
    cbn [app lstrip_by]. rewrite Hc. cbn [rev]. rewrite rev_app_distr, rev_involutive, <- app_assoc. f_equal.
    apply (f_equal (@rev N)) in E. rewrite rev_involutive in E. rewrite E. reflexivity.
Qed.
Lemma rstrip_join : forall d (l : list str), Forall (fun x => x <> [] /\ rstrip x = x) l -> rstrip (join d l) = join d l.
Proof.
  intros d l H. induction H as [|x l [N R] H IH]; [reflexivity|]. destruct l as [|y l]; [exact R|]. rewrite join_cons by discriminate.
  rewrite app_assoc. apply rstrip_tail; [|exact IH]. inversion H as [|? ? [N' _] _]; subst. destruct l; [exact N'|]. rewrite join_cons by discriminate. destruct y; [congruence|discriminate].
Qed.
Lemma strip_rstrip : forall x, strip x = x -> rstrip x = x.
Proof. intros x H. rewrite <- H. apply stripped_last. apply strip_by_stripped. Qed.
Lemma otruthy_rel : forall (x y : str), x <> [] -> truthy (x ++ y) = true.
Proof. intros [|a x] y H; [congruence | reflexivity]. Qed.
Lemma join_truthy : forall d (x : str) l, x <> [] -> truthy (join d (x :: l)) = true.
Proof. intros d x [|y l] H; [destruct x; [congruence | reflexivity]|]. rewrite join_cons by discriminate. now apply otruthy_rel. Qed.
Lemma tags_back : forall t u, tags_fit t -> replaces_tags t u -> renew_tags u (rstrip (tags_text t)) = t.
Proof.
  intros [l|] u H K; [|cbn [replaces_tags] in K; subst u; reflexivity].
  destruct l as [|x l]; [cbn [replaces_tags] in K; destruct u as [[|y u]|]; [reflexivity | reflexivity | congruence]|]. clear K. destruct (H _ eq_refl) as [N F]. unfold renew_tags, tags_text, list_to_string.
  rewrite rstrip_join by (eapply Forall_impl; [|exact F]; intros a (_ & _ & A1 & A2 & _); split; [exact A1 | now apply strip_rstrip]).
  assert (X : x <> []) by (inversion F as [|? ? X0 X1]; subst; apply X0). rewrite join_truthy by exact X. rewrite orb_true_r. f_equal. clear X.
  assert (C : forall a, In a (x :: l) -> containsb DIVIDER a = false).
  { intros a Ha. rewrite Forall_forall in F. destruct (F a Ha) as (_ & _ & _ & _ & A). apply (unmarked_iff DIVIDER). intros v w. apply A. }
  unfold string_to_list. change DIVIDER with (44%N :: [32%N]) at 1. cbv iota. rewrite div_split_join by (try discriminate; exact C). rewrite s2l_fold_dedup. cbn [app].
  rewrite Forall_forall in F.
  rewrite map_id_on by (intros a Ha; now destruct (F a Ha) as (_ & _ & _ & A & _)).
  rewrite filter_all by (intros a Ha; apply truthy_true; now destruct (F a Ha) as (_ & _ & A & _)).
  apply dedup_id; [exact N | intros a _ []].
Qed.
Lemma tags_same : forall t, tags_fit t -> renew_tags t (rstrip (tags_text t)) = t.
Proof. intros t H. apply tags_back; [exact H|]. destruct t as [[|x l]|]; cbn [replaces_tags]; [discriminate | exact I | reflexivity]. Qed.
Lemma replaces_self : forall t, replaces_text t t.
Proof. intros [[|x l]|]; cbn [replaces_text]; [discriminate | exact I | reflexivity]. Qed.
Lemma replaces_tags_self : forall t, replaces_tags t t.
Proof. intros [[|x l]|]; cbn [replaces_tags]; [discriminate | exact I | reflexivity]. Qed.
Lemma field_back : forall t u, cell_field t -> replaces_text t u -> renew u (shown t) (shown t) = t.
Proof.
  intros [x|] u H K; [|cbn [replaces_text] in K; subst u; reflexivity]. destruct (H x eq_refl) as (_ & _ & R). unfold renew, shown. rewrite R. cbn [replaces_text] in K.
  destruct x; [destruct u as [[|]|]; [reflexivity | reflexivity | congruence] | cbn [truthy]; rewrite orb_true_r; reflexivity].
Qed.
Lemma field_back_r : forall t u, cell_field t -> replaces_text t u -> renew u (shown t) (rstrip (shown t)) = t.
Proof.
  intros t u H K. assert (E : rstrip (shown t) = shown t) by (destruct t as [x|]; [destruct (H x eq_refl) as (_ & _ & R); unfold shown; now rewrite !R | reflexivity]).
  rewrite E. now apply field_back.
Qed.
Lemma field_same : forall t, cell_field t -> renew t (shown t) (shown t) = t.
Proof. intros t H. apply field_back; [exact H | apply replaces_self]. Qed.
Lemma field_same_r : forall t, cell_field t -> renew t (shown t) (rstrip (shown t)) = t.
Proof. intros t H. apply field_back_r; [exact H | apply replaces_self]. Qed.
Lemma char_back : forall i x y, character_fits x -> y = x \/ relisted_character x y -> char_cells (char_texts i x) y = x.
Proof.
  intros i c y (H1 & H2 & H3 & H4 & H5 & H6 & H7 & H8 & H9) K.
  assert (K' : relisted_character c y) by (destruct K as [-> | K]; [repeat split; first [apply replaces_self | apply replaces_tags_self] | exact K]). clear K.
  destruct K' as (K1 & K2 & K3 & K4 & K5 & K6 & K7 & K8 & K9 & K10). unfold char_cells, char_texts, cell. cbn [nth].
  rewrite (field_back (cr_title c)), (field_back (cr_fullName c)), (field_back (cr_aka c)) by assumption.
  rewrite (field_back_r (cr_desc c)), (field_back_r (cr_bio c)), (field_back_r (cr_goals c)), (field_back_r (cr_notes c)), tags_back by assumption.
  assert (M : Some (containsb (s "Major") (if flag (cr_isMajor c) then s "Major" else s "Minor")) = cr_isMajor c) by (destruct (cr_isMajor c) as [[]|]; [reflexivity|reflexivity|congruence]).
  rewrite M, K1, K2. destruct c; reflexivity.
Qed.
Lemma world_back : forall mark i w y, world_fits w -> y = w \/ relisted_world w y -> world_cells (world_texts mark i w) y = w.
Proof.
  intros mark i w y (H1 & H2 & H3 & H4) K.
  assert (K' : relisted_world w y) by (destruct K as [-> | K]; [repeat split; first [apply replaces_self | apply replaces_tags_self] | exact K]). clear K.
  destruct K' as (K1 & K2 & K3 & K4 & K5 & K6). unfold world_cells, world_texts, cell. cbn [nth].
  rewrite (field_back_r (we_title w)), (field_back_r (we_aka w)), (field_back_r (we_desc w)), tags_back, K1, K2 by assumption. destruct w; reflexivity.
Qed.

(** ** texts that a cell can hold *)
Definition clean (t : str) : Prop := xml_text t /\ ~ In 13%N t.
Lemma clean_nil : clean [].
Proof. split; [constructor | intros []]. Qed.
Lemma clean_app : forall a b, clean a -> clean b -> clean (a ++ b).
Proof. intros a b [A1 A2] [B1 B2]. split; [apply Forall_app; now split | intro H; apply in_app_or in H as [H|H]; contradiction]. Qed.
Lemma clean_shown : forall t, cell_field t -> clean (shown t).
Proof. intros [x|] H; [|exact clean_nil]. destruct (H x eq_refl) as (A & B & R). unfold shown. rewrite R. now split. Qed.
Lemma clean_join : forall d l, clean d -> Forall clean l -> clean (join d l).
Proof. intros d l D H. induction H as [|x l C H IH]; [exact clean_nil|]. destruct l as [|y l]; [exact C|]. rewrite join_cons by discriminate. apply clean_app; [exact C|]. now apply clean_app. Qed.
Lemma clean_const : forall t, forallb (fun c => xml_char c && negb (N.eqb c 13)) t = true -> clean t.
Proof.
  intros t H. rewrite forallb_forall in H. split.
  - apply Forall_forall. intros c Hc. apply H in Hc. now apply andb_true_iff in Hc.
  - intro Hc. apply H in Hc. apply andb_true_iff in Hc as [_ Hc]. discriminate.
Qed.
Lemma clean_tags : forall t, tags_fit t -> clean (rstrip (tags_text t)).
Proof.
  intros [l|] H; [|exact clean_nil]. destruct (H _ eq_refl) as [_ F]. unfold tags_text, list_to_string.
  rewrite rstrip_join by (eapply Forall_impl; [|exact F]; intros a (_ & _ & A1 & A2 & _); split; [exact A1 | now apply strip_rstrip]).
  apply clean_join; [now apply clean_const|]. eapply Forall_impl; [|exact F]. intros a (A1 & A2 & _). now split.
Qed.
Lemma clean_digits : forall i, digits i -> clean i.
Proof.
  intros i [_ D]. split.
  - eapply Forall_impl; [|exact D]. cbn. intros c Hc. unfold xml_char. rewrite !orb_true_iff, !andb_true_iff, !N.leb_le. lia.
  - intro H. rewrite Forall_forall in D. apply D in H. lia.
Qed.
Lemma char_clean : forall i c, digits i -> character_fits c -> Forall clean (char_texts i c).
Proof.
  intros i c D (H1 & H2 & H3 & H4 & H5 & H6 & H7 & H8 & H9). unfold char_texts. repeat apply Forall_cons; try apply Forall_nil; try (now apply clean_shown); try (now apply clean_tags).
  - apply clean_app; [now apply clean_const | now apply clean_digits].
  - destruct (flag (cr_isMajor c)); now apply clean_const.
Qed.
Lemma world_clean : forall m i w, clean m -> digits i -> world_fits w -> Forall clean (world_texts m i w).
Proof.
  intros m i c M D (H1 & H2 & H3 & H4). unfold world_texts. repeat apply Forall_cons; try apply Forall_nil; try (now apply clean_shown); try (now apply clean_tags).
  apply clean_app; [exact M | now apply clean_digits].
Qed.

(** ** rows *)
Lemma span_all : forall f (t : str), forallb f t = true -> span f t = length t.
Proof. intros f t. induction t as [|c t IH]; intro H; [reflexivity|]. cbn [forallb] in H. apply andb_true_iff in H as [H1 H2]. cbn [span length]. rewrite H1. f_equal. now apply IH. Qed.
Lemma search_mark : forall m i, m <> [] -> digits i -> search_id m (m ++ i) = Some i.
Proof.
  intros m i M D. apply digits_iff in D as [N D]. destruct m as [|a m]; [congruence|]. cbn [app search_id]. change (a :: m ++ i) with ((a :: m) ++ i).
  rewrite prefixb_app. rewrite skipn_len. rewrite (span_all is_digit i D). rewrite firstn_all. destruct i as [|b i]; [congruence|]. reflexivity.
Qed.
Lemma dset_same : forall {A} i (x : A) d, dget i d = Some x -> dset i x d = d.
Proof.
  intros A i x d. induction d as [|[j y] d IH]; intro H; [discriminate|]. cbn [dget dset] in *. destruct (str_eqb i j); [injection H as ->; reflexivity|]. f_equal. now apply IH.
Qed.
Lemma gen_back : forall {A} (R : A -> A -> Prop) (mark : str) (new : A) upd (texts : str -> A -> list str) d, mark <> [] -> NoDup (map fst d) -> (forall i x, cell 0 (texts i x) = mark ++ i) ->
  forall ids rows d' acc, Forall digits ids -> other_entries R (fun i => In i ids) d d' ->
  (forall i x y, In i ids -> dget i d = Some x -> y = x \/ R x y -> upd (texts i x) y = x) ->
  Forall2 (fun i r => exists x, dget i d = Some x /\ r = texts i x) ids rows ->
  foldM (gen_row mark new upd) rows (d', acc) = Ok (d, acc ++ ids).
Proof.
  intros A R mark new upd texts d M ND T. induction ids as [|i ids IH]; intros rows d' acc D O U F; inversion F as [|? r ? rows' [x [G ->]] F']; subst; cbn [foldM].
  - apply (entries_end R) in O. subst d'. now rewrite app_nil_r.
  - inversion D as [|? ? D1 D2]; subst. unfold gen_row at 1. rewrite T.
    assert (C : containsb mark (mark ++ i) = true) by (apply containsb_spec; exists [], i; reflexivity).
    rewrite C, search_mark by assumption. cbn [need bind fst snd]. destruct (entries_get R _ d d' i x O G) as [y [Gy Ry]].
    rewrite Gy, (U i x y (or_introl eq_refl) G Ry).
    rewrite (IH rows' (dset i x d') (acc ++ [i]) D2); [now rewrite <- app_assoc | now apply (entries_set R) | | exact F']. intros j z w Hj. apply U. now right.
Qed.
Lemma rows_len : forall {A} (get : str -> option A) (texts : str -> A -> list str) k ids rows, (forall i x, length (texts i x) = k) ->
  Forall2 (fun i r => exists x, get i = Some x /\ r = texts i x) ids rows -> Forall (fun r => length r = k) rows.
Proof. intros A get texts k ids rows L F. induction F as [|i r ids rows [x [G ->]] F IH]; constructor; [apply L | exact IH]. Qed.
Lemma rows_clean : forall {A} (get : str -> option A) (texts : str -> A -> list str) ids rows, (forall i x, In i ids -> get i = Some x -> Forall clean (texts i x)) ->
  Forall2 (fun i r => exists x, get i = Some x /\ r = texts i x) ids rows -> Forall (Forall (fun t => xml_text t /\ ~ In 13%N t)) rows.
Proof.
  intros A get texts ids rows L F. induction F as [|i r ids rows [x [G ->]] F IH]; constructor; [apply (L i x); [now left | exact G] | apply IH]. intros j y Hj. apply L. now right.
Qed.
Lemma nv_char_eta : forall n, set_nv_srtCharacters (nv_srtCharacters n) (set_nv_characters (nv_characters n) n) = n.
Proof. intros []; reflexivity. Qed.
Lemma nv_loc_eta : forall n, set_nv_srtLocations (nv_srtLocations n) (set_nv_locations (nv_locations n) n) = n.
Proof. intros []; reflexivity. Qed.
Lemma nv_item_eta : forall n, set_nv_srtItems (nv_srtItems n) (set_nv_items (nv_items n) n) = n.
Proof. intros []; reflexivity. Qed.

Lemma characters_back : forall pn pp n m doc, get_text (OdsWCharList pn pp) n = Ok doc -> Forall digits (nv_srtCharacters n) ->
  (forall i c, In i (nv_srtCharacters n) -> dget i (nv_characters n) = Some c -> character_fits c) -> NoDup (map fst (nv_characters n)) ->
  other_character_list n m -> read_charlist doc m = Ok n.
Proof.
  intros pn pp n m doc H D F ND O. destruct (char_doc pn pp n doc H D) as [rows [-> R]]. unfold read_charlist.
  assert (D' : forall i, In i (nv_srtCharacters n) -> digits i) by (now apply Forall_forall).
  assert (L : Forall (fun r => length r = 10) rows) by (exact (rows_len (fun i => dget i (nv_characters n)) (char_texts) 10 _ _ (fun _ _ => eq_refl) R)).
  assert (C : Forall (Forall (fun t => xml_text t /\ ~ In 13%N t)) rows) by (exact (rows_clean (fun i => dget i (nv_characters n)) (char_texts) _ _ (fun i x Hi Hx => char_clean i x (D' i Hi) (F i x Hi Hx)) R)).
  rewrite (CHAR_written rows L C). cbn [bind foldM]. destruct O as [ids [d [-> O]]].
  assert (E1 : nv_characters (set_nv_srtCharacters ids (set_nv_characters d n)) = d) by (destruct n; reflexivity). rewrite E1.
  assert (T : char_row (d, []) CHAR_titles = Ok (d, [])) by reflexivity. rewrite T. cbn [bind].
  assert (G : foldM char_row rows (d, []) = Ok (nv_characters n, nv_srtCharacters n))
    by (refine (gen_back relisted_character (s "CrID:") new_character char_cells char_texts (nv_characters n) ltac:(discriminate) ND (fun _ _ => eq_refl) _ rows d [] D O _ R); intros i x y Hi Hx; exact (char_back i x y (F i x Hi Hx))).
  rewrite G. cbn [bind fst snd]. f_equal. clear. destruct n; reflexivity.
Qed.
Lemma locations_back : forall pn pp n m doc, get_text (OdsWLocList pn pp) n = Ok doc -> Forall digits (nv_srtLocations n) ->
  (forall i c, In i (nv_srtLocations n) -> dget i (nv_locations n) = Some c -> world_fits c) -> NoDup (map fst (nv_locations n)) ->
  other_location_list n m -> read_loclist doc m = Ok n.
Proof.
  intros pn pp n m doc H D F ND O. destruct (loc_doc pn pp n doc H D) as [rows [-> R]]. unfold read_loclist.
  assert (D' : forall i, In i (nv_srtLocations n) -> digits i) by (now apply Forall_forall).
  assert (L : Forall (fun r => length r = 5) rows) by (exact (rows_len (fun i => dget i (nv_locations n)) (world_texts (s "LcID:")) 5 _ _ (fun _ _ => eq_refl) R)).
  assert (C : Forall (Forall (fun t => xml_text t /\ ~ In 13%N t)) rows) by (exact (rows_clean (fun i => dget i (nv_locations n)) (world_texts (s "LcID:")) _ _ (fun i x Hi Hx => world_clean _ i x (clean_const (s "LcID:") eq_refl) (D' i Hi) (F i x Hi Hx)) R)).
  rewrite (LOC_written rows L C). cbn [bind foldM]. destruct O as [ids [d [-> O]]].
  assert (E1 : nv_locations (set_nv_srtLocations ids (set_nv_locations d n)) = d) by (destruct n; reflexivity). rewrite E1.
  assert (T : world_row (s "LcID:") (d, []) WORLD_titles = Ok (d, [])) by reflexivity. rewrite T. cbn [bind].
  assert (G : foldM (world_row (s "LcID:")) rows (d, []) = Ok (nv_locations n, nv_srtLocations n))
    by (refine (gen_back relisted_world (s "LcID:") new_world world_cells (world_texts (s "LcID:")) (nv_locations n) ltac:(discriminate) ND (fun _ _ => eq_refl) _ rows d [] D O _ R); intros i x y Hi Hx; exact (world_back _ i x y (F i x Hi Hx))).
  rewrite G. cbn [bind fst snd]. f_equal. clear. destruct n; reflexivity.
Qed.
Lemma items_back : forall pn pp n m doc, get_text (OdsWItemList pn pp) n = Ok doc -> Forall digits (nv_srtItems n) ->
  (forall i c, In i (nv_srtItems n) -> dget i (nv_items n) = Some c -> world_fits c) -> NoDup (map fst (nv_items n)) ->
  other_item_list n m -> read_itemlist doc m = Ok n.
Proof.
  intros pn pp n m doc H D F ND O. destruct (item_doc pn pp n doc H D) as [rows [-> R]]. unfold read_itemlist.
  assert (D' : forall i, In i (nv_srtItems n) -> digits i) by (now apply Forall_forall).
  assert (L : Forall (fun r => length r = 5) rows) by (exact (rows_len (fun i => dget i (nv_items n)) (world_texts (s "ItID:")) 5 _ _ (fun _ _ => eq_refl) R)).
  assert (C : Forall (Forall (fun t => xml_text t /\ ~ In 13%N t)) rows) by (exact (rows_clean (fun i => dget i (nv_items n)) (world_texts (s "ItID:")) _ _ (fun i x Hi Hx => world_clean _ i x (clean_const (s "ItID:") eq_refl) (D' i Hi) (F i x Hi Hx)) R)).
  rewrite (ITEM_written rows L C). cbn [bind foldM]. destruct O as [ids [d [-> O]]].
  assert (E1 : nv_items (set_nv_srtItems ids (set_nv_items d n)) = d) by (destruct n; reflexivity). rewrite E1.
  assert (T : world_row (s "ItID:") (d, []) WORLD_titles = Ok (d, [])) by reflexivity. rewrite T. cbn [bind].
  assert (G : foldM (world_row (s "ItID:")) rows (d, []) = Ok (nv_items n, nv_srtItems n))
    by (refine (gen_back relisted_world (s "ItID:") new_world world_cells (world_texts (s "ItID:")) (nv_items n) ltac:(discriminate) ND (fun _ _ => eq_refl) _ rows d [] D O _ R); intros i x y Hi Hx; exact (world_back _ i x y (F i x Hi Hx))).
  rewrite G. cbn [bind fst snd]. f_equal. clear. destruct n; reflexivity.
Qed.
