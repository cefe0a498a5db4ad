(** Tables whose cells have attributes. *)
From Coq Require Import String List NArith ZArith Bool Lia Arith.
From Verif Require Import PyStr PyDict Globals GlobalsProofs NovelModel YwText YwTextProofs OdfXml OdfXmlProofs OdtText OdtTextProofs OdtTextProofs2 Template TemplateProofs Export ExportProofs Templates OdsRead SpecOdf SpecOds OdsProofs OdsTree OdfLex OdsWrite OdsRoundTrip OdsRoundTrip3 XmlTags XmlTags2.
Import ListNotations.

Definition CELL : str := s "table:table-cell".
Definition PARA (w : str) : str := s "<text:p>" ++ w ++ s "</text:p>".
(** w is the code of the text t in a cell *)
Definition content (w t : str) : Prop :=
  exists ps, frag (PARA w) (evs ps) /\ filter (named (s "text:p")) ps <> [] /\ join [10%N] (map itertext (filter (named (s "text:p")) ps)) = t.
Lemma content_obr : forall t, OdsRoundTrip3.clean t -> content (obr t) t.
Proof.
  intros t [X C]. exists (pnodes (splitc 10 t)). split; [now apply frag_cell_text|]. rewrite filter_pnodes. split.
  - destruct (splitc 10 t) as [|p ps] eqn:E; [now apply splitc_nonempty in E | discriminate].
  - rewrite map_map. rewrite (map_ext _ (fun l => l)) by apply itertext_pnode. rewrite map_id. apply join_splitc.
Qed.
Definition raw_char (c : N) : Prop := xml_char c = true /\ ~ In c (13%N :: s "<>&").
Lemma frag_raw : forall t, Forall raw_char t -> frag t (chars t).
Proof.
  induction t as [|c t IH]; intro H; [exact frag_nil|]. apply Forall_cons_iff in H as [[H1 H2] H3]. change (chars (c :: t)) with ([Data [c]] ++ chars t). change (c :: t) with ([c] ++ t) at 1.
  apply frag_app; [|now apply IH]. apply frag_char; [exact H1 | | | |]; intros ->; apply H2; vm_compute; auto.
Qed.
Lemma content_raw : forall t, Forall raw_char t -> content t t.
Proof.
  intros t H. exists [pnode t]. split; [|split; [discriminate|]].
  - cbn [evs]. rewrite app_nil_r. unfold pnode. rewrite ev_elt, evs_txts. unfold PARA. apply frag_elem; [lex_tag | lex_tag | nocr | nocr|]. now apply frag_raw.
  - cbn [filter named pnode]. change (str_eqb (s "text:p") (s "text:p")) with true. cbv iota. cbn [map join]. apply itertext_pnode.
Qed.
Definition gcell (a : attrs) (w : str) : str := SP 5 ++ (tag_text CELL (map esc_value a) false ++ ([10%N] ++ SP 6 ++ PARA w ++ [10%N] ++ SP 5) ++ s "</table:table-cell>") ++ [10%N].
Definition cell_attrs (a : attrs) : Prop := Forall attr_kept a /\ NoDup (map fst a) /\ Forall (fun p : str * str => ~ In 13%N (fst p) /\ ~ In 13%N (snd p)) a /\ dget REPEATED a = None.
Definition good_cell (c : node) (t : str) : Prop := named CELL c = true /\ cell_text c = Some t /\ attribute REPEATED c = None.
Lemma gcell_frag : forall a w t, cell_attrs a -> content w t -> exists c, good_cell c t /\ frag (gcell a w) (evs (txts (SP 5) ++ [c] ++ txts [10%N])).
Proof.
  intros a w t [A1 [A2 [A3 A4]]] [ps [F [P1 P2]]]. exists (Elt CELL a (txts ([10%N] ++ SP 6) ++ ps ++ txts ([10%N] ++ SP 5))). split.
  - split; [reflexivity|]. split; [|exact A4]. unfold cell_text, findall. cbn [kids_of]. rewrite !filter_app, !filter_txts, app_nil_r. cbn [app].
    destruct (filter (named (s "text:p")) ps) as [|x l]; [congruence|]. now rewrite <- P2.
  - unfold gcell. rewrite !evs_app. apply frag_app; [apply frag_ws; [reflexivity | nocr]|]. apply frag_app; [|apply frag_ws; [reflexivity | nocr]].
    cbn [evs]. rewrite app_nil_r, ev_elt. apply frag_elem; [exact (lexes_tag_esc CELL a false eq_refl A1 A2) | lex_tag | | nocr |].
    + unfold tag_text. rewrite !in_app_iff. intros [H|[H|[H|H]]]; [revert H; nocr | revert H; nocr | | revert H; nocr]. revert H. apply attr_text_no_cr.
      clear -A3. induction A3 as [|p a [H1 H2] A IH]; constructor; [|exact IH]. split; [exact H1 | now apply esc5_no_cr].
    + rewrite !evs_app. rewrite app_assoc. apply frag_app; [apply frag_ws; [reflexivity | nocr]|]. apply frag_app; [exact F | apply frag_ws; [reflexivity | nocr]].
Qed.
(** a row and its texts *)
Definition row_text (x : str) (ts : list str) : Prop :=
  exists a r b cells l, frag x (evs (txts a ++ [r] ++ txts b)) /\ named (s "table:table-row") r = true /\ findall CELL r = cells ++ l /\ Forall2 good_cell cells ts.
Definition grow (pre : nat) (st : str) (cs : list (attrs * str)) (rest : str) : str :=
  SP pre ++ (tag_text (s "table:table-row") [(s "table:style-name", st)] false ++ ([10%N] ++ flat_map (fun p => gcell (fst p) (snd p)) cs ++ rest ++ SP 4) ++ s "</table:table-row>") ++ [10%N; 10%N].
Lemma SP_ws : forall k, forallb xml_space (SP k) = true /\ ~ In 13%N (SP k).
Proof. induction k as [|k [H1 H2]]; [split; [reflexivity | intros []]|]. split; [exact H1|]. cbn. intros [H|H]; [discriminate | contradiction]. Qed.
Lemma cells_frag : forall cs ts, Forall (fun p : attrs * str => cell_attrs (fst p)) cs -> Forall2 (fun (p : attrs * str) t => content (snd p) t) cs ts ->
  exists cells ns, Forall2 good_cell cells ts /\ frag (flat_map (fun p => gcell (fst p) (snd p)) cs) (evs ns) /\ filter (named CELL) ns = cells.
Proof.
  intros cs ts H F. induction F as [|p t cs ts C F IH]; [exists [], []; split; [constructor | split; [exact frag_nil | reflexivity]]|].
  apply Forall_cons_iff in H as [H1 H2]. destruct (IH H2) as [cells [ns [I1 [I2 I3]]]]. destruct (gcell_frag (fst p) (snd p) t H1 C) as [c [G1 G2]].
  exists (c :: cells), ((txts (SP 5) ++ [c] ++ txts [10%N]) ++ ns). split; [now constructor|]. split.
  - rewrite evs_app. cbn [flat_map]. now apply frag_app.
  - rewrite !filter_app, !filter_txts. cbn [filter]. destruct G1 as [-> _]. cbn [app]. now rewrite I3.
Qed.
Lemma grow_text : forall pre st cs ts rest rn, Forall attr_good [(s "table:style-name", st)] -> ~ In 13%N st ->
  Forall (fun p : attrs * str => cell_attrs (fst p)) cs -> Forall2 (fun (p : attrs * str) t => content (snd p) t) cs ts ->
  frag rest (evs rn) -> row_text (grow pre st cs rest) ts.
Proof.
  intros pre st cs ts rest rn H1 H2 H3 H4 H5. destruct (cells_frag cs ts H3 H4) as [cells [ns [C1 [C2 C3]]]].
  set (r := Elt (s "table:table-row") [(s "table:style-name", st)] (txts [10%N] ++ ns ++ rn ++ txts (SP 4))).
  exists (SP pre), r, [10%N; 10%N], cells, (filter (named CELL) rn). split; [|split; [reflexivity|split; [|exact C1]]].
  - unfold grow. rewrite !evs_app. destruct (SP_ws pre) as [W1 W2]. apply frag_app; [now apply frag_ws|]. apply frag_app; [|apply frag_ws; [reflexivity | nocr]].
    cbn [evs]. rewrite app_nil_r. unfold r. rewrite ev_elt. apply frag_elem; [|lex_tag| |nocr|].
    + apply (lexes_tag (s "table:table-row") [(s "table:style-name", st)] false); [reflexivity | exact H1 | repeat constructor; intros []].
    + unfold tag_text. rewrite !in_app_iff. intros [H|[H|[H|H]]]; [revert H; nocr | revert H; nocr | | revert H; nocr]. revert H. apply attr_text_no_cr. constructor; [|constructor]. split; [nocr | exact H2].
    + rewrite !evs_app. apply frag_app; [apply frag_ws; [reflexivity | nocr]|]. apply frag_app; [exact C2|]. apply frag_app; [exact H5 | apply frag_ws; [reflexivity | nocr]].
  - unfold findall, r. cbn [kids_of]. rewrite !filter_app, !filter_txts, app_nil_r, C3. reflexivity.
Qed.
Lemma good_cells : forall k cells ts acc l, Forall2 good_cell cells ts -> ts <> [] -> length acc + length ts = k -> row_cells k acc (length acc) (cells ++ l) = Ok (acc ++ ts).
Proof.
  intros k cells ts acc l F. revert acc. induction F as [|c t cells ts [G0 [G1 G2]] F IH]; intros acc N L; [congruence|]. cbn [app row_cells length] in *. rewrite G1.
  destruct ts as [|t' ts].
  - assert (E : (k <=? S (length acc)) = true) by (apply Nat.leb_le; cbn in L; lia). rewrite E. reflexivity.
  - assert (E : (k <=? S (length acc)) = false) by (apply Nat.leb_gt; cbn in L; lia). rewrite E, G2. cbv iota.
    specialize (IH (acc ++ [t]) ltac:(discriminate)). rewrite app_length, Nat.add_1_r in IH. rewrite <- app_assoc in IH. apply IH. cbn [length] in *. lia.
Qed.
Lemma rows_frag : forall k xs tss, 0 < k -> Forall2 row_text xs tss -> Forall (fun ts => length ts = k) tss -> exists ns,
  frag (concat xs) (evs ns) /\ mapM (fun row => row_cells k [] 0 (findall CELL row)) (filter (named (s "table:table-row")) ns) = Ok tss.
Proof.
  intros k xs tss K F L. induction F as [|x ts xs tss [a [r [b [cells [l [F1 [F2 [F3 F4]]]]]]]] F IH]; [exists []; split; [exact frag_nil | reflexivity]|].
  apply Forall_cons_iff in L as [L1 L2]. destruct (IH L2) as [ns [I1 I2]]. exists ((txts a ++ [r] ++ txts b) ++ ns). split.
  - rewrite evs_app. cbn [concat]. now apply frag_app.
  - rewrite !filter_app, !filter_txts. cbn [filter]. rewrite F2. cbn [app mapM]. rewrite F3.
    assert (R : row_cells k [] 0 (cells ++ l) = Ok ts) by (apply (good_cells k cells ts [] l F4); [intros ->; cbn in L1; lia | exact L1]).
    rewrite R. cbn [bind]. rewrite I2. reflexivity.
Qed.
Theorem rows_written : forall head th f1 f2 f3 f4 cur k xs tss,
  lexes head th -> forallb not_gt th = true -> ~ In 13%N (DECL ++ head ++ FOOT) ->
  nest_run [] false th = Some (opens [f1; f2; f3; f4] ++ evs cur, rev (map f_name [f1; f2; f3; f4]), true) ->
  map f_post [f1; f2; f3; f4] = posts -> f_pre f1 = [] ->
  map f_name [f1; f2; f3; f4] = [s "office:document-content"; s "office:body"; s "office:spreadsheet"; s "table:table"] ->
  forallb (fun x => negb (named (s "office:body") x)) (f_pre f2) = true ->
  forallb (fun x => negb (named (s "office:spreadsheet") x)) (f_pre f3) = true ->
  forallb (fun x => negb (named (s "table:table") x)) (f_pre f4) = true ->
  filter (named (s "table:table-row")) cur = [] -> 0 < k ->
  Forall2 row_text xs tss -> Forall (fun r => length r = k) tss ->
  read_table (DECL ++ head ++ concat xs ++ FOOT) k = Ok tss.
Proof.
  intros head th f1 f2 f3 f4 cur k xs tss Lh Gh Hcr Nh Hp H1 Hn F2 F3 F4 Hr Hk Hx Hl. destruct (rows_frag k xs tss Hk Hx Hl) as [ns [R1 R2]].
  assert (T : tree_of (DECL ++ head ++ concat xs ++ FOOT) = Some (norm (Elt (f_name f1) (f_attrs f1) (plug [f2; f3; f4] (cur ++ ns ++ txts (SP 3)))))).
  { apply (document DECL head FOOT [f1; f2; f3; f4] cur (txts (SP 3)) th FOOT_toks ns _ (f_pre f1) (f_name f1) (f_attrs f1) (f_post f1) [f2; f3; f4]).
    - exact skip_DECL.
    - exact Hcr.
    - exact Lh.
    - exact FOOT_lexes.
    - exact Gh.
    - vm_compute. reflexivity.
    - destruct f1; reflexivity.
    - exact H1.
    - cbn [map posts] in Hp. now injection Hp.
    - exact Nh.
    - rewrite Hn. cbn [map] in Hn, Hp. unfold posts in Hp. injection Hn as N1 N2 N3 N4. injection Hp as P1 P2 P3 P4. cbn [closes]. rewrite N1, N2, N3, N4, P1, P2, P3, P4. vm_compute. reflexivity.
    - exact R1. }
  unfold read_table. rewrite T, get_rows_norm. unfold get_rows.
  cbn [map] in Hn. injection Hn as N1 N2 N3 N4.
  rewrite (find_plug (s "office:body") _ _ f2) by (try exact F2; rewrite N2; reflexivity). cbn [need bind].
  rewrite (find_plug (s "office:spreadsheet") _ _ f3) by (try exact F3; rewrite N3; reflexivity). cbn [need bind].
  rewrite (find_plug (s "table:table") _ _ f4) by (try exact F4; rewrite N4; reflexivity). cbn [need bind plug].
  unfold findall at 2. cbn [kids_of]. rewrite !filter_app, filter_txts, app_nil_r, Hr. cbn [app]. fold CELL. rewrite R2. cbn [bind].
  assert (Fl : filter (fun r : list str => match r with [] => false | _ => true end) tss = tss).
  { clear -Hl Hk. induction tss as [|r rows IH]; [reflexivity|]. inversion Hl; subst. cbn [filter]. destruct r; [cbn in Hk; lia|]. f_equal. now apply IH. }
  rewrite Fl. now apply check_ok.
Qed.
