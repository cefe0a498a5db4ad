(** Tables written and read. *)
From Coq Require Import String List NArith ZArith Bool Lia Arith.
From Verif Require Import PyStr PyDict Globals GlobalsProofs NovelModel YwText YwTextProofs OdfXml OdfXmlProofs OdtText OdtTextProofs OdtTextProofs2 Template TemplateProofs Export ExportProofs Templates OdsRead SpecOdf SpecOds OdsProofs OdsTree OdfLex OdsWrite.
Import ListNotations.

(** * Cells *)
Definition txts (t : str) : list node := map (fun c => Txt [c]) t.
Lemma evs_txts : forall t, evs (txts t) = chars t.
Proof. induction t as [|c t IH]; [reflexivity|]. cbn [txts map evs ev chars app] in *. f_equal. exact IH. Qed.
Lemma frag_ws : forall w, forallb xml_space w = true -> ~ In 13%N w -> frag w (evs (txts w)).
Proof.
  induction w as [|c w IH]; intros H C; [exact frag_nil|]. cbn [forallb] in H. apply andb_true_iff in H as [H1 H2].
  change (c :: w) with ([c] ++ w) at 1. cbn [txts map evs ev]. apply frag_app; [|apply IH; [exact H2 | intro; apply C; now right]].
  assert (c <> 13%N) by (intros ->; apply C; now left).
  unfold xml_space in H1. cbn [existsb] in H1. rewrite !orb_true_iff, !N.eqb_eq in H1.
  destruct H1 as [->|[->|[->|[->|H1]]]]; [apply frag_char; try discriminate; reflexivity| | | |discriminate]; apply frag_char; try discriminate; try reflexivity; congruence.
Qed.
Definition pnode (l : str) : node := Elt (s "text:p") [] (txts l).
Fixpoint pnodes (ls : list str) : list node := match ls with [] => [] | [l] => [pnode l] | l :: ls' => pnode l :: Txt [10%N] :: pnodes ls' end.
Definition ptext (l : str) : str := s "<text:p>" ++ flat_map esc5 l ++ s "</text:p>".
Ltac nocr := vm_compute; intuition discriminate.
Lemma frag_p : forall l, xml_text l -> ~ In 13%N l -> frag (ptext l) (evs [pnode l]).
Proof.
  intros l X C. cbn [evs]. rewrite app_nil_r. unfold pnode. rewrite ev_elt, evs_txts. unfold ptext. apply frag_elem; [lex_tag | lex_tag | nocr | nocr|]. now apply frag_esc.
Qed.
Lemma frag_ps : forall ls, Forall xml_text ls -> Forall (fun l : str => ~ In 13%N l) ls -> frag (join [10%N] (map ptext ls)) (evs (pnodes ls)).
Proof.
  induction ls as [|l ls IH]; intros X C; [exact frag_nil|]. inversion X; subst. inversion C; subst. destruct ls as [|l' ls].
  - cbn [map join pnodes]. now apply frag_p.
  - change (map ptext (l :: l' :: ls)) with (ptext l :: map ptext (l' :: ls)). rewrite join_cons by discriminate.
    change (pnodes (l :: l' :: ls)) with ([pnode l] ++ [Txt [10%N]] ++ pnodes (l' :: ls)). rewrite !evs_app. apply frag_app; [now apply frag_p|]. apply frag_app; [|now apply IH].
    apply (frag_ws [10%N]); [reflexivity | nocr].
Qed.
Lemma obr_lines : forall t, s "<text:p>" ++ obr t ++ s "</text:p>" = join [10%N] (map ptext (splitc 10 t)).
Proof.
  intro t. assert (G : forall t a, s "<text:p>" ++ flat_map esc5 a ++ obr t ++ s "</text:p>" =
     join [10%N] (map ptext (match splitc 10 t with p :: ps => (a ++ p) :: ps | [] => [] end))).
  { clear t. induction t as [|c t IH]; intro a.
    - cbn [splitc map join obr flat_map app]. rewrite app_nil_r. reflexivity.
    - cbn [splitc obr flat_map]. fold (obr t). destruct (N.eqb_spec c 10) as [->|H].
      + change (N.eqb 10 10) with true. cbv iota. specialize (IH []). cbn [flat_map app] in IH.
        destruct (splitc 10 t) as [|p ps] eqn:E; [now apply splitc_nonempty in E|]. rewrite app_nil_r.
        change (map ptext (a :: p :: ps)) with (ptext a :: map ptext (p :: ps)). rewrite join_cons by discriminate.
        etransitivity; [|exact (f_equal (fun z => ptext a ++ [10%N] ++ z) IH)]. unfold ptext, PS. rewrite <- !app_assoc. reflexivity.
      + rewrite (proj2 (N.eqb_neq 10 c)) by congruence. specialize (IH (a ++ [c])). rewrite flat_map_app in IH. cbn [flat_map] in IH. rewrite app_nil_r in IH.
        destruct (splitc 10 t) as [|p ps] eqn:E; [now apply splitc_nonempty in E|]; rewrite <- !app_assoc in IH; cbn [app] in IH; rewrite <- !app_assoc; exact IH. }
  specialize (G t []). cbn [flat_map app] in G. destruct (splitc 10 t) as [|p ps] eqn:E; [now apply splitc_nonempty in E | exact G].
Qed.
Lemma splitc_all : forall (P : N -> Prop) c t, Forall P t -> Forall (Forall P) (splitc c t).
Proof.
  intros P c t. induction t as [|x t IH]; intro H; [repeat constructor|]. inversion H; subst. cbn [splitc]. specialize (IH H3).
  destruct (N.eqb c x); [constructor; [constructor | exact IH]|]. destruct (splitc c t) as [|p ps]; [repeat constructor; assumption|]. inversion IH; subst. constructor; [now constructor | assumption].
Qed.
Lemma frag_cell_text : forall t, xml_text t -> ~ In 13%N t -> frag (s "<text:p>" ++ obr t ++ s "</text:p>") (evs (pnodes (splitc 10 t))).
Proof.
  intros t X C. rewrite obr_lines. apply frag_ps.
  - now apply splitc_all.
  - assert (F : Forall (fun c => c <> 13%N) t) by (apply Forall_forall; intros c Hc ->; contradiction).
    apply (splitc_all _ 10) in F. eapply Forall_impl; [|exact F]. intros l Hl I. rewrite Forall_forall in Hl. now apply (Hl _ I).
Qed.
Definition SP (n : nat) : str := repeat 32%N n.
Definition cell_xml (t : str) : str :=
  SP 5 ++ (s "<table:table-cell office:value-type=""string"">" ++ ([10%N] ++ SP 6 ++ (s "<text:p>" ++ obr t ++ s "</text:p>") ++ [10%N] ++ SP 5) ++ s "</table:table-cell>") ++ [10%N].
Definition cell_node (t : str) : node :=
  Elt (s "table:table-cell") [(s "office:value-type", s "string")] (txts ([10%N] ++ SP 6) ++ pnodes (splitc 10 t) ++ txts ([10%N] ++ SP 5)).
Lemma frag_cell : forall t, xml_text t -> ~ In 13%N t -> frag (cell_xml t) (evs (txts (SP 5) ++ [cell_node t] ++ txts [10%N])).
Proof.
  intros t X C. unfold cell_xml. rewrite !evs_app. apply frag_app; [apply frag_ws; [reflexivity | nocr]|]. apply frag_app; [|apply frag_ws; [reflexivity | nocr]].
  cbn [evs]. rewrite app_nil_r. unfold cell_node. rewrite ev_elt. apply frag_elem; [lex_tag | lex_tag | nocr | nocr|].
  rewrite !evs_app. rewrite app_assoc. apply frag_app; [apply frag_ws; [reflexivity | nocr]|]. apply frag_app; [now apply frag_cell_text | apply frag_ws; [reflexivity | nocr]].
Qed.
Definition row_xml (ts : list str) : str :=
  SP 3 ++ (s "<table:table-row table:style-name=""ro2"">" ++ ([10%N] ++ flat_map cell_xml ts ++ SP 5 ++ s "<table:table-cell table:number-columns-repeated=""1014""/>" ++ [10%N] ++ SP 4) ++
    s "</table:table-row>") ++ [10%N; 10%N].
Definition rest_cell : node := Elt (s "table:table-cell") [(s "table:number-columns-repeated", s "1014")] [].
Definition row_node (ts : list str) : node :=
  Elt (s "table:table-row") [(s "table:style-name", s "ro2")]
    (txts [10%N] ++ flat_map (fun t => txts (SP 5) ++ [cell_node t] ++ txts [10%N]) ts ++ txts (SP 5) ++ [rest_cell] ++ txts ([10%N] ++ SP 4)).
Lemma frag_row : forall ts, Forall xml_text ts -> Forall (fun t : str => ~ In 13%N t) ts -> frag (row_xml ts) (evs (txts (SP 3) ++ [row_node ts] ++ txts [10%N; 10%N])).
Proof.
  intros ts X C. unfold row_xml. rewrite !evs_app. apply frag_app; [apply frag_ws; [reflexivity | nocr]|]. apply frag_app; [|apply frag_ws; [reflexivity | nocr]].
  cbn [evs]. rewrite app_nil_r. unfold row_node. rewrite ev_elt. apply frag_elem; [lex_tag | lex_tag | nocr | nocr|].
  rewrite !evs_app. apply frag_app; [apply frag_ws; [reflexivity | nocr]|]. apply frag_app.
  - induction ts as [|t ts IH]; [exact frag_nil|]. inversion X; subst. inversion C; subst. cbn [flat_map]. rewrite evs_app. apply frag_app; [now apply frag_cell | now apply IH].
  - apply frag_app; [apply frag_ws; [reflexivity | nocr]|]. apply frag_app; [|apply frag_ws; [reflexivity | nocr]].
    cbn [evs]. rewrite app_nil_r. unfold rest_cell. rewrite ev_elt. cbn [evs app]. apply frag_empty; [lex_tag | nocr].
Qed.
Definition rows_nodes (rows : list (list str)) : list node := flat_map (fun ts => txts (SP 3) ++ [row_node ts] ++ txts [10%N; 10%N]) rows.
Lemma frag_rows : forall rows, Forall (Forall (fun t => xml_text t /\ ~ In 13%N t)) rows -> frag (flat_map row_xml rows) (evs (rows_nodes rows)).
Proof.
  induction rows as [|ts rows IH]; intro H; [exact frag_nil|]. inversion H; subst. cbn [flat_map rows_nodes]. rewrite evs_app. apply frag_app; [|now apply IH].
  apply frag_row; eapply Forall_impl; try eassumption; cbn; tauto.
Qed.

(** ** reading the nodes *)
Lemma filter_txts : forall name t, filter (named name) (txts t) = [].
Proof. induction t as [|c t IH]; [reflexivity | exact IH]. Qed.
Lemma filter_pnodes : forall ls, filter (named (s "text:p")) (pnodes ls) = map pnode ls.
Proof.
  induction ls as [|l ls IH]; [reflexivity|]. destruct ls as [|l' ls]; [reflexivity|].
  change (pnodes (l :: l' :: ls)) with (pnode l :: Txt [10%N] :: pnodes (l' :: ls)). change (map pnode (l :: l' :: ls)) with (pnode l :: map pnode (l' :: ls)). rewrite <- IH. reflexivity.
Qed.
Lemma itertext_pnode : forall l, itertext (pnode l) = l.
Proof. intro l. unfold pnode. rewrite itertext_elt. induction l as [|c l IH]; [reflexivity|]. cbn [txts map itertexts itertext app] in *. f_equal. exact IH. Qed.
Lemma cell_text_node : forall t, cell_text (cell_node t) = Some t.
Proof.
  intro t. unfold cell_text, findall, cell_node. cbn [kids_of]. rewrite !filter_app, !filter_txts, filter_pnodes, app_nil_r. cbn [app].
  destruct (splitc 10 t) as [|p ps] eqn:E; [now apply splitc_nonempty in E|]. cbn [map].
  change (pnode p :: map pnode ps) with (map pnode (p :: ps)). change (itertext (pnode p) :: map itertext (map pnode ps)) with (map itertext (map pnode (p :: ps))). rewrite map_map.
  rewrite (map_ext _ (fun l => l)) by apply itertext_pnode. rewrite map_id, <- E. f_equal. apply join_splitc.
Qed.
Lemma row_cells_nodes : forall k ts acc l, ts <> [] -> length acc + length ts = k -> row_cells k acc (length acc) (map cell_node ts ++ l) = Ok (acc ++ ts).
Proof.
  intros k ts. induction ts as [|t ts IH]; intros acc l N L; [congruence|]. cbn [map app row_cells length] in *. rewrite cell_text_node.
  destruct ts as [|t' ts].
  - assert (E : (k <=? S (length acc)) = true) by (apply Nat.leb_le; cbn in L; lia). rewrite E. reflexivity.
  - assert (E : (k <=? S (length acc)) = false) by (apply Nat.leb_gt; cbn in L; lia). rewrite E. change (attribute REPEATED (cell_node t)) with (@None str). cbv iota.
    specialize (IH (acc ++ [t]) l ltac:(discriminate)). rewrite app_length, Nat.add_1_r in IH. rewrite <- app_assoc in IH. apply IH. cbn [length] in *. lia.
Qed.
Lemma findall_row : forall ts, findall (s "table:table-cell") (row_node ts) = map cell_node ts ++ [rest_cell].
Proof.
  intro ts. unfold findall, row_node. cbn [kids_of]. rewrite !filter_app, !filter_txts. cbn [app]. f_equal.
  induction ts as [|t ts IH]; [reflexivity|]. cbn [flat_map map]. rewrite !filter_app, !filter_txts, IH. reflexivity.
Qed.
Lemma filter_rows : forall rows, filter (named (s "table:table-row")) (rows_nodes rows) = map row_node rows.
Proof. induction rows as [|ts rows IH]; [reflexivity|]. cbn [rows_nodes flat_map map]. rewrite !filter_app, !filter_txts. fold (rows_nodes rows). rewrite IH. reflexivity. Qed.

(** * Documents *)
Definition DECL : str := s "<?xml version=""1.0"" encoding=""UTF-8""?>".
Lemma skip_DECL : forall r, skip_declaration (DECL ++ r) = Some r.
Proof. intro r. vm_compute. reflexivity. Qed.
Definition FOOT : str := OdsWCharList_fileFooter.
Definition FOOT_toks : list xtok := Eval vm_compute in match xlex FOOT with Some t => t | None => [] end.
Lemma FOOT_lexes : lexes FOOT FOOT_toks.
Proof. apply xlex_lexes. vm_compute. reflexivity. Qed.
(** the elements around the rows; what follows each element before the end of the enclosing one is white space *)
Definition posts : list (list node) := [[]; txts [10%N]; txts ([10%N] ++ SP 1); txts ([10%N] ++ SP 2)].
Definition frames (es : list event) : list frame * list node :=
  let '(fs, cur) := open_frames es [] [] in (map (fun p => let '((pre, n, a), post) := p in mkFrame pre n a post) (combine fs posts), cur).
(** what must be checked for a header: everything is computed *)
Definition row_ok (k : nat) (cur : list node) (titles : list str) : Prop :=
  mapM (fun row => row_cells k [] 0 (findall (s "table:table-cell") row)) (filter (named (s "table:table-row")) cur) = Ok [titles].
Theorem table_written : forall head th f1 f2 f3 f4 cur titles k rows,
  lexes head th -> forallb not_gt th = true -> ~ In 13%N (DECL ++ head ++ FOOT) ->
  nest_run [] false th = Some (opens [f1; f2; f3; f4] ++ evs cur, rev (map f_name [f1; f2; f3; f4]), true) ->
  map f_post [f1; f2; f3; f4] = posts -> f_pre f1 = [] ->
  map f_name [f1; f2; f3; f4] = [s "office:document-content"; s "office:body"; s "office:spreadsheet"; s "table:table"] ->
  forallb (fun x => negb (named (s "office:body") x)) (f_pre f2) = true ->
  forallb (fun x => negb (named (s "office:spreadsheet") x)) (f_pre f3) = true ->
  forallb (fun x => negb (named (s "table:table") x)) (f_pre f4) = true ->
  row_ok k cur titles -> length titles = k -> 0 < k ->
  Forall (fun r => length r = k) rows -> Forall (Forall (fun t => xml_text t /\ ~ In 13%N t)) rows ->
  read_table (DECL ++ head ++ flat_map row_xml rows ++ FOOT) k = Ok (titles :: rows).
Proof.
  intros head th f1 f2 f3 f4 cur titles k rows Lh Gh Hcr Nh Hp H1 Hn F2 F3 F4 Hr Ht Hk Hl Hx.
  assert (T : tree_of (DECL ++ head ++ flat_map row_xml rows ++ FOOT) = Some (norm (Elt (f_name f1) (f_attrs f1) (plug [f2; f3; f4] (cur ++ rows_nodes rows ++ txts (SP 3)))))).
  { apply (document DECL head FOOT [f1; f2; f3; f4] cur (txts (SP 3)) th FOOT_toks (rows_nodes rows) _ (f_pre f1) (f_name f1) (f_attrs f1) (f_post f1) [f2; f3; f4]).
    - exact skip_DECL.
    - exact Hcr.
    - exact Lh.
    - exact FOOT_lexes.
    - exact Gh.
    - vm_compute. reflexivity.
    - destruct f1; reflexivity.
    - exact H1.
    - cbn [map posts] in Hp. now injection Hp.
    - exact Nh.
    - rewrite Hn. cbn [map] in Hn, Hp. unfold posts in Hp. injection Hn as N1 N2 N3 N4. injection Hp as P1 P2 P3 P4. cbn [closes]. rewrite N1, N2, N3, N4, P1, P2, P3, P4. vm_compute. reflexivity.
    - now apply frag_rows. }
  unfold read_table. rewrite T, get_rows_norm. unfold get_rows.
  cbn [map] in Hn. injection Hn as N1 N2 N3 N4.
  rewrite (find_plug (s "office:body") _ _ f2) by (try exact F2; rewrite N2; reflexivity). cbn [need bind].
  rewrite (find_plug (s "office:spreadsheet") _ _ f3) by (try exact F3; rewrite N3; reflexivity). cbn [need bind].
  rewrite (find_plug (s "table:table") _ _ f4) by (try exact F4; rewrite N4; reflexivity). cbn [need bind plug].
  unfold findall at 2. cbn [kids_of]. rewrite !filter_app, filter_txts, app_nil_r, filter_rows, mapM_app. unfold row_ok in Hr. rewrite Hr. cbn [bind].
  assert (R : mapM (fun row => row_cells k [] 0 (findall (s "table:table-cell") row)) (map row_node rows) = Ok rows).
  { clear -Hl Hk. induction rows as [|r rows IH]; [reflexivity|]. inversion Hl; subst. cbn [map mapM]. rewrite findall_row.
    assert (Rr : row_cells (length r) [] 0 (map cell_node r ++ [rest_cell]) = Ok r) by (apply (row_cells_nodes (length r) r [] [rest_cell]); [intros ->; cbn in Hk; lia | reflexivity]). rewrite Rr. cbn [bind app]. rewrite IH by assumption. reflexivity. }
  rewrite R. cbn [bind app filter]. destruct titles as [|t ts]; [cbn in Ht; lia|].
  assert (Fl : filter (fun r : list str => match r with [] => false | _ => true end) rows = rows).
  { clear -Hl Hk. induction rows as [|r rows IH]; [reflexivity|]. inversion Hl; subst. cbn [filter]. destruct r; [cbn in Hk; lia|]. f_equal. now apply IH. }
  rewrite Fl. apply check_ok. constructor; [exact Ht | exact Hl].
Qed.

(** ** the headers *)
Definition CHAR_head : str := Eval vm_compute in skipn (length DECL) OdsWCharList_fileHeader.
Definition CHAR_toks : list xtok := Eval vm_compute in match xlex CHAR_head with Some t => t | None => [] end.
Definition CHAR_frames : list frame * list node := Eval vm_compute in frames (match nest_run [] false CHAR_toks with Some (es, _, _) => es | None => [] end).
Definition CHAR_titles : list str := [s "ID"; s "Name"; s "Full name"; s "Aka"; s "Description"; s "Bio"; s "Goals"; s "Importance"; s "Tags"; s "Notes"].
Definition LOC_head : str := Eval vm_compute in skipn (length DECL) OdsWLocList_fileHeader.
Definition LOC_toks : list xtok := Eval vm_compute in match xlex LOC_head with Some t => t | None => [] end.
Definition LOC_frames : list frame * list node := Eval vm_compute in frames (match nest_run [] false LOC_toks with Some (es, _, _) => es | None => [] end).
Definition WORLD_titles : list str := [s "ID"; s "Name"; s "Description"; s "Aka"; s "Tags"].
Definition ITEM_head : str := Eval vm_compute in skipn (length DECL) OdsWItemList_fileHeader.
Definition ITEM_toks : list xtok := Eval vm_compute in match xlex ITEM_head with Some t => t | None => [] end.
Definition ITEM_frames : list frame * list node := Eval vm_compute in frames (match nest_run [] false ITEM_toks with Some (es, _, _) => es | None => [] end).
Definition fr (fs : list frame) (k : nat) : frame := nth k fs (mkFrame [] [] [] []).
Lemma no_cr : forall t, smem [13%N] (map (fun c => [c]) t) = false -> ~ In 13%N t.
Proof. intros t H I. apply smem_false in H. apply H. apply in_map_iff. now exists 13%N. Qed.
Ltac written toks frs :=
  apply (table_written _ toks (fr (fst frs) 0) (fr (fst frs) 1) (fr (fst frs) 2) (fr (fst frs) 3) (snd frs)); [apply xlex_lexes; vm_compute; reflexivity |
    vm_compute; reflexivity | apply no_cr; vm_compute; reflexivity | vm_compute; reflexivity | vm_compute; reflexivity | vm_compute; reflexivity | vm_compute; reflexivity |
    vm_compute; reflexivity | vm_compute; reflexivity | vm_compute; reflexivity | vm_compute; reflexivity | reflexivity | lia | assumption | assumption].
Lemma CHAR_written : forall rows, Forall (fun r => length r = 10) rows -> Forall (Forall (fun t => xml_text t /\ ~ In 13%N t)) rows ->
  read_table (DECL ++ CHAR_head ++ flat_map row_xml rows ++ FOOT) 10 = Ok (CHAR_titles :: rows).
Proof. intros rows H1 H2. written CHAR_toks CHAR_frames. Qed.
Lemma LOC_written : forall rows, Forall (fun r => length r = 5) rows -> Forall (Forall (fun t => xml_text t /\ ~ In 13%N t)) rows ->
  read_table (DECL ++ LOC_head ++ flat_map row_xml rows ++ FOOT) 5 = Ok (WORLD_titles :: rows).
Proof. intros rows H1 H2. written LOC_toks LOC_frames. Qed.
Lemma ITEM_written : forall rows, Forall (fun r => length r = 5) rows -> Forall (Forall (fun t => xml_text t /\ ~ In 13%N t)) rows ->
  read_table (DECL ++ ITEM_head ++ flat_map row_xml rows ++ FOOT) 5 = Ok (WORLD_titles :: rows).
Proof. intros rows H1 H2. written ITEM_toks ITEM_frames. Qed.
