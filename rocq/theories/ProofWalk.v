(** Reading an exported manuscript for proof reading: what happens outside the scene texts. *)
From Coq Require Import String List NArith ZArith Bool Lia Arith.
From Verif Require Import PyStr PyDict YwText WordCount NovelModel NovelOps OdfXml OdfXmlProofs OdtText OdtTextProofs OdtTextProofs2 SpecOdf SpecFormat SpecManuscript
  OdsRoundTrip3 ReadFrame ManuClean ManuEvents OdtRead ManuWalk SpecProof ProofRead Splitter.
Import ListNotations.

Section Walk.
Variables (tr : str -> str) (em strong : list str) (lang : dict str).
Local Notation gfeed := (ProofRead.gfeed tr).
Local Notation pfeed := (ProofRead.pfeed tr).
Local Notation flush := (ProofRead.flush tr).
Local Notation H := (ProofRead.H tr).
Local Notation norm := ProofRead.norm.
Local Notation safe := ProofRead.safe.
Definition P (heading : option str) (para : bool) : ps := mkPs em strong [s "Quotations"] lang [] heading para None [] false false [] None.
Definition R (n : novel) (T : str) (sc : option str) : rs := mkRs n [T] sc None [] false false 0 0 None None None None.
Definition Out (n : novel) (T : str) : ps * rs := (P None false, R n T None).
Lemma nl_R : forall n a b sc, ProofRead.nl (mkRs n [a; b] sc None [] false false 0 0 None None None None) = R n (a ++ b) sc.
Proof. intros. unfold ProofRead.nl, R. cbn. now rewrite app_nil_r. Qed.
Lemma nl_put : forall u n T sc, ProofRead.nl (put_line u (R n T sc)) = R n (T ++ u) sc.
Proof. intros. unfold ProofRead.nl, R, put_line. cbn. now rewrite app_nil_r. Qed.
Lemma nl_R1 : forall n a sc, ProofRead.nl (R n a sc) = R n a sc.
Proof. intros. unfold ProofRead.nl, R. cbn. now rewrite app_nil_r. Qed.
Lemma gfeed_none : forall st e, norm st = st -> safe st e = true -> feed_event H st e = Ok st -> gfeed st e = Ok st.
Proof. intros st e N S F. unfold ProofRead.gfeed. rewrite S, F. cbn [bind]. now rewrite N. Qed.
Lemma state_norm : forall h p n T sc, norm (P h p, R n T sc) = (P h p, R n T sc).
Proof. intros. unfold ProofRead.norm. cbn [fst snd]. rewrite nl_R1. reflexivity. Qed.
Lemma flush_out : forall u n T sc, flush u (P None false, R n T sc) = Ok (P None false, R n T sc).
Proof. intros u n T sc. destruct u as [|c u]; [reflexivity|]. cbn [ProofRead.flush]. apply gfeed_none; [apply state_norm | reflexivity | reflexivity]. Qed.
(** tags without meaning *)
Lemma walk_dull : forall E u r n T, forallb dull E = true -> exists u', pfeed u (E ++ r) (Out n T) = pfeed u' r (Out n T).
Proof.
  induction E as [|e E IH]; intros u r n T D; [now exists u|]. cbn [forallb] in D. apply andb_true_iff in D as [D1 D2]. cbn [app].
  assert (G : is_data e = false -> gfeed (Out n T) e = Ok (Out n T)).
  { intro Dt. apply gfeed_none; [apply state_norm | |]; destruct e as [x a | x | t]; try discriminate; cbn [dull] in D1; apply dull_eqbs in D1 as [A1 [A2 [A3 [A4 [A5 [A6 [A7 [A8 A9]]]]]]]].
    - reflexivity.
    - unfold ProofRead.safe. change (p_count (fst (Out n T))) with (@None nat). cbv iota. now rewrite A4.
    - unfold feed_event. cbn [parser_event]. unfold start_element. rewrite A1, A2, A3, A4, A5, A6, A7, A8, A9. reflexivity.
    - unfold feed_event. cbn [parser_event]. unfold end_element. rewrite A1, A2, A3, A4, A5, A6, A7. reflexivity. }
  destruct (is_data e) eqn:Dt.
  - destruct e as [x a | x | t]; try discriminate. rewrite pfeed_data. now apply IH.
  - rewrite pfeed_tag by exact Dt. unfold Out at 1. rewrite flush_out. cbn [bind]. change (P None false, R n T None) with (Out n T). rewrite (G eq_refl). cbn [bind]. now apply IH.
Qed.

(** ** Headings *)
Lemma handle_data : forall n T t, marker t = false -> handle H (R n T None) (CData t) = Ok (R n T None).
Proof.
  intros n T t M. cbn [handle ProofRead.H proof_reader OdtRead.h_data]. unfold pf_data. unfold marker in M. apply orb_false_iff in M as [M1 M2]. change (r_skip (R n T None)) with false. cbv iota. rewrite M1, M2. reflexivity.
Qed.
Lemma data_flush : forall h p n T t, marker t = false -> flush t (P h p, R n T None) = Ok (P h p, R n T None).
Proof.
  intros h p n T [|c t] M; [reflexivity|]. cbn [ProofRead.flush]. apply gfeed_none; [apply state_norm | reflexivity|].
  unfold feed_event. cbn [fst snd parser_event]. unfold characters. change (p_count (P h p)) with (@None nat). change (p_paragraph (P h p)) with p. change (p_heading (P h p)) with h.
  destruct p; [cbn [bind foldM]; rewrite handle_data by exact M; reflexivity|]. destruct h; cbn [bind foldM]; [rewrite handle_data by exact M|]; reflexivity.
Qed.
Lemma h_start : forall st l n T, In l [s "1"; s "2"; s "3"] -> exists T', gfeed (Out n T) (Start text_h (heading_attrs st l)) = Ok (P (Some (s "h" ++ l)) false, R n T' None).
Proof.
  intros st l n T Hl. unfold ProofRead.gfeed. cbn [ProofRead.safe]. unfold feed_event. cbn [fst snd parser_event Out].
  change (start_element text_h (heading_attrs st l) (P None false)) with (@Ok (ps * list call) (P (Some (s "h" ++ l)) false, [CStart (s "h" ++ l) [None]])). cbn [bind foldM handle ProofRead.H proof_reader OdtRead.h_start].
  assert (G : exists T', match pf_start (s "h" ++ l) [None] (R n T None) with Ok r => ProofRead.nl r = R n T' None | Err _ => False end).
  { destruct Hl as [<- | [<- | [<- | []]]].
    - exists (T ++ PART_SEPARATOR ++ s " "). exact (nl_put (PART_SEPARATOR ++ s " ") n T None).
    - exists (T ++ CHAPTER_SEPARATOR ++ s " "). exact (nl_put (CHAPTER_SEPARATOR ++ s " ") n T None).
    - exists T. exact (nl_R1 n T None). }
  destruct G as [T' G]. exists T'. destruct (pf_start (s "h" ++ l) [None] (R n T None)) as [r|]; [|contradiction]. cbn [bind]. unfold ProofRead.norm. cbn [fst snd]. rewrite G. reflexivity.
Qed.
Lemma h_end : forall l n T, In l [s "1"; s "2"; s "3"] -> exists T', gfeed (P (Some (s "h" ++ l)) false, R n T None) (End text_h) = Ok (Out n T').
Proof.
  intros l n T Hl. unfold ProofRead.gfeed. change (safe (P (Some (s "h" ++ l)) false, R n T None) (End text_h)) with true. cbv iota. unfold feed_event. cbn [fst snd parser_event].
  change (end_element text_h (P (Some (s "h" ++ l)) false)) with (P None false, [CEnd (Some (s "h" ++ l))]). cbn [bind foldM handle ProofRead.H proof_reader OdtRead.h_end].
  assert (G : exists T', match pf_end (Some (s "h" ++ l)) (R n T None) with Ok r => ProofRead.nl r = R n T' None | Err _ => False end).
  { destruct Hl as [<- | [<- | [<- | []]]].
    - exists (T ++ [10%N]). exact (nl_put [10%N] n T None).
    - exists (T ++ [10%N]). exact (nl_put [10%N] n T None).
    - exists T. exact (nl_R1 n T None). }
  destruct G as [T' G]. exists T'. destruct (pf_end (Some (s "h" ++ l)) (R n T None)) as [r|]; [|contradiction]. cbn [bind]. unfold ProofRead.norm. cbn [fst snd]. rewrite G. reflexivity.
Qed.
Lemma walk_h : forall u st l t r n T, In l [s "1"; s "2"; s "3"] -> marker t = false -> exists T', pfeed u (Start text_h (heading_attrs st l) :: chars t ++ End text_h :: r) (Out n T) = pfeed [] r (Out n T').
Proof.
  intros u st l t r n T Hl M. rewrite pfeed_tag by reflexivity. unfold Out at 1. rewrite flush_out. cbn [bind]. destruct (h_start st l n T Hl) as [T1 G1]. change (P None false, R n T None) with (Out n T). rewrite G1. cbn [bind].
  unfold chars. rewrite pfeed_chars. rewrite pfeed_tag by reflexivity. rewrite data_flush by exact M. cbn [bind]. destruct (h_end l n T1 Hl) as [T2 G2]. rewrite G2. exists T2. reflexivity.
Qed.

(** ** Paragraphs *)
(** names of styles that mean nothing *)
Definition plain_par (x : str) : Prop := dget x lang = None /\ prefixb (s "Heading") x = false /\ str_eqb x (s "Quotations") = false /\ smem x em = false /\ smem x strong = false.
Lemma par_start : forall x, plain_par x -> start_element text_p (para_attrs x) (P None false) = Ok (P None true, [CStart (s "p") [None]]).
Proof.
  intros x [H1 [H2 [H3 [H4 H5]]]]. unfold start_element. change (dget (s "text:style-name") (para_attrs x)) with (Some x). cbv iota zeta. change (str_eqb text_p (s "text:p")) with true. cbv iota.
  change (p_lang (P None false)) with lang. rewrite H1. change (p_count (P None false)) with (@None nat). cbv iota. change (p_quote (P None false)) with [s "Quotations"].
  assert (H3' : smem x [s "Quotations"] = false) by (unfold smem; cbn [existsb]; now rewrite H3). rewrite H3', H2.
  change (dget x (p_head (P None false))) with (@None str). cbv iota. change (p_list (P None false)) with false. cbv iota.
  unfold emphasis. change (p_em (set_p_paragraph true (P None false))) with em. rewrite H4. change (p_strong (set_p_paragraph true (P None false))) with strong. rewrite H5. reflexivity.
Qed.
Lemma par_end : end_element text_p (P None true) = (P None false, [CEnd (Some (s "p"))]).
Proof. reflexivity. Qed.
Lemma feed_par_start : forall x n T sc, plain_par x -> gfeed (P None false, R n T sc) (Start text_p (para_attrs x)) = Ok (P None true, R n T sc).
Proof.
  intros x n T sc Hx. unfold ProofRead.gfeed. cbn [ProofRead.safe]. unfold feed_event. cbn [fst snd parser_event]. rewrite par_start by exact Hx. cbn [bind foldM handle ProofRead.H proof_reader OdtRead.h_start].
  change (pf_start (s "p") [None] (R n T sc)) with (@Ok rs (R n T sc)). cbn [bind]. now rewrite state_norm.
Qed.
Lemma feed_par_end : forall n T sc, gfeed (P None true, R n T sc) (End text_p) = Ok (P None false, R n (T ++ [10%N]) sc).
Proof.
  intros n T sc. unfold ProofRead.gfeed. change (safe (P None true, R n T sc) (End text_p)) with true. cbv iota. unfold feed_event. cbn [fst snd parser_event]. rewrite par_end. cbn [bind foldM handle ProofRead.H proof_reader OdtRead.h_end].
  change (pf_end (Some (s "p")) (R n T sc)) with (@Ok rs (put_line [10%N] (R n T sc))). cbn [bind]. unfold ProofRead.norm. cbn [fst snd]. rewrite nl_put. reflexivity.
Qed.
Lemma walk_title : forall u st t r n T, plain_par st -> marker t = false -> exists T', pfeed u (Start text_p (para_attrs st) :: chars t ++ End text_p :: r) (Out n T) = pfeed [] r (Out n T').
Proof.
  intros u st t r n T Hs M. exists (T ++ [10%N]). rewrite pfeed_tag by reflexivity. unfold Out at 1. rewrite flush_out. cbn [bind]. rewrite feed_par_start by exact Hs. cbn [bind].
  unfold chars. rewrite pfeed_chars. rewrite pfeed_tag by reflexivity. rewrite data_flush by exact M. cbn [bind]. rewrite feed_par_end. reflexivity.
Qed.

(** ** Markers *)
Lemma marker_number : forall i, number_id i = true -> number_in (s "[ScID:" ++ i ++ s "]") = Ok i.
Proof.
  intros i D. assert (E : first_number (i ++ s "]") = Some i).
  { destruct i as [|c i]; [discriminate|]. cbn [number_id] in D. unfold first_number. pose proof D as D0. cbn [forallb] in D0. apply andb_true_iff in D0 as [D0 _]. cbn [app]. rewrite D0. f_equal.
    change (c :: i ++ s "]") with ((c :: i) ++ s "]"). clear D0. revert D. generalize (c :: i). intro l. induction l as [|d l IH]; intro D; [reflexivity|]. cbn [forallb] in D. apply andb_true_iff in D as [D1 D2]. cbn [digits app]. rewrite D1. now rewrite IH. }
  unfold number_in. change (first_number (s "[ScID:" ++ i ++ s "]")) with (first_number (i ++ s "]")). now rewrite E.
Qed.
Lemma digit_not : forall i c, forallb is_digit i = true -> is_digit c = false -> ~ In c i.
Proof. intros i c D E Hi. rewrite forallb_forall in D. rewrite (D c Hi) in E. discriminate. Qed.
Lemma scene_opens : forall u r i n T, number_id i = true -> plain_par (s "scene_20_mark") ->
  pfeed u (Start text_p (para_attrs (s "scene_20_mark")) :: chars (s "[ScID:" ++ i ++ s "]") ++ End text_p :: r) (Out n T) = pfeed [] r (P None false, R n [10%N] (Some i)).
Proof.
  intros u r i n T Hi Hs. rewrite pfeed_tag by reflexivity. unfold Out at 1. rewrite flush_out. cbn [bind]. rewrite feed_par_start by exact Hs. cbn [bind].
  unfold chars. rewrite pfeed_chars. rewrite pfeed_tag by reflexivity. cbn [app].
  assert (G : flush (s "[ScID:" ++ i ++ s "]") (P None true, R n T None) = Ok (P None true, R n [] (Some i))).
  { change (s "[ScID:" ++ i ++ s "]") with (91%N :: s "ScID:" ++ i ++ s "]") at 1. cbn [ProofRead.flush]. change (91%N :: s "ScID:" ++ i ++ s "]") with (s "[ScID:" ++ i ++ s "]"). unfold ProofRead.gfeed.
    change (safe (P None true, R n T None) (Data (s "[ScID:" ++ i ++ s "]"))) with true. cbv iota. unfold feed_event. cbn [fst snd parser_event].
    change (characters (s "[ScID:" ++ i ++ s "]") (P None true)) with (P None true, [CData (s "[ScID:" ++ i ++ s "]")]). cbn [bind foldM handle ProofRead.H proof_reader OdtRead.h_data].
    unfold pf_data. change (r_skip (R n T None)) with false. cbv iota.
    assert (C : containsb (s "[ScID") (s "[ScID:" ++ i ++ s "]") = true) by reflexivity. rewrite C. rewrite (marker_number i Hi). cbn [bind]. reflexivity. }
  rewrite G. cbn [bind]. rewrite feed_par_end. reflexivity.
Qed.
Lemma scene_closes : forall u r i x t n T ls, plain_par (s "scene_20_mark") -> dget i (nv_scenes n) = Some x -> nv_languages n = Some ls -> PyStr.strip (cleanup_scene ls T) = t ->
  pfeed u (Start text_p (para_attrs (s "scene_20_mark")) :: chars (s "[/ScID]") ++ End text_p :: r) (P None false, R n T (Some i)) = pfeed [] r (Out (set_nv_scenes (dset i (set_sceneContent t x) (nv_scenes n)) n) [10%N]).
Proof.
  intros u r i x t n T ls Hs Hx Hl Ht. rewrite pfeed_tag by reflexivity. rewrite flush_out. cbn [bind]. rewrite feed_par_start by exact Hs. cbn [bind].
  unfold chars. rewrite pfeed_chars. rewrite pfeed_tag by reflexivity. cbn [app].
  assert (G : flush (s "[/ScID]") (P None true, R n T (Some i)) = Ok (P None true, R (set_nv_scenes (dset i (set_sceneContent t x) (nv_scenes n)) n) [] None)).
  { change (flush (s "[/ScID]") (P None true, R n T (Some i))) with (gfeed (P None true, R n T (Some i)) (Data (s "[/ScID]"))). unfold ProofRead.gfeed.
    change (safe (P None true, R n T (Some i)) (Data (s "[/ScID]"))) with true. cbv iota. unfold feed_event. cbn [fst snd parser_event].
    change (characters (s "[/ScID]") (P None true)) with (P None true, [CData (s "[/ScID]")]). cbn [bind foldM handle ProofRead.H proof_reader OdtRead.h_data].
    unfold pf_data. change (r_skip (R n T (Some i))) with false. cbv iota. change (containsb (s "[ScID") (s "[/ScID]")) with false. change (containsb (s "[/ScID") (s "[/ScID]")) with true. cbv iota.
    change (r_scId (R n T (Some i))) with (Some i). cbv iota. change (r_novel (R n T (Some i))) with n. rewrite (ReadFrame.dget_dmem _ _ _ Hx). unfold OdtRead.languages. change (r_novel (R n T (Some i))) with n. rewrite Hl. cbn [bind].
    change (r_lines (R n T (Some i))) with [T]. cbn [concat]. rewrite app_nil_r, Ht. unfold on_scene. cbn [key bind]. unfold dindex. change (r_novel (R n T (Some i))) with n. rewrite Hx. cbn [bind]. reflexivity. }
  rewrite G. cbn [bind]. rewrite feed_par_end. reflexivity.
Qed.
End Walk.
