(** Scene texts in the tagged manuscript as XML: the events, as in FormatXml5 and ManuEvents. *)
From Coq Require Import String List NArith ZArith Bool Lia Arith.
From Verif Require Import PyStr YwText WordCount WordCountProofs OdfXml OdfXmlProofs OdtText OdtTextProofs OdtTextProofs2 SpecOdf SpecFormat SpecManuscript
  FormatWords FormatLines FormatRun FormatXml FormatXml2 FormatXml3 FormatXml4 FormatXml5 FormatProofs FormatEnds ManuText ManuEvents Proofing ProofXml.
Import ListNotations.

Section Events.
Variables (author : str) (languages : list str).
Hypothesis names : names_ok author languages.
Let tags := tags_of languages.
Notation style := (ProofXml.style languages).
Notation xw := (ProofXml.xw author languages).
Notation wordsX := (ProofXml.wordsX author languages).
Let wordsX_2 := ProofXml.wordsX_2 author languages.
Let wordsX_1 := ProofXml.wordsX_1 author languages.
Let wordsX_c := ProofXml.wordsX_c author languages.

Definition hw (p : piece) : str := match p with PH w => if invisible w then [] else box (flat_map esc5 w) | _ => xw p end.
Fixpoint wordsH (l : list piece) : list str :=
  match l with
  | [] => []
  | PB :: PB :: r => P2 :: wordsH r
  | p :: r => hw p :: wordsH r
  end.
Lemma wordsH_2 : forall r, wordsH (PB :: PB :: r) = P2 :: wordsH r.
Proof. reflexivity. Qed.
Lemma wordsH_1 : forall r, starts_pb r = false -> wordsH (PB :: r) = P1 :: wordsH r.
Proof. intros [|p r] H; [reflexivity|]. destruct p; (discriminate || reflexivity). Qed.
Lemma wordsH_c : forall p r, p <> PB -> wordsH (p :: r) = hw p :: wordsH r.
Proof. intros p r H. destruct p; try reflexivity. congruence. Qed.

Lemma style_ok : forall t, forallb style_char (style t) = true.
Proof.
  assert (D : forall n, forallb style_char (84%N :: str_of_N n) = true) by (intro n; cbn [forallb]; rewrite digits_style; vm_compute; reflexivity).
  intro t. unfold ProofXml.style. destruct (str_eqb t (s "i")); [apply D|]. destruct (str_eqb t (s "b")); [apply D|].
  destruct (language_style 1 languages t) as [v|] eqn:E; [exact (language_style_ok _ _ _ _ E) | reflexivity].
Qed.
Lemma SO_no : forall t x, In x [91; 13]%N -> ~ In x (SO (style t)).
Proof.
  intros t x H Hi. destruct (esc_style _ (style_ok t)) as [_ [_ [_ [S1 S2]]]]. apply in_SO in Hi as [Hi | Hi].
  - destruct H as [<- | [<- | []]]; contradiction.
  - destruct H as [<- | [<- | []]]; revert Hi; nope.
Qed.
Lemma hidden_words : forall l, Forall (xpiece tags) l -> hide (concat (wordsX l)) = concat (wordsH l).
Proof.
  intro l. induction l as [|r IH|r Hr IH|p r Hp IH] using pbreak_ind; intro H; [reflexivity| | |].
  - rewrite wordsX_2, wordsH_2. cbn [concat]. rewrite hide_plain by nope. rewrite IH by now do 2 apply Forall_inv_tail in H. reflexivity.
  - rewrite wordsX_1, wordsH_1 by exact Hr. cbn [concat]. rewrite hide_plain by nope. rewrite IH by now apply Forall_inv_tail in H. reflexivity.
  - rewrite wordsX_c, wordsH_c by exact Hp. apply Forall_cons_iff in H as [H1 H2]. cbn [concat]. rewrite <- IH by exact H2.
    destruct p as [c | | t | t | w | |]; cbn [hw xpiece] in *.
    + apply hide_plain. unfold ProofXml.xw. apply esc_no; [now apply char_not in H1 | nope].
    + apply hide_plain. nope.
    + apply hide_plain. apply SO_no. now left.
    + apply hide_plain. nope.
    + unfold ProofXml.xw. rewrite hide_box; [now rewrite invisible_esc|]. split; apply esc_flat_no; try nope; apply (box_no w _ (proj1 H1)); inl.
    + apply hide_plain. unfold ProofXml.xw. apply (FormatXml3.AO_no author languages names). inl.
    + apply hide_plain. nope.
Qed.

Definition pev (q : piece) : list event :=
  match q with
  | PC c => [Data [c]]
  | PB => []
  | PO t => [Start text_span [(style_name, style t)]]
  | PX _ => [End text_span]
  | PH w => if invisible w then [] else chars (box w)
  | PCo => ev_open author
  | PCx => [End text_p; End annotation]
  end.
(** the events of pieces; at a line break a paragraph of either kind begins *)
Fixpoint evs_of (l : list piece) (es : list event) : Prop :=
  match l with
  | [] => es = []
  | PB :: r => exists a es', (a = a_first \/ a = a_body) /\ es = brk_ev a ++ es' /\ evs_of r es'
  | q :: r => exists es', es = pev q ++ es' /\ evs_of r es'
  end.
Lemma evs_c : forall q r es, q <> PB -> evs_of r es -> evs_of (q :: r) (pev q ++ es).
Proof. intros q r es Hq H. destruct q; try congruence; exists es; split; (reflexivity || exact H). Qed.
Lemma step_run1 : forall p q a p', q <> PB -> xpiece tags q -> kstep author false p q = Some (a, p') -> run (hw q) (pev q) p p'.
Proof.
  intros p q a p' Hq H K. destruct p as [sp | sp ps cur]; destruct q as [c | | t | t | w | |]; try congruence; cbn [kstep] in K; try discriminate.
  - injection K as <- <-. apply run_frag; [|reflexivity]. apply char_not in H. apply frag_esc5; tauto.
  - injection K as <- <-. split; [apply SO_no; right; now left|]. exists [XStart text_span [(style_name, style t)]]. split; [apply lexes_span, style_ok|]. split; [intros [E | []]; discriminate|].
    intros m st more. cbn [app]. destruct (frames_cons (PW sp) m st) as [x [y E]]. change (frames (PW (t :: sp)) ++ m :: st) with (text_span :: (frames (PW sp) ++ m :: st)). rewrite E. reflexivity.
  - destruct sp as [|u sp]; [discriminate|]. injection K as <- <-.
    split; [nope|]. exists [XEnd text_span]. split; [lex_tag|]. split; [intros [E | []]; discriminate|]. intros m st more. cbn [app].
    change (frames (PW (u :: sp)) ++ m :: st) with (text_span :: (frames (PW sp) ++ m :: st)). cbn [nest]. rewrite str_eqb_refl. reflexivity.
  - injection K as <- <-. cbn [hw pev]. destruct (invisible w); [apply (run_nil author languages)|]. cbn [xpiece] in H. destruct H as [H _].
    apply run_frag; [|reflexivity]. rewrite <- esc_box. apply frag_esc.
    + unfold box. constructor; [reflexivity|]. apply Forall_app. split; [|repeat constructor]. apply Forall_forall. intros c Hc. rewrite forallb_forall in H. apply H in Hc. unfold box_char in Hc. now apply andb_true_iff in Hc.
    + intros [E | E]; [discriminate|]. apply in_app_iff in E. destruct E as [E | [E | []]]; [|discriminate]. revert E. apply (box_no w _ H). inl.
  - injection K as <- <-. apply (run_note author languages names).
  - injection K as <- <-. apply run_frag; [|reflexivity]; apply char_not in H; apply frag_esc5; tauto.
  - injection K as <- <-.
    split; [nope|]. exists ([XEnd text_p] ++ [XEnd annotation]). split; [change (hw PCx) with (s "</text:p>" ++ s "</office:annotation>"); apply lexes_app; lex_tag|]. split; [cbn; intuition discriminate|].
    intros m st more. change (frames (PN sp ps cur) ++ m :: st) with (text_p :: annotation :: (frames (PW sp) ++ m :: st)). cbn [app nest]. rewrite !str_eqb_refl.
    now destruct (nest _ true more).
Qed.
Lemma read_evs : forall l p a p', Forall (xpiece tags) l -> kread author false p l = Some (a, p') -> exists es, run (concat (wordsH l)) es p p' /\ evs_of l es.
Proof.
  intro l. induction l as [|r IH|r Hr IH|q r Hq IH] using pbreak_ind; intros p a p' H K.
  - cbn [kread] in K. injection K as <- <-. exists []. split; [apply (run_nil author languages) | reflexivity].
  - rewrite wordsH_2. cbn [kread] in K. destruct (kstep author false p PB) as [[a1 p1]|] eqn:E1; [|discriminate].
    destruct (kstep author false p1 PB) as [[a2 p2]|] eqn:E2; [|discriminate]. destruct (kread author false p2 r) as [[a3 p3]|] eqn:E3; [|discriminate]. injection K as <- <-.
    destruct (IH p2 a3 p3) as [es [R1 R2]]; [now do 2 apply Forall_inv_tail in H | exact E3|].
    destruct (shows_break author languages p a1 p1 a_first a_body E1) as [_ [Hb [_ G]]]. destruct (G _ _ E2) as [_ G2]. exists (ev2 ++ es). split.
    + cbn [concat]. eapply (run_app author languages); [|exact R1]. apply run_pfrag; [apply pfrag_P2 | exact Hb | exact G2].
    + exists a_first, (brk_ev a_body ++ es). split; [now left|]. split; [reflexivity|]. exists a_body, es. split; [now right|]. split; [reflexivity | exact R2].
  - rewrite wordsH_1 by exact Hr. cbn [kread] in K. destruct (kstep author false p PB) as [[a1 p1]|] eqn:E1; [|discriminate].
    destruct (kread author false p1 r) as [[a3 p3]|] eqn:E3; [|discriminate]. injection K as <- <-.
    destruct (IH p1 a3 p3) as [es [R1 R2]]; [now apply Forall_inv_tail in H | exact E3|].
    destruct (shows_break author languages p a1 p1 a_first a_body E1) as [_ [Hb [Hf _]]]. exists (ev1 ++ es). split.
    + cbn [concat]. eapply (run_app author languages); [|exact R1]. apply run_pfrag; [apply pfrag_P1 | exact Hb | exact Hf].
    + exists a_first, es. split; [now left|]. split; [reflexivity | exact R2].
  - rewrite wordsH_c by exact Hq. cbn [kread] in K. destruct (kstep author false p q) as [[a1 p1]|] eqn:E1; [|discriminate].
    destruct (kread author false p1 r) as [[a3 p3]|] eqn:E3; [|discriminate]. injection K as <- <-. apply Forall_cons_iff in H as [H1 H2].
    destruct (IH p1 a3 p3 H2 E3) as [es [R1 R2]]. pose proof (step_run1 p q a1 p1 Hq H1 E1) as S1. exists (pev q ++ es). split.
    + cbn [concat]. eapply (run_app author languages); [exact S1 | exact R1].
    + now apply evs_c.
Qed.

(** ** The texts *)
Notation closed := (closed languages).
Notation adjusted := (adjusted languages).
Let plain := tags_plain author languages names.
Let okay := FormatXml.tags_ok tags plain.
Lemma converts : forall ks, marked_up languages ks -> exists F tail, adjusted ks = F ++ tail /\ Forall (fun p => pblank p = true) tail /\ Forall (xpiece tags) F /\
  proof_convert author languages (Some (typed ks)) = Some (concat (wordsH F)).
Proof.
  intros ks [H [C [Q T]]]. pose proof (xpiece_tokens languages ks H) as X. destruct (adjusted_facts languages ks H) as [U [K XA]].
  assert (P : Forall (piece_ok tags) (pieces ks)) by (eapply Forall_impl; [|exact X]; apply xpiece_ok).
  assert (Ch : chain (adjusted ks)).
  { apply chain_untag. rewrite U, untag_pieces. apply (chain_tokens languages); [| |exact C].
    - apply forallb_forall. intros k Hk. unfold untagged in Hk. apply filter_In in Hk as [Hk _]. rewrite forallb_forall in H. now apply H.
    - apply forallb_forall. intros k Hk. unfold untagged in Hk. apply filter_In in Hk as [_ Hk]. destruct k; (discriminate || reflexivity). }
  destruct (trim (adjusted ks)) as [F [tail [E1 [E2 E3]]]]. exists F, tail. split; [exact E1|]. split; [exact E3|].
  assert (XF : Forall (xpiece tags) F) by (rewrite E1 in XA; now apply Forall_app in XA). assert (CF : chain F) by (rewrite E1 in Ch; now apply chain_prefix in Ch).
  split; [exact XF|].
  assert (L : tags_lines (splitc 10 (typed ks)) closed = Some (map render (adjlines (plines (pieces ks)) closed))).
  { rewrite typed_pieces, (split_pieces tags okay _ P). apply (lines_pieces tags okay); [apply (closed_fst languages) | now apply plines_ok|]. apply lines_no_quote.
    rewrite untag_pieces, <- typed_pieces. exact Q. }
  assert (G : forall t, tags_lines (splitc 10 t) closed = Some (map render (adjlines (plines (pieces ks)) closed)) -> t <> [] ->
    proof_convert author languages (Some t) = Some (concat (wordsH F))).
  { intros t Ht Hn. destruct t as [|c t]; [congruence|]. unfold proof_convert. cbv zeta. rewrite split_splitc. change ([s "i"; s "b"] ++ map (fun l => s "lang=" ++ l) languages) with tags.
    unfold FormatProofs.closed in Ht. fold tags in Ht. unfold str in *. rewrite Ht. f_equal. rewrite <- render_pjoin.
    assert (E2' : rstrip (render (pjoin (adjlines (plines (pieces ks)) (map (fun t0 : list N => (t0, false)) tags)))) = render F) by exact E2.
    refine (eq_trans (f_equal (fun x => re_sub m_hidden [] (apply_replacements _ x)) E2') _).
    exact (eq_trans (f_equal (re_sub m_hidden []) (ProofXml.replaced author languages names F XF CF)) (hidden_words F XF)). }
  destruct ks as [|k ks].
  - assert (E0 : adjusted [] = []) by (unfold FormatProofs.adjusted; cbn [pieces flat_map plines adjlines pjoin]; apply adjs_empty). rewrite E0 in E1. destruct F as [|x F]; [reflexivity | discriminate].
  - apply G; [exact L|]. unfold typed. cbn [flat_map]. destruct k; discriminate.
Qed.
End Events.
