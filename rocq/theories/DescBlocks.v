(** Blocks of documents with descriptions: XML text, events, and what a reader makes of them. *)
From Coq Require Import String List NArith ZArith Bool Lia Arith.
From Verif Require Import PyStr PyDict YwText YwTextProofs NovelModel NovelOps OdfXml OdfXmlProofs OdfLex OdtText OdtTextProofs OdtTextProofs2 SpecOdf SpecManuscript SpecDesc
  ConfigProofs OdsRoundTrip2 OdtRead XmlTags FormatXml4 DescEngine.
From Verif Require ManuRead ManuWalk ManuBlocks ManuStyles.
Import ListNotations.
Notation text_h := ManuWalk.text_h.
Notation xesc := ManuBlocks.xesc. Notation section_text := ManuBlocks.section_text. Notation para_text := ManuBlocks.para_text.

(** ** Texts as they are *)
Lemma frag_raw : forall t, writable t -> Forall (fun c => c <> 38%N /\ c <> 60%N /\ c <> 62%N) t -> frag t (chars t).
Proof.
  intros t [H1 H2] H3. induction t as [|c t IH]; [apply frag_nil|]. apply Forall_cons_iff in H1 as [A1 A2]. apply Forall_cons_iff in H3 as [[B1 [B2 B3]] B4].
  change (c :: t) with ([c] ++ t). change (chars ([c] ++ t)) with ([Data [c]] ++ chars t). apply frag_app; [|apply IH; [exact A2 | intro I; apply H2; now right | exact B4]].
  apply frag_char; try assumption. intros ->. apply H2. now left.
Qed.
Lemma frag_xesc : forall t, writable t -> frag (xesc t) (chars t).
Proof. intros t [H1 H2]. now apply frag_esc. Qed.
Lemma dull_chars : forall t, forallb dull (chars t) = true.
Proof. induction t as [|c t IH]; [reflexivity | exact IH]. Qed.

(** ** Links *)
Definition link_text (v : str) : str := s "<text:a xlink:href=""" ++ v ++ s """>".
Lemma lexes_link : forall t, xml_text t -> lexes (link_text (xesc t)) [XStart (s "text:a") [(s "xlink:href", blanks t)]].
Proof.
  intros t Ht. apply lexes_tok; [discriminate|]. intro rest. unfold link_text. rewrite <- !app_assoc.
  change (s "<text:a xlink:href=""" ++ xesc t ++ s """>" ++ rest) with (60%N :: (s "text:a" ++ 32%N :: (s "xlink:href" ++ 61%N :: 34%N :: (xesc t ++ 34%N :: s ">" ++ rest)))).
  set (r1 := xesc t ++ 34%N :: s ">" ++ rest). rewrite xlook_eq. change (N.eqb 60 60) with true. cbv iota.
  change (prefixb (s "![CDATA[") (s "text:a" ++ 32%N :: (s "xlink:href" ++ 61%N :: 34%N :: r1))) with false. cbv iota. unfold look_tag.
  change (slash (s "text:a" ++ 32%N :: (s "xlink:href" ++ 61%N :: 34%N :: r1))) with false. cbv iota. rewrite take_name_app by reflexivity.
  set (r0 := 32%N :: (s "xlink:href" ++ 61%N :: 34%N :: r1)).
  assert (A : take_attrs (length r0) r0 = Some ([(s "xlink:href", blanks t)], false, 1 + 10 + 2 + (length (xesc t) + 1) + 1)).
  { change (length r0) with (S (length (s "xlink:href" ++ 61%N :: 34%N :: r1))). rewrite take_attrs_eq.
    assert (W : span_len xml_space (length r0) r0 = 1).
    { unfold r0. change (32%N :: (s "xlink:href" ++ 61%N :: 34%N :: r1)) with ([32%N] ++ 120%N :: (s "link:href" ++ 61%N :: 34%N :: r1)). apply span_len_name; [reflexivity | reflexivity | rewrite app_length; cbn [length]; lia]. }
    cbv zeta. rewrite W. unfold r0 at 1 2 3. cbn [skipn].
    change (gt1 (s "xlink:href" ++ 61%N :: 34%N :: r1)) with false. change (gt2 (s "xlink:href" ++ 61%N :: 34%N :: r1)) with false. cbv iota. unfold attr_step. change (0 <? 1) with true. cbv iota.
    rewrite take_name_app by reflexivity. cbn [eq_quote]. change (N.eqb 61 61) with true. cbv iota. change (N.eqb 34 34 || N.eqb 34 39)%bool with true. cbv iota.
    assert (V : take_value (length r1) 34 r1 = Some (blanks t, length (xesc t) + 1, s ">" ++ rest)) by (apply take_value_esc; [exact Ht | unfold r1; rewrite app_length; cbn [length]; unfold ManuBlocks.xesc; lia]).
    rewrite V. match goal with |- context [take_attrs ?k (s ">" ++ rest)] => assert (Z : take_attrs k (s ">" ++ rest) = Some ([], false, 1)) end.
    { rewrite app_length. change (length (s "xlink:href")) with 10. cbn [Nat.add]. rewrite take_attrs_eq. reflexivity. }
    rewrite Z. cbn [map smem existsb]. f_equal. }
  rewrite A. f_equal. f_equal. unfold link_text. change (60%N :: s "text:a" ++ r0) with (s "<text:a xlink:href=""" ++ r1). rewrite !app_length.
  change (length (s "text:a")) with 6. change (length (s "<text:a xlink:href=""")) with 20. change (length (s """>")) with 2. lia.
Qed.
Lemma frag_link : forall t w es, writable t -> frag w es -> frag (link_text (xesc t) ++ w ++ s "</text:a>") (Start (s "text:a") [(s "xlink:href", blanks t)] :: es ++ [End (s "text:a")]).
Proof.
  intros t w es [H1 H2] F. apply frag_elem; [now apply lexes_link | apply xlex_lexes; reflexivity | | apply no_char; reflexivity | exact F].
  unfold link_text. rewrite !in_app_iff. intros [I | [I | I]]; [revert I; apply no_char; reflexivity | | revert I; apply no_char; reflexivity].
  destruct (frag_xesc t (conj H1 H2)) as [G _]. contradiction.
Qed.

Section Blocks.
Variable P : str -> Prop.
Variable h : reader.
Notation W := (W P h).
Notation Out := (PSS None false).
(** from the state r, the events lead to a state in J *)
Definition T (r : rs) (J : rs -> Prop) (es : list event) : Prop := forall u R Q, (forall u' r', J r' -> W u' R (Out, r') Q) -> W u (es ++ R) (Out, r) Q.
Definition block (r : rs) (w : str) : Prop := exists es, frag w es /\ T r (eq r) es.
Lemma T_app : forall r J K a b, T r J a -> (forall r', J r' -> T r' K b) -> T r K (a ++ b).
Proof. intros r J K a b Ha Hb u R Q H. rewrite <- app_assoc. apply Ha. intros u1 r1 H1. apply (Hb r1 H1). exact H. Qed.
Lemma T_nil : forall r, T r (eq r) [].
Proof. intros r u R Q H. now apply H. Qed.
Lemma T_dull : forall es r, forallb dull es = true -> T r (eq r) es.
Proof. intros es r D u R Q H. apply W_dull; [exact D|]. intro u'. now apply H. Qed.
Lemma block_nil : forall r, block r [].
Proof. intro r. exists []. split; [apply frag_nil | apply T_nil]. Qed.
Lemma block_app : forall r a b, block r a -> block r b -> block r (a ++ b).
Proof. intros r a b [ea [Fa Ta]] [eb [Fb Tb]]. exists (ea ++ eb). split; [now apply frag_app|]. apply (T_app r (eq r)); [exact Ta|]. now intros r' <-. Qed.
Lemma block_concat : forall r l, Forall (block r) l -> block r (concat l).
Proof. intros r. induction l as [|w l IH]; intro F; [apply block_nil|]. apply Forall_cons_iff in F as [F1 F2]. cbn [concat]. apply block_app; [exact F1 | now apply IH]. Qed.
Lemma block_nl : forall r, block r [10%N].
Proof. intro r. exists (chars [10%N]). split; [apply ManuStyles.frag_white; [reflexivity | apply no_char; reflexivity] | now apply T_dull]. Qed.

(** ** Headings and paragraphs that are not descriptions *)
Definition head_text (st l w : str) : str := tag_text text_h (heading_attrs st l) false ++ w ++ s "</text:h>".
Lemma block_head : forall r I st l w es, forallb style_char st = true -> forallb style_char l = true -> frag w es -> forallb dull es = true -> heading h (s "h" ++ l) I r r ->
  block r (head_text st l w ++ [10%N]).
Proof.
  intros r I st l w es Hs Hl F D Hh. apply block_app; [|apply block_nl]. eexists. split.
  - apply ManuStyles.frag_tag; [reflexivity | now apply ManuBlocks.good_heading | apply ManuStyles.nodup_names; reflexivity | apply xlex_lexes; reflexivity | apply no_char; reflexivity | exact F].
  - intros u R Q H. cbn [app]. rewrite <- app_assoc. cbn [app]. apply (W_heading P h st l I r r); [exact Hh | exact D | now apply H].
Qed.
Lemma block_para : forall r I st w es, plain_style st -> frag w es -> forallb dull es = true -> heading h (s "p") I r r -> block r (para_text st w ++ [10%N]).
Proof.
  intros r I st w es Hs F D Hh. apply block_app; [|apply block_nl]. eexists. split.
  - apply ManuStyles.frag_tag; [reflexivity | apply ManuBlocks.good_para; destruct Hs as [<- | [<- | [<- | [<- | []]]]]; reflexivity | apply ManuStyles.nodup_names; reflexivity | apply xlex_lexes; reflexivity | apply no_char; reflexivity | exact F].
  - intros u R Q H. cbn [app]. rewrite <- app_assoc. cbn [app]. apply (W_para P h st I r r); [exact Hs | exact Hh | exact D | now apply H].
Qed.
Lemma block_divider : forall r I w es, frag w es -> forallb dull es = true -> heading h (s "h4") I r r -> block r (para_text (s "Heading_20_4") w ++ [10%N]).
Proof.
  intros r I w es F D Hh. apply block_app; [|apply block_nl]. eexists. split.
  - apply ManuStyles.frag_tag; [reflexivity | apply ManuBlocks.good_para; reflexivity | apply ManuStyles.nodup_names; reflexivity | apply xlex_lexes; reflexivity | apply no_char; reflexivity | exact F].
  - intros u R Q H. cbn [app]. rewrite <- app_assoc. cbn [app]. apply (W_divider P h I r r); [exact Hh | exact D | now apply H].
Qed.

(** ** Sections *)
Lemma T_section : forall x r r1 J r' es, h_start h (s "div") (div_attr x) r = Ok r1 -> T r1 J es -> (forall r2, J r2 -> h_end h (Some (s "div")) r2 = Ok r') ->
  T r (eq r') (Start text_section (section_attrs x) :: es ++ [End text_section]).
Proof.
  intros x r r1 J r' es Hs Ht He u R Q H. cbn [app]. eapply W_out; [reflexivity| |].
  - unfold feed_event. cbn [fst snd parser_event]. change (start_element text_section (section_attrs x) Out) with (@Ok (ps * list call) (Out, [CStart (s "div") (div_attr x)])). cbn [bind foldM handle]. rewrite Hs. cbn [bind]. reflexivity.
  - rewrite <- app_assoc. apply Ht. intros u2 r2 H2. cbn [app]. eapply W_out; [reflexivity| |].
    + unfold feed_event. cbn [fst snd parser_event]. change (end_element text_section Out) with (Out, [CEnd (Some (s "div"))]). cbn [bind foldM handle]. rewrite (He r2 H2). cbn [bind]. reflexivity.
    + now apply H.
Qed.
(** a section with blocks *)
Lemma block_section : forall x r r1 w, forallb style_char x = true -> h_start h (s "div") (div_attr x) r = Ok r1 -> block r1 w -> h_end h (Some (s "div")) r1 = Ok r ->
  block r (section_text x ([10%N] ++ w) ++ [10%N]).
Proof.
  intros x r r1 w Hx Hs Hw He. apply block_app; [|apply block_nl]. destruct (block_app r1 [10%N] w (block_nl r1) Hw) as [es [F Te]]. eexists. split; [apply ManuBlocks.section_frag; [exact Hx | exact F]|].
  apply (T_section x r r1 (eq r1)); [exact Hs | exact Te |]. now intros r2 <-.
Qed.
(** blocks that change the state of the reader *)
Definition moves (r r' : rs) (w : str) : Prop := exists es, frag w es /\ T r (eq r') es.
Lemma moves_app : forall r r1 r2 a b, moves r r1 a -> moves r1 r2 b -> moves r r2 (a ++ b).
Proof. intros r r1 r2 a b [ea [Fa Ta]] [eb [Fb Tb]]. exists (ea ++ eb). split; [now apply frag_app|]. apply (T_app _ (eq r1)); [exact Ta|]. now intros r' <-. Qed.
Lemma moves_section : forall x r r1 r2 r' w, forallb style_char x = true -> h_start h (s "div") (div_attr x) r = Ok r1 -> moves r1 r2 w -> h_end h (Some (s "div")) r2 = Ok r' ->
  moves r r' (section_text x ([10%N] ++ w) ++ [10%N]).
Proof.
  intros x r r1 r2 r' w Hx Hs Hw He. apply (moves_app _ r'); [|apply block_nl]. destruct (moves_app r1 r1 r2 [10%N] w (block_nl r1) Hw) as [es [F Te]]. eexists. split; [apply ManuBlocks.section_frag; [exact Hx | exact F]|].
  apply (T_section x r r1 (eq r2)); [exact Hs | exact Te |]. now intros r3 <-.
Qed.
(** ** Descriptions *)
Variable f : str -> str.
Hypothesis f_part : forall t, P t -> f t = t.
Hypothesis f_nil : f [] = [].
Definition body_style (st : str) : Prop := In st [s "Text_20_body"; s "First_20_line_20_indent"].
Lemma T_desc : forall r st t, collects h f r -> body_style st -> writable t -> fine f t ->
  T (set_r_lines [] r) (fun r' => exists L, r' = set_r_lines L r /\ concat L = t ++ [10%N]) (Start text_p (para_attrs st) :: evs t ++ [End text_p]).
Proof.
  intros r st t C Hs [_ Ht] Hf u R Q H. cbn [app]. eapply W_out; [reflexivity | apply (para_start h f r C); right; right; exact Hs|]. rewrite <- app_assoc. cbn [app].
  apply (W_text P h f f_part r R Q C t [] []); [exact Ht | intros [] | exact Hf | exact f_nil|]. intros L E. apply H. exists L. split; [reflexivity | exact E].
Qed.
Lemma frag_desc : forall st t, body_style st -> writable t -> frag (para_text st (br t)) (Start text_p (para_attrs st) :: evs t ++ [End text_p]).
Proof.
  intros st t Hs [Ht _]. assert (Hs2 : forallb style_char st = true) by (destruct Hs as [<- | [<- | []]]; reflexivity). unfold ManuBlocks.para_text. apply frag_para; [now apply pfrag_br | |].
  - apply (lexes_tag text_p (para_attrs st) false eq_refl (ManuBlocks.good_para st Hs2)). apply ManuStyles.nodup_names. reflexivity.
  - apply ManuStyles.tag_no_cr; [reflexivity | now apply ManuBlocks.good_para].
Qed.
(** a section that consists of some blocks and a description; r1: the state of the reader in the section *)
Lemma moves_desc : forall x r r' r1 st t w, forallb style_char x = true -> h_start h (s "div") (div_attr x) r = Ok (set_r_lines [] r1) -> block (set_r_lines [] r1) w ->
  collects h f r1 -> body_style st -> writable t -> fine f t -> (forall L, concat L = t ++ [10%N] -> h_end h (Some (s "div")) (set_r_lines L r1) = Ok r') ->
  moves r r' (section_text x ([10%N] ++ w ++ para_text st (br t) ++ [10%N]) ++ [10%N]).
Proof.
  intros x r r' r1 st t w Hx Hs Hw C Hst Ht Hf He. apply (moves_app _ r'); [|apply block_nl]. destruct (block_app _ [10%N] w (block_nl _) Hw) as [es [F Te]].
  pose proof (frag_desc st t Hst Ht) as Fd. pose proof (T_desc r1 st t C Hst Ht Hf) as Td. set (ed := Start text_p (para_attrs st) :: evs t ++ [End text_p]) in *. clearbody ed.
  assert (Fn : frag [10%N] (chars [10%N])) by (apply ManuStyles.frag_white; [reflexivity | apply no_char; reflexivity]).
  exists (Start text_section (section_attrs x) :: (es ++ ed ++ chars [10%N]) ++ [End text_section]). split.
  - apply ManuBlocks.section_frag; [exact Hx|]. rewrite app_assoc. apply frag_app; [exact F | apply frag_app; [exact Fd | exact Fn]].
  - apply (T_section x r (set_r_lines [] r1) (fun r' => exists L, r' = set_r_lines L r1 /\ concat L = t ++ [10%N])); [exact Hs| |].
    + apply (T_app _ (eq (set_r_lines [] r1))); [exact Te|]. intros r2 <-. apply (T_app _ (fun r' => exists L, r' = set_r_lines L r1 /\ concat L = t ++ [10%N])); [exact Td|].
      intros r2 [L [-> E]] u R Q H. apply W_dull; [reflexivity|]. intro u'. apply H. exists L. now split.
    + intros r2 [L [-> E]]. now apply He.
Qed.
Lemma block_desc : forall x r r1 st t w, forallb style_char x = true -> h_start h (s "div") (div_attr x) r = Ok (set_r_lines [] r1) -> block (set_r_lines [] r1) w ->
  collects h f r1 -> body_style st -> writable t -> fine f t -> (forall L, concat L = t ++ [10%N] -> h_end h (Some (s "div")) (set_r_lines L r1) = Ok r) ->
  block r (section_text x ([10%N] ++ w ++ para_text st (br t) ++ [10%N]) ++ [10%N]).
Proof. intros x r r1. exact (moves_desc x r r r1). Qed.
End Blocks.
