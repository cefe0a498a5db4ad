(** Reading documents with descriptions: the parser and any of their readers, whatever pieces the text comes in. *)
From Coq Require Import String List NArith ZArith Bool Lia Arith.
From Verif Require Import PyStr PyDict YwText YwTextProofs NovelModel NovelOps OdfXml OdfXmlProofs OdfLex OdtText OdtTextProofs OdtTextProofs2 SpecOdf SpecManuscript SpecDesc
  ConfigProofs OdsRoundTrip2 OdtRead ManuRead XmlTags FormatXml4 ManuDoc.
From Verif Require ManuWalk ManuBlocks.
Import ListNotations.
Notation heading_attrs := ManuWalk.heading_attrs. Notation para_attrs := ManuWalk.para_attrs. Notation section_attrs := ManuWalk.section_attrs. Notation text_section := ManuWalk.text_section. Notation div_attr := ManuWalk.div_attr.

Section Engine.
Variable P : str -> Prop.
Variable h : reader.
Notation run := (foldM (feed_event h)).
(** the pieces of a text *)
Definition pieces (u : str) (ts : list str) : Prop := match u with [] => ts = [] | _ => ts = [u] \/ (concat ts = u /\ Forall P ts) end.
(** with the text u still to come, then R: the reading ends in a state with the property Q *)
Definition W (u : str) (R : list event) (st : ps * rs) (Q : ps * rs -> Prop) : Prop :=
  forall es', deliver_by P (merge (Data u :: R)) es' -> exists st2, run es' st = Ok st2 /\ Q st2.

Lemma dby_data : forall t es es', deliver_by P (Data t :: es) es' -> t <> [] -> exists ts es2, pieces t ts /\ es' = map Data ts ++ es2 /\ deliver_by P es es2.
Proof.
  intros t es es' D Ht. remember (Data t :: es) as E eqn:He. destruct D as [|n a es0 es' D|n es0 es' D|t0 es0 es' D|ts es0 es' F D]; try discriminate; injection He as ? ?; subst.
  - exists [t], es'. split; [|split; [reflexivity | exact D]]. destruct t; [contradiction | now left].
  - exists ts, es'. split; [|split; [reflexivity | exact D]]. destruct (concat ts) eqn:E; [contradiction|]. right. now split.
Qed.
Lemma W_data : forall u t R st Q, W (u ++ t) R st Q -> W u (Data t :: R) st Q.
Proof. intros u t R st Q H es' D. apply H. now rewrite <- merge_two. Qed.
Lemma W_chars : forall t u R st Q, W (u ++ t) R st Q -> W u (chars t ++ R) st Q.
Proof.
  induction t as [|c t IH]; intros u R st Q H; [now rewrite app_nil_r in H|]. cbn [chars map app]. apply W_data. apply IH. now rewrite <- app_assoc.
Qed.
Lemma merge_tag : forall u e R, is_data e = false -> merge (Data u :: e :: R) = match u with [] => [] | _ => [Data u] end ++ e :: merge R.
Proof. intros u e R D. destruct e; try discriminate; destruct u; reflexivity. Qed.
Lemma W_tag : forall u e R st Q, is_data e = false ->
  (forall ts, pieces u ts -> exists st1 st2, run (map Data ts) st = Ok st1 /\ feed_event h st1 e = Ok st2 /\ W [] R st2 Q) -> W u (e :: R) st Q.
Proof.
  intros u e R st Q D H es' Dl. rewrite merge_tag in Dl by exact D.
  assert (Tag : forall es2, deliver_by P (e :: merge R) es2 -> exists es3, es2 = e :: es3 /\ deliver_by P (merge R) es3).
  { intros es2 D2. remember (e :: merge R) as E eqn:He. destruct D2 as [|n a es0 es3 D2|n es0 es3 D2|t0 es0 es3 D2|ts es0 es3 F D2]; try discriminate; injection He as <- ?; subst; try discriminate; eexists; split; try reflexivity; assumption. }
  assert (G : exists ts es2, pieces u ts /\ es' = map Data ts ++ es2 /\ deliver_by P (e :: merge R) es2).
  { destruct u as [|c u]; [exists [], es'; split; [reflexivity | split; [reflexivity | exact Dl]]|]. cbn [app] in Dl. apply dby_data in Dl; [exact Dl | discriminate]. }
  destruct G as [ts [es2 [G1 [-> G2]]]]. destruct (Tag es2 G2) as [es3 [-> G3]]. destruct (H ts G1) as [s1 [s2 [E1 [E2 Hw]]]].
  destruct (Hw es3) as [s3 [E3 Hq]]; [now rewrite merge_none|]. exists s3. split; [|exact Hq]. rewrite foldM_app, E1. cbn [bind foldM]. rewrite E2. exact E3.
Qed.
Lemma W_end : forall u st Q, (forall ts, pieces u ts -> exists st1, run (map Data ts) st = Ok st1 /\ Q st1) -> W u [] st Q.
Proof.
  intros u st Q H es' D. destruct u as [|c u].
  - cbn in D. remember (@nil event) as E eqn:He. destruct D; try discriminate. exact (H [] eq_refl).
  - cbn [merge] in D. apply dby_data in D; [|discriminate]. destruct D as [ts [es2 [G1 [-> G2]]]]. remember (@nil event) as E eqn:He. destruct G2; try discriminate. rewrite app_nil_r. now apply H.
Qed.

(** ** States of the parser: in a heading, in a paragraph, elsewhere *)
Definition PSS (hd : option str) (para : bool) : ps := mkPs [s "Emphasis"] [s "Strong_20_Emphasis"] [s "Quotations"] [] [] hd para None [] false false [] None.
Notation Out := (PSS None false).
Lemma data_out : forall ts r, run (map Data ts) (Out, r) = Ok (Out, r).
Proof. induction ts as [|t ts IH]; intro r; [reflexivity|]. cbn [map foldM]. change (feed_event h (Out, r) (Data t)) with (Ok (Out, r)). cbn [bind]. apply IH. Qed.
Lemma W_out : forall u e R r st2 Q, is_data e = false -> feed_event h (Out, r) e = Ok st2 -> W [] R st2 Q -> W u (e :: R) (Out, r) Q.
Proof. intros u e R r st2 Q D E H. apply W_tag; [exact D|]. intros ts _. exists (Out, r), st2. split; [apply data_out | now split]. Qed.
(** tags that mean nothing *)
Definition dull (e : event) : bool :=
  match e with
  | Data _ => true
  | Start n _ | End n => negb (existsb (str_eqb n) [s "text:p"; s "text:span"; s "text:section"; s "office:annotation"; s "text:h"; s "text:list-item"; s "style:style"; s "style:text-properties"; s "text:s"])
  end.
Lemma dull_tag : forall e hd pa r, is_data e = false -> dull e = true -> feed_event h (PSS hd pa, r) e = Ok (PSS hd pa, r).
Proof.
  intros e hd pa r D H. destruct e as [n a|n|t]; [| |discriminate]; cbn [dull existsb] in H; apply negb_true_iff in H; repeat (apply orb_false_iff in H as [?E H]); unfold feed_event; cbn [fst snd parser_event].
  - unfold start_element. rewrite E, E0, E1, E2, E3, E4, E5, E6, E7. reflexivity.
  - unfold end_element. rewrite E, E0, E1, E2, E3, E4, E5. reflexivity.
Qed.
Lemma W_dull : forall es u R r Q, forallb dull es = true -> (forall u', W u' R (Out, r) Q) -> W u (es ++ R) (Out, r) Q.
Proof.
  induction es as [|e es IH]; intros u R r Q D H; [exact (H u)|]. cbn [forallb] in D. apply andb_true_iff in D as [D1 D2]. cbn [app].
  destruct e as [n a|n|t]; [| |apply W_data; now apply IH]; (eapply W_out; [reflexivity | now apply dull_tag | now apply IH]).
Qed.

(** ** Headings: I holds while the heading is read *)
Record heading (tag : str) (I : rs -> Prop) (r r' : rs) : Prop := mkHeading {
  hd_start : exists r1, h_start h tag [None] r = Ok r1 /\ I r1;
  hd_data : forall t r1, I r1 -> exists r2, h_data h t r1 = Ok r2 /\ I r2;
  hd_end : forall r1, I r1 -> h_end h (Some tag) r1 = Ok r' }.
Notation text_h := (s "text:h").
Lemma data_in : forall hd pa (I : rs -> Prop), hd <> None \/ pa = true -> (forall t r1, I r1 -> exists r2, h_data h t r1 = Ok r2 /\ I r2) ->
  forall ts r, I r -> exists r2, run (map Data ts) (PSS hd pa, r) = Ok (PSS hd pa, r2) /\ I r2.
Proof.
  intros hd pa I Hh Hd. induction ts as [|t ts IH]; intros r Hr; [now exists r|]. cbn [map foldM]. destruct (Hd t r Hr) as [r1 [E1 H1]]. destruct (IH r1 H1) as [r2 [E2 H2]]. exists r2. split; [|exact H2].
  assert (F : feed_event h (PSS hd pa, r) (Data t) = Ok (PSS hd pa, r1)).
  { unfold feed_event. cbn [fst snd parser_event]. unfold characters. cbn [p_count PSS p_paragraph p_heading]. destruct pa; [|destruct hd; [|destruct Hh; [contradiction | discriminate]]]; cbn [bind foldM handle]; rewrite E1; reflexivity. }
  rewrite F. exact E2.
Qed.
Lemma W_inside : forall hd pa (I : rs -> Prop) n a es u R Q, hd <> None \/ pa = true -> (forall t r1, I r1 -> exists r2, h_data h t r1 = Ok r2 /\ I r2) -> forallb dull es = true -> is_data n = false ->
  (forall r1, I r1 -> exists st2, feed_event h (PSS hd pa, r1) n = Ok st2 /\ W [] R st2 Q) -> I a -> W u (es ++ n :: R) (PSS hd pa, a) Q.
Proof.
  intros hd pa I n a es u R Q Hh Hd. revert u a. induction es as [|e es IH]; intros u a D Dn He Ha; cbn [app].
  - apply W_tag; [exact Dn|]. intros ts _. destruct (data_in hd pa I Hh Hd ts a Ha) as [r2 [E2 H2]]. destruct (He r2 H2) as [st2 [E3 H3]]. exists (PSS hd pa, r2), st2. now split.
  - cbn [forallb] in D. apply andb_true_iff in D as [D1 D2]. destruct (is_data e) eqn:De.
    + destruct e; try discriminate. apply W_data. now apply IH.
    + apply W_tag; [exact De|]. intros ts _. destruct (data_in hd pa I Hh Hd ts a Ha) as [r2 [E2 H2]]. exists (PSS hd pa, r2), (PSS hd pa, r2). split; [exact E2|]. split; [now apply dull_tag|]. now apply IH.
Qed.
Lemma W_heading : forall st l I r r' u es R Q, heading (s "h" ++ l) I r r' -> forallb dull es = true -> W [] R (Out, r') Q -> W u (Start text_h (heading_attrs st l) :: es ++ End text_h :: R) (Out, r) Q.
Proof.
  intros st l I r r' u es R Q. set (tag := s "h" ++ l : str). intros [[r1 [E1 H1]] Hd He] D Hw. eapply W_out; [reflexivity| |].
  - unfold feed_event. cbn [fst snd parser_event]. change (start_element text_h (heading_attrs st l) Out) with (@Ok (ps * list call) (PSS (Some tag) false, [CStart tag [None]])). clearbody tag. cbn [bind foldM handle]. rewrite E1. cbn [bind]. reflexivity.
  - clearbody tag. apply (W_inside (Some tag) false I); [left; discriminate | exact Hd | exact D | reflexivity | | exact H1]. intros r2 H2. exists (Out, r'). split; [|exact Hw].
    unfold feed_event. cbn [fst snd parser_event]. change (end_element text_h (PSS (Some tag) false)) with (Out, [CEnd (Some tag)]). cbn [bind foldM handle]. rewrite (He r2 H2). reflexivity.
Qed.
(** paragraphs with the style of a heading, and others *)
Lemma W_divider : forall I r r' u es R Q, heading (s "h4") I r r' -> forallb dull es = true -> W [] R (Out, r') Q -> W u (Start text_p (para_attrs (s "Heading_20_4")) :: es ++ End text_p :: R) (Out, r) Q.
Proof.
  intros I r r' u es R Q [[r1 [E1 H1]] Hd He] D Hw. eapply W_out; [reflexivity| |].
  - unfold feed_event. cbn [fst snd parser_event]. change (start_element text_p (para_attrs (s "Heading_20_4")) Out) with (@Ok (ps * list call) (PSS (Some (s "h4")) false, [CStart (s "h4") [None]])). cbn [bind foldM handle]. rewrite E1. cbn [bind]. reflexivity.
  - apply (W_inside (Some (s "h4")) false I); [left; discriminate | exact Hd | exact D | reflexivity | | exact H1]. intros r2 H2. exists (Out, r'). split; [|exact Hw].
    unfold feed_event. cbn [fst snd parser_event]. change (end_element text_p (PSS (Some (s "h4")) false)) with (Out, [CEnd (Some (s "h4"))]). cbn [bind foldM handle]. rewrite (He r2 H2). reflexivity.
Qed.
Definition plain_style (st : str) : Prop := In st [s "Title"; s "Subtitle"; s "Text_20_body"; s "First_20_line_20_indent"].
Lemma start_para : forall st, plain_style st -> start_element text_p (para_attrs st) Out = Ok (PSS None true, [CStart (s "p") [None]]).
Proof. intros st Hs. destruct Hs as [<- | [<- | [<- | [<- | []]]]]; reflexivity. Qed.
Lemma W_para : forall st I r r' u es R Q, plain_style st -> heading (s "p") I r r' -> forallb dull es = true -> W [] R (Out, r') Q -> W u (Start text_p (para_attrs st) :: es ++ End text_p :: R) (Out, r) Q.
Proof.
  intros st I r r' u es R Q Hs [[r1 [E1 H1]] Hd He] D Hw. eapply W_out; [reflexivity| |].
  - unfold feed_event. cbn [fst snd parser_event]. rewrite start_para by exact Hs. cbn [bind foldM handle]. rewrite E1. cbn [bind]. reflexivity.
  - apply (W_inside None true I); [now right | exact Hd | exact D | reflexivity | | exact H1]. intros r2 H2. exists (Out, r'). split; [|exact Hw].
    unfold feed_event. cbn [fst snd parser_event]. change (end_element text_p (PSS None true)) with (Out, [CEnd (Some (s "p"))]). cbn [bind foldM handle]. rewrite (He r2 H2). reflexivity.
Qed.

(** ** Descriptions: the reader collects f of each piece, and a line feed at the end of each paragraph *)
Variable f : str -> str.
Record collects (r : rs) : Prop := mkCollects {
  cl_data : forall L t, h_data h t (set_r_lines L r) = Ok (set_r_lines (L ++ [f t]) r);
  cl_start : forall L, h_start h (s "p") [None] (set_r_lines L r) = Ok (set_r_lines L r);
  cl_end : forall L, h_end h (Some (s "p")) (set_r_lines L r) = Ok (set_r_lines (L ++ [[10%N]]) r) }.
Hypothesis f_part : forall t, P t -> f t = t.
Lemma f_pieces : forall u ts, f u = u -> pieces u ts -> concat (map f ts) = u.
Proof.
  intros [|c u] ts Hf H; [cbn in H; now subst|]. destruct H as [-> | [H1 H2]]; [cbn; now rewrite Hf, app_nil_r|]. rewrite <- H1. clear H1. induction H2 as [|t ts Ht _ IH]; [reflexivity|]. cbn [map concat]. now rewrite f_part, IH.
Qed.
Notation Para := (PSS None true).
Lemma data_para : forall r, collects r -> forall ts L, run (map Data ts) (Para, set_r_lines L r) = Ok (Para, set_r_lines (L ++ map f ts) r).
Proof.
  intros r C. induction ts as [|t ts IH]; intro L; [cbn; now rewrite app_nil_r|]. cbn [map foldM].
  assert (F : feed_event h (Para, set_r_lines L r) (Data t) = Ok (Para, set_r_lines (L ++ [f t]) r)).
  { unfold feed_event. cbn [fst snd parser_event]. change (characters t Para) with (Para, [CData t]). cbn [bind foldM handle]. now rewrite (cl_data r C). }
  rewrite F. cbn [bind]. rewrite IH. now rewrite <- app_assoc.
Qed.
Lemma para_start : forall r, collects r -> forall st L, plain_style st -> feed_event h (Out, set_r_lines L r) (Start text_p (para_attrs st)) = Ok (Para, set_r_lines L r).
Proof.
  intros r C st L Hs. unfold feed_event. cbn [fst snd parser_event]. rewrite start_para by exact Hs. cbn [bind foldM handle]. now rewrite (cl_start r C).
Qed.
Lemma W_close : forall r, collects r -> forall u L R Q, f u = u -> (forall L', concat L' = concat L ++ u ++ [10%N] -> W [] R (Out, set_r_lines L' r) Q) -> W u (End text_p :: R) (Para, set_r_lines L r) Q.
Proof.
  intros r C u L R Q Hf H. apply W_tag; [reflexivity|]. intros ts Hts. eexists. eexists. split; [now apply data_para|]. split.
  - unfold feed_event. cbn [fst snd parser_event]. change (end_element text_p Para) with (Out, [CEnd (Some (s "p"))]). cbn [bind foldM handle]. rewrite (cl_end r C). cbn [bind]. reflexivity.
  - apply H. rewrite !concat_app. cbn [concat]. rewrite (f_pieces u) by assumption. now rewrite <- app_assoc.
Qed.
Definition fine (t : str) : Prop := Forall (fun l => f l = l) (lines t).
Lemma fine_break : forall u r, ~ In 10%N u -> fine (u ++ 10%N :: r) -> f u = u /\ fine r.
Proof.
  intros u r Hu H. unfold fine, lines in *. assert (E : splitc 10 (u ++ 10%N :: r) = u :: splitc 10 r).
  { clear H. induction u as [|c u IH]; [apply splitc_10|]. assert (Hc : c <> 10%N) by (intros ->; apply Hu; now left). cbn [app]. destruct (splitc_c c (u ++ 10%N :: r) Hc) as [p [ps [E1 E2]]]. rewrite IH in E1 by (intro I; apply Hu; now right).
    injection E1 as <- <-. exact E2. }
  rewrite E in H. now apply Forall_cons_iff in H.
Qed.
Lemma fine_last : forall u, ~ In 10%N u -> fine u -> f u = u.
Proof.
  intros u Hu H. unfold fine, lines in H. assert (E : splitc 10 u = [u]).
  { clear H. induction u as [|c u IH]; [reflexivity|]. assert (Hc : c <> 10%N) by (intros ->; apply Hu; now left). destruct (splitc_c c u Hc) as [p [ps [E1 E2]]]. rewrite IH in E1 by (intro I; apply Hu; now right). injection E1 as <- <-. exact E2. }
  rewrite E in H. now apply Forall_cons_iff in H.
Qed.
Lemma W_text : forall r R Q, collects r -> forall t u L, ~ In 13%N t -> ~ In 10%N u -> fine (u ++ t) -> f [] = [] ->
  (forall L', concat L' = concat L ++ u ++ t ++ [10%N] -> W [] R (Out, set_r_lines L' r) Q) -> W u (evs t ++ End text_p :: R) (Para, set_r_lines L r) Q.
Proof.
  intros r R Q C. intro t. pattern t. apply break_ind; clear t; [| intros t IH | intros t Hs IH | intros c t Hc IH]; intros u L Hr Hu Ft F0 Hq.
  - cbn [evs app] in *. apply W_close; [exact C | apply fine_last; [exact Hu | now rewrite app_nil_r in Ft] | exact Hq].
  - rewrite evs_2. cbn [app]. destruct (fine_break u _ Hu Ft) as [F1 F2]. assert (F3 : fine t) by (apply (fine_break [] t); [intros [] | exact F2]).
    assert (Hr2 : ~ In 13%N t) by (intro I; apply Hr; right; now right).
    apply W_close; [exact C | exact F1|]. intros L1 E1. apply W_data. eapply W_out; [reflexivity | apply (para_start r C); right; right; right; now left|].
    apply W_close; [exact C | exact F0|]. intros L2 E2. apply W_data. eapply W_out; [reflexivity | apply (para_start r C); right; right; now left|].
    apply IH; [exact Hr2 | intros [] | exact F3 | exact F0|]. intros L3 E3. apply Hq. rewrite E3, E2, E1. rewrite <- !app_assoc. reflexivity.
  - rewrite evs_1 by exact Hs. cbn [app]. destruct (fine_break u _ Hu Ft) as [F1 F2].
    assert (Hr2 : ~ In 13%N t) by (intro I; apply Hr; now right).
    apply W_close; [exact C | exact F1|]. intros L1 E1. apply W_data. eapply W_out; [reflexivity | apply (para_start r C); right; right; right; now left|].
    apply IH; [exact Hr2 | intros [] | exact F2 | exact F0|]. intros L3 E3. apply Hq. rewrite E3, E1. rewrite <- !app_assoc. reflexivity.
  - rewrite evs_c by exact Hc. cbn [app]. assert (E13 : N.eqb c 13 = false) by (apply N.eqb_neq; intros ->; apply Hr; now left). rewrite E13. apply W_data.
    apply IH; [intro I; apply Hr; now right | rewrite in_app_iff; intros [I | [I | []]]; [now apply Hu | congruence] | rewrite <- app_assoc; exact Ft | exact F0|].
    intros L' E. apply Hq. rewrite E. rewrite <- !app_assoc. reflexivity.
Qed.
End Engine.
