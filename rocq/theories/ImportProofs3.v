From Coq Require Import String List NArith ZArith Bool Lia Arith.
From Verif Require Import PyStr PyDict NovelModel NovelOps WordCount Splitter SpecNovel SpecSplit OdfXml OdtRead SpecRead ReadFrame2 SpecImport ImportProofs ImportProofs2.
Import ListNotations.

(** ** the calls *)
Definition span_tag (bold : bool) : str := if bold then s "strong" else s "em".
Definition inline_calls (x : inline) : list call :=
  match x with
  | Word t => [CData t]
  | Blank => [CStart (s "s") [None]]
  | Styled bold t => [CStart (span_tag bold) [None]; CData t; CEnd (Some (span_tag bold))]
  | Note _ t => [CComment t]
  end.
Definition para_calls (p : list inline) : list call := CStart (s "p") [None] :: flat_map inline_calls p ++ [CEnd (Some (s "p"))].
Definition heading_calls (level : str) (ts : list str) : list call := CStart (s "h" ++ level) [None] :: map CData ts ++ [CEnd (Some (s "h" ++ level))].
(** the parser between the paragraphs *)
Definition idle (p : ps) : Prop := exists c, p = mkPs [s "Emphasis"] [s "Strong_20_Emphasis"] [s "Quotations"] [] [] None false None c false false [] None.
Definition in_para (p : ps) : Prop := exists c, p = mkPs [s "Emphasis"] [s "Strong_20_Emphasis"] [s "Quotations"] [] [] None true None c false false [] None.
Fixpoint prun (p : ps) (es : list event) : res (ps * list call) :=
  match es with [] => Ok (p, []) | e :: es' => do '(p, c) <- parser_event e p; do '(p, r) <- prun p es'; Ok (p, c ++ r) end.
Lemma prun_app : forall a b p p1 p2 c1 c2, prun p a = Ok (p1, c1) -> prun p1 b = Ok (p2, c2) -> prun p (a ++ b) = Ok (p2, c1 ++ c2).
Proof.
  induction a as [|e a IH]; intros b p p1 p2 c1 c2 H K; cbn [prun app] in *; [apply ok_eq in H; injection H as <- <-; exact K|].
  okstep H. destruct y as [p3 c3]. okstep H. destruct y as [p4 c4]. apply ok_eq in H. injection H as <- <-. cbn [bind]. rewrite (IH b p3 p4 p2 c4 c2 E0 K). cbn [bind]. now rewrite app_assoc.
Qed.
Lemma prun_report : forall es p p' c, prun p es = Ok (p', c) -> report p es = Ok c.
Proof.
  induction es as [|e es IH]; intros p p' c H; cbn [prun report] in *; [apply ok_eq in H; now injection H as _ <-|]. okstep H. destruct y as [p3 c3]. okstep H. destruct y as [p4 c4]. apply ok_eq in H. injection H as <- <-. cbn [bind]. now rewrite (IH _ _ _ E0).
Qed.
Lemma inline_parse : forall x p, in_para p -> exists p', in_para p' /\ prun p (inline_events x) = Ok (p', inline_calls x).
Proof.
  intros x p [c ->]. destruct x as [t| |bold t|a t].
  - eexists. split; [eexists; reflexivity | reflexivity].
  - eexists. split; [eexists; reflexivity | reflexivity].
  - destruct bold; eexists; (split; [eexists; reflexivity | reflexivity]).
  - eexists. split; [eexists; reflexivity | reflexivity].
Qed.
Lemma inlines_parse : forall l p, in_para p -> exists p', in_para p' /\ prun p (flat_map inline_events l) = Ok (p', flat_map inline_calls l).
Proof.
  induction l as [|x l IH]; intros p H; [exists p; split; [exact H | reflexivity]|]. destruct (inline_parse x p H) as (p1 & H1 & E1). destruct (IH p1 H1) as (p2 & H2 & E2). exists p2. split; [exact H2|]. cbn [flat_map]. eapply prun_app; eassumption.
Qed.
Lemma para_parse : forall l p, idle p -> exists p', idle p' /\ prun p (para_events l) = Ok (p', para_calls l).
Proof.
  intros l p [c ->]. set (p0 := mkPs _ _ _ _ _ _ _ _ _ _ _ _ _). set (p1 := set_p_paragraph true p0).
  assert (H1 : in_para p1) by (eexists; reflexivity). destruct (inlines_parse l p1 H1) as (p2 & [c2 ->] & E2).
  eexists. split; [|unfold para_events, para_calls; change (Start (s "text:p") [] :: ?x) with ([Start (s "text:p") []] ++ x); change (CStart (s "p") [None] :: ?x) with ([CStart (s "p") [None]] ++ x); eapply prun_app; [reflexivity|]; eapply prun_app; [exact E2 | reflexivity]]. eexists. reflexivity.
Qed.
Lemma prun_data : forall ts p c h, p = mkPs [s "Emphasis"] [s "Strong_20_Emphasis"] [s "Quotations"] [] [] (Some h) false None c false false [] None -> prun p (map Data ts) = Ok (p, map CData ts).
Proof. induction ts as [|t ts IH]; intros p c h ->; [reflexivity|]. cbn [map prun parser_event characters p_count p_paragraph p_heading bind]. rewrite (IH _ c h eq_refl). reflexivity. Qed.
Lemma heading_parse : forall level ts p, idle p -> exists p', idle p' /\ prun p (heading_events level ts) = Ok (p', heading_calls level ts).
Proof.
  intros level ts p [c ->]. eexists. split; [|unfold heading_events, heading_calls; change (Start (s "text:h") [(s "text:outline-level", level)] :: ?x) with ([Start (s "text:h") [(s "text:outline-level", level)]] ++ x); change (CStart (s "h" ++ level) [None] :: ?x) with ([CStart (s "h" ++ level) [None]] ++ x); eapply prun_app; [reflexivity|]; eapply prun_app; [eapply prun_data; reflexivity | reflexivity]].
  eexists. reflexivity.
Qed.
Definition body_calls (x : body) : list call := match x with Para p => para_calls p | Divider t => para_calls [Word t] end.
Definition section_calls (x : section) : list call := let '(part, ts, bs) := x in heading_calls (if part then s "1" else s "2") ts ++ flat_map body_calls bs.
Lemma many_parse : forall {A} (ev : A -> list event) (ca : A -> list call), (forall x p, idle p -> exists p', idle p' /\ prun p (ev x) = Ok (p', ca x)) ->
  forall l p, idle p -> exists p', idle p' /\ prun p (flat_map ev l) = Ok (p', flat_map ca l).
Proof.
  intros A ev ca H. induction l as [|x l IH]; intros p Hp; [exists p; split; [exact Hp | reflexivity]|]. destruct (H x p Hp) as (p1 & H1 & E1). destruct (IH p1 H1) as (p2 & H2 & E2). exists p2. split; [exact H2|]. cbn [flat_map]. eapply prun_app; eassumption.
Qed.
Lemma body_parse : forall x p, idle p -> exists p', idle p' /\ prun p (body_events x) = Ok (p', body_calls x).
Proof. intros [l|t] p H; cbn [body_events body_calls]; now apply para_parse. Qed.
Lemma section_parse : forall x p, idle p -> exists p', idle p' /\ prun p (section_events x) = Ok (p', section_calls x).
Proof.
  intros [[part ts] bs] p H. destruct (heading_parse (if part then s "1" else s "2") ts p H) as (p1 & H1 & E1). destruct (many_parse body_events body_calls body_parse bs p1 H1) as (p2 & H2 & E2). exists p2. split; [exact H2|]. cbn [section_events section_calls]. eapply prun_app; eassumption.
Qed.
Lemma wrapped_report : forall es c, (forall p, idle p -> exists p', idle p' /\ prun p es = Ok (p', c)) -> report new_ps (wrapped es) = Ok c.
Proof.
  intros es c H. destruct (H new_ps) as (p1 & [d ->] & E1); [eexists; reflexivity|]. eapply prun_report. unfold wrapped. eapply (prun_app _ _ _ new_ps _ [] c); [reflexivity|]. rewrite <- (app_nil_r c). eapply prun_app; [exact E1 | reflexivity].
Qed.
Lemma report_feed : forall h es p r r' calls, report p es = Ok calls -> foldM (handle h) calls r = Ok r' -> exists p', foldM (feed_event h) es (p, r) = Ok (p', r').
Proof.
  intros h es. induction es as [|e es IH]; intros p r r' calls R F; cbn [report] in R.
  - apply ok_eq in R. subst calls. cbn in F. apply ok_eq in F. subst. now exists p.
  - okstep R. destruct y as [p1 c]. okstep R. apply ok_eq in R. subst calls. apply foldM_app_ok in F as (r1 & F1 & F2). destruct (IH p1 r1 r' y E0 F2) as [p' G]. exists p'. cbn [foldM]. unfold feed_event at 1. cbn [fst snd]. rewrite E. cbn [bind]. rewrite F1. cbn [bind]. exact G.
Qed.
Lemma feed_of_report : forall h opening es n calls st, report new_ps es = Ok calls -> foldM (handle h) (opening ++ calls) (new_rs n) = Ok st -> feed h opening es n = Ok (r_novel st).
Proof.
  intros h opening es n calls st R F. apply foldM_app_ok in F as (r1 & F1 & F2). destruct (report_feed h es new_ps r1 st calls R F2) as [p' G]. unfold feed. rewrite F1. cbn [bind]. rewrite G. reflexivity.
Qed.

(** ** reading a work in progress *)
Record St (n0 : novel) (b : book) (sc : option str) (ch : option str) (L : list str) (st : rs) : Prop := mkSt {
  s_j : J n0 b st; s_sc : r_scId st = sc; s_ch : r_chId st = ch; s_lines : r_lines st = L; s_lang : r_language st = []; s_head : r_heading st = false; s_ls : nv_languages (r_novel st) = Some [] }.
Lemma S_lines : forall n0 b sc ch L st M, St n0 b sc ch L st -> St n0 b sc ch M (set_r_lines M st).
Proof. intros n0 b sc ch L st M [H1 H2 H3 H4 H5 H6 H7]. constructor; try assumption; [|reflexivity]. eapply J_same; try exact H1; try reflexivity; now left. Qed.
Lemma S_put : forall n0 b sc ch L st t, St n0 b sc ch L st -> St n0 b sc ch (L ++ [t]) (put_line t st).
Proof. intros n0 b sc ch L st t H. unfold put_line. rewrite (s_lines _ _ _ _ _ _ H). eapply S_lines, H. Qed.
Lemma S_noscene : forall n0 b sc ch L st, St n0 b sc ch L st -> St n0 b None ch L (set_r_scId None st).
Proof. intros n0 b sc ch L st [H1 H2 H3 H4 H5 H6 H7]. constructor; try assumption; [|reflexivity]. eapply J_same; try exact H1; try reflexivity; [now left | now right]. Qed.
Definition on_inline (xl : scene * list str) (i : inline) : scene * list str :=
  let '(x, L) := xl in
  match i with
  | Note _ t => match L with [] => (set_sc_title (Some (strip t)) x, L) | _ => (x, L ++ [s "/*" ++ strip t ++ s "*/"]) end
  | Word t => (x, L ++ [t])
  | Blank => (x, L ++ [s " "])
  | Styled bold t => (x, L ++ [if bold then s "[b]" else s "[i]"] ++ [t] ++ [if bold then s "[/b]" else s "[/i]"])
  end.
Section Run.
Variables (tr : str -> str) (n0 : novel).
Notation H := (handle (import_reader tr)).
Lemma inline_run : forall b c scs x i k L st e, St n0 (b ++ [(c, scs ++ [x])]) (Some i) k L st -> inline_ok e ->
  exists st', foldM H (inline_calls e) st = Ok st' /\ St n0 (b ++ [(c, scs ++ [fst (on_inline (x, L) e)])]) (Some i) k (snd (on_inline (x, L) e)) st'.
Proof.
  intros b c scs x i k L st e HS He. destruct e as [t| |bold t|a t]; cbn [inline_calls foldM handle import_reader h_start h_end h_data h_comment bind on_inline fst snd].
  - unfold im_data. rewrite (s_sc _ _ _ _ _ _ HS). cbn [inline_ok] in He. change SCENE_DIVIDER with (s "* * *"). rewrite He. cbn [bind]. eexists. split; [reflexivity|]. now apply S_put.
  - unfold im_start. assert (E : forall w, str_eqb (s "s") w = false \/ w = s "s" -> True) by auto. clear E. eexists. split; [reflexivity|]. now apply S_put.
  - assert (G : forall st1, St n0 (b ++ [(c, scs ++ [x])]) (Some i) k (L ++ [if bold then s "[b]" else s "[i]"]) st1 -> im_data t st1 = Ok (put_line t st1)) by (intros st1 H1; unfold im_data; rewrite (s_sc _ _ _ _ _ _ H1); cbn [inline_ok] in He; change SCENE_DIVIDER with (s "* * *"); now rewrite He).
    assert (H1 := S_put _ _ _ _ _ _ (if bold then s "[b]" else s "[i]") HS). assert (H2 := S_put _ _ _ _ _ _ t H1). assert (H3 := S_put _ _ _ _ _ _ (if bold then s "[/b]" else s "[/i]") H2).
    exists (put_line (if bold then s "[/b]" else s "[/i]") (put_line t (put_line (if bold then s "[b]" else s "[i]") st))). split; [|rewrite <- !app_assoc in H3; rewrite <- ?app_assoc; exact H3].
    destruct bold; cbn [span_tag].
    + assert (A : im_start tr (s "strong") [None] st = Ok (put_line (s "[b]") st)) by (unfold im_start; rewrite (s_head _ _ _ _ _ _ HS); reflexivity). rewrite A. cbn [bind]. rewrite (G _ H1). cbn [bind]. unfold im_end. rewrite (s_head _ _ _ _ _ _ H2). reflexivity.
    + assert (A : im_start tr (s "em") [None] st = Ok (put_line (s "[i]") st)) by (unfold im_start; rewrite (s_head _ _ _ _ _ _ HS); reflexivity). rewrite A. cbn [bind]. rewrite (G _ H1). cbn [bind]. unfold im_end. rewrite (s_head _ _ _ _ _ _ H2). reflexivity.
  - unfold im_comment. rewrite (s_sc _ _ _ _ _ _ HS), (s_lines _ _ _ _ _ _ HS). destruct L as [|l0 L].
    + destruct (J_on_scene n0 b c scs x st i (set_sc_title (Some (strip t))) (s_j _ _ _ _ _ _ HS) (s_sc _ _ _ _ _ _ HS)) as (st1 & E1 & J1 & L1 & L2 & L3 & L4 & L5 & L6). rewrite E1. cbn [bind]. exists st1. split; [reflexivity|]. cbn [fst snd].
      destruct HS as [H1 H2 H3 H4 H5 H6 H7]. constructor; [exact J1|congruence..].
    + cbn [bind]. eexists. split; [reflexivity|]. now apply S_put.
Qed.
Lemma inlines_run : forall p b c scs x i k L st, St n0 (b ++ [(c, scs ++ [x])]) (Some i) k L st -> Forall inline_ok p ->
  exists st', foldM H (flat_map inline_calls p) st = Ok st' /\ St n0 (b ++ [(c, scs ++ [fst (fold_left on_inline p (x, L))])]) (Some i) k (snd (fold_left on_inline p (x, L))) st'.
Proof.
  induction p as [|e p IH]; intros b c scs x i k L st HS Hp; [exists st; split; [reflexivity | exact HS]|]. inversion Hp as [|? ? P1 P2]; subst. destruct (inline_run b c scs x i k L st e HS P1) as (st1 & E1 & S1).
  destruct (on_inline (x, L) e) as [x1 L1] eqn:Eo. destruct (IH b c scs x1 i k L1 st1 S1 P2) as (st2 & E2 & S2). exists st2. split; [cbn [flat_map]; apply foldM_app_ok; eauto|]. cbn [fold_left]. rewrite Eo. exact S2.
Qed.
Definition store (text : str) (x : scene) : scene := let x := set_sceneContent text x in set_sc_status (Some (if Nat.ltb (sc_wordCount x) LOW_WORDCOUNT then 1%Z else 2%Z)) x.
Lemma end_run : forall b c scs x i k L st, St n0 (b ++ [(c, scs ++ [x])]) (Some i) k L st ->
  exists st', H st (CEnd (Some (s "p"))) = Ok st' /\ St n0 (b ++ [(c, scs ++ [store (cleanup_scene [] (rstrip (concat (L ++ [[10%N]])))) x])]) (Some i) k (L ++ [[10%N]]) st'.
Proof.
  intros b c scs x i k L st HS. cbn [handle import_reader h_end]. unfold im_end. cbn [tag_in]. replace (smem (s "p") [s "p"; s "blockquote"]) with true by reflexivity.
  unfold close_language. rewrite (s_lang _ _ _ _ _ _ HS). cbn [truthy]. assert (H1 := S_put _ _ _ _ _ _ [10%N] HS). set (st1 := put_line [10%N] st) in *. clearbody st1. unfold im_store. rewrite (s_sc _ _ _ _ _ _ H1). unfold languages. rewrite (s_ls _ _ _ _ _ _ H1). cbn [bind]. rewrite (s_lines _ _ _ _ _ _ H1).
  destruct (J_on_scene n0 b c scs x st1 i (store (cleanup_scene [] (rstrip (concat (L ++ [[10%N]]))))) (s_j _ _ _ _ _ _ H1) (s_sc _ _ _ _ _ _ H1)) as (st2 & E1 & J1 & L1 & L2 & L3 & L4 & L5 & L6). exists st2. split; [exact E1|]. destruct H1 as [I1 I2 I3 I4 I5 I6 I7]. constructor; [exact J1|first [congruence | exact (eq_trans L1 I4)]..].
Qed.

Definition inline_lines (e : inline) : list str :=
  match e with Note _ t => [s "/*" ++ strip t ++ s "*/"] | Word t => [t] | Blank => [s " "] | Styled bold t => [if bold then s "[b]" else s "[i]"; t; if bold then s "[/b]" else s "[/i]"] end.
Lemma lines_text : forall p, concat (flat_map inline_lines p) = para_text p.
Proof.
  unfold para_text. induction p as [|e p IH]; [reflexivity|]. cbn [flat_map map concat]. rewrite concat_app, IH. f_equal. destruct e as [t| |[] t|a t]; cbn [inline_lines concat inline_text]; rewrite ?app_nil_r; reflexivity.
Qed.
Lemma fold_lines : forall p x L, L <> [] -> fold_left on_inline p (x, L) = (x, L ++ flat_map inline_lines p).
Proof.
  induction p as [|e p IH]; intros x L HL; [cbn; now rewrite app_nil_r|]. cbn [fold_left flat_map].
  assert (E : on_inline (x, L) e = (x, L ++ inline_lines e)). { destruct e as [t| |bold t|a t]; cbn [on_inline inline_lines]; try reflexivity. destruct L; [contradiction | reflexivity]. }
  rewrite E, IH by (destruct L; [contradiction | discriminate]). now rewrite app_assoc.
Qed.
Lemma fold_leading : forall p t x, fold_left on_inline p (set_sc_title (Some t) x, []) = (set_sc_title (Some (fst (leading t p))) x, flat_map inline_lines (snd (leading t p))).
Proof.
  induction p as [|e p IH]; intros t x; [reflexivity|]. destruct e as [u| |bold u|a u]; cbn [fold_left on_inline leading fst snd flat_map].
  - apply fold_lines. discriminate.
  - apply fold_lines. discriminate.
  - apply fold_lines. discriminate.
  - apply (IH (strip u) x).
Qed.
Lemma rstrip_nl2 : forall t, rstrip (t ++ [10%N]) = rstrip t.
Proof. intro t. unfold rstrip, rstrip_by. rewrite rev_app_distr. reflexivity. Qed.
(** the lines collected for the paragraphs of a scene *)
Definition scene_lines_of (ps : list (list inline)) : list str := flat_map (fun p => flat_map inline_lines p ++ [[10%N]]) ps.
Lemma scene_lines_text : forall p r, concat (scene_lines_of (p :: r)) = join [10%N] (map para_text (p :: r)) ++ [10%N].
Proof.
  intros p r. revert p. induction r as [|q r IH]; intro p.
  - unfold scene_lines_of. cbn [flat_map map join]. rewrite app_nil_r, concat_app, lines_text. reflexivity.
  - change (scene_lines_of (p :: q :: r)) with ((flat_map inline_lines p ++ [[10%N]]) ++ scene_lines_of (q :: r)). rewrite concat_app, IH, concat_app, lines_text. cbn [map join concat]. rewrite <- !app_assoc. reflexivity.
Qed.
(** the scene while it is being read *)
Definition reading (num : nat) (p : list inline) (r : list (list inline)) : list str := scene_lines_of (snd (leading [] p) :: r).
Lemma leading_rest : forall p t u, snd (leading t p) = snd (leading u p).
Proof. induction p as [|e p IH]; intros t u; [reflexivity|]. destruct e; cbn [leading snd]; try reflexivity. Qed.
Definition fresh (num : nat) : scene := set_sc_title (Some (tr (s "Scene") ++ s " " ++ id_of num)) (set_sc_type (Some 0%N) (set_sc_status (Some 1%Z) new_scene)).
Lemma import_scene_eq : forall num p r, import_scene tr num (p :: r) =
  store (cleanup_scene [] (rstrip (concat (reading num p r)))) (set_sc_title (Some (fst (leading (tr (s "Scene") ++ s " " ++ id_of num) p))) (set_sc_type (Some 0%N) (set_sc_status (Some 1%Z) new_scene))).
Proof.
  intros num p r. unfold import_scene, reading. rewrite (leading_rest p [] (tr (s "Scene") ++ s " " ++ id_of num)). destruct (leading (tr (s "Scene") ++ s " " ++ id_of num) p) as [title p'] eqn:E. cbn [fst snd]. rewrite scene_lines_text, rstrip_nl2. change (cleanup_scene []) with merge_runs. reflexivity.
Qed.
Lemma start_open : forall b c scs x i k L st, St n0 (b ++ [(c, scs ++ [x])]) (Some i) (Some k) L st -> H st (CStart (s "p") [None]) = Ok st.
Proof. intros b c scs x i k L st HS. cbn [handle import_reader h_start]. unfold im_start. replace (str_eqb (s "p") (s "p")) with true by reflexivity. rewrite (s_sc _ _ _ _ _ _ HS). reflexivity. Qed.
Lemma start_new : forall b c scs k L st, St n0 (b ++ [(c, scs)]) None (Some k) L st ->
  exists st', H st (CStart (s "p") [None]) = Ok st' /\ St n0 (b ++ [(c, scs ++ [fresh (Datatypes.S (total (b ++ [(c, scs)])))])]) (Some (id_of (Datatypes.S (total (b ++ [(c, scs)]))))) (Some k) [] st'.
Proof.
  intros b c scs k L st HS. cbn [handle import_reader h_start]. unfold im_start. replace (str_eqb (s "p") (s "p")) with true by reflexivity. rewrite (s_sc _ _ _ _ _ _ HS), (s_ch _ _ _ _ _ _ HS). cbv zeta.
  destruct (J_new_scene n0 b c scs st k (s_j _ _ _ _ _ _ HS) (s_ch _ _ _ _ _ _ HS)) as (st1 & E1 & J1 & L1 & L2 & L3 & L4 & L5 & L6). rewrite (j_scCount _ _ _ (s_j _ _ _ _ _ _ HS)) in E1 |- *. rewrite succ_id.
  set (T := Datatypes.S (total (b ++ [(c, scs)]))) in *. destruct (on_chapter (Some k) (list_scene (id_of T)) _) as [y|] eqn:Ey; [|discriminate]. cbn [bind] in E1 |- *. apply ok_eq in E1. subst y.
  destruct (J_on_scene n0 b c scs new_scene st1 (id_of T) (fun x => set_sc_title (Some (tr (s "Scene") ++ s " " ++ id_of T)) (set_sc_type (Some 0%N) (set_sc_status (Some 1%Z) x))) J1 L1) as (st2 & E2 & J2 & M1 & M2 & M3 & M4 & M5 & M6).
  rewrite E2. cbn [bind]. exists st2. split; [reflexivity|]. destruct HS as [I1 I2 I3 I4 I5 I6 I7]. constructor; [exact J2|first [congruence | exact (eq_trans M1 L3)]..].
Qed.
Lemma data_divider : forall b c scs x i k L st t, St n0 (b ++ [(c, scs ++ [x])]) (Some i) (Some k) L st -> containsb (s "* * *") t = true -> H st (CData t) = Ok (set_r_scId None st).
Proof. intros b c scs x i k L st t HS Ht. cbn [handle import_reader h_data]. unfold im_data. rewrite (s_sc _ _ _ _ _ _ HS). change SCENE_DIVIDER with (s "* * *"). rewrite Ht. reflexivity. Qed.
Lemma end_closed : forall b k L st, St n0 b None k L st -> exists st', H st (CEnd (Some (s "p"))) = Ok st' /\ St n0 b None k (L ++ [[10%N]]) st'.
Proof.
  intros b k L st HS. cbn [handle import_reader h_end]. unfold im_end. cbn [tag_in]. replace (smem (s "p") [s "p"; s "blockquote"]) with true by reflexivity. unfold close_language. rewrite (s_lang _ _ _ _ _ _ HS). cbn [truthy].
  assert (H1 := S_put _ _ _ _ _ _ [10%N] HS). unfold im_store. rewrite (s_sc _ _ _ _ _ _ H1). eexists. split; [reflexivity | exact H1].
Qed.
(** an open scene, with the paragraphs p :: r *)
Definition opened (b : book) (c : chapter) (scs : list scene) (k : str) (cur : option (list (list inline))) (st : rs) : Prop :=
  let num := Datatypes.S (total (b ++ [(c, scs)])) in
  match cur with
  | None => exists L, St n0 (b ++ [(c, scs)]) None (Some k) L st
  | Some [] => False
  | Some (p :: r) => St n0 (b ++ [(c, scs ++ [import_scene tr num (p :: r)])]) (Some (id_of num)) (Some k) (reading num p r) st
  end.
Lemma para_run : forall p b c scs k cur st, opened b c scs k cur st -> Forall inline_ok p ->
  exists st', foldM H (para_calls p) st = Ok st' /\ opened b c scs k (Some (match cur with Some ps => ps ++ [p] | None => [p] end)) st'.
Proof.
  intros p b c scs k cur st HO Hp. unfold opened in *. set (num := Datatypes.S (total (b ++ [(c, scs)]))) in *. unfold para_calls. destruct cur as [[|q r]|]; [destruct HO| |].
  - assert (A := start_open _ _ _ _ _ _ _ _ HO). destruct (inlines_run p b c scs _ _ _ _ _ HO Hp) as (st1 & E1 & S1). assert (NE : reading num q r <> []) by (unfold reading, scene_lines_of; cbn [flat_map]; destruct (flat_map inline_lines (snd (leading [] q))); discriminate).
    rewrite (fold_lines p _ _ NE) in S1. cbn [fst snd] in S1. destruct (end_run _ _ _ _ _ _ _ _ S1) as (st2 & E2 & S2). exists st2. split; [cbn [foldM]; rewrite A; cbn [bind]; apply foldM_app_ok; exists st1; split; [exact E1 | cbn [foldM]; rewrite E2; reflexivity]|].
    cbn [app]. assert (RE : reading num q (r ++ [p]) = (reading num q r ++ flat_map inline_lines p) ++ [[10%N]]) by (unfold reading, scene_lines_of; cbn [flat_map]; rewrite flat_map_app; cbn [flat_map]; rewrite app_nil_r, <- !app_assoc; reflexivity).
    rewrite RE. rewrite !import_scene_eq in *. rewrite RE. exact S2.
  - destruct HO as [L HS]. destruct (start_new _ _ _ _ _ _ HS) as (st0 & E0 & S0). fold num in S0. destruct (inlines_run p b c scs _ _ _ _ _ S0 Hp) as (st1 & E1 & S1). unfold fresh in S1. rewrite fold_leading in S1. cbn [fst snd] in S1.
    destruct (end_run _ _ _ _ _ _ _ _ S1) as (st2 & E2 & S2). exists st2. split; [cbn [foldM]; rewrite E0; cbn [bind]; apply foldM_app_ok; exists st1; split; [exact E1 | cbn [foldM]; rewrite E2; reflexivity]|].
    rewrite import_scene_eq. unfold reading, scene_lines_of. cbn [flat_map]. rewrite app_nil_r. rewrite (leading_rest p [] (tr (s "Scene") ++ s " " ++ id_of num)). exact S2.
Qed.
Lemma divider_run : forall t b c scs k cur st, opened b c scs k cur st -> containsb (s "* * *") t = true ->
  exists st', foldM H (para_calls [Word t]) st = Ok st' /\ opened b c (scs ++ [import_scene tr (Datatypes.S (total (b ++ [(c, scs)]))) (match cur with Some ps => ps | None => [] end)]) k None st'.
Proof.
  intros t b c scs k cur st HO Ht. unfold opened in *. set (num := Datatypes.S (total (b ++ [(c, scs)]))) in *. unfold para_calls. cbn [flat_map inline_calls app]. destruct cur as [[|q r]|]; [destruct HO| |].
  - assert (A := start_open _ _ _ _ _ _ _ _ HO). assert (B := data_divider _ _ _ _ _ _ _ _ t HO Ht). destruct (end_closed _ _ _ _ (S_noscene _ _ _ _ _ _ HO)) as (st1 & E1 & S1). exists st1. split; [cbn [foldM]; rewrite A; cbn [bind]; rewrite B; cbn [bind]; rewrite E1; reflexivity | eexists; exact S1].
  - destruct HO as [L HS]. destruct (start_new _ _ _ _ _ _ HS) as (st0 & E0 & S0). assert (B := data_divider _ _ _ _ _ _ _ _ t S0 Ht). destruct (end_closed _ _ _ _ (S_noscene _ _ _ _ _ _ S0)) as (st1 & E1 & S1). exists st1. split; [cbn [foldM]; rewrite E0; cbn [bind]; rewrite B; cbn [bind]; rewrite E1; reflexivity | eexists; exact S1].
Qed.
Definition import_scenes (num : nat) (groups : list (list (list inline))) : list scene := map (fun kp => import_scene tr (fst kp) (snd kp)) (combine (seq num (length groups)) groups).
Lemma bodies_run : forall bs b c scs k cur st, opened b c scs k cur st -> Forall body_ok bs ->
  exists st' L sc, foldM H (flat_map body_calls bs) st = Ok st' /\ St n0 (b ++ [(c, scs ++ import_scenes (Datatypes.S (total (b ++ [(c, scs)]))) (scenes_of cur bs))]) sc (Some k) L st'.
Proof.
  induction bs as [|x bs IH]; intros b c scs k cur st HO Hb.
  - exists st. cbn [flat_map foldM scenes_of]. destruct cur as [[|p r]|]; [destruct HO | | destruct HO as [L HS]]; do 2 eexists; (split; [reflexivity|]); [exact HO|]. unfold import_scenes. cbn. rewrite app_nil_r. exact HS.
  - inversion Hb as [|? ? B1 B2]; subst. destruct x as [p|t]; cbn [flat_map body_calls scenes_of body_ok] in *.
    + destruct (para_run p b c scs k cur st HO B1) as (st1 & E1 & O1). destruct (IH b c scs k _ st1 O1 B2) as (st2 & L & sc & E2 & S2). exists st2, L, sc. split; [apply foldM_app_ok; eauto | exact S2].
    + destruct (divider_run t b c scs k cur st HO B1) as (st1 & E1 & O1). destruct (IH b c _ k None st1 O1 B2) as (st2 & L & sc & E2 & S2). exists st2, L, sc. split; [apply foldM_app_ok; eauto|].
      unfold import_scenes at 1. cbn [length seq combine map fst snd]. change (map _ (combine (seq (Datatypes.S (Datatypes.S (total (b ++ [(c, scs)])))) _) _)) with (import_scenes (Datatypes.S (Datatypes.S (total (b ++ [(c, scs)])))) (scenes_of None bs)).
      rewrite <- app_assoc in S2. cbn [app] in S2. replace (total (b ++ [(c, scs ++ [import_scene tr (Datatypes.S (total (b ++ [(c, scs)]))) match cur with Some ps => ps | None => [] end])])) with (Datatypes.S (total (b ++ [(c, scs)]))) in S2 by (rewrite !total_snoc, app_length; cbn; lia). exact S2.
Qed.
Lemma data_heading : forall ts b k L st, J n0 b st -> r_scId st = None -> r_chId st = Some k -> r_lines st = L -> r_heading st = true -> r_language st = [] -> nv_languages (r_novel st) = Some [] ->
  exists st', foldM H (map CData ts) st = Ok st' /\ J n0 b st' /\ r_scId st' = None /\ r_chId st' = Some k /\ r_lines st' = L ++ ts /\ r_heading st' = true /\ r_language st' = [] /\ nv_languages (r_novel st') = Some [].
Proof.
  induction ts as [|t ts IH]; intros b k L st A1 A2 A3 A4 A5 A6 A7; [exists st; rewrite app_nil_r; split; [reflexivity|]; tauto|]. cbn [map foldM handle import_reader h_data]. unfold im_data. rewrite A2. cbn [bind].
  destruct (IH b k (L ++ [t]) (put_line t st)) as (st1 & E1 & B); try assumption; [eapply J_same; try exact A1; try reflexivity; now left | unfold put_line; cbn; now rewrite A4|]. exists st1. split; [exact E1|]. rewrite <- app_assoc in B. exact B.
Qed.
Lemma section_run : forall x b sc k L st, St n0 b sc k L st -> Forall body_ok (snd x) ->
  exists st' sc' k' L', foldM H (section_calls x) st = Ok st' /\ St n0 (b ++ import_book tr (total b) [x]) sc' k' L' st'.
Proof.
  intros [[part ts] bs] b sc k L st HS Hb. cbn [snd section_calls] in *. set (level := if part then s "1" else s "2"). 
  destruct (J_new_heading n0 b st (s "h" ++ level) (s_j _ _ _ _ _ _ HS)) as (st1 & E1 & J1 & M1 & M2 & M3 & M4 & M5 & M6). set (c0 := set_ch_level _ _) in J1.
  assert (T : smem (s "h" ++ level) [s "h1"; s "h2"] = true) by (destruct part; reflexivity).
  assert (A : H st (CStart (s "h" ++ level) [None]) = Ok (set_r_heading true st1)).
  { cbn [handle import_reader h_start]. unfold im_start. rewrite T. replace (str_eqb (s "h" ++ level) (s "p")) with false by (destruct part; reflexivity). replace (str_eqb (s "h" ++ level) (s "em")) with false by (destruct part; reflexivity). replace (str_eqb (s "h" ++ level) (s "strong")) with false by (destruct part; reflexivity). replace (str_eqb (s "h" ++ level) (s "lang")) with false by (destruct part; reflexivity). cbn [andb]. rewrite E1. reflexivity. }
  destruct (data_heading ts (b ++ [(c0, [])]) (id_of (Datatypes.S (length b))) [] (set_r_heading true st1)) as (st2 & E2 & J2 & N1 & N2 & N3 & N4 & N5 & N6); [eapply J_same; try exact J1; try reflexivity; now left | exact M1 | exact M2 | exact M3 | reflexivity | cbn; rewrite M4; apply (s_lang _ _ _ _ _ _ HS) | cbn; rewrite M6; apply (s_ls _ _ _ _ _ _ HS)|].
  destruct (J_on_chapter n0 b c0 [] st2 (id_of (Datatypes.S (length b))) (set_ch_title (Some (concat ts))) J2 N2) as (st3 & E3 & J3 & P1 & P2 & P3 & P4 & P5 & P6); [reflexivity|].
  assert (S3 : St n0 (b ++ [(set_ch_title (Some (concat ts)) c0, [])]) None (Some (id_of (Datatypes.S (length b)))) [] (set_r_heading false (set_r_lines [] st3))).
  { constructor; [eapply J_same; try exact J3; try reflexivity; now left|..]; cbn; first [reflexivity | exact (eq_trans P3 N1) | exact (eq_trans P2 N2) | exact (eq_trans P4 N5) | exact (eq_trans P6 N6)]. }
  assert (B : H st2 (CEnd (Some (s "h" ++ level))) = Ok (set_r_heading false (set_r_lines [] st3))).
  { cbn [handle import_reader h_end]. unfold im_end. cbn [tag_in tag_is]. rewrite T. replace (smem (s "h" ++ level) [s "p"; s "blockquote"]) with false by (destruct part; reflexivity). replace (str_eqb (s "h" ++ level) (s "em")) with false by (destruct part; reflexivity). replace (str_eqb (s "h" ++ level) (s "strong")) with false by (destruct part; reflexivity). replace (str_eqb (s "h" ++ level) (s "lang")) with false by (destruct part; reflexivity). cbn [andb]. rewrite N2, N3. cbn [app]. rewrite E3. reflexivity. }
  destruct (bodies_run bs b (set_ch_title (Some (concat ts)) c0) [] (id_of (Datatypes.S (length b))) None _ (ex_intro _ _ S3) Hb) as (st4 & L4 & sc4 & E4 & S4).
  exists st4, sc4, (Some (id_of (Datatypes.S (length b)))), L4. split.
  - apply foldM_app_ok. exists (set_r_heading false (set_r_lines [] st3)). split; [|exact E4]. unfold heading_calls. cbn [foldM]. rewrite A. cbn [bind]. apply foldM_app_ok. exists st2. split; [exact E2|]. cbn [foldM]. rewrite B. reflexivity.
  - cbn [import_book]. rewrite total_snoc in S4. cbn [length app] in S4. rewrite Nat.add_0_r in S4. assert (C0 : set_ch_title (Some (concat ts)) c0 = import_chapter part (concat ts)) by (unfold c0; destruct part; reflexivity). rewrite C0 in S4. exact S4.
Qed.
Lemma book_app : forall a b j, import_book tr j (a ++ b) = import_book tr j a ++ import_book tr (j + total (import_book tr j a)) b.
Proof.
  induction a as [|[[part ts] bs] a IH]; intros b j; [cbn; now rewrite Nat.add_0_r|]. cbn [app import_book]. f_equal. rewrite IH. f_equal. f_equal. unfold total. cbn [flat_map snd]. rewrite app_length, map_length, combine_length, seq_length, Nat.min_id. lia.
Qed.
Lemma sections_run : forall doc b sc k L st, St n0 b sc k L st -> document_ok doc ->
  exists st' sc' k' L', foldM H (flat_map section_calls doc) st = Ok st' /\ St n0 (b ++ import_book tr (total b) doc) sc' k' L' st'.
Proof.
  induction doc as [|x doc IH]; intros b sc k L st HS Hd; [exists st, sc, k, L; split; [reflexivity | cbn; now rewrite app_nil_r]|]. inversion Hd as [|? ? D1 D2]; subst. destruct (section_run x b sc k L st HS D1) as (st1 & sc1 & k1 & L1 & E1 & S1).
  destruct (IH _ _ _ _ _ S1 D2) as (st2 & sc2 & k2 & L2 & E2 & S2). exists st2, sc2, k2, L2. split; [cbn [flat_map]; apply foldM_app_ok; eauto|]. change (x :: doc) with ([x] ++ doc). rewrite book_app, app_assoc. assert (TA : total (b ++ import_book tr (total b) [x]) = total b + total (import_book tr (total b) [x])) by (unfold total; now rewrite flat_map_app, app_length). rewrite <- TA. exact S2.
Qed.
End Run.
