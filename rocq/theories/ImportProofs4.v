From Coq Require Import String List NArith ZArith Bool Lia Arith.
From Verif Require Import PyStr PyDict NovelModel NovelOps WordCount Splitter SpecNovel SpecSplit OdfXml OdtRead SpecRead ReadFrame2 SpecImport ImportProofs ImportProofs2 ImportProofs3.
Import ListNotations.

(** ** title, author, description and language of the novel: from the opening calls only *)
Definition meta_names : list str := [s "title"; s "meta"; s "body"].
Definition plain_tag (t : str) : Prop := smem t meta_names = false.
Definition plain_call (c : call) : Prop := match c with CStart t _ => plain_tag t | CEnd (Some t) => plain_tag t | _ => True end.
Lemma h_plain : forall x, plain_tag (s "h" ++ x).
Proof. reflexivity. Qed.
Record plain_ps (p : ps) : Prop := mkPlain { pl_span : Forall plain_tag (p_span p); pl_head : Forall (fun kv => plain_tag (snd kv)) (p_head p); pl_heading : match p_heading p with Some h => plain_tag h | None => True end }.
Lemma plain_emphasis : forall style p, plain_ps p -> plain_ps (fst (emphasis style p)) /\ Forall plain_call (snd (emphasis style p)).
Proof.
  intros style p [H1 H2 H3]. unfold emphasis. destruct (smem style (p_em p)); cbn [p_strong set_p_span]; destruct (smem style (p_strong p)); cbn [fst snd app]; split; try (constructor; cbn; repeat constructor; assumption); repeat constructor.
Qed.
Lemma plain_start : forall name a p p' calls, start_element name a p = Ok (p', calls) -> plain_ps p -> plain_ps p' /\ Forall plain_call calls.
Proof.
  intros name a p p' calls H Hp. unfold start_element in H. set (style := match dget (s "text:style-name") a with Some x => x | None => [] end) in *.
  destruct (str_eqb name (s "text:p")).
  { match type of H with (let '(_, _) := ?m in _) = _ => destruct m as [p1 c1] eqn:M end. pose proof (plain_emphasis style p1) as PE. destruct (emphasis style p1) as [p2 c2] eqn:Em. apply ok_eq in H. injection H as <- <-. cbn [fst snd] in PE.
    assert (G1 : plain_ps p1 /\ Forall plain_call c1).
    { destruct Hp as [H1 H2 H3]. destruct (p_count p); [injection M as <- <-; split; constructor; assumption|]. destruct (smem style (p_quote p)); [injection M as <- <-; split; [constructor; assumption | repeat constructor]|].
      destruct (prefixb (s "Heading") style); [injection M as <- <-; split; [constructor; cbn; try assumption; reflexivity | repeat constructor]|].
      destruct (dget style (p_head p)) as [h|] eqn:D.
      - assert (P : plain_tag h) by (rewrite Forall_forall in H2; apply dget_In in D; apply (H2 _ D)). injection M as <- <-. split; [constructor; assumption | now repeat constructor].
      - destruct (p_list p); injection M as <- <-; (split; [constructor; assumption | repeat constructor]). }
    destruct (PE (proj1 G1)) as [Q1 Q2]. split; [exact Q1 | apply Forall_app; split; [apply G1 | exact Q2]]. }
  destruct (str_eqb name (s "text:span")).
  { pose proof (plain_emphasis style p Hp) as PE. destruct (emphasis style p) as [p2 c2] eqn:Em. cbn [fst snd] in PE. destruct PE as [[Q1 Q2 Q3] Q4].
    destruct (dget style (p_lang p2)); apply ok_eq in H; injection H as <- <-; split; try (apply Forall_app; split; [exact Q4 | repeat constructor]); try exact Q4; constructor; try assumption. constructor; [reflexivity | exact Q1]. }
  destruct (str_eqb name (s "text:section")); [okstep H; apply ok_eq in H; injection H as <- <-; split; [exact Hp | repeat constructor]|].
  destruct Hp as [H1 H2 H3].
  destruct (str_eqb name (s "office:annotation")); [apply ok_eq in H; injection H as <- <-; split; [constructor; assumption | constructor]|].
  destruct (str_eqb name (s "text:h")).
  { okstep H. apply ok_eq in H. injection H as <- <-. assert (P : plain_tag y) by (destruct (dget (s "text:outline-level") a); [apply ok_eq in E; subst y; reflexivity | destruct style; [discriminate | apply ok_eq in E; subst y; reflexivity]]).
    split; [constructor; assumption | now repeat constructor]. }
  destruct (str_eqb name (s "text:list-item")); [apply ok_eq in H; injection H as <- <-; split; [constructor; assumption | constructor]|].
  destruct (str_eqb name (s "style:style")).
  { match type of H with (if ?b then _ else _) = _ => destruct b end.
    - apply ok_eq in H. injection H as <- <-. split; [|constructor]. constructor; [exact H1 | | exact H3]. cbn [p_head set_p_head set_p_style p_style]. destruct (dget (s "style:name") a); cbn [enter_style]; [|exact H2]. apply dset_forall; [reflexivity | exact H2 | intros k' w X; exact X].
    - match type of H with (if ?b then _ else _) = _ => destruct b end; apply ok_eq in H; injection H as <- <-; (split; [constructor; assumption | constructor]). }
  destruct (str_eqb name (s "style:text-properties")).
  { match type of H with context [dget (s "fo:font-style") a] => set (q := match dget (s "fo:font-style") a with Some x => _ | None => _ end) in H end. assert (Q : plain_ps q) by (unfold q; destruct (dget (s "fo:font-style") a) as [x|]; [destruct (str_eqb x (s "italic"))|]; constructor; assumption). clearbody q. destruct Q as [Q1 Q2 Q3].
    set (q' := match dget (s "fo:font-weight") a with Some x => _ | None => _ end) in H. assert (R : plain_ps q') by (unfold q'; destruct (dget (s "fo:font-weight") a) as [x|]; [destruct (str_eqb x (s "bold"))|]; constructor; assumption). clearbody q'. destruct R as [R1 R2 R3].
    destruct (otruthy (dget (s "fo:language") a)); [okstep H; okstep H|]; apply ok_eq in H; injection H as <- <-; (split; [constructor; assumption | constructor]). }
  destruct (str_eqb name (s "text:s")); apply ok_eq in H; injection H as <- <-; (split; [constructor; assumption | repeat constructor]).
Qed.
Lemma plain_end : forall name p, plain_ps p -> plain_ps (fst (end_element name p)) /\ Forall plain_call (snd (end_element name p)).
Proof.
  intros name p [H1 H2 H3]. unfold end_element.
  destruct (str_eqb name (s "text:p")).
  { assert (SP : Forall plain_call (map (fun t => CEnd (Some t)) (p_span p))) by (apply Forall_map; exact H1). destruct (p_count p); [split; [constructor; assumption | constructor]|]. cbn [p_blockquote p_heading set_p_span].
    destruct (p_blockquote p); [split; [constructor; cbn; try assumption; constructor | apply Forall_app; split; [exact SP | repeat constructor]]|].
    destruct (otruthy (p_heading p)); (split; [constructor; cbn; try assumption; constructor | apply Forall_app; split; [exact SP|]]); [|repeat constructor]. destruct (p_heading p); now repeat constructor. }
  destruct (str_eqb name (s "text:span")).
  { destruct (p_span p) as [|t r] eqn:E; [split; [constructor; cbn; try assumption; rewrite E; constructor | constructor]|]. inversion H1; subst. split; [constructor; cbn; assumption | now repeat constructor]. }
  destruct (str_eqb name (s "text:section")); [split; [constructor; assumption | repeat constructor]|]. destruct (str_eqb name (s "office:annotation")); [split; [constructor; assumption | repeat constructor]|].
  destruct (str_eqb name (s "text:h")); [split; [constructor; cbn; try assumption; constructor | destruct (p_heading p); now repeat constructor]|]. destruct (str_eqb name (s "text:list-item")); [split; [constructor; assumption | constructor]|].
  destruct (str_eqb name (s "style:style")); (split; [constructor; assumption | constructor]).
Qed.
Lemma plain_event : forall e p p' calls, parser_event e p = Ok (p', calls) -> plain_ps p -> plain_ps p' /\ Forall plain_call calls.
Proof.
  intros [name a|name|t] p p' calls H Hp; cbn [parser_event] in H; [eapply plain_start; eassumption | |].
  - apply ok_eq in H. pose proof (plain_end name p Hp) as G. rewrite H in G. exact G.
  - apply ok_eq in H. unfold characters in H. destruct Hp as [H1 H2 H3]. destruct (p_count p) as [[|[|k]]|]; [injection H as <- <-; split; [constructor; assumption | repeat constructor]..|]. destruct (p_paragraph p); [injection H as <- <-; split; [constructor; assumption | repeat constructor]|]. destruct (p_heading p) eqn:E; injection H as <- <-; (split; [constructor; try assumption; now rewrite E | repeat constructor]).
Qed.
Lemma plain_report : forall es p calls, report p es = Ok calls -> plain_ps p -> Forall plain_call calls.
Proof.
  induction es as [|e es IH]; intros p calls H Hp; cbn [report] in H; [apply ok_eq in H; subst; constructor|]. okstep H. destruct y as [p1 c]. okstep H. apply ok_eq in H. subst calls. destruct (plain_event _ _ _ _ E Hp) as [P1 P2]. apply Forall_app. split; [exact P2 | eapply IH; eassumption].
Qed.
Lemma plain_new : plain_ps new_ps.
Proof. constructor; cbn; constructor. Qed.

Definition meta_of (n : novel) := (nv_title n, nv_authorName n, nv_desc n, nv_languageCode n, nv_countryCode n).
Lemma meta_on_scene : forall i f st st', on_scene i f st = Ok st' -> meta_of (r_novel st') = meta_of (r_novel st).
Proof. intros i f st st' E. unfold on_scene in E. okstep E. okstep E. apply ok_eq in E. subst. reflexivity. Qed.
Lemma meta_on_chapter : forall i f st st', on_chapter i f st = Ok st' -> meta_of (r_novel st') = meta_of (r_novel st).
Proof. intros i f st st' E. unfold on_chapter in E. okstep E. okstep E. apply ok_eq in E. subst. reflexivity. Qed.
Lemma meta_heading : forall tag st st', new_heading tag st = Ok st' -> meta_of (r_novel st') = meta_of (r_novel st).
Proof. intros tag st st' E. unfold new_heading in E. cbv zeta in E. apply meta_on_chapter in E. exact E. Qed.
Lemma meta_open : forall a st, meta_of (r_novel (open_language a st)) = meta_of (r_novel st).
Proof. intros a st. unfold open_language. destruct a as [|[[k [l|]]|] a]; try reflexivity. destruct (str_eqb k (s "lang")); [|reflexivity]. destruct (nv_languages (r_novel st)); reflexivity. Qed.
Lemma meta_close : forall st, meta_of (r_novel (close_language st)) = meta_of (r_novel st).
Proof. intro st. unfold close_language. destruct (truthy (r_language st)); reflexivity. Qed.
Lemma not_meta : forall tag w, plain_tag tag -> In w meta_names -> str_eqb tag w = false.
Proof. intros tag w H I. destruct (str_eqb tag w) eqn:E; [|reflexivity]. apply str_eqb_eq in E. subst w. unfold plain_tag in H. apply smem_false in H. contradiction. Qed.
Lemma import_meta_step : forall tr c st st', plain_call c -> handle (import_reader tr) st c = Ok st' -> meta_of (r_novel st') = meta_of (r_novel st).
Proof.
  intros tr c st st' Hc E. destruct c as [tag a|tag|t|t]; cbn [handle import_reader h_start h_end h_data h_comment plain_call] in *.
  - assert (X1 := not_meta tag (s "meta") Hc ltac:(apply smem_In; reflexivity)). assert (X2 := not_meta tag (s "title") Hc ltac:(apply smem_In; reflexivity)). assert (X3 := not_meta tag (s "body") Hc ltac:(apply smem_In; reflexivity)).
    unfold im_start in E. rewrite X1, X2, X3 in E. destruct (str_eqb tag (s "p")).
    { okstep E. apply ok_eq in E. subst st'. rewrite meta_open. destruct (r_scId st) as [i|]; [apply ok_eq in E0; now subst|]. destruct (r_chId st) as [k|]; [|apply ok_eq in E0; now subst]. cbv zeta in E0. okstep E0. apply meta_on_scene in E0. apply meta_on_chapter in E. rewrite E0, E. reflexivity. }
    destruct (str_eqb tag (s "em") && negb (r_heading st)); [apply ok_eq in E; now subst|]. destruct (str_eqb tag (s "strong") && negb (r_heading st)); [apply ok_eq in E; now subst|].
    destruct (str_eqb tag (s "lang") && negb (r_heading st)).
    { okstep E. destruct y as [k v]. destruct (str_eqb k (s "lang")); [okstep E; apply ok_eq in E; subst; apply meta_open | apply ok_eq in E; now subst]. }
    destruct (smem tag [s "h1"; s "h2"]); [okstep E; apply ok_eq in E; subst; apply meta_heading in E0; exact E0|].
    destruct (str_eqb tag (s "div")); [apply ok_eq in E; now subst|]. destruct (str_eqb tag (s "li")); [apply ok_eq in E; now subst|]. destruct (str_eqb tag (s "blockquote")); [apply ok_eq in E; subst; rewrite meta_open; reflexivity|].
    destruct (str_eqb tag (s "s")); apply ok_eq in E; now subst.
  - unfold im_end in E. destruct (tag_in tag [s "p"; s "blockquote"]).
    { unfold im_store in E. assert (M : meta_of (r_novel (put_line [10%N] (close_language st))) = meta_of (r_novel st)) by apply meta_close. set (st1 := put_line [10%N] (close_language st)) in *. clearbody st1. destruct (r_scId st1) as [i|]; [|apply ok_eq in E; now subst]. okstep E. apply meta_on_scene in E. congruence. }
    destruct (tag_is tag (s "em") && negb (r_heading st)); [apply ok_eq in E; now subst|]. destruct (tag_is tag (s "strong") && negb (r_heading st)); [apply ok_eq in E; now subst|]. destruct (tag_is tag (s "lang") && negb (r_heading st)); [apply ok_eq in E; subst; apply meta_close|].
    destruct (tag_in tag [s "h1"; s "h2"]); [okstep E; apply ok_eq in E; subst; apply meta_on_chapter in E0; exact E0|].
    destruct tag as [tag|]; cbn [tag_is] in E; [|apply ok_eq in E; now subst]. rewrite (not_meta tag (s "title") Hc ltac:(apply smem_In; reflexivity)) in E. apply ok_eq in E. now subst.
  - unfold im_data in E. apply ok_eq in E. subst. destruct (r_scId st); [destruct (containsb SCENE_DIVIDER t)|]; reflexivity.
  - unfold im_comment in E. destruct (r_scId st) as [i|]; [|apply ok_eq in E; now subst]. destruct (r_lines st); apply ok_eq in E; subst; [|reflexivity]. destruct (on_scene (Some i) _ st) as [y|] eqn:E1; [now apply meta_on_scene in E1 | reflexivity].
Qed.
Lemma outline_meta_step : forall c st st', plain_call c -> handle outline_reader st c = Ok st' -> meta_of (r_novel st') = meta_of (r_novel st).
Proof.
  intros c st st' Hc E. destruct c as [tag a|tag|t|t]; cbn [handle outline_reader h_start h_end h_data h_comment plain_call] in *.
  - assert (X1 := not_meta tag (s "meta") Hc ltac:(apply smem_In; reflexivity)). assert (X2 := not_meta tag (s "title") Hc ltac:(apply smem_In; reflexivity)). assert (X3 := not_meta tag (s "body") Hc ltac:(apply smem_In; reflexivity)).
    unfold ol_start in E. rewrite X1, X2, X3 in E. destruct (smem tag [s "h1"; s "h2"]); [apply meta_heading in E; exact E|].
    destruct (str_eqb tag (s "h3")); [cbv zeta in E; okstep E; apply meta_on_scene in E; apply meta_on_chapter in E0; rewrite E, E0; reflexivity|].
    destruct (str_eqb tag (s "div")); [apply ok_eq in E; now subst|]. destruct (str_eqb tag (s "s")); apply ok_eq in E; now subst.
  - unfold ol_end in E. cbv zeta in E. destruct (tag_is tag (s "p")).
    { cbn [r_scId r_chId set_r_lines] in E. destruct (r_scId st) as [i|]; [apply meta_on_scene in E; exact E|]. destruct (r_chId st) as [k|]; [apply meta_on_chapter in E; exact E | apply ok_eq in E; now subst]. }
    destruct (tag_in tag [s "h1"; s "h2"]); [okstep E; apply ok_eq in E; subst; apply meta_on_chapter in E0; exact E0|]. destruct (tag_is tag (s "h3")); [okstep E; apply ok_eq in E; subst; apply meta_on_scene in E0; exact E0|].
    destruct tag as [tag|]; cbn [tag_is] in E; [|apply ok_eq in E; now subst]. rewrite (not_meta tag (s "title") Hc ltac:(apply smem_In; reflexivity)) in E. apply ok_eq in E. now subst.
  - unfold ol_data in E. apply ok_eq in E. now subst.
  - unfold base_comment in E. apply ok_eq in E. subst. destruct (r_scId st); reflexivity.
Qed.
Lemma meta_steps : forall h, (forall c st st', plain_call c -> handle h st c = Ok st' -> meta_of (r_novel st') = meta_of (r_novel st)) ->
  forall calls st st', Forall plain_call calls -> foldM (handle h) calls st = Ok st' -> meta_of (r_novel st') = meta_of (r_novel st).
Proof.
  intros h Hs calls. induction calls as [|c calls IH]; intros st st' Hc E; cbn [foldM] in E; [apply ok_eq in E; now subst|]. inversion Hc; subst. okstep E. rewrite (IH y st') by assumption. eapply Hs; eassumption.
Qed.
(** the opening calls *)
Record Op (n0 : novel) (st : rs) : Prop := mkOp { o_ch : r_chId st = None; o_sc : r_scId st = None; o_l : r_language st = []; o_h : r_heading st = false; o_cc : r_chCount st = 0%N; o_sn : r_scCount st = 0%N;
  o_srt : nv_srtChapters (r_novel st) = nv_srtChapters n0; o_chs : nv_chapters (r_novel st) = nv_chapters n0; o_scs : nv_scenes (r_novel st) = nv_scenes n0; o_ls : nv_languages (r_novel st) = nv_languages n0; o_rest : import_rest (r_novel st) = import_rest n0 }.
Definition op_reader (h : reader) (f : str -> str) : Prop :=
  (forall st a, handle h st (CStart (s "body") a) = body_tag a st) /\ (forall st a, handle h st (CStart (s "meta") a) = meta_tag a st) /\ (forall st a, handle h st (CStart (s "title") a) = Ok (set_r_lines [] st)) /\
  (forall st t, r_scId st = None -> handle h st (CData t) = Ok (put_line t st)) /\ (forall st, handle h st (CEnd (Some (s "title"))) = Ok (set_r_novel (set_nv_title (Some (f (concat (r_lines st)))) (r_novel st)) st)).
Lemma op_import : forall tr, op_reader (import_reader tr) (fun x => x).
Proof. intro tr. repeat split. intros st t H. cbn [handle import_reader h_data]. unfold im_data. now rewrite H. Qed.
Lemma op_outline : op_reader outline_reader strip.
Proof. repeat split. Qed.
Lemma op_novel : forall n0 st n, Op n0 st -> nv_srtChapters n = nv_srtChapters (r_novel st) -> nv_chapters n = nv_chapters (r_novel st) -> nv_scenes n = nv_scenes (r_novel st) -> nv_languages n = nv_languages (r_novel st) -> import_rest n = import_rest (r_novel st) -> Op n0 (set_r_novel n st).
Proof. intros n0 st n [] E1 E2 E3 E4 E5. constructor; cbn [r_novel set_r_novel]; try assumption; etransitivity; eassumption. Qed.
Lemma op_lines : forall n0 st l, Op n0 st -> Op n0 (set_r_lines l st).
Proof. intros n0 st l []. constructor; assumption. Qed.
Lemma op_attr : forall n0 st k v, Op n0 st -> exists st', body_attr st (Some (k, v)) = Ok st' /\ Op n0 st' /\ 
  meta_of (r_novel st') = (nv_title (r_novel st), nv_authorName (r_novel st), nv_desc (r_novel st), if str_eqb k (s "language") then given v (nv_languageCode (r_novel st)) else nv_languageCode (r_novel st), if str_eqb k (s "language") then nv_countryCode (r_novel st) else if str_eqb k (s "country") then given v (nv_countryCode (r_novel st)) else nv_countryCode (r_novel st)).
Proof.
  intros n0 st k v H. unfold body_attr, given. destruct v as [[|x v]|]; cbn [otruthy]; try (exists st; split; [reflexivity|]; split; [exact H|]; destruct (str_eqb k (s "language")), (str_eqb k (s "country")); reflexivity).
  destruct (str_eqb k (s "language")); [|destruct (str_eqb k (s "country"))]; eexists; (split; [reflexivity|]); (split; [first [exact H | apply op_novel; [exact H | reflexivity..]] | reflexivity]).
Qed.
Lemma op_body : forall h f n0 st styles, op_reader h f -> Op n0 st -> exists st', foldM (handle h) (match styles with Some (l, c) => [CStart (s "body") [Some (s "language", l); Some (s "country", c)]] | None => [] end) st = Ok st' /\ Op n0 st' /\
  meta_of (r_novel st') = (nv_title (r_novel st), nv_authorName (r_novel st), nv_desc (r_novel st), match styles with Some (l, _) => given l (nv_languageCode (r_novel st)) | None => nv_languageCode (r_novel st) end, match styles with Some (_, c) => given c (nv_countryCode (r_novel st)) | None => nv_countryCode (r_novel st) end).
Proof.
  intros h f n0 st styles (R & _) H. destruct styles as [[l c]|]; [|exists st; split; [reflexivity|]; split; [exact H | reflexivity]]. cbn [foldM]. rewrite R. unfold body_tag. cbn [foldM].
  destruct (op_attr n0 st (s "language") l H) as (st1 & E1 & O1 & M1). rewrite E1. cbn [bind]. destruct (op_attr n0 st1 (s "country") c O1) as (st2 & E2 & O2 & M2). rewrite E2. cbn [bind]. exists st2. split; [reflexivity|]. split; [exact O2|]. rewrite M2.
  replace (str_eqb (s "language") (s "language")) with true in M1 by reflexivity. replace (str_eqb (s "country") (s "language")) with false by reflexivity. replace (str_eqb (s "country") (s "country")) with true by reflexivity. unfold meta_of in M1. injection M1 as X1 X2 X3 X4 X5. now rewrite X1, X2, X3, X4, X5.
Qed.
Lemma op_title : forall h f n0 st title, op_reader h f -> Op n0 st -> exists st', foldM (handle h) (match title with Some (x :: t) => [CStart (s "title") [None]; CData (x :: t); CEnd (Some (s "title"))] | _ => [] end) st = Ok st' /\ Op n0 st' /\
  meta_of (r_novel st') = (match title with Some (x :: t) => Some (f (x :: t)) | _ => nv_title (r_novel st) end, nv_authorName (r_novel st), nv_desc (r_novel st), nv_languageCode (r_novel st), nv_countryCode (r_novel st)).
Proof.
  intros h f n0 st title (_ & _ & R1 & R2 & R3) H. destruct title as [[|x t]|]; try (exists st; split; [reflexivity|]; split; [exact H | reflexivity]). cbn [foldM]. rewrite R1. cbn [bind]. rewrite R2 by apply (o_sc _ _ H). cbn [bind]. rewrite R3. cbn [bind]. eexists. split; [reflexivity|]. split; [apply op_novel; try reflexivity; unfold put_line; now repeat apply op_lines|].
  unfold put_line. cbn [r_lines set_r_lines app concat r_novel set_r_novel]. rewrite app_nil_r. reflexivity.
Qed.
Lemma op_author : forall h f n0 st v, op_reader h f -> Op n0 st -> exists st', foldM (handle h) (match v with Some (x :: t) => [CStart (s "meta") [Some ([], Some (s "author")); Some ([], Some (x :: t))]] | _ => [] end) st = Ok st' /\ Op n0 st' /\
  meta_of (r_novel st') = (nv_title (r_novel st), given v (nv_authorName (r_novel st)), nv_desc (r_novel st), nv_languageCode (r_novel st), nv_countryCode (r_novel st)).
Proof.
  intros h f n0 st title (_ & R & _) H. destruct title as [[|x t]|]; try (exists st; split; [reflexivity|]; split; [exact H | reflexivity]). cbn [foldM]. rewrite R. eexists. split; [reflexivity|]. split; [apply op_novel; try reflexivity; assumption | reflexivity].
Qed.
Lemma op_desc : forall h f n0 st v, op_reader h f -> Op n0 st -> exists st', foldM (handle h) (match v with Some (x :: t) => [CStart (s "meta") [Some ([], Some (s "description")); Some ([], Some (x :: t))]] | _ => [] end) st = Ok st' /\ Op n0 st' /\
  meta_of (r_novel st') = (nv_title (r_novel st), nv_authorName (r_novel st), given v (nv_desc (r_novel st)), nv_languageCode (r_novel st), nv_countryCode (r_novel st)).
Proof.
  intros h f n0 st title (_ & R & _) H. destruct title as [[|x t]|]; try (exists st; split; [reflexivity|]; split; [exact H | reflexivity]). cbn [foldM]. rewrite R. eexists. split; [reflexivity|]. split; [apply op_novel; try reflexivity; assumption | reflexivity].
Qed.
Lemma opening_run : forall h f styles title author desc n0, op_reader h f ->
  exists st, foldM (handle h) (opening_calls styles title author desc) (new_rs n0) = Ok st /\ Op n0 st /\ described f styles title author desc n0 (r_novel st).
Proof.
  intros h f styles title author desc n0 R. assert (H : Op n0 (new_rs n0)) by (constructor; reflexivity).
  destruct (op_body h f n0 (new_rs n0) styles R H) as (st1 & E1 & H1 & M1). destruct (op_title h f n0 st1 title R H1) as (st2 & E2 & H2 & M2). destruct (op_author h f n0 st2 author R H2) as (st3 & E3 & H3 & M3). destruct (op_desc h f n0 st3 desc R H3) as (st4 & E4 & H4 & M4).
  exists st4. split; [unfold opening_calls; apply foldM_app_ok; exists st1; split; [exact E1|]; apply foldM_app_ok; exists st2; split; [exact E2|]; apply foldM_app_ok; exists st3; split; [exact E3 | exact E4]|]. split; [exact H4|].
  unfold meta_of in *. injection M1 as A1 A2 A3 A4 A5. injection M2 as B1 B2 B3 B4 B5. injection M3 as C1 C2 C3 C4 C5. injection M4 as D1 D2 D3 D4 D5. cbn [r_novel new_rs] in *. unfold described.
  rewrite D1, C1, B1, A1, D2, C2, B2, A2, D3, C3, B3, A3, D4, C4, B4, A4, D5, C5, B5, A5. repeat split.
Qed.
Lemma described_meta : forall f styles title author desc n n1 n2, described f styles title author desc n n1 -> meta_of n2 = meta_of n1 -> described f styles title author desc n n2.
Proof. intros f styles title author desc n n1 n2 H E. unfold meta_of in E. injection E as E1 E2 E3 E4 E5. unfold described in *. now rewrite E1, E2, E3, E4, E5. Qed.
(** every document *)
Lemma structure_meta : forall h f n0, op_reader h f -> (forall ls c st st', K n0 ls st -> handle h st c = Ok st' -> K n0 (ls ++ heading_levels [c]) st') ->
  (forall c st st', plain_call c -> handle h st c = Ok st' -> meta_of (r_novel st') = meta_of (r_novel st)) ->
  nv_srtChapters n0 = [] -> nv_chapters n0 = [] -> nv_scenes n0 = [] ->
  forall styles title author desc es n', feed h (opening_calls styles title author desc) es n0 = Ok n' ->
  exists calls b, report new_ps es = Ok calls /\ is_book b n' /\ chapters_match (heading_levels calls) b /\ scenes_ok b /\ import_rest n' = import_rest n0 /\ described f styles title author desc n0 n'.
Proof.
  intros h f n0 R S1 S2 A B C styles title author desc es n' H. destruct (feed_report _ _ _ _ _ H) as (calls' & st & Rep & F & E). destruct (structure_of h n0 S1 A B C _ _ _ _ _ _ H) as (calls & b & Q1 & Q2 & Q3 & Q4 & Q5). exists calls, b. repeat (split; [assumption|]).
  destruct (opening_run h f styles title author desc n0 R) as (st0 & E0 & _ & D0). apply foldM_app_ok in F as (st1 & F1 & F2). rewrite E0 in F1. apply ok_eq in F1. subst st1 n'. eapply described_meta; [exact D0|]. eapply meta_steps; [exact S2 | | exact F2]. eapply plain_report; [exact Rep | apply plain_new].
Qed.
(** documents made of headings and paragraphs *)
Lemma import_document : forall tr styles title author desc doc n0, nv_srtChapters n0 = [] -> nv_chapters n0 = [] -> nv_scenes n0 = [] -> document_ok doc ->
  exists n', feed (import_reader tr) (opening_calls styles title author desc) (document doc) (set_nv_languages (Some []) n0) = Ok n' /\ is_book (import_book tr 0 doc) n' /\ import_rest n' = import_rest n0 /\
    described (fun x => x) styles title author desc n0 n'.
Proof.
  intros tr styles title author desc doc n0 A B C Hd. set (n1 := set_nv_languages (Some []) n0). destruct (opening_run _ _ styles title author desc n1 (op_import tr)) as (st0 & E0 & O0 & _).
  assert (S0 : St n1 [] None None (r_lines st0) st0). { destruct O0. constructor; try assumption; try reflexivity. constructor; try assumption; try (now left). exact (conj (eq_trans o_srt0 A) (conj (eq_trans o_chs0 B) (eq_trans o_scs0 C))). }
  destruct (sections_run tr n1 doc [] None None _ st0 S0 Hd) as (st1 & sc & k & L & E1 & S1).
  assert (F : feed (import_reader tr) (opening_calls styles title author desc) (document doc) n1 = Ok (r_novel st1)).
  { eapply feed_of_report; [apply wrapped_report; intros p Hp; apply (many_parse section_events section_calls section_parse doc p Hp)|]. apply foldM_app_ok. eauto. }
  exists (r_novel st1). split; [exact F|]. split; [apply (j_book _ _ _ (s_j _ _ _ _ _ _ S1))|]. split; [exact (eq_trans (j_rest _ _ _ (s_j _ _ _ _ _ _ S1)) eq_refl)|].
  destruct (structure_meta _ _ n1 (op_import tr) (import_step tr n1) (import_meta_step tr) A B C styles title author desc _ _ F) as (? & ? & _ & _ & _ & _ & _ & D). exact D.
Qed.
