(** Reading an exported manuscript: what happens outside the scene texts. *)
From Coq Require Import String List NArith ZArith Bool Lia Arith.
From Verif Require Import PyStr PyDict YwText WordCount NovelModel NovelOps OdfXml OdfXmlProofs OdtText OdtTextProofs OdtTextProofs2 SpecOdf SpecFormat SpecManuscript
  OdsRoundTrip3 ReadFrame ManuClean ManuEvents OdtRead ManuRead ManuMachine.
Import ListNotations.

Definition text_h : str := s "text:h". Definition text_section : str := s "text:section".
Definition Out (lang : dict str) (n : novel) (ch : option str) : ps * rs := (PS lang None false None [] [], RS n [] None ch []).
(** the chapter that is read has a title *)
Definition titled (n : novel) (ch : option str) : Prop := match ch with None => True | Some i => exists c t, dget i (nv_chapters n) = Some c /\ ch_title c = Some t end.
Lemma titled_safe : forall n ch T lng, titled n ch -> untitled (RS n T None ch lng) = false.
Proof. intros n [i|] T lng H; [|reflexivity]. destruct H as [c [t [H1 H2]]]. unfold untitled, RS. cbn [r_scId r_chId r_novel]. now rewrite H1, H2. Qed.

Section Walk.
Context {typ : Typ}.
Variable lang : dict str.
Implicit Types (n : novel) (ch : option str).

Lemma gfeed_none : forall st e, norm st = st -> safe st e = true -> feed_event H st e = Ok st -> gfeed st e = Ok st.
Proof. intros st e N S F. unfold gfeed. rewrite S, F. cbn [bind]. now rewrite N. Qed.
Lemma out_norm : forall n ch, norm (Out lang n ch) = Out lang n ch.
Proof. intros. unfold norm, Out. cbn [fst snd]. rewrite nl_RS1. reflexivity. Qed.
Lemma flush_out : forall u n ch, titled n ch -> flush u (Out lang n ch) = Ok (Out lang n ch).
Proof.
  intros u n ch Ht. destruct u as [|c u]; [reflexivity|]. cbn [flush]. apply gfeed_none; [apply out_norm | | reflexivity].
  cbn [safe Out fst snd]. rewrite titled_safe by exact Ht. reflexivity.
Qed.
(** tags without meaning *)
Definition dull_name (x : str) : bool :=
  negb (smem x [s "text:p"; s "text:span"; s "text:section"; s "office:annotation"; s "text:h"; s "text:list-item"; s "style:style"; s "style:text-properties"; s "text:s"]).
Definition dull (e : event) : bool := match e with Start x _ | End x => dull_name x | Data _ => true end.
Lemma dull_eqbs : forall x, dull_name x = true -> str_eqb x (s "text:p") = false /\ str_eqb x (s "text:span") = false /\ str_eqb x (s "text:section") = false /\ str_eqb x (s "office:annotation") = false /\
  str_eqb x (s "text:h") = false /\ str_eqb x (s "text:list-item") = false /\ str_eqb x (s "style:style") = false /\ str_eqb x (s "style:text-properties") = false /\ str_eqb x (s "text:s") = false.
Proof.
  intros x D. unfold dull_name in D. apply negb_true_iff in D. unfold smem in D. cbn [existsb] in D. repeat (apply orb_false_iff in D; destruct D as [? D]). repeat split; assumption.
Qed.
Lemma walk_dull : forall E u R n ch, forallb dull E = true -> titled n ch -> exists u', pfeed u (E ++ R) (Out lang n ch) = pfeed u' R (Out lang n ch).
Proof.
  induction E as [|e E IH]; intros u R n ch D Ht; [now exists u|]. cbn [forallb] in D. apply andb_true_iff in D as [D1 D2]. cbn [app].
  assert (G : is_data e = false -> gfeed (Out lang n ch) e = Ok (Out lang n ch)).
  { intro Dt. apply gfeed_none; [apply out_norm | |]; destruct e as [x a | x | t]; try discriminate; cbn [dull] in D1; apply dull_eqbs in D1 as [A1 [A2 [A3 [A4 [A5 [A6 [A7 [A8 A9]]]]]]]].
    - reflexivity.
    - unfold safe. change (p_count (fst (Out lang n ch))) with (@None nat). cbv iota. now rewrite A4.
    - unfold feed_event. cbn [parser_event]. unfold start_element. rewrite A1, A2, A3, A4, A5, A6, A7, A8, A9. reflexivity.
    - unfold feed_event. cbn [parser_event]. unfold end_element. rewrite A1, A2, A3, A4, A5, A6, A7. reflexivity. }
  destruct (is_data e) eqn:Dt.
  - destruct e as [x a | x | t]; try discriminate. rewrite pfeed_data. now apply IH.
  - rewrite pfeed_tag by exact Dt. rewrite flush_out by exact Ht. cbn [bind]. rewrite (G eq_refl). cbn [bind]. now apply IH.
Qed.

(** ** Headings and other paragraphs outside the scenes *)
Definition Head (h : str) n ch : ps * rs := (PS lang (Some h) false None [] [], RS n [] None ch []).
Definition Para n ch : ps * rs := (PS lang None true None [] [], RS n [] None ch []).
Lemma data_out : forall p n ch t, titled n ch -> p_count p = None -> p_comment p = [] -> gfeed (p, RS n [] None ch []) (Data t) = Ok (p, RS n [] None ch []).
Proof.
  intros p n ch t Ht Hc Hk. apply gfeed_none.
  - unfold norm. cbn [fst snd]. rewrite nl_RS1. f_equal. unfold np. rewrite Hc. destruct p. cbn in *. now subst.
  - cbn [safe snd]. rewrite titled_safe by exact Ht. reflexivity.
  - unfold feed_event. cbn [fst snd parser_event]. unfold characters. rewrite Hc.
    assert (G : handle H (RS n [] None ch []) (CData t) = Ok (RS n [] None ch [])) by (apply heading_data; [reflexivity | reflexivity | now apply titled_safe]).
    destruct (p_paragraph p); [cbn [bind foldM]; rewrite G; reflexivity|]. destruct (p_heading p); cbn [bind foldM]; [rewrite G|]; reflexivity.
Qed.
Lemma data_flush : forall p n ch t, titled n ch -> p_count p = None -> p_comment p = [] -> flush t (p, RS n [] None ch []) = Ok (p, RS n [] None ch []).
Proof. intros p n ch [|c t] Ht Hc Hk; [reflexivity|]. cbn [flush]. now apply data_out. Qed.
Definition heading_attrs (st l : str) : attrs := [(s "text:style-name", st); (s "text:outline-level", l)].
Lemma h_start : forall st l n ch, In l [s "1"; s "2"; s "3"] -> gfeed (Out lang n ch) (Start text_h (heading_attrs st l)) = Ok (Head (s "h" ++ l) n ch).
Proof.
  intros st l n ch Hl. unfold gfeed. cbn [safe]. unfold feed_event. cbn [fst snd parser_event Out].
  change (start_element text_h (heading_attrs st l) (PS lang None false None [] [])) with (@Ok (ps * list call) (PS lang (Some (s "h" ++ l)) false None [] [], [CStart (s "h" ++ l) [None]])). cbn [bind foldM handle H manuscript_reader OdtRead.h_start].
  assert (G : ms_start TYPE (s "h" ++ l) [None] (RS n [] None ch []) = Ok (RS n [] None ch [])) by (destruct Hl as [<- | [<- | [<- | []]]]; reflexivity). rewrite G. cbn [bind]. unfold norm. cbn [fst snd]. rewrite nl_RS1. reflexivity.
Qed.
Lemma h_end : forall l n ch, In l [s "1"; s "2"; s "3"] -> gfeed (Head (s "h" ++ l) n ch) (End text_h) = Ok (Out lang n ch).
Proof.
  intros l n ch Hl. unfold gfeed. change (safe (Head (s "h" ++ l) n ch) (End text_h)) with true. cbv iota. unfold feed_event. cbn [fst snd parser_event Head].
  change (end_element text_h (PS lang (Some (s "h" ++ l)) false None [] [])) with (PS lang None false None [] [], [CEnd (Some (s "h" ++ l))]). cbn [bind foldM handle H manuscript_reader OdtRead.h_end].
  assert (G : ms_end (Some (s "h" ++ l)) (RS n [] None ch []) = Ok (RS n [] None ch [])) by (destruct ch; destruct Hl as [<- | [<- | [<- | []]]]; reflexivity). rewrite G. cbn [bind]. unfold norm. cbn [fst snd]. rewrite nl_RS1. reflexivity.
Qed.
Lemma walk_h : forall u st l t R n ch, In l [s "1"; s "2"; s "3"] -> titled n ch -> pfeed u (Start text_h (heading_attrs st l) :: chars t ++ End text_h :: R) (Out lang n ch) = pfeed [] R (Out lang n ch).
Proof.
  intros u st l t R n ch Hl Ht. rewrite pfeed_tag by reflexivity. rewrite flush_out by exact Ht. cbn [bind]. rewrite h_start by exact Hl. cbn [bind]. unfold chars. rewrite pfeed_chars. rewrite pfeed_tag by reflexivity.
  unfold Head at 1. rewrite data_flush by (exact Ht || reflexivity). cbn [bind]. change (PS lang (Some (s "h" ++ l)) false None [] [], RS n [] None ch []) with (Head (s "h" ++ l) n ch). rewrite h_end by exact Hl. reflexivity.
Qed.
Definition para_attrs (st : str) : attrs := [(s "text:style-name", st)].
Lemma p_title : forall st n ch, In st [s "Title"; s "Subtitle"] -> dget st lang = None -> gfeed (Out lang n ch) (Start text_p (para_attrs st)) = Ok (Para n ch).
Proof.
  intros st n ch Hs Hl. unfold gfeed. cbn [safe]. unfold feed_event. cbn [fst snd parser_event Out].
  assert (E : start_element text_p (para_attrs st) (PS lang None false None [] []) = Ok (PS lang None true None [] [], [CStart (s "p") [None]])).
  { destruct Hs as [<- | [<- | []]]; unfold start_element; change (dget (s "text:style-name") (para_attrs ?x)) with (Some x); cbv iota zeta; change (p_lang (PS lang None false None [] [])) with lang.
    - change (dget (s "text:style-name") (para_attrs (s "Title"))) with (Some (s "Title")). cbv iota. rewrite Hl. reflexivity.
    - change (dget (s "text:style-name") (para_attrs (s "Subtitle"))) with (Some (s "Subtitle")). cbv iota. rewrite Hl. reflexivity. }
  rewrite E. cbn [bind foldM handle H manuscript_reader OdtRead.h_start].
  change (ms_start TYPE (s "p") [None] (RS n [] None ch [])) with (@Ok rs (RS n [] None ch [])). cbn [bind]. unfold norm. cbn [fst snd]. rewrite nl_RS1. reflexivity.
Qed.
Lemma p_title_end : forall n ch, gfeed (Para n ch) (End text_p) = Ok (Out lang n ch).
Proof.
  intros n ch. unfold gfeed. change (safe (Para n ch) (End text_p)) with true. cbv iota. unfold feed_event. cbn [fst snd parser_event Para].
  change (end_element text_p (PS lang None true None [] [])) with (PS lang None false None [] [], [CEnd (Some (s "p"))]). cbn [bind foldM handle H manuscript_reader OdtRead.h_end].
  assert (G : ms_end (Some (s "p")) (RS n [] None ch []) = Ok (RS n [] None ch [])) by (destruct ch; reflexivity). rewrite G. cbn [bind]. unfold norm. cbn [fst snd]. rewrite nl_RS1. reflexivity.
Qed.
Lemma walk_title : forall u st t R n ch, In st [s "Title"; s "Subtitle"] -> dget st lang = None -> titled n ch ->
  pfeed u (Start text_p (para_attrs st) :: chars t ++ End text_p :: R) (Out lang n ch) = pfeed [] R (Out lang n ch).
Proof.
  intros u st t R n ch Hs Hl Ht. rewrite pfeed_tag by reflexivity. rewrite flush_out by exact Ht. cbn [bind]. rewrite p_title by assumption. cbn [bind]. unfold chars. rewrite pfeed_chars. rewrite pfeed_tag by reflexivity.
  unfold Para at 1. rewrite data_flush by (exact Ht || reflexivity). cbn [bind]. change (PS lang None true None [] [], RS n [] None ch []) with (Para n ch). rewrite p_title_end. reflexivity.
Qed.
Lemma p_divider : forall n ch, gfeed (Out lang n ch) (Start text_p (para_attrs (s "Heading_20_4"))) = Ok (Head (s "h4") n ch).
Proof.
  intros n ch. unfold gfeed. cbn [safe]. unfold feed_event. cbn [fst snd parser_event Out].
  change (start_element text_p (para_attrs (s "Heading_20_4")) (PS lang None false None [] [])) with (@Ok (ps * list call) (PS lang (Some (s "h4")) false None [] [], [CStart (s "h4") [None]])).
  cbn [bind foldM handle H manuscript_reader OdtRead.h_start]. change (ms_start TYPE (s "h4") [None] (RS n [] None ch [])) with (@Ok rs (RS n [] None ch [])). cbn [bind]. unfold norm. cbn [fst snd]. rewrite nl_RS1. reflexivity.
Qed.
Lemma p_divider_end : forall n ch, gfeed (Head (s "h4") n ch) (End text_p) = Ok (Out lang n ch).
Proof.
  intros n ch. unfold gfeed. change (safe (Head (s "h4") n ch) (End text_p)) with true. cbv iota. unfold feed_event. cbn [fst snd parser_event Head].
  change (end_element text_p (PS lang (Some (s "h4")) false None [] [])) with (PS lang None false None [] [], [CEnd (Some (s "h4"))]). cbn [bind foldM handle H manuscript_reader OdtRead.h_end].
  assert (G : ms_end (Some (s "h4")) (RS n [] None ch []) = Ok (RS n [] None ch [])) by (destruct ch; reflexivity). rewrite G. cbn [bind]. unfold norm. cbn [fst snd]. rewrite nl_RS1. reflexivity.
Qed.
Lemma walk_divider : forall u t R n ch, titled n ch -> pfeed u (Start text_p (para_attrs (s "Heading_20_4")) :: chars t ++ End text_p :: R) (Out lang n ch) = pfeed [] R (Out lang n ch).
Proof.
  intros u t R n ch Ht. rewrite pfeed_tag by reflexivity. rewrite flush_out by exact Ht. cbn [bind]. rewrite p_divider. cbn [bind]. unfold chars. rewrite pfeed_chars. rewrite pfeed_tag by reflexivity.
  unfold Head at 1. rewrite data_flush by (exact Ht || reflexivity). cbn [bind]. change (PS lang (Some (s "h4")) false None [] [], RS n [] None ch []) with (Head (s "h4") n ch). rewrite p_divider_end. reflexivity.
Qed.

(** ** Sections *)
Lemma digits_all : forall i, forallb is_digit i = true -> digits i = i.
Proof. induction i as [|c i IH]; intro D; [reflexivity|]. cbn [forallb] in D. apply andb_true_iff in D as [D1 D2]. cbn [digits]. rewrite D1. now rewrite IH. Qed.
Lemma number_of : forall i, number_id i = true -> number_in (s "ChID:" ++ i) = Ok i /\ number_in (s "ScID:" ++ i) = Ok i.
Proof.
  intros [|c i] D; [discriminate|]. cbn [number_id] in D. assert (E : first_number (c :: i) = Some (c :: i)).
  { unfold first_number. pose proof D as D0. cbn [forallb] in D0. apply andb_true_iff in D0 as [-> _]. now rewrite digits_all. }
  split; unfold number_in.
  - change (first_number (s "ChID:" ++ c :: i)) with (first_number (c :: i)). now rewrite E.
  - change (first_number (s "ScID:" ++ c :: i)) with (first_number (c :: i)). now rewrite E.
Qed.
Definition div_attr (x : str) : list attr := [Some (s "id", Some x)].
Definition section_attrs (x : str) : attrs := [(s "text:style-name", s "Sect1"); (s "text:name", x)].
Lemma section_start : forall x n ch, start_element text_section (section_attrs x) (PS lang None false None [] []) = Ok (PS lang None false None [] [], [CStart (s "div") (div_attr x)]).
Proof. reflexivity. Qed.
Lemma chapter_start : forall i c n ch, number_id i = true -> dget i (nv_chapters n) = Some c -> ch_type c = Some TYPE ->
  gfeed (Out lang n ch) (Start text_section (section_attrs (s "ChID:" ++ i))) = Ok (Out lang n (Some i)).
Proof.
  intros i c n ch Hi Hc Ht. unfold gfeed. cbn [safe]. unfold feed_event. cbn [fst snd parser_event Out]. rewrite section_start by assumption. cbn [bind foldM handle H manuscript_reader OdtRead.h_start].
  assert (G : ms_start TYPE (s "div") (div_attr (s "ChID:" ++ i)) (RS n [] None ch []) = Ok (RS n [] None (Some i) [])).
  { unfold ms_start, base_start. change (str_eqb (s "div") (s "div")) with true. cbv iota. cbn [first_attr bind div_attr]. change (str_eqb (s "id") (s "id")) with true. cbv iota.
    change (prefixb (s "ScID") (s "ChID:" ++ i)) with false. change (prefixb (s "ChID") (s "ChID:" ++ i)) with true. cbv iota. rewrite (proj1 (number_of i Hi)). cbn [bind].
    change (set_r_chId (Some i) (RS n [] None ch [])) with (RS n [] None (Some i) []). change (r_novel (RS n [] None (Some i) [])) with n.
    assert (M : dmem i (nv_chapters n) = true) by (exact (ReadFrame.dget_dmem _ _ _ Hc)). rewrite M. rewrite (same_chapter (RS n [] None (Some i) []) i c); [reflexivity | exact Hc |].
    destruct c. cbn in *. now subst. }
  rewrite G. cbn [bind]. unfold norm. cbn [fst snd]. rewrite nl_RS1. reflexivity.
Qed.
Lemma walk_chapter_start : forall u R i c n, number_id i = true -> dget i (nv_chapters n) = Some c -> ch_type c = Some TYPE ->
  pfeed u (Start text_section (section_attrs (s "ChID:" ++ i)) :: R) (Out lang n None) = pfeed [] R (Out lang n (Some i)).
Proof. intros u R i c n H1 H2 H3. rewrite pfeed_tag by reflexivity. rewrite flush_out by exact I. cbn [bind]. rewrite (chapter_start i c) by assumption. reflexivity. Qed.
Lemma walk_chapter_end : forall u R i n, titled n (Some i) -> pfeed u (End text_section :: R) (Out lang n (Some i)) = pfeed [] R (Out lang n None).
Proof.
  intros u R i n Ht. rewrite pfeed_tag by reflexivity. rewrite flush_out by exact Ht. cbn [bind].
  assert (G : gfeed (Out lang n (Some i)) (End text_section) = Ok (Out lang n None)).
  { unfold gfeed. change (safe (Out lang n (Some i)) (End text_section)) with true. cbv iota. unfold feed_event. cbn [fst snd parser_event Out].
    change (end_element text_section (PS lang None false None [] [])) with (PS lang None false None [] [], [CEnd (Some (s "div"))]). cbn [bind foldM handle H manuscript_reader OdtRead.h_end].
    change (ms_end (Some (s "div")) (RS n [] None (Some i) [])) with (@Ok rs (RS n [] None None [])). cbn [bind]. unfold norm. cbn [fst snd]. rewrite nl_RS1. reflexivity. }
  rewrite G. reflexivity.
Qed.
Lemma same_scene : forall r i c (f : scene -> scene), dget i (nv_scenes (r_novel r)) = Some c -> f c = c -> on_scene (Some i) f r = Ok r.
Proof.
  intros r i c f E F. unfold on_scene. cbn [key bind]. unfold dindex. rewrite E. cbn [bind]. rewrite F. rewrite dset_same by exact E. destruct r as [n ? ? ? ? ? ? ? ? ? ? ? ?]. destruct n. reflexivity.
Qed.
Lemma scene_start : forall i x n ch, number_id i = true -> dget i (nv_scenes n) = Some x -> sc_type x = Some TYPE ->
  gfeed (Out lang n ch) (Start text_section (section_attrs (s "ScID:" ++ i))) = Ok (PS lang None false None [] [], RS n [] (Some i) ch []).
Proof.
  intros i x n ch Hi Hx Ht. unfold gfeed. cbn [safe]. unfold feed_event. cbn [fst snd parser_event Out]. rewrite section_start by assumption. cbn [bind foldM handle H manuscript_reader OdtRead.h_start].
  assert (G : ms_start TYPE (s "div") (div_attr (s "ScID:" ++ i)) (RS n [] None ch []) = Ok (RS n [] (Some i) ch [])).
  { unfold ms_start, base_start. change (str_eqb (s "div") (s "div")) with true. cbv iota. cbn [first_attr bind div_attr]. change (str_eqb (s "id") (s "id")) with true. cbv iota.
    change (prefixb (s "ScID") (s "ScID:" ++ i)) with true. cbv iota. rewrite (proj2 (number_of i Hi)). cbn [bind].
    change (set_r_scId (Some i) (RS n [] None ch [])) with (RS n [] (Some i) ch []). change (r_novel (RS n [] (Some i) ch [])) with n.
    assert (M : dmem i (nv_scenes n) = true) by (exact (ReadFrame.dget_dmem _ _ _ Hx)). rewrite M. cbn [bind]. rewrite (same_scene (RS n [] (Some i) ch []) i x); [reflexivity | exact Hx |].
    destruct x. cbn in *. now subst. }
  rewrite G. cbn [bind]. unfold norm. cbn [fst snd]. rewrite nl_RS1. reflexivity.
Qed.
Lemma scene_end : forall i x t n ch T ls, dget i (nv_scenes n) = Some x -> nv_languages n = Some ls -> rstrip (cleanup_scene ls T) = t ->
  gfeed (PS lang None false None [] [], RS n T (Some i) ch []) (End text_section) = Ok (Out lang (set_nv_scenes (dset i (set_sceneContent t x) (nv_scenes n)) n) ch).
Proof.
  intros i x t n ch T ls Hx Hl Ht. unfold gfeed. change (safe (PS lang None false None [] [], RS n T (Some i) ch []) (End text_section)) with true. cbv iota. unfold feed_event. cbn [fst snd parser_event].
  change (end_element text_section (PS lang None false None [] [])) with (PS lang None false None [] [], [CEnd (Some (s "div"))]). cbn [bind foldM handle H manuscript_reader OdtRead.h_end].
  assert (G : ms_end (Some (s "div")) (RS n T (Some i) ch []) = Ok (set_r_scId None (set_r_lines [] (RS (set_nv_scenes (dset i (set_sceneContent t x) (nv_scenes n)) n) T (Some i) ch [])))).
  { unfold ms_end. change (r_scId (RS n T (Some i) ch [])) with (Some i). cbv iota. change (tag_in (Some (s "div")) [s "p"; s "blockquote"]) with false. change (tag_is (Some (s "div")) (s "em")) with false. change (tag_is (Some (s "div")) (s "strong")) with false.
    change (tag_is (Some (s "div")) (s "lang")) with false. change (tag_is (Some (s "div")) (s "div")) with true. cbv iota. unfold OdtRead.languages. change (r_novel (RS n T (Some i) ch [])) with n. rewrite Hl. cbn [bind].
    change (r_lines (RS n T (Some i) ch [])) with [T]. cbn [concat]. rewrite app_nil_r, Ht. unfold on_scene. cbn [key bind]. unfold dindex. change (r_novel (RS n T (Some i) ch [])) with n. rewrite Hx. cbn [bind]. reflexivity. }
  rewrite G. cbn [bind]. reflexivity.
Qed.
End Walk.
