(** Reading an exported scene text: what the reader collects. *)
From Coq Require Import String List NArith ZArith Bool Lia Arith.
From Verif Require Import PyStr PyDict YwText WordCount WordCountProofs NovelModel NovelOps OdfXml OdfXmlProofs OdtText OdtTextProofs OdtTextProofs2 SpecOdf SpecFormat SpecManuscript
  FormatWords FormatLines FormatRun FormatXml FormatXml5 FormatProofs ManuText ManuClean ManuEvents OdtRead ManuRead.
Import ListNotations.

(** the states of parser and reader *)
Definition PQ (quote : bool) (lang : dict str) (heading : option str) (para : bool) (count : option nat) (comment : str) (span : list str) : ps :=
  mkPs [s "Emphasis"] [s "Strong_20_Emphasis"] [s "Quotations"] lang [] heading para count comment quote false span None.
Definition PS : dict str -> option str -> bool -> option nat -> str -> list str -> ps := PQ false.
Definition RS (n : novel) (T : str) (sc ch : option str) (lng : str) : rs := mkRs n [T] sc ch lng false false 0 0 None None None None.

Lemma nl_RS : forall n a b sc ch lng, nl (mkRs n [a; b] sc ch lng false false 0 0 None None None None) = RS n (a ++ b) sc ch lng.
Proof. intros. unfold nl, RS. cbn. now rewrite app_nil_r. Qed.
Lemma nl_put : forall u n T sc ch lng, nl (put_line u (RS n T sc ch lng)) = RS n (T ++ u) sc ch lng.
Proof. intros. unfold nl, RS, put_line. cbn. now rewrite app_nil_r. Qed.
Lemma nl_RS1 : forall n a sc ch lng, nl (RS n a sc ch lng) = RS n a sc ch lng.
Proof. intros. unfold nl, RS. cbn. now rewrite app_nil_r. Qed.
Lemma np_PS : forall lang heading para span, np (PS lang heading para None [] span) = PS lang heading para None [] span.
Proof. reflexivity. Qed.
Lemma np_PQ : forall q lang heading para span, np (PQ q lang heading para None [] span) = PQ q lang heading para None [] span.
Proof. reflexivity. Qed.

Section Machine.
Context {typ : Typ}.
Variables (author : str) (languages : list str) (lang : dict str).
(** what the styles mean *)
Hypothesis lang_find : forall l, In l languages -> dget (style_of languages (s "lang=" ++ l)) lang = Some l.
Hypothesis lang_none : forall x, In x [s "Emphasis"; s "Strong_20_Emphasis"; s "Text_20_body"; s "First_20_line_20_indent"; s "Quotations"] -> dget x lang = None.
Hypothesis lang_style : forall l, In l languages -> smem (style_of languages (s "lang=" ++ l)) [s "Emphasis"; s "Strong_20_Emphasis"] = false.
Hypothesis lang_name : forall l, In l languages -> l <> [].
Variables (n : novel) (i : str) (ch : option str).
Let tags := tags_of languages.
Let style := style_of languages.

Definition kind (t : str) : str := if is_language t then s "lang" else if str_eqb t (s "i") then s "em" else s "strong".
Fixpoint lng (sp : list str) : str := match sp with [] => [] | t :: r => if is_language t then skipn 5 t else lng r end.
Definition nset (ls : list str) : novel := set_nv_languages (Some ls) n.
(** in a paragraph, which may be a quotation *)
Section Paragraph.
Variable quote : bool.
Definition inP (sp : list str) : ps := PQ quote lang None true None [] (map kind sp).
Definition inR (ls : list str) (T : str) (sp : list str) : rs := RS (nset ls) T (Some i) ch (lng sp).
Definition St (sp ls : list str) (T : str) : ps * rs := (inP sp, inR ls T sp).
Definition learn (t : str) (ls : list str) : list str := if is_language t then add_language ls (skipn 5 t) else ls.

Lemma tag_cases : forall t, In t tags -> t = s "i" \/ t = s "b" \/ exists l, In l languages /\ t = s "lang=" ++ l.
Proof. intros t [<- | [<- | Ht]]; [now left | right; now left|]. right. right. apply in_map_iff in Ht as [l [<- Hl]]. now exists l. Qed.
Lemma flush_in : forall u sp ls T, white u = false -> flush u (St sp ls T) = Ok (St sp ls (T ++ u)).
Proof.
  intros u sp ls T Hu. destruct u as [|c u]; [now rewrite app_nil_r|]. cbn [flush]. unfold gfeed, St, safe. cbn [snd fst]. change (r_skip (inR ls T sp)) with false. change (untitled (inR ls T sp)) with false.
  cbn [negb andb]. unfold feed_event. cbn [fst snd parser_event]. unfold characters. change (p_count (inP sp)) with (@None nat). change (p_paragraph (inP sp)) with true. cbv iota. cbn [bind foldM handle H manuscript_reader h_data].
  unfold ms_data. change (r_skip (inR ls T sp)) with false. change (r_scId (inR ls T sp)) with (Some i). cbv iota. change (isspace (c :: u)) with (white (c :: u)). rewrite Hu. cbn [bind]. unfold norm. cbn [fst snd].
  unfold inP at 1. rewrite np_PQ. unfold inR at 1. rewrite nl_put. reflexivity.
Qed.

Lemma span_start : forall x sp, start_element text_span [(style_name, x)] (inP sp) =
  let '(p, c1) := emphasis x (inP sp) in
  match dget x (p_lang p) with Some l => Ok (set_p_span (s "lang" :: p_span p) p, c1 ++ [CStart (s "lang") [Some (s "lang", Some l)]]) | None => Ok (p, c1) end.
Proof. reflexivity. Qed.
Lemma em_i : forall sp, emphasis (s "Emphasis") (inP sp) = (inP (s "i" :: sp), [CStart (s "em") [None]]).
Proof. reflexivity. Qed.
Lemma em_b : forall sp, emphasis (s "Strong_20_Emphasis") (inP sp) = (inP (s "b" :: sp), [CStart (s "strong") [None]]).
Proof. reflexivity. Qed.
Lemma em_no : forall x sp, smem x [s "Emphasis"; s "Strong_20_Emphasis"] = false -> emphasis x (inP sp) = (inP sp, []).
Proof.
  intros x sp Hx. unfold emphasis. change (p_em (inP sp)) with [s "Emphasis"]. unfold smem in *. cbn [existsb] in *. apply orb_false_iff in Hx as [-> Hx]. rewrite orb_false_r in *. cbn [orb]. 
  change (p_strong (inP sp)) with [s "Strong_20_Emphasis"]. cbn [existsb]. rewrite Hx. reflexivity.
Qed.
Lemma is_lang : forall l, is_language (s "lang=" ++ l) = true /\ skipn 5 (s "lang=" ++ l) = l.
Proof. intro l. split; reflexivity. Qed.
Lemma step_open : forall t sp ls T, In t tags -> gfeed (St sp ls T) (Start text_span [(style_name, style t)]) = Ok (St (t :: sp) (learn t ls) (T ++ box t)).
Proof.
  intros t sp ls T Ht. unfold gfeed, St. cbn [safe]. unfold feed_event. cbn [fst snd parser_event]. rewrite span_start.
  destruct (tag_cases t Ht) as [-> | [-> | [l [Hl ->]]]].
  - change (style (s "i")) with (s "Emphasis"). rewrite em_i. cbv iota beta. change (p_lang _) with lang. rewrite lang_none by now left.
    cbn [bind app foldM handle H manuscript_reader h_start]. change (ms_start TYPE (s "em") [None] (inR ls T sp)) with (@Ok rs (put_line (s "[i]") (inR ls T sp))). cbn [bind]. unfold norm. cbn [fst snd]. unfold inR at 1. rewrite nl_put. reflexivity.
  - change (style (s "b")) with (s "Strong_20_Emphasis"). rewrite em_b. cbv iota beta. change (p_lang _) with lang. rewrite lang_none by (right; now left).
    cbn [bind app foldM handle H manuscript_reader h_start]. change (ms_start TYPE (s "strong") [None] (inR ls T sp)) with (@Ok rs (put_line (s "[b]") (inR ls T sp))). cbn [bind]. unfold norm. cbn [fst snd]. unfold inR at 1. rewrite nl_put. reflexivity.
  - unfold style. rewrite em_no by now apply lang_style. cbv iota beta. change (p_lang _) with lang. rewrite lang_find by exact Hl.
    cbn [bind app foldM handle H manuscript_reader h_start].
    change (ms_start TYPE (s "lang") [Some (s "lang", Some l)] (inR ls T sp)) with (@Ok rs (put_line (s "[lang=" ++ l ++ s "]") (RS (nset (add_language ls l)) T (Some i) ch l))). cbn [bind]. unfold norm. cbn [fst snd]. rewrite nl_put. reflexivity.
Qed.
Lemma step_close : forall t sp ls T, In t tags -> (is_language t = true -> lng sp = []) -> gfeed (St (t :: sp) ls T) (End text_span) = Ok (St sp ls (T ++ box (47%N :: t))).
Proof.
  intros t sp ls T Ht Hl. unfold gfeed, St. change (safe (inP (t :: sp), inR ls T (t :: sp)) (End text_span)) with true. cbv iota. unfold feed_event. cbn [fst snd parser_event].
  change (end_element text_span (inP (t :: sp))) with (inP sp, [CEnd (Some (kind t))]). cbn [bind foldM handle H manuscript_reader h_end].
  destruct (tag_cases t Ht) as [-> | [-> | [l [Hi ->]]]].
  - change (ms_end (Some (kind (s "i"))) (inR ls T (s "i" :: sp))) with (@Ok rs (put_line (s "[/i]") (inR ls T sp))). cbn [bind]. unfold norm. cbn [fst snd]. unfold inR at 1. rewrite nl_put. reflexivity.
  - change (ms_end (Some (kind (s "b"))) (inR ls T (s "b" :: sp))) with (@Ok rs (put_line (s "[/b]") (inR ls T sp))). cbn [bind]. unfold norm. cbn [fst snd]. unfold inR at 1. rewrite nl_put. reflexivity.
  - change (ms_end (Some (kind (s "lang=" ++ l))) (inR ls T ((s "lang=" ++ l) :: sp))) with (@Ok rs (close_language (RS (nset ls) T (Some i) ch l))). unfold close_language. change (r_language (RS (nset ls) T (Some i) ch l)) with l.
    pose proof (lang_name l Hi) as Hn. destruct l as [|c l]; [congruence|]. cbn [truthy bind]. unfold norm. cbn [fst snd]. unfold put_line, set_r_language, set_r_lines, RS. cbn [r_lines r_novel r_scId r_chId r_skip r_heading r_chCount r_scCount r_crId r_section r_itId r_lcId app].
    rewrite nl_RS. rewrite <- (Hl eq_refl). reflexivity.
Qed.
(** between two paragraphs *)
Lemma end_para : forall ls T, gfeed (St [] ls T) (End text_p) = Ok (PS lang None false None [] [], RS (nset ls) (T ++ [10%N]) (Some i) ch []).
Proof.
  intros ls T. unfold gfeed, St. change (safe (inP [], inR ls T []) (End text_p)) with true. cbv iota. unfold feed_event. cbn [fst snd parser_event].
  assert (E : end_element text_p (inP []) = (PS lang None false None [] [], [CEnd (Some (if quote then s "blockquote" else s "p"))])) by (unfold inP; destruct quote; reflexivity). rewrite E. cbn [bind foldM handle H manuscript_reader h_end].
  assert (E2 : ms_end (Some (if quote then s "blockquote" else s "p")) (inR ls T []) = Ok (put_line [10%N] (inR ls T []))) by (destruct quote; reflexivity). rewrite E2. cbn [bind]. unfold norm. cbn [fst snd]. unfold inR. rewrite nl_put. reflexivity.
Qed.
Lemma pfeed_open : forall u t R sp ls T, In t tags -> white u = false -> pfeed u (Start text_span [(style_name, style t)] :: R) (St sp ls T) = pfeed [] R (St (t :: sp) (learn t ls) (T ++ u ++ box t)).
Proof. intros u t R sp ls T Ht Hu. rewrite pfeed_tag by reflexivity. rewrite flush_in by exact Hu. cbn [bind]. rewrite step_open by exact Ht. cbn [bind]. now rewrite app_assoc. Qed.
Lemma pfeed_close : forall u t R sp ls T, In t tags -> (is_language t = true -> lng sp = []) -> white u = false -> pfeed u (End text_span :: R) (St (t :: sp) ls T) = pfeed [] R (St sp ls (T ++ u ++ box (47%N :: t))).
Proof. intros u t R sp ls T Ht Hl Hu. rewrite pfeed_tag by reflexivity. rewrite flush_in by exact Hu. cbn [bind]. rewrite step_close by assumption. cbn [bind]. now rewrite app_assoc. Qed.
(** a comment *)
Definition comP (sp : list str) (k : nat) (x : str) : ps := PQ quote lang None true (Some k) x (map kind sp).
Definition Co (sp ls : list str) (T : str) (k : nat) (x : str) : ps * rs := (comP sp k x, inR ls T sp).
Lemma com_norm : forall sp ls T k x, norm (Co sp ls T k x) = Co sp ls T k x.
Proof. intros. unfold norm, Co. cbn [fst snd]. unfold inR. rewrite nl_RS1. reflexivity. Qed.
Lemma com_open : forall sp ls T, gfeed (St sp ls T) (Start annotation []) = Ok (Co sp ls T 0 []).
Proof.
  intros. unfold gfeed. cbn [safe]. unfold feed_event, St. cbn [fst snd parser_event]. change (start_element annotation [] (inP sp)) with (@Ok (ps * list call) (comP sp 0 [], [])). cbn [bind foldM].
  change (comP sp 0 [], inR ls T sp) with (Co sp ls T 0 []). now rewrite com_norm.
Qed.
Lemma com_creator : forall sp ls T, gfeed (Co sp ls T 0 []) (Start dc_creator []) = Ok (Co sp ls T 0 []).
Proof.
  intros. unfold gfeed. cbn [safe]. unfold feed_event, Co. cbn [fst snd parser_event]. change (start_element dc_creator [] (comP sp 0 [])) with (@Ok (ps * list call) (comP sp 0 [], [])). cbn [bind foldM].
  change (comP sp 0 [], inR ls T sp) with (Co sp ls T 0 []). now rewrite com_norm.
Qed.
Lemma com_name : forall u sp ls T, flush u (Co sp ls T 0 []) = Ok (Co sp ls T 0 []).
Proof.
  intros u sp ls T. destruct u as [|c u]; [reflexivity|]. cbn [flush]. unfold gfeed. change (safe (Co sp ls T 0 []) (Data (c :: u))) with true. cbv iota. unfold feed_event, Co. cbn [fst snd parser_event].
  change (characters (c :: u) (comP sp 0 [])) with (comP sp 0 [], @nil call). cbn [bind foldM]. change (comP sp 0 [], inR ls T sp) with (Co sp ls T 0 []). now rewrite com_norm.
Qed.
Lemma com_creator_end : forall sp ls T, gfeed (Co sp ls T 0 []) (End dc_creator) = Ok (Co sp ls T 0 []).
Proof.
  intros. unfold gfeed. change (safe (Co sp ls T 0 []) (End dc_creator)) with true. cbv iota. unfold feed_event, Co. cbn [fst snd parser_event]. change (end_element dc_creator (comP sp 0 [])) with (comP sp 0 [], @nil call). cbn [bind foldM].
  change (comP sp 0 [], inR ls T sp) with (Co sp ls T 0 []). now rewrite com_norm.
Qed.
Lemma com_para : forall sp ls T, gfeed (Co sp ls T 0 []) (Start text_p []) = Ok (Co sp ls T 1 []).
Proof.
  intros. unfold gfeed. cbn [safe]. unfold feed_event, Co. cbn [fst snd parser_event].
  assert (E : start_element text_p [] (comP sp 0 []) = Ok (comP sp 1 [], [])).
  { unfold start_element. change (str_eqb text_p (s "text:p")) with true. cbv iota zeta. change (p_count (comP sp 0 [])) with (Some 0). cbv iota. reflexivity. }
  rewrite E. cbn [bind foldM]. change (comP sp 1 [], inR ls T sp) with (Co sp ls T 1 []). now rewrite com_norm.
Qed.
Lemma com_text : forall u sp ls T, flush u (Co sp ls T 1 []) = Ok (Co sp ls T 1 u).
Proof.
  intros u sp ls T. destruct u as [|c u]; [reflexivity|]. cbn [flush]. unfold gfeed. change (safe (Co sp ls T 1 []) (Data (c :: u))) with true. cbv iota. unfold feed_event, Co. cbn [fst snd parser_event].
  change (characters (c :: u) (comP sp 1 [])) with (comP sp 1 (c :: u), @nil call). cbn [bind foldM]. change (comP sp 1 (c :: u), inR ls T sp) with (Co sp ls T 1 (c :: u)). now rewrite com_norm.
Qed.
Lemma com_para_end : forall u sp ls T, gfeed (Co sp ls T 1 u) (End text_p) = Ok (Co sp ls T 1 u).
Proof.
  intros. unfold gfeed. change (safe (Co sp ls T 1 u) (End text_p)) with true. cbv iota. unfold feed_event, Co. cbn [fst snd parser_event]. change (end_element text_p (comP sp 1 u)) with (comP sp 1 u, @nil call). cbn [bind foldM].
  change (comP sp 1 u, inR ls T sp) with (Co sp ls T 1 u). now rewrite com_norm.
Qed.
Lemma com_end : forall u sp ls T, containsb (s "~") u = false -> PyStr.strip u = u -> gfeed (Co sp ls T 1 u) (End annotation) = Ok (St sp ls (T ++ typed1 (Com u))).
Proof.
  intros u sp ls T Ht Hs. unfold gfeed. change (safe (Co sp ls T 1 u) (End annotation)) with true. cbv iota. unfold feed_event, Co. cbn [fst snd parser_event].
  change (end_element annotation (comP sp 1 u)) with (PQ quote lang None true None u (map kind sp), [CComment u]). cbn [bind foldM handle H manuscript_reader h_comment]. unfold ms_comment. change (r_scId (inR ls T sp)) with (Some i). cbv iota.
  unfold bracketed. change SC_TITLE_BRACKET with (s "~"). rewrite Ht, Hs. cbn [bind]. unfold norm. cbn [fst snd]. unfold inR at 1. rewrite nl_put. reflexivity.
Qed.
Lemma pfeed_note : forall u t R sp ls T, white u = false -> containsb (s "~") t = false -> PyStr.strip t = t ->
  pfeed u (ev_open author ++ chars t ++ [End text_p; End annotation] ++ R) (St sp ls T) = pfeed [] R (St sp ls (T ++ u ++ typed1 (Com t))).
Proof.
  intros u t R sp ls T Hu Ht Hs. unfold ev_open. rewrite <- !app_assoc. cbn [app]. rewrite pfeed_tag by reflexivity. rewrite flush_in by exact Hu. cbn [bind]. rewrite com_open. cbn [bind].
  rewrite pfeed_tag by reflexivity. cbn [flush bind]. rewrite com_creator. cbn [bind]. unfold chars at 1. rewrite pfeed_chars. rewrite pfeed_tag by reflexivity. rewrite com_name. cbn [bind]. rewrite com_creator_end. cbn [bind].
  rewrite pfeed_tag by reflexivity. cbn [flush bind]. rewrite com_para. cbn [bind]. unfold chars. rewrite pfeed_chars. cbn [app]. rewrite pfeed_tag by reflexivity. rewrite com_text. cbn [bind]. rewrite com_para_end. cbn [bind].
  rewrite pfeed_tag by reflexivity. cbn [flush bind]. rewrite com_end by assumption. cbn [bind]. now rewrite app_assoc.
Qed.

End Paragraph.
Lemma between : forall u ls T, flush u (PS lang None false None [] [], RS (nset ls) T (Some i) ch []) = Ok (PS lang None false None [] [], RS (nset ls) T (Some i) ch []).
Proof.
  intros u ls T. destruct u as [|c u]; [reflexivity|]. cbn [flush]. unfold gfeed.
  change (safe (PS lang None false None [] [], RS (nset ls) T (Some i) ch []) (Data (c :: u))) with true. cbv iota. unfold feed_event. cbn [fst snd parser_event bind].
  change (characters (c :: u) (PS lang None false None [] [])) with (PS lang None false None [] [], @nil call). cbn [foldM bind]. unfold norm. cbn [fst snd]. rewrite nl_RS1. reflexivity.
Qed.
Lemma start_para : forall a ls T, a = a_first \/ a = a_body ->
  gfeed (PS lang None false None [] [], RS (nset ls) T (Some i) ch []) (Start text_p a) = Ok (St false [] ls T).
Proof.
  intros a ls T Ha. unfold gfeed. cbn [safe]. unfold feed_event. cbn [fst snd parser_event].
  assert (E : start_element text_p a (PS lang None false None [] []) = Ok (inP false [], [CStart (s "p") [None]])).
  { assert (G : forall x, dget x lang = None -> prefixb (s "Heading") x = false -> smem x [s "Quotations"] = false -> smem x [s "Emphasis"; s "Strong_20_Emphasis"] = false ->
      start_element text_p [(s "text:style-name", x)] (PS lang None false None [] []) = Ok (inP false [], [CStart (s "p") [None]])).
    { intros x H1 H2 H3 H4. unfold start_element. change (dget (s "text:style-name") [(s "text:style-name", x)]) with (Some x). cbv iota zeta. change (str_eqb text_p (s "text:p")) with true. cbv iota.
      change (p_lang (PS lang None false None [] [])) with lang. rewrite H1. change (p_count (PS lang None false None [] [])) with (@None nat). cbv iota. change (p_quote (PS lang None false None [] [])) with [s "Quotations"]. rewrite H3, H2.
      change (dget x (p_head (PS lang None false None [] []))) with (@None str). cbv iota. change (p_list (PS lang None false None [] [])) with false. cbv iota.
      change (set_p_paragraph true (PS lang None false None [] [])) with (inP false []). rewrite (em_no false x [] H4). reflexivity. }
    destruct Ha as [-> | ->]; apply G; try reflexivity; apply lang_none; [do 3 right; now left | do 2 right; now left]. }
  rewrite E. cbn [bind foldM handle H manuscript_reader h_start]. change (ms_start TYPE (s "p") [None] (RS (nset ls) T (Some i) ch [])) with (@Ok rs (RS (nset ls) T (Some i) ch [])). cbn [bind]. unfold norm. cbn [fst snd].
  rewrite nl_RS1. reflexivity.
Qed.
Lemma start_quote : forall ls T, gfeed (PS lang None false None [] [], RS (nset ls) T (Some i) ch []) (Start text_p a_quote) = Ok (St true [] ls (T ++ s "> ")).
Proof.
  intros ls T. unfold gfeed. cbn [safe]. unfold feed_event. cbn [fst snd parser_event].
  assert (E : start_element text_p a_quote (PS lang None false None [] []) = Ok (inP true [], [CStart (s "blockquote") [None]])).
  { unfold start_element. change (dget (s "text:style-name") a_quote) with (Some (s "Quotations")). cbv iota zeta. change (str_eqb text_p (s "text:p")) with true. cbv iota.
    change (p_lang (PS lang None false None [] [])) with lang. rewrite lang_none by (do 4 right; now left). reflexivity. }
  rewrite E. cbn [bind foldM handle H manuscript_reader h_start]. change (ms_start TYPE (s "blockquote") [None] (RS (nset ls) T (Some i) ch [])) with (@Ok rs (put_line (s "> ") (RS (nset ls) T (Some i) ch []))). cbn [bind]. unfold norm. cbn [fst snd].
  rewrite nl_put. reflexivity.
Qed.
Lemma pfeed_brk : forall q u a R ls T, a = a_first \/ a = a_body -> white u = false -> pfeed u (brk_ev a ++ R) (St q [] ls T) = pfeed [] R (St false [] ls (T ++ u ++ [10%N])).
Proof.
  intros q u a R ls T Ha Hu. unfold brk_ev. cbn [app]. rewrite pfeed_tag by reflexivity. rewrite flush_in by exact Hu. cbn [bind]. rewrite end_para. cbn [bind]. rewrite pfeed_data. rewrite pfeed_tag by reflexivity.
  rewrite between. cbn [bind]. rewrite start_para by exact Ha. cbn [bind]. now rewrite app_assoc.
Qed.
Lemma pfeed_quote : forall q u R ls T, white u = false -> pfeed u (brk_ev a_quote ++ R) (St q [] ls T) = pfeed [] R (St true [] ls (T ++ u ++ [10%N] ++ s "> ")).
Proof.
  intros q u R ls T Hu. unfold brk_ev. cbn [app]. rewrite pfeed_tag by reflexivity. rewrite flush_in by exact Hu. cbn [bind]. rewrite end_para. cbn [bind]. rewrite pfeed_data. rewrite pfeed_tag by reflexivity.
  rewrite between. cbn [bind]. rewrite start_quote. cbn [bind]. now rewrite <- !app_assoc.
Qed.
Fixpoint langs_ok (sp : list str) : Prop := match sp with [] => True | t :: r => (is_language t = true -> lng r = []) /\ langs_ok r end.
Lemma no_lng : forall sp, existsb is_language sp = false -> lng sp = [].
Proof. induction sp as [|t r IH]; intro E; [reflexivity|]. cbn [existsb] in E. apply orb_false_iff in E as [E1 E2]. cbn [lng]. rewrite E1. now apply IH. Qed.
Lemma learn_incl : forall t ls, incl ls (learn t ls).
Proof. intros t ls. unfold learn, add_language. destruct (is_language t); [|apply incl_refl]. destruct (smem _ ls); [apply incl_refl|]. intros x Hx. apply in_app_iff. now left. Qed.
Lemma learn_in : forall l ls, In l (learn (s "lang=" ++ l) ls).
Proof. intros l ls. unfold learn. destruct (is_lang l) as [-> ->]. unfold add_language. destruct (smem l ls) eqn:E; [now apply smem_In|]. apply in_app_iff. right. now left. Qed.
Lemma learn_known : forall t ls, In t tags -> incl ls languages -> incl (learn t ls) languages.
Proof.
  intros t ls Ht Hi. destruct (tag_cases t Ht) as [-> | [-> | [l [Hl ->]]]]; try exact Hi. unfold learn. destruct (is_lang l) as [-> ->]. unfold add_language. destruct (smem l ls); [exact Hi|].
  intros x Hx. apply in_app_iff in Hx as [Hx | [<- | []]]; [now apply Hi | exact Hl].
Qed.
Definition Idle (ls : list str) (T : str) : ps * rs := (PS lang None false None [] [], RS (nset ls) T (Some i) ch []).
Lemma evs_note : forall t r es, evs_of author languages (map PC t ++ r) es -> exists es', es = chars t ++ es' /\ evs_of author languages r es'.
Proof.
  induction t as [|c t IH]; intros r es E; [exists es; split; [reflexivity | exact E]|]. cbn [map app evs_of] in E. destruct E as [e1 [-> E]]. destruct (IH r e1 E) as [e2 [-> E2]]. exists e2. split; [reflexivity | exact E2].
Qed.
Lemma solid_later : forall b ks, solid_quotes b ks = true -> solid_quotes false ks = true.
Proof. intros b [|k ks] H; [reflexivity|]. cbn [solid_quotes] in *. apply andb_true_iff in H as [_ H]. cbn [negb orb andb]. exact H. Qed.
Lemma solid_mark : forall c d ks, solid_quotes true (Chr c :: Chr d :: ks) = true -> c = 62%N -> d = 32%N -> solid [] ks = true /\ solid_quotes false ks = true.
Proof. intros c d ks H -> ->. cbn [solid_quotes unmarked N.eqb Pos.eqb andb orb negb] in H. apply andb_true_iff in H as [H1 H2]. split; assumption. Qed.
Lemma tokens : forall R m ks, length ks <= m -> forall q open u es ls T, forallb (token_ok languages) ks = true -> incl open tags -> langs_ok open -> well_tagged open ks = true -> solid u ks = true -> solid_quotes false ks = true ->
  evs_of author languages (spread everywhere open ks) es ->
  exists ls', pfeed u (es ++ End text_p :: R) (St q open ls T) = pfeed [] R (Idle ls' (T ++ u ++ render (spread everywhere open ks) ++ [10%N])) /\
    incl ls ls' /\ opened ls' ks /\ (incl ls languages -> incl ls' languages).
Proof.
  intro R. induction m as [|m IHm]; intros ks Hm q open u es ls T Hk Ho Hl W Sd Sq E.
  all: destruct ks as [|k ks]; [|cbn [length] in Hm; try lia].
  - cbn [spread evs_of] in E. subst es. cbn [well_tagged] in W. destruct open; [|discriminate]. cbn [solid] in Sd. apply negb_true_iff in Sd. exists ls. split; [|split; [apply incl_refl | split; [intros l [] | tauto]]].
    cbn [app]. rewrite pfeed_tag by reflexivity. rewrite flush_in by exact Sd. cbn [bind]. rewrite end_para. cbn [bind spread render map concat app]. now rewrite app_assoc.
  - cbn [spread evs_of] in E. subst es. cbn [well_tagged] in W. destruct open; [|discriminate]. cbn [solid] in Sd. apply negb_true_iff in Sd. exists ls. split; [|split; [apply incl_refl | split; [intros l [] | tauto]]].
    cbn [app]. rewrite pfeed_tag by reflexivity. rewrite flush_in by exact Sd. cbn [bind]. rewrite end_para. cbn [bind spread render map concat app]. now rewrite app_assoc.
  - apply le_S_n in Hm. pose proof (IHm ks Hm) as IH. cbn [forallb] in Hk. apply andb_true_iff in Hk as [Hk1 Hk2]. pose proof Sq as Sq0. cbn [solid_quotes negb orb andb] in Sq. apply solid_later in Sq.
    assert (Oh : forall ls' x, opened ls' ks -> (forall l, x = Opn (s "lang=" ++ l) -> In l ls') -> opened ls' (x :: ks)) by (intros ls' x H1 H2 l [-> | Hi]; [now apply H2 | now apply H1]).
    destruct k as [c | | t | t | w | t]; cbn [well_tagged solid] in W, Sd.
    + cbn [spread pieces1 app evs_of] in E. destruct E as [e1 [-> E]]. destruct (IH q open (u ++ [c]) e1 ls T Hk2 Ho Hl W Sd Sq E) as [ls' [G1 [G2 [G3 G4]]]]. exists ls'. split; [|split; [exact G2 | split; [apply Oh; [exact G3 | discriminate] | exact G4]]].
      cbn [pev app]. rewrite pfeed_data. rewrite G1. cbn [spread pieces1 app]. rewrite render_cons. cbn [word]. now rewrite <- !app_assoc.
    + apply andb_true_iff in Sd as [Sd1 Sd2]. apply negb_true_iff in Sd1. destruct open as [|v [|v2 open]]; [| |discriminate].
      * cbn [spread pieces1 app] in E. destruct E as [E | E].
        -- destruct E as [a [e1 [Ha [-> E]]]]. destruct (IH false [] [] e1 ls (T ++ u ++ [10%N]) Hk2 Ho Hl W Sd2 Sq E) as [ls' [G1 [G2 [G3 G4]]]]. exists ls'. split; [|split; [exact G2 | split; [apply Oh; [exact G3 | discriminate] | exact G4]]].
           rewrite <- app_assoc. rewrite pfeed_brk by assumption. rewrite G1. cbn [spread pieces1 app]. rewrite render_cons. cbn [word]. now rewrite <- !app_assoc.
        -- destruct (spread everywhere [] ks) as [|p1 l1] eqn:S1; [contradiction|]. destruct p1 as [c | | | | | |]; try contradiction. destruct l1 as [|p2 l2]; [contradiction|]. destruct p2 as [d | | | | | |]; try contradiction.
           destruct E as [Ec [Ed [e1 [-> E]]]]. apply head_C in S1 as [k1 [-> S1]]. symmetry in S1. apply head_C in S1 as [k2 [-> S1]]. subst l2. cbn [well_tagged] in W. cbn [forallb token_ok] in Hk2. do 2 (apply andb_true_iff in Hk2 as [_ Hk2]). cbn [length] in Hm.
           cbn [solid_quotes negb orb andb] in Sq0. destruct (solid_mark c d k2 Sq0 Ec Ed) as [Sd3 Sq3].
           destruct (IHm k2 ltac:(lia) true [] [] e1 ls (T ++ u ++ [10%N] ++ s "> ") Hk2 Ho Hl W Sd3 Sq3 E) as [ls' [G1 [G2 [G3 G4]]]]. exists ls'. split; [|split; [exact G2 | split; [|exact G4]]].
           ++ rewrite <- app_assoc. rewrite pfeed_quote by assumption. rewrite G1. subst c d. cbn [spread pieces1 app]. rewrite !render_cons. cbn [word]. rewrite <- !app_assoc. reflexivity.
           ++ intros l [Hi | [Hi | [Hi | Hi]]]; try discriminate. now apply G3.
      * apply andb_true_iff in W as [_ W]. assert (Hv : In v tags) by (apply Ho; now left). cbn [spread everywhere app evs_of] in E. destruct E as [e0 [-> [[a [e1 [Ha [-> [e2 [-> E]]]]]] | []]]].
        destruct (IH false [v] [] e2 (learn v ls) (T ++ u ++ box (47%N :: v) ++ [10%N] ++ box v) Hk2 Ho Hl W Sd2 Sq E) as [ls' [G1 [G2 [G3 G4]]]].
        exists ls'. split; [|split; [eapply incl_tran; [apply learn_incl | exact G2] | split; [apply Oh; [exact G3 | discriminate] | intro Hi; apply G4; now apply learn_known]]].
        cbn [pev app]. rewrite <- !app_assoc. rewrite pfeed_close; [| exact Hv | reflexivity | exact Sd1]. rewrite pfeed_brk; [|exact Ha | reflexivity]. cbn [app]. fold style. rewrite pfeed_open; [| exact Hv | reflexivity].
        match goal with |- pfeed _ _ (St _ _ _ ?X) = _ => replace X with (T ++ u ++ box (47%N :: v) ++ [10%N] ++ box v) by (cbn [app]; rewrite <- !app_assoc; reflexivity) end. rewrite G1.
        cbn [spread everywhere app]. rewrite !render_cons. change (word (PX v)) with (box (47%N :: v)). change (word PB) with [10%N]. change (word (PO v)) with (box v). rewrite <- !app_assoc. reflexivity.
    + apply andb_true_iff in W as [W1 W]. apply andb_true_iff in W1 as [W1 _]. apply andb_true_iff in W1 as [_ W1]. apply negb_true_iff in W1. apply andb_true_iff in Sd as [Sd1 Sd2]. apply negb_true_iff in Sd1.
      cbn [token_ok] in Hk1. apply smem_In in Hk1. cbn [spread app evs_of] in E. destruct E as [e1 [-> E]].
      destruct (IH q (t :: open) [] e1 (learn t ls) (T ++ u ++ box t) Hk2) as [ls' [G1 [G2 [G3 G4]]]]; [intros x [<- | Hx]; [exact Hk1 | now apply Ho] | | exact W | exact Sd2 | exact Sq | exact E|].
      { split; [|exact Hl]. intro Et. rewrite Et in W1. now apply no_lng. }
      exists ls'. split; [|split; [eapply incl_tran; [apply learn_incl | exact G2] | split; [apply Oh; [exact G3|] | intro Hi; apply G4; now apply learn_known]]].
      * cbn [pev app]. fold style. rewrite pfeed_open by assumption. rewrite G1. cbn [spread app]. rewrite render_cons. cbn [word]. now rewrite <- !app_assoc.
      * intros l El. injection El as ->. apply G2. apply learn_in.
    + destruct open as [|v open]; [discriminate|]. apply andb_true_iff in W as [W1 W]. apply andb_true_iff in W1 as [W1 _]. apply str_eqb_eq in W1. subst v. apply andb_true_iff in Sd as [Sd1 Sd2]. apply negb_true_iff in Sd1.
      cbn [spread app evs_of tl] in E. destruct E as [e1 [-> E]]. destruct Hl as [Hl1 Hl2]. assert (Ht : In t tags) by (apply Ho; now left).
      destruct (IH q open [] e1 ls (T ++ u ++ box (47%N :: t)) Hk2) as [ls' [G1 [G2 [G3 G4]]]]; [intros x Hx; apply Ho; now right | exact Hl2 | exact W | exact Sd2 | exact Sq | exact E|].
      exists ls'. split; [|split; [exact G2 | split; [apply Oh; [exact G3 | discriminate] | exact G4]]].
      cbn [pev app]. rewrite pfeed_close by assumption. rewrite G1. cbn [spread app tl]. rewrite render_cons. cbn [word]. now rewrite <- !app_assoc.
    + apply andb_true_iff in W as [W1 W]. apply negb_true_iff in W1. cbn [spread pieces1 app evs_of] in E. destruct E as [e1 [-> E]].
      destruct (IH q open (u ++ typed1 (Box w)) e1 ls T Hk2 Ho Hl W Sd Sq E) as [ls' [G1 [G2 [G3 G4]]]]. exists ls'. split; [|split; [exact G2 | split; [apply Oh; [exact G3 | discriminate] | exact G4]]].
      cbn [pev]. rewrite W1. rewrite <- app_assoc. unfold chars. rewrite pfeed_chars. change (box w) with (typed1 (Box w)). rewrite G1. cbn [spread pieces1 app]. rewrite render_cons. change (word (PH w)) with (typed1 (Box w)). now rewrite <- !app_assoc.
    + apply andb_true_iff in W as [W1 W]. apply andb_true_iff in W1 as [W1 W3]. apply andb_true_iff in W1 as [W1 W2]. apply negb_true_iff in W1, W3. apply str_eqb_eq in W2. apply andb_true_iff in Sd as [Sd1 Sd2]. apply negb_true_iff in Sd1.
      assert (Rn : render (pieces1 (Com t)) = typed1 (Com t)) by (cbn [pieces1]; rewrite render_cons, render_app, render_notes; reflexivity).
      cbn [spread] in *. rewrite render_app, Rn. cbn [pieces1 app] in E. rewrite (one_line t W1) in E. rewrite <- app_assoc in E. cbn [evs_of] in E. destruct E as [e1 [-> E]]. apply evs_note in E as [e2 [-> E]]. cbn [app evs_of] in E. destruct E as [e3 [-> E]].
      destruct (IH q open [] e3 ls (T ++ u ++ typed1 (Com t)) Hk2 Ho Hl W Sd2 Sq E) as [ls' [G1 [G2 [G3 G4]]]]. exists ls'. split; [|split; [exact G2 | split; [apply Oh; [exact G3 | discriminate] | exact G4]]].
      cbn [pev]. rewrite <- !app_assoc. rewrite pfeed_note by assumption. rewrite G1. now rewrite <- !app_assoc.
Qed.
End Machine.
