(** Blocks of an exported manuscript: XML text, events, and what the reader makes of them. *)
From Coq Require Import String List NArith ZArith Bool Lia Arith.
From Verif Require Import PyStr PyDict YwText YwTextProofs NovelModel NovelOps OdfXml OdfXmlProofs OdfLex OdtText OdtTextProofs OdtTextProofs2 SpecOdf SpecFormat SpecManuscript
  FormatLines FormatRun FormatXml FormatXml4 FormatXml5 OdsRoundTrip2 ManuText ManuClean Manuscript ManuEvents ManuQuote SpecRetext Retext OdtRead ManuRead ManuMachine ManuWalk XmlTags ManuStyles.
Import ListNotations.

Section Blocks.
Context {typ : Typ}.
Variables (author : str) (languages : list str).
Hypothesis names : names_ok author languages.
Hypothesis locales : Forall locale_ok languages.
(** the exported novel *)
Variable n : novel.
Notation L := (LANG languages).
(** neither the replacements of the export nor its pattern for annotations can begin in w *)
Definition clean (w : str) : Prop := clear2 w /\ closes w.
(** a block, read in the chapter ch: the export turns it into w', and reading it restores the texts of the given scenes *)
Definition block (ch : option str) (w : str) (ids : list str) : Prop := exists w' es, quotes w w' /\ closes w' /\ frag w' es /\
  forall u R ls todo m, incl ls languages -> differ (ids ++ todo) n m ->
  exists u' ls' m', incl ls' languages /\ differ todo n m' /\ pfeed u (es ++ R) (Out L (nset m ls) ch) = pfeed u' R (Out L (nset m' ls') ch).

Lemma clean_app : forall a b, clean a -> clean b -> clean (a ++ b).
Proof. intros a b [A1 A2] [B1 B2]. split; [now apply clear2_app | now apply closes_app]. Qed.
Lemma clean_plain : forall a, ~ In 34%N a -> ~ In 60%N a -> clean a.
Proof. intros a H1 H2. split; [now apply clear2_plain | now apply closes_plain]. Qed.
Lemma clean_close : forall a, ~ In 34%N a -> lt_ok a = true -> clean a.
Proof. intros a H1 H2. split; [now apply clear2_plain | now apply closes_lt]. Qed.
Lemma clean_esc : forall t, clean (flat_map esc5 t).
Proof. intro t. apply clean_plain; apply xesc_no; [right; now left | now left]. Qed.
Lemma clean_quotes : forall a, clean a -> quotes a a.
Proof. intros a [H _]. now apply clear_quotes. Qed.
Lemma clear_tail : forall p c r, clear (34%N :: p) (c :: r) -> c <> 34%N -> clear (34%N :: p) r.
Proof.
  intros p c r H Hc q x. specialize (H q x). change ((c :: r) ++ x) with ([c] ++ (r ++ x)) in H. rewrite replace_skip in H by (intros [E | []]; congruence). cbn [app] in H. now injection H as H.
Qed.
Lemma clear2_tail : forall c r, clear2 (c :: r) -> c <> 34%N -> clear2 r.
Proof. intros c r [H1 H2] Hc. split; [change QUOTE1 with (34%N :: tl QUOTE1) in * | change QUOTE2 with (34%N :: tl QUOTE2) in *]; now apply clear_tail with c. Qed.
Definition other_value (p : str * str) : Prop := snd p <> FI /\ snd p <> TB.
Lemma xname_no : forall v x, xname_ok v = true -> xname_char x = false -> ~ In x v.
Proof. intros v x S Hx I. unfold xname_ok in S. apply andb_true_iff in S as [_ S]. rewrite forallb_forall in S. specialize (S _ I). congruence. Qed.
Lemma style_no : forall v x, forallb style_char v = true -> style_char x = false -> ~ In x v.
Proof. intros v x S Hx I. rewrite forallb_forall in S. specialize (S _ I). congruence. Qed.
Lemma attrs_clear : forall a e, Forall attr_good a -> (e = false -> Forall other_value a) -> clear2 (attr_text a ++ closing_text e).
Proof.
  induction a as [|[nm v] a IH]; intros e Ha Ho; [apply clear2_plain; destruct e; apply no_char; reflexivity|]. apply Forall_cons_iff in Ha as [[G1 G2] Ha]. cbn [fst snd] in *. assert (Ho2 : e = false -> Forall other_value a) by (intro E; specialize (Ho E); now apply Forall_inv_tail in Ho). specialize (IH e Ha Ho2).
  unfold attr_text. cbn [flat_map fst snd]. fold (attr_text a). assert (St : exists c r, attr_text a ++ closing_text e = c :: r /\ (c = 32%N \/ c = 47%N \/ (c = 62%N /\ e = false))).
  { destruct a as [|q a]; [destruct e; eexists; eexists; (split; [reflexivity|]); tauto|]. unfold attr_text. cbn [flat_map]. rewrite <- !app_assoc. eexists. eexists. split; [reflexivity | tauto]. }
  destruct St as [c [r [E Hc]]]. assert (E2 : (s " " ++ nm ++ s "=""" ++ v ++ s """") ++ attr_text a ++ closing_text e = (s " " ++ nm ++ s "=") ++ (34%N :: v ++ [34%N; c]) ++ r).
  { rewrite E. rewrite <- !app_assoc. change (s "=""" ++ v ++ s """" ++ c :: r) with (s "=" ++ 34%N :: v ++ [34%N] ++ c :: r). cbn [app]. rewrite <- app_assoc. reflexivity. }
  rewrite <- app_assoc. rewrite E2. apply clear2_app; [|apply clear2_app].
  - apply clear2_plain. rewrite !in_app_iff. intros [I | [I | I]]; [revert I; apply no_char; reflexivity | revert I; now apply xname_no | revert I; apply no_char; reflexivity].
  - apply clear_value2; [now apply style_no | | | |]; [|destruct Hc as [-> | [-> | [-> _]]]; discriminate ..]. destruct Hc as [-> | [-> | [-> He]]]; [right; discriminate | right; discriminate|]. left. specialize (Ho He). exact (Forall_inv Ho).
  - rewrite E in IH. apply clear2_tail with c; [exact IH | destruct Hc as [-> | [-> | [-> _]]]; discriminate].
Qed.
Lemma closes_tag : forall name a e, xname_ok name = true -> Forall attr_good a -> closes (tag_text name a e).
Proof.
  intros name a e Hn Ha r Hr. assert (N0 : ~ In 60%N (name ++ attr_text a ++ closing_text e)).
  { rewrite !in_app_iff. intros [I | [I | I]]; [revert I; now apply xname_no | | revert I; destruct e; apply no_char; reflexivity].
    unfold attr_text in I. apply in_flat_map in I as [p [Hp I]]. rewrite Forall_forall in Ha. destruct (Ha p Hp) as [G1 G2]. rewrite !in_app_iff in I.
    destruct I as [I | [I | [I | [I | I]]]]; [revert I; apply no_char; reflexivity | revert I; now apply xname_no | revert I; apply no_char; reflexivity | revert I; now apply style_no | revert I; apply no_char; reflexivity]. }
  pose proof (ncl_plain _ r N0 Hr) as K. unfold tag_text. change (s "<" ++ name ++ attr_text a ++ closing_text e) with (60%N :: (name ++ attr_text a ++ closing_text e)). cbn [app]. destruct name as [|c name]; [discriminate|].
  unfold ncl in *. cbn [containsb]. rewrite K, orb_false_r. change Q_CLOSE with (60%N :: 47%N :: skipn 2 Q_CLOSE). cbn [app prefixb]. destruct (N.eqb 47 c) eqn:E; [|reflexivity]. apply N.eqb_eq in E. subst c. exfalso. apply (xname_no _ 47 Hn eq_refl). now left.
Qed.
Lemma clean_tag : forall name a e, xname_ok name = true -> Forall attr_good a -> Forall other_value a -> clean (tag_text name a e).
Proof.
  intros name a e Hn Ha Ho. split; [|now apply closes_tag]. unfold tag_text. apply clear2_app; [apply clear2_plain, no_char; reflexivity|]. apply clear2_app; [apply clear2_plain; now apply xname_no | now apply attrs_clear].
Qed.
Lemma clean_empty_tag : forall name a, xname_ok name = true -> Forall attr_good a -> clean (tag_text name a true).
Proof.
  intros name a Hn Ha. split; [|now apply closes_tag]. unfold tag_text. apply clear2_app; [apply clear2_plain, no_char; reflexivity|]. apply clear2_app; [apply clear2_plain; now apply xname_no | now apply attrs_clear].
Qed.
Lemma titled_langs : forall m ls ids ch, differ ids n m -> titled n ch -> titled (nset m ls) ch.
Proof. intros m ls ids [i|] [scs [-> _]] H; [|exact H]. destruct n. exact H. Qed.
Lemma block_clean : forall ch w es, clean w -> frag w es -> titled n ch ->
  (forall u R ls m, incl ls languages -> titled (nset m ls) ch -> exists u' ls', incl ls' languages /\ pfeed u (es ++ R) (Out L (nset m ls) ch) = pfeed u' R (Out L (nset m ls') ch)) -> block ch w [].
Proof.
  intros ch w es C F Ti W. exists w, es. split; [now apply clean_quotes|]. split; [apply C|]. split; [exact F|]. intros u R ls todo m H D. destruct (W u R ls m H (titled_langs m ls _ ch D Ti)) as [u' [ls' [A B]]].
  exists u', ls', m. split; [exact A|]. split; [exact D | exact B].
Qed.
Lemma block_nil : forall ch, block ch [] [].
Proof.
  intro ch. exists [], []. split; [apply clean_quotes, clean_plain; intros []|]. split; [apply (clean_plain []); intros []|]. split; [apply frag_nil|]. intros u R ls todo m H D. exists u, ls, m. split; [exact H|]. split; [exact D | reflexivity].
Qed.
Lemma block_app : forall ch a b ka kb, block ch a ka -> block ch b kb -> block ch (a ++ b) (ka ++ kb).
Proof.
  intros ch a b ka kb [a' [ea [Qa [Ca [Fa Wa]]]]] [b' [eb [Qb [Cb [Fb Wb]]]]]. exists (a' ++ b'), (ea ++ eb). split; [now apply quotes_app|]. split; [now apply closes_app|]. split; [now apply frag_app|]. intros u R ls todo m H D. rewrite <- app_assoc in D.
  destruct (Wa u (eb ++ R) ls _ m H D) as [u1 [l1 [m1 [H1 [D1 E1]]]]]. destruct (Wb u1 R l1 _ m1 H1 D1) as [u2 [l2 [m2 [H2 [D2 E2]]]]]. exists u2, l2, m2. split; [exact H2|]. split; [exact D2|]. rewrite <- app_assoc, E1. exact E2.
Qed.
Lemma block_after : forall ch a b k, block ch a [] -> block ch b k -> block ch (a ++ b) k.
Proof. intros ch a b k A B. exact (block_app ch a b [] k A B). Qed.
Lemma block_before : forall ch a b k, block ch a k -> block ch b [] -> block ch (a ++ b) k.
Proof. intros ch a b k A B. rewrite <- (app_nil_r k). now apply block_app. Qed.
(** the chapter of the novel has a title *)
Lemma nl_walk : forall u R st, pfeed u (chars [10%N] ++ R) st = pfeed (u ++ [10%N]) R st.
Proof. intros. unfold chars. apply pfeed_chars. Qed.

(** ** Headings *)
Definition xesc (t : str) : str := flat_map esc5 t.
Lemma title_parts : forall t, title_ok t = true -> xml_text t /\ ~ In 13%N t /\ ~ In 91%N t.
Proof.
  intros t H. unfold title_ok in H. apply andb_true_iff in H as [H1 H2]. apply negb_true_iff in H2.
  assert (K : forall c, In c t -> N.eqb c 91 = false /\ N.eqb c 13 = false).
  { intros c Hc. destruct (N.eqb c 91 || N.eqb c 13)%bool eqn:E; [|now apply orb_false_iff in E]. assert (existsb (fun c => N.eqb c 91 || N.eqb c 13)%bool t = true) by (apply existsb_exists; now exists c). congruence. }
  split; [|split].
  - rewrite forallb_forall in H1. unfold xml_text. apply Forall_forall. exact H1.
  - intro I. now destruct (K _ I).
  - intro I. now destruct (K _ I).
Qed.
Definition heading_text (st l t : str) : str := tag_text text_h (heading_attrs st l) false ++ xesc t ++ s "</text:h>".
Lemma good_heading : forall st l, forallb style_char st = true -> forallb style_char l = true -> Forall attr_good (heading_attrs st l).
Proof. intros st l H1 H2. constructor; [split; [reflexivity | exact H1]|]. constructor; [split; [reflexivity | exact H2] | constructor]. Qed.
Lemma tag_amp : forall name a e, xname_ok name = true -> Forall attr_good a -> ~ In 38%N (tag_text name a e).
Proof.
  intros name a e Hn Ha. assert (Nm : forall v, xname_ok v = true -> ~ In 38%N v) by (intros v S I; unfold xname_ok in S; apply andb_true_iff in S as [_ S]; rewrite forallb_forall in S; specialize (S _ I); discriminate S).
  unfold tag_text. rewrite !in_app_iff. intros [I | [I | [I | I]]].
  - revert I. apply no_char. reflexivity.
  - now apply (Nm name).
  - unfold attr_text in I. apply in_flat_map in I as [p [Hp I]]. rewrite Forall_forall in Ha. destruct (Ha p Hp) as [G1 G2]. rewrite !in_app_iff in I. destruct I as [I | [I | [I | [I | I]]]].
    + revert I. apply no_char. reflexivity.
    + now apply (Nm _ G1).
    + revert I. apply no_char. reflexivity.
    + rewrite forallb_forall in G2. specialize (G2 _ I). discriminate.
    + revert I. apply no_char. reflexivity.
  - revert I. destruct e; apply no_char; reflexivity.
Qed.
Definition st_other (st : str) : Prop := st <> FI /\ st <> TB.
Lemma other_heading : forall st l, st_other st -> In l [s "1"; s "2"; s "3"] -> Forall other_value (heading_attrs st l).
Proof. intros st l H Hl. constructor; [exact H|]. constructor; [|constructor]. destruct Hl as [<- | [<- | [<- | []]]]; split; discriminate. Qed.
Lemma heading_frag : forall st l t, forallb style_char st = true -> st_other st -> In l [s "1"; s "2"; s "3"] -> title_ok t = true ->
  frag (heading_text st l t) (Start text_h (heading_attrs st l) :: chars t ++ [End text_h]) /\ clean (heading_text st l t).
Proof.
  intros st l t H1 Ho Hl Ht. assert (H2 : forallb style_char l = true) by (destruct Hl as [<- | [<- | [<- | []]]]; reflexivity). destruct (title_parts t Ht) as [T1 [T2 _]]. split.
  - apply frag_tag; [reflexivity | now apply good_heading | apply nodup_names; reflexivity | apply xlex_lexes; reflexivity | apply no_char; reflexivity | now apply frag_esc].
  - unfold heading_text. apply clean_app; [apply clean_tag; [reflexivity | now apply good_heading | now apply other_heading]|]. apply clean_app; [apply clean_esc | apply clean_close; [apply no_char; reflexivity | reflexivity]].
Qed.
Lemma feed_frag : frag [10%N] (chars [10%N]) /\ clean [10%N].
Proof. split; [apply frag_white; [reflexivity | apply no_char; reflexivity] | apply clean_plain; apply no_char; reflexivity]. Qed.
Lemma block_heading : forall ch st l t, In l [s "1"; s "2"; s "3"] -> forallb style_char st = true -> st_other st -> title_ok t = true -> titled n ch -> block ch (heading_text st l t ++ [10%N]) [].
Proof.
  intros ch st l t Hl Hs Ho Ht Hc. destruct (heading_frag st l t Hs Ho Hl Ht) as [F Q]. destruct feed_frag as [F2 Q2].
  eapply block_clean; [now apply clean_app | apply frag_app; [exact F | exact F2] | exact Hc|]. intros u R ls m Hi Hm. exists [10%N], ls. split; [exact Hi|]. cbn [app]. rewrite <- !app_assoc. cbn [app].
  rewrite walk_h; [|exact Hl | exact Hm]. change (chars [10%N] ++ R) with (map (fun c => Data [c]) [10%N] ++ R). now rewrite pfeed_chars.
Qed.
Definition para_text (st w : str) : str := tag_text text_p (para_attrs st) false ++ w ++ s "</text:p>".
Lemma good_para : forall st, forallb style_char st = true -> Forall attr_good (para_attrs st).
Proof. intros st H1. constructor; [split; [reflexivity | exact H1] | constructor]. Qed.
Lemma other_para : forall st, st_other st -> Forall other_value (para_attrs st).
Proof. intros st H. constructor; [exact H | constructor]. Qed.
Lemma para_frag : forall st t, forallb style_char st = true -> st_other st -> title_ok t = true ->
  frag (para_text st (xesc t)) (Start text_p (para_attrs st) :: chars t ++ [End text_p]) /\ clean (para_text st (xesc t)).
Proof.
  intros st t H1 Ho Ht. destruct (title_parts t Ht) as [T1 [T2 _]]. split.
  - apply frag_tag; [reflexivity | now apply good_para | apply nodup_names; reflexivity | apply xlex_lexes; reflexivity | apply no_char; reflexivity | now apply frag_esc].
  - unfold para_text. apply clean_app; [apply clean_tag; [reflexivity | now apply good_para | now apply other_para]|]. apply clean_app; [apply clean_esc | apply clean_close; [apply no_char; reflexivity | reflexivity]].
Qed.
Lemma block_title : forall ch st t, In st [s "Title"; s "Subtitle"] -> title_ok t = true -> titled n ch -> block ch (para_text st (xesc t) ++ [10%N]) [].
Proof.
  intros ch st t Hs Ht Hc. assert (Hs2 : forallb style_char st = true /\ st_other st) by (destruct Hs as [<- | [<- | []]]; (split; [reflexivity | split; discriminate])). destruct (para_frag st t (proj1 Hs2) (proj2 Hs2) Ht) as [F Q]. destruct feed_frag as [F2 Q2].
  eapply block_clean; [now apply clean_app | apply frag_app; [exact F | exact F2] | exact Hc|]. intros u R ls m Hi Hm. exists [10%N], ls. split; [exact Hi|]. cbn [app]. rewrite <- !app_assoc. cbn [app].
  rewrite walk_title; [|exact Hs | now apply LANG_titles | exact Hm]. change (chars [10%N] ++ R) with (map (fun c => Data [c]) [10%N] ++ R). now rewrite pfeed_chars.
Qed.
Lemma block_divider : forall ch t, title_ok t = true -> titled n ch -> block ch (para_text (s "Heading_20_4") (xesc t) ++ [10%N]) [].
Proof.
  intros ch t Ht Hc. destruct (para_frag (s "Heading_20_4") t eq_refl ltac:(split; discriminate) Ht) as [F Q]. destruct feed_frag as [F2 Q2].
  eapply block_clean; [now apply clean_app | apply frag_app; [exact F | exact F2] | exact Hc|]. intros u R ls m Hi Hm. exists [10%N], ls. split; [exact Hi|]. cbn [app]. rewrite <- !app_assoc. cbn [app].
  rewrite walk_divider by exact Hm. change (chars [10%N] ++ R) with (map (fun c => Data [c]) [10%N] ++ R). now rewrite pfeed_chars.
Qed.

(** ** Scenes *)
Definition section_text (x w : str) : str := tag_text text_section (section_attrs x) false ++ w ++ s "</text:section>".
Lemma number_style : forall i p, number_id i = true -> forallb style_char p = true -> forallb style_char (p ++ i) = true.
Proof.
  intros i p H Hp. rewrite forallb_app, Hp. cbn [andb]. destruct i as [|c i]; [discriminate|]. cbn [number_id] in H. rewrite forallb_forall in *. intros d Hd. specialize (H d Hd). unfold is_digit in H.
  apply andb_true_iff in H as [A B]. apply N.leb_le in A, B. assert (E : In d (s "0123456789")) by (assert (X : (d = 48 \/ d = 49 \/ d = 50 \/ d = 51 \/ d = 52 \/ d = 53 \/ d = 54 \/ d = 55 \/ d = 56 \/ d = 57)%N) by lia; cbn; intuition).
  cbn in E. repeat (destruct E as [<- | E]; [reflexivity|]). destruct E.
Qed.
Lemma good_section : forall x, forallb style_char x = true -> Forall attr_good (section_attrs x).
Proof. intros x H. constructor; [split; reflexivity|]. constructor; [split; [reflexivity | exact H] | constructor]. Qed.
Lemma section_frag : forall x w es, forallb style_char x = true -> frag w es -> frag (section_text x w) (Start text_section (section_attrs x) :: es ++ [End text_section]).
Proof. intros x w es Hx F. apply frag_tag; [reflexivity | now apply good_section | apply nodup_names; reflexivity | apply xlex_lexes; reflexivity | apply no_char; reflexivity | exact F]. Qed.
Lemma section_quotes : forall x w w', forallb style_char x = true -> st_other x -> quotes w w' -> closes w' -> quotes (section_text x w) (section_text x w') /\ closes (section_text x w').
Proof.
  intros x w w' Hx Ho Q C. assert (Ct : clean (tag_text text_section (section_attrs x) false)).
  { apply clean_tag; [reflexivity | now apply good_section|]. constructor; [split; discriminate|]. constructor; [exact Ho | constructor]. }
  assert (Ce : clean (s "</text:section>")) by (apply clean_close; [apply no_char; reflexivity | reflexivity]). unfold section_text. split.
  - apply quotes_app; [now apply clean_quotes|]. apply quotes_app; [exact Q | now apply clean_quotes].
  - apply closes_app; [apply Ct|]. apply closes_app; [exact C | apply Ce].
Qed.
Definition scene_text (i st w : str) : str := section_text (s "ScID:" ++ i) ([10%N] ++ para_text st w ++ [10%N]).
Lemma run_pf : forall w es, run w es (PW []) (PW []) -> pfrag w es.
Proof. intros w es [H [ts [E1 [E2 E3]]]]. split; [exact H|]. exists ts. split; [exact E1 | split; [exact E2|]]. intros m st us. exact (E3 m st us). Qed.
Hypothesis keys : NoDup (map fst (nv_scenes n)).
Lemma block_scene : forall ch i x st ks w ks' st' w' es, number_id i = true -> dget i (nv_scenes n) = Some x -> sc_type x = Some TYPE -> set_sceneContent (typed ks) x = x ->
  In st [FI; TB] -> marked_up languages ks -> well_tagged [] ks = true -> solid [] ks = true -> solid_quotes true ks = true -> rstrip (typed ks) = typed ks ->
  qline ks st ks' st' -> run w' es (PW []) (PW []) -> evs_of author languages (spread everywhere [] ks') es ->
  (forall r, Qt (opening st ++ w ++ 60%N :: r) = opening st' ++ w' ++ Qt (60%N :: r) /\ (ncl (60%N :: r) -> ncl (w' ++ 60%N :: r))) -> titled n ch ->
  block ch (scene_text i st w ++ [10%N]) [i].
Proof.
  intros ch i x st ks w ks' st' w' es Hi Hx Ht Hs Hst M W Sd Sq R Ql Rw E Hq Hc. pose proof M as [Mk _].
  assert (Hs2 : forallb style_char st' = true) by (destruct Ql as [[_ ->] | [_ ->]]; [destruct Hst as [<- | [<- | []]]; reflexivity | reflexivity]).
  assert (Fp : frag (para_text st' w') (Start text_p (para_attrs st') :: es ++ [End text_p])).
  { apply frag_para; [now apply run_pf | apply (lexes_tag text_p (para_attrs st') false eq_refl (good_para st' Hs2)); apply nodup_names; reflexivity | apply tag_no_cr; [reflexivity | now apply good_para]]. }
  assert (Po : forall v y, para_text v y = opening v ++ y ++ 60%N :: s "/text:p>").
  { intros v y. unfold para_text, opening, tag_text, attr_text, para_attrs, closing_text. cbn [flat_map fst snd]. rewrite <- !app_assoc. reflexivity. }
  assert (Qp : quotes (para_text st w) (para_text st' w')).
  { intro r. rewrite !Po. rewrite <- !app_assoc. cbn [app]. destruct (Hq (s "/text:p>" ++ r)) as [-> _]. change (60%N :: s "/text:p>" ++ r) with (s "</text:p>" ++ r).
    rewrite (clean_quotes (s "</text:p>")); [reflexivity|]. apply clean_close; [apply no_char; reflexivity | reflexivity]. }
  assert (Cp : closes (para_text st' w')).
  { intros r Hr. unfold para_text. rewrite <- !app_assoc. apply closes_tag; [reflexivity | now apply good_para|]. change (s "</text:p>" ++ r) with (60%N :: s "/text:p>" ++ r). apply Hq.
    change (60%N :: s "/text:p>" ++ r) with (s "</text:p>" ++ r). apply closes_lt; [reflexivity | exact Hr]. }
  destruct feed_frag as [F2 Q2]. assert (Hid : forallb style_char (s "ScID:" ++ i) = true) by now apply number_style.
  pose proof (clean_quotes _ Q2) as Q3. destruct Q2 as [_ C3].
  destruct (section_quotes (s "ScID:" ++ i) ([10%N] ++ para_text st w ++ [10%N]) ([10%N] ++ para_text st' w' ++ [10%N]) Hid) as [Sq1 Sc1];
    [split; discriminate | apply quotes_app; [exact Q3 | now apply quotes_app] | apply closes_app; [exact C3 | now apply closes_app]|].
  exists (scene_text i st' w' ++ [10%N]). eexists. split; [now apply quotes_app|]. split; [now apply closes_app|].
  split; [apply frag_app; [apply section_frag; [exact Hid|]; apply frag_app; [exact F2 | apply frag_app; [exact Fp | exact F2]] | exact F2]|].
  intros u Rs ls todo m Hl D. destruct (differ_scene i x (typed ks) todo n m keys Hx Hs D) as [y [Hy [Sy [[Sy2 _] D2]]]]. assert (Ty : sc_type y = Some TYPE) by congruence.
  pose proof (titled_langs m ls _ ch D Hc) as Hm. unfold chars. cbn [map app]. rewrite <- !app_assoc. cbn [app]. rewrite pfeed_tag by reflexivity. rewrite flush_out by exact Hm. cbn [bind].
  rewrite (scene_start L i y); [| exact Hi | destruct m; exact Hy | exact Ty]. cbn [bind]. rewrite pfeed_data. rewrite pfeed_tag by reflexivity.
  rewrite (between L m i ch). cbn [bind].
  assert (G0 : exists q T0, gfeed (PS L None false None [] [], RS (nset m ls) [] (Some i) ch []) (Start text_p (para_attrs st')) = Ok (St L m i ch q [] ls T0) /\
    solid [] ks' = true /\ solid_quotes false ks' = true /\ forallb (token_ok languages) ks' = true /\ well_tagged [] ks' = true /\ T0 ++ render (spread everywhere [] ks') = render (spread everywhere [] ks) /\ forall ls', opened ls' ks' -> opened ls' ks).
  { destruct Ql as [[-> ->] | [-> ->]].
    - exists false, []. split; [apply (start_para L (LANG_none languages) m i ch); destruct Hst as [<- | [<- | []]]; [left | right]; reflexivity|].
      split; [exact Sd|]. split; [now apply solid_later with true|]. split; [exact Mk|]. split; [exact W|]. split; [reflexivity | tauto].
    - exists true, (s "> "). split; [exact (start_quote L (LANG_none languages) m i ch ls [])|]. destruct (solid_mark _ _ _ Sq eq_refl eq_refl) as [S1 S2]. split; [exact S1|]. split; [exact S2|].
      cbn [forallb token_ok] in Mk. do 2 apply andb_true_iff in Mk as [_ Mk]. split; [exact Mk|]. split; [exact W|]. split; [reflexivity|]. intros ls' O l [Hl2 | [Hl2 | Hl2]]; try discriminate. now apply O. }
  destruct G0 as [q [T0 [G0 [Sd' [Sq' [Mk' [W' [Et Op]]]]]]]]. rewrite G0. cbn [bind].
  destruct (tokens author languages L (LANG_find languages locales (proj1 (proj2 names))) (LANG_none languages) (LANG_style languages locales (proj1 (proj2 names))) (LANG_name languages locales) m i ch
    (Data [10%N] :: End text_section :: Data [10%N] :: Rs) (length ks') ks' (le_n _) q [] [] es ls T0 Mk' (incl_nil_l _) I W' Sd' Sq' E) as [ls' [G1 [G2 [G3 G4]]]].
  exists [10%N], ls', (set_nv_scenes (dset i x (nv_scenes m)) m). split; [now apply G4|]. split; [exact D2|]. rewrite G1. rewrite pfeed_data. rewrite pfeed_tag by reflexivity. unfold Idle. rewrite (between L m i ch). cbn [bind app]. rewrite app_assoc, Et.
  rewrite (scene_end L i y (typed ks) _ ch _ ls'); [| destruct m; exact Hy | reflexivity | exact (cleaned author languages ls' ks names Mk W R (G4 Hl) (Op ls' G3))]. rewrite Sy. cbn [bind]. rewrite pfeed_data. destruct m. reflexivity.
Qed.
End Blocks.
