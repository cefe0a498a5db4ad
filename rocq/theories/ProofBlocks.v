(** Blocks of an exported manuscript for proof reading: XML text, events, and what the reader makes of them. *)
From Coq Require Import String List NArith ZArith Bool Lia Arith.
From Verif Require Import PyStr PyDict YwText YwTextProofs NovelModel NovelOps OdfXml OdfXmlProofs OdfLex OdtText OdtTextProofs OdtTextProofs2 SpecOdf SpecFormat SpecManuscript
  FormatLines FormatRun FormatXml FormatXml4 OdsRoundTrip2 ManuText ManuClean Manuscript OdtRead ManuWalk XmlTags ManuStyles ImportProofs ImportProofs5 Proofing SpecRetext Retext ProofEvents SpecProof ProofRead ProofMachine ProofWalk ProofStyles.
From Verif Require ManuBlocks ManuEvents SpecImport.
Import ListNotations.
Local Notation strip := PyStr.strip.
Local Notation blank := SpecImport.blank.

Lemma digits_in : forall i, forallb is_digit i = true -> forall c, In c i -> In c (s "0123456789").
Proof.
  intros i D c Hc. rewrite forallb_forall in D. specialize (D c Hc). unfold is_digit in D. apply andb_true_iff in D as [D1 D2]. apply N.leb_le in D1, D2.
  assert (X : (c = 48 \/ c = 49 \/ c = 50 \/ c = 51 \/ c = 52 \/ c = 53 \/ c = 54 \/ c = 55 \/ c = 56 \/ c = 57)%N) by lia. cbn. intuition.
Qed.
Section Blocks.
Variables (tr : str -> str) (author : str) (languages : list str).
Hypothesis names : names_ok author languages.
Hypothesis locales : Forall locale_ok languages.
(** the exported novel *)
Variable n : novel.
Hypothesis keys : NoDup (map fst (nv_scenes n)).
Local Notation LG := (ManuStyles.LANG languages).
Local Notation EM := [s "Emphasis"; ITALIC languages].
Local Notation ST := [s "Strong_20_Emphasis"; BOLD languages].
Local Notation pfeed := (ProofRead.pfeed tr).
Definition Outside (m : novel) (ls : list str) (T : str) : ps * rs := ProofWalk.Out EM ST LG (set_nv_languages (Some ls) m) T.
(** a block that restores the texts of the given scenes *)
Definition block (w : str) (ids : list str) : Prop := exists es, frag w es /\
  forall u R ls T todo m, incl ls languages -> differ (ids ++ todo) n m ->
  exists u' ls' T' m', incl ls' languages /\ differ todo n m' /\ pfeed u (es ++ R) (Outside m ls T) = pfeed u' R (Outside m' ls' T').
Lemma block_nil : block [] [].
Proof. exists []. split; [apply frag_nil|]. intros u R ls T todo m H D. exists u, ls, T, m. split; [exact H|]. split; [exact D | reflexivity]. Qed.
Lemma block_app : forall a b ka kb, block a ka -> block b kb -> block (a ++ b) (ka ++ kb).
Proof.
  intros a b ka kb [ea [Fa Wa]] [eb [Fb Wb]]. exists (ea ++ eb). split; [now apply frag_app|]. intros u R ls T todo m H D. rewrite <- app_assoc in D.
  destruct (Wa u (eb ++ R) ls T _ m H D) as [u1 [l1 [T1 [m1 [H1 [D1 E1]]]]]]. destruct (Wb u1 R l1 T1 _ m1 H1 D1) as [u2 [l2 [T2 [m2 [H2 [D2 E2]]]]]]. exists u2, l2, T2, m2. split; [exact H2|]. split; [exact D2|]. rewrite <- app_assoc, E1. exact E2.
Qed.
Lemma block_after : forall a b k, block a [] -> block b k -> block (a ++ b) k.
Proof. intros a b k A B. exact (block_app a b [] k A B). Qed.
Lemma block_before : forall a b k, block a k -> block b [] -> block (a ++ b) k.
Proof. intros a b k A B. rewrite <- (app_nil_r k). now apply block_app. Qed.
(** a block without scenes *)
Lemma block_plain : forall w es, frag w es -> (forall u R ls T m, incl ls languages -> exists u' ls' T', incl ls' languages /\ pfeed u (es ++ R) (Outside m ls T) = pfeed u' R (Outside m ls' T')) -> block w [].
Proof. intros w es F W. exists es. split; [exact F|]. intros u R ls T todo m H D. destruct (W u R ls T m H) as [u' [ls' [T' [A B]]]]. exists u', ls', T', m. split; [exact A|]. split; [exact D | exact B]. Qed.
Lemma feed_line : frag [10%N] (chars [10%N]).
Proof. apply frag_white; [reflexivity | apply no_char; reflexivity]. Qed.
Lemma line_walk : forall u R st, pfeed u (chars [10%N] ++ R) st = pfeed (u ++ [10%N]) R st.
Proof. intros. unfold chars. apply ProofRead.pfeed_chars. Qed.
Lemma block_line : block [10%N] [].
Proof. apply (block_plain _ (chars [10%N])); [apply feed_line|]. intros u R ls T m H. exists (u ++ [10%N]), ls, T. split; [exact H | apply line_walk]. Qed.

(** ** Headings *)
Lemma title_unmarked : forall t, title_ok t = true -> marker t = false.
Proof.
  intros t H. destruct (ManuBlocks.title_parts t H) as [_ [_ N0]]. unfold marker. apply orb_false_iff. split.
  - destruct (containsb (s "[ScID") t) eqn:E; [|reflexivity]. apply containsb_spec in E as [a [b ->]]. exfalso. apply N0. apply in_or_app. right. now left.
  - destruct (containsb (s "[/ScID") t) eqn:E; [|reflexivity]. apply containsb_spec in E as [a [b ->]]. exfalso. apply N0. apply in_or_app. right. now left.
Qed.
Lemma block_heading : forall st l t, In l [s "1"; s "2"; s "3"] -> forallb style_char st = true -> ManuBlocks.st_other st -> title_ok t = true -> block (ManuBlocks.heading_text st l t) [].
Proof.
  intros st l t Hl Hs Ho Ht. destruct (ManuBlocks.heading_frag st l t Hs Ho Hl Ht) as [F _]. eapply block_plain; [exact F|]. intros u R ls T m Hi.
  destruct (walk_h tr EM ST LG u st l t R (set_nv_languages (Some ls) m) T Hl (title_unmarked t Ht)) as [T' E]. exists [], ls, T'. split; [exact Hi|]. cbn [app]. rewrite <- app_assoc. cbn [app]. exact E.
Qed.
Lemma block_title : forall st t, In st [s "Title"; s "Subtitle"] -> title_ok t = true -> block (ManuBlocks.para_text st (ManuBlocks.xesc t)) [].
Proof.
  intros st t Hs Ht. assert (Hs2 : forallb style_char st = true /\ ManuBlocks.st_other st) by (destruct Hs as [<- | [<- | []]]; (split; [reflexivity | split; discriminate])).
  destruct (ManuBlocks.para_frag st t (proj1 Hs2) (proj2 Hs2) Ht) as [F _]. eapply block_plain; [exact F|]. intros u R ls T m Hi.
  assert (Pp : plain_par EM ST LG st) by (apply (plain_par_in languages); destruct Hs as [<- | [<- | []]]; [do 3 right; now left | do 4 right; now left]).
  destruct (walk_title tr EM ST LG u st t R (set_nv_languages (Some ls) m) T Pp (title_unmarked t Ht)) as [T' E]. exists [], ls, T'. split; [exact Hi|]. cbn [app]. rewrite <- app_assoc. cbn [app]. exact E.
Qed.

(** ** Scenes *)
Definition mark_text (t : str) : str := ManuBlocks.para_text (s "scene_20_mark") (ManuBlocks.xesc t).
Definition scene_text (i w : str) : str := mark_text (s "[ScID:" ++ i ++ s "]") ++ [10%N] ++ ManuBlocks.para_text (s "Text_20_body") w ++ [10%N] ++ mark_text (s "[/ScID]").
Lemma mark_frag : forall t, xml_text t -> ~ In 13%N t -> frag (mark_text t) (Start text_p (para_attrs (s "scene_20_mark")) :: chars t ++ [End text_p]).
Proof.
  intros t H1 H2. apply frag_tag; [reflexivity | now apply ManuBlocks.good_para | apply nodup_names; reflexivity | apply xlex_lexes; reflexivity | apply no_char; reflexivity | now apply frag_esc].
Qed.
Lemma mark_open : forall i, forallb is_digit i = true -> xml_text (s "[ScID:" ++ i ++ s "]") /\ ~ In 13%N (s "[ScID:" ++ i ++ s "]").
Proof.
  intros i D. assert (K : forall c, In c (s "[ScID:" ++ i ++ s "]") -> xml_char c = true /\ c <> 13%N).
  { intros c Hc. assert (Hc2 : In c (s "[ScID:" ++ s "0123456789" ++ s "]")) by (rewrite !in_app_iff in *; destruct Hc as [Hc | [Hc | Hc]]; [now left | right; left; now apply (digits_in i) | right; now right]).
    clear Hc. revert c Hc2. apply Forall_forall. repeat constructor; discriminate. }
  split; [apply Forall_forall; intros c Hc; now apply K | intro I; now apply (K _ I)].
Qed.
Lemma mark_close : xml_text (s "[/ScID]") /\ ~ In 13%N (s "[/ScID]").
Proof. split; [repeat constructor | intro I; cbn in I; intuition discriminate]. Qed.
Lemma cleanup_line : forall ls X, cleanup_scene ls (10%N :: X) = 10%N :: cleanup_scene ls X.
Proof.
  intros ls. unfold cleanup_scene. generalize ([s "i"; s "b"] ++ map (fun l => s "lang=" ++ l) ls). induction l as [|t l IH]; intro X; [reflexivity|]. cbn [fold_left]. rewrite <- IH. reflexivity.
Qed.
Lemma strip_line : forall X t, rstrip X = t -> strip t = t -> strip (10%N :: X) = t.
Proof.
  intros X t Hr Hs. change (strip (10%N :: X)) with (strip X). assert (E : strip X = strip (rstrip X)); [|now rewrite E, Hr].
  unfold PyStr.strip, strip_by, rstrip. clear. induction X as [|c X IH] using rev_ind; [reflexivity|]. destruct (is_space c) eqn:E.
  - assert (R1 : rstrip_by is_space (X ++ [c]) = rstrip_by is_space X) by (unfold rstrip_by; rewrite rev_app_distr; cbn [rev app lstrip_by]; now rewrite E). rewrite R1, <- IH.
    unfold rstrip_by at 1. destruct (blank X) eqn:B.
    + unfold rstrip_by. assert (B1 : lstrip_by is_space X = []) by exact (lstrip_blank X B). rewrite B1. assert (B2 : lstrip_by is_space (X ++ [c]) = []); [|now rewrite B2]. apply (lstrip_blank (X ++ [c])). unfold SpecImport.blank in *. rewrite forallb_app, B. cbn. now rewrite E.
    + assert (L2 : lstrip_by is_space (X ++ [c]) = lstrip_by is_space X ++ [c]) by exact (lstrip_keep X [c] B). rewrite L2. unfold rstrip_by. rewrite rev_app_distr. cbn [rev app lstrip_by]. now rewrite E.
  - assert (R1 : rstrip_by is_space (X ++ [c]) = X ++ [c]) by (unfold rstrip_by; rewrite rev_app_distr; cbn [rev app lstrip_by]; rewrite E; cbn [rev]; now rewrite rev_involutive). now rewrite R1.
Qed.
Lemma scene_convert : forall ks, marked_up languages ks -> well_tagged [] ks = true -> rstrip (typed ks) = typed ks ->
  exists w es, proof_convert author languages (Some (typed ks)) = Some w /\ FormatXml5.run w es (FormatRun.PW []) (FormatRun.PW []) /\ ProofEvents.evs_of author languages (spread everywhere [] ks) es.
Proof.
  intros ks M W R. destruct (ProofEvents.converts author languages names ks M) as [F [tail [A1 [A2 [A3 A4]]]]]. pose proof M as [Mk _]. rewrite adjusted_spread in A1; [|apply names | exact Mk | exact W].
  pose proof (no_blank_tail ks F tail W R A1 A2) as ->. rewrite app_nil_r in A1. subst F. destruct (ManuEvents.spread_reads author ks [] W) as [a K].
  destruct (ProofEvents.read_evs author languages names _ _ a _ A3 K) as [es [E1 E2]]. exists (concat (ProofEvents.wordsH author languages (spread everywhere [] ks))), es. split; [exact A4 | split; assumption].
Qed.
Lemma block_scene : forall i x ks w, number_id i = true -> dget i (nv_scenes n) = Some x -> set_sceneContent (typed ks) x = x ->
  marked_up languages ks -> well_tagged [] ks = true -> strip (typed ks) = typed ks -> marker (typed ks) = false ->
  proof_convert author languages (Some (typed ks)) = Some w -> block (scene_text i w) [i].
Proof.
  intros i x ks w Hi Hx Hs M W Sp Mk Hw. pose proof M as [Tk _].
  assert (R : rstrip (typed ks) = typed ks).
  { pose proof (strip_by_stripped is_space (typed ks)) as [_ St]. unfold PyStr.strip in Sp. rewrite Sp in St. unfold rstrip, rstrip_by. destruct (rev (typed ks)) as [|c l] eqn:E; [rewrite <- (rev_involutive (typed ks)), E; reflexivity|].
    rewrite lstrip_by_id; [rewrite <- E; apply rev_involutive|]. exact St. }
  destruct (scene_convert ks M W R) as [w' [es [Hw' [Rn Ev]]]]. assert (w' = w) by congruence. subst w'. clear Hw'.
  assert (Di : forallb is_digit i = true) by (destruct i; [discriminate | exact Hi]). destruct (mark_open i Di) as [X1 X2]. destruct mark_close as [Y1 Y2].
  assert (Fp : frag (ManuBlocks.para_text (s "Text_20_body") w) (Start text_p (para_attrs (s "Text_20_body")) :: es ++ [End text_p])).
  { apply frag_para; [now apply ManuBlocks.run_pf | apply (lexes_tag text_p (para_attrs (s "Text_20_body")) false eq_refl (ManuBlocks.good_para (s "Text_20_body") eq_refl)); apply nodup_names; reflexivity | apply tag_no_cr; [reflexivity | now apply ManuBlocks.good_para]]. }
  eexists. split; [apply frag_app; [now apply mark_frag | apply frag_app; [exact feed_line | apply frag_app; [exact Fp | apply frag_app; [exact feed_line | now apply mark_frag]]]]|].
  intros u Rs ls T todo m Hl D. destruct (differ_scene i x (typed ks) todo n m keys Hx Hs D) as [y [Hy [Sy [_ D2]]]]. assert (Pm : plain_par EM ST LG (s "scene_20_mark")) by (apply (plain_par_in languages); do 2 right; now left).
  match goal with |- exists u' ls' T' m', _ /\ _ /\ pfeed u (?E ++ Rs) _ = _ => replace (E ++ Rs) with (Start text_p (para_attrs (s "scene_20_mark")) :: chars (s "[ScID:" ++ i ++ s "]") ++ End text_p :: Data [10%N] :: Start text_p (para_attrs (s "Text_20_body")) :: es ++ End text_p :: Data [10%N] ::
    Start text_p (para_attrs (s "scene_20_mark")) :: chars (s "[/ScID]") ++ End text_p :: Rs) end.
  2: { change (chars [10%N]) with [Data [10%N]]. generalize (chars (s "[ScID:" ++ i ++ s "]")) (chars (s "[/ScID]")). intros c1 c2. cbn [app]. f_equal. rewrite <- !app_assoc. cbn [app]. rewrite <- !app_assoc. cbn [app]. rewrite <- !app_assoc. reflexivity. }
  set (n1 := set_nv_languages (Some ls) m). unfold Outside. fold n1. rewrite scene_opens by assumption. rewrite ProofRead.pfeed_data. rewrite ProofRead.pfeed_tag by reflexivity.
  change (ProofWalk.P EM ST LG None false, ProofWalk.R n1 [10%N] (Some i)) with (ProofMachine.PS languages LG None false None [] [], ProofMachine.RS (ProofMachine.nset m ls) [10%N] (Some i) []).
  rewrite ProofMachine.between. cbn [bind]. rewrite (ProofMachine.start_para tr languages LG (P_none languages) m i); [|now right]. cbn [bind].
  destruct (ProofMachine.tokens tr author languages LG (P_find languages locales (proj1 (proj2 names))) (P_none languages) (P_style languages locales (proj1 (proj2 names))) (ManuStyles.LANG_name languages locales) m i
    (Data [10%N] :: Start text_p (para_attrs (s "scene_20_mark")) :: chars (s "[/ScID]") ++ End text_p :: Rs) (length ks) ks (le_n _) [] [] es ls [10%N] Tk (incl_nil_l _) I W) as [ls' [E1 [E2 [E3 E4]]]]; [apply calm_text; exact Mk | exact Ev|].
  exists [], ls', [10%N], (set_nv_scenes (dset i x (nv_scenes m)) m). split; [now apply E4|]. split; [exact D2|]. cbn [app] in E1. rewrite E1. rewrite ProofRead.pfeed_data.
  change (Idle languages LG m i ls' (10%N :: render (spread everywhere [] ks) ++ [10%N])) with (ProofWalk.P EM ST LG None false, ProofWalk.R (set_nv_languages (Some ls') m) (10%N :: render (spread everywhere [] ks) ++ [10%N]) (Some i)).
  rewrite (scene_closes tr EM ST LG ([] ++ [10%N]) Rs i y (typed ks) (set_nv_languages (Some ls') m) (10%N :: render (spread everywhere [] ks) ++ [10%N]) ls'); [| exact Pm | destruct m; exact Hy | reflexivity |].
  { rewrite Sy. unfold Outside. destruct m. reflexivity. }
  rewrite cleanup_line. apply strip_line; [|exact Sp]. exact (cleaned author languages ls' ks names Tk W R (E4 Hl) E3).
Qed.
End Blocks.
