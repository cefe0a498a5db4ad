(** Exporting and reading a manuscript for proof reading: the whole way. *)
From Coq Require Import String List NArith ZArith Bool Lia Arith.
From Verif Require Import ManuDoc PyStr PyDict YwText YwTextProofs NovelModel NovelOps OdfXml OdfXmlProofs OdtText SpecOdf SpecFormat SpecManuscript SplitterProofs OdtRead Splitter
  Export ManuWalk ManuStyles Manuscript Proofing SpecExport SpecRetext Retext SpecProof ProofRead ProofWalk ProofStyles ProofBlocks ProofExport.
From Verif Require ManuProofs.
Import ListNotations.

Section Whole.
Variables (tr : str -> str) (pn pp : option str) (n : novel).
Notation n0 := (with_languages n).
Notation author := (py_str (nv_authorName n)).
Notation languages := (languages_in n0).
Notation gfeed := (ProofRead.gfeed tr).
Notation pfeed := (ProofRead.pfeed tr).
(** the calls before the text *)
Lemma proof_opening_ok : forall m styles title name desc, unmarked title -> styles = None \/ styles = Some (nv_languageCode m, nv_countryCode m) ->
  foldM (handle (proof_reader tr)) (opening_calls styles title name desc) (new_rs (set_nv_languages (Some []) m)) = Ok (new_rs (set_nv_languages (Some []) m)).
Proof.
  intros m styles title name desc U1 Hs. unfold opening_calls.
  assert (A : forall cs r, foldM (handle (proof_reader tr)) cs r = Ok r -> forall ds, foldM (handle (proof_reader tr)) (cs ++ ds) r = foldM (handle (proof_reader tr)) ds r) by (intros cs r E ds; rewrite ConfigProofs.foldM_app, E; reflexivity).
  rewrite A. rewrite A. rewrite A.
  - destruct desc as [[|]|]; reflexivity.
  - destruct name as [[|]|]; reflexivity.
  - destruct title as [[|c t]|]; [reflexivity | | reflexivity]. destruct U1 as [A1 A2]. set (r := new_rs (set_nv_languages (Some []) m)).
    change (foldM (handle (proof_reader tr)) [CStart (s "title") [None]; CData (c :: t); CEnd (Some (s "title"))] r) with
      (do b <- pf_data tr (c :: t) r; do x <- pf_end (Some (s "title")) b; Ok x).
    unfold pf_data. change (r_skip r) with false. cbv iota. rewrite A1, A2. reflexivity.
  - destruct Hs as [-> | ->]; [reflexivity|]. remember (nv_languageCode m) as l eqn:El. remember (nv_countryCode m) as c eqn:Ec.
    destruct l as [[|]|]; destruct c as [[|]|]; destruct m; cbn in El, Ec; subst; reflexivity.
Qed.
Lemma ok_moved : proof_ok author languages n -> proof_ok (py_str (nv_authorName n0)) languages n0.
Proof.
  destruct (ManuProofs.with_set n) as [l E]. intros [A B C D F]. set (L0 := languages) in *. clearbody L0. rewrite E. constructor; [exact A | exact B | exact C | exact D|].
  intros i Hi. destruct (F i Hi) as [c [F2 [G1 G2 G3]]]. exists c. split; [exact F2|]. constructor; [exact G1 | exact G2|].
  intros j Hj. destruct (G3 j Hj) as [H1 [x [H2 [K1 K2 K3]]]]. split; [exact H1|]. exists x. split; [exact H2|]. constructor; [exact K1 | exact K2 | exact K3].
Qed.
Lemma document_moved : forall i, in_document n i -> in_document n0 i.
Proof. intros i H. destruct (ManuProofs.with_set n) as [l E]. rewrite E. clear - H. destruct n. exact H. Qed.
Lemma keys_moved : nv_scenes n0 = nv_scenes n.
Proof. destruct (ManuProofs.with_set n) as [l E]. rewrite E. now destruct n. Qed.
Lemma nothing_moved : forall ids m, other_texts (fun i => In i ids) n m -> differ ids n0 (set_nv_languages (nv_languages n0) m).
Proof.
  intros ids m H. destruct (ManuProofs.with_set n) as [l E]. assert (E2 : set_nv_languages (nv_languages n0) n = n0) by (rewrite E; now destruct n). rewrite <- E2 at 1. now apply other_langs.
Qed.
Theorem proof_round_trip : proof_ok author languages n -> NoDup (map fst (nv_scenes n)) ->
  exists doc es, proof_text tr pn pp n = Ok doc /\ sax doc = Some es /\
  forall m es' styles title name desc, other_texts (in_document n) n m -> deliver_text es es' -> unmarked title -> styles = None \/ styles = Some (nv_languageCode n, nv_countryCode n) ->
  exists ls, incl ls languages /\ read_formatted tr (proof_reader tr) (opening_calls styles title name desc) es' m = Ok (set_nv_languages (Some ls) n, false).
Proof.
  intros M keys. pose proof (ok_moved M) as M0. pose proof M0 as [N0 L0 _ _ _].
  assert (keys0 : NoDup (map fst (nv_scenes n0))) by (rewrite keys_moved; exact keys).
  destruct (document_text tr pn pp n0 N0 L0 keys0 M0) as [body [D1 [js [[Eb [Fb W]] Js]]]]. destruct (all_locales languages L0 (proj1 (proj2 N0))) as [Cd [Cn _]].
  pose proof (frag_proof_styles languages Cd) as Fs. pose proof (ManuDoc.manuscript_events _ _ _ _ Fs Fb) as S.
  eexists. eexists. split; [exact D1|]. split; [exact S|]. clear S D1.
  intros m es' styles title name desc Om Dl U1 Hs. destruct (differ_keeps _ _ _ Om) as [K1 K2]. rewrite <- K1, <- K2 in Hs. unfold read_formatted, feed. rewrite (proof_opening_ok m styles title name desc U1 Hs). cbn [bind].
  set (n1 := set_nv_languages (Some []) m).
  destruct (walk_dull tr [s "Emphasis"] [s "Strong_20_Emphasis"] [] E1 [] (proof_styles_events languages ++ ManuDoc.E2 ++ Eb ++ E3) n1 []) as [u1 W1]; [vm_compute; reflexivity|].
  destruct (proof_styles_walk tr languages u1 (ManuDoc.E2 ++ Eb ++ E3) n1 [] Cn) as [u2 W2].
  destruct (walk_dull tr [s "Emphasis"; ITALIC languages] [s "Strong_20_Emphasis"; BOLD languages] (learn_styles 1 languages []) ManuDoc.E2 u2 (Eb ++ E3) n1 []) as [u3 W3]; [vm_compute; reflexivity|].
  assert (D : differ (js ++ []) n0 (set_nv_languages (nv_languages n0) m)) by (rewrite app_nil_r; apply nothing_moved; apply (other_weaken (in_document n)); [intros i Hi; now apply Js, document_moved | exact Om]).
  destruct (W u3 E3 [] [] [] _ (incl_nil_l _) D) as [u4 [ls [T [m4 [Hls [D4 W4]]]]]]. apply differ_end in D4. subst m4.
  assert (O1 : Outside languages (set_nv_languages (nv_languages n0) m) [] [] = ProofWalk.Out [s "Emphasis"; ITALIC languages] [s "Strong_20_Emphasis"; BOLD languages] (LANG languages) n1 []) by (unfold Outside, n1; destruct m; reflexivity).
  assert (O2 : Outside languages n0 ls T = ProofWalk.Out [s "Emphasis"; ITALIC languages] [s "Strong_20_Emphasis"; BOLD languages] (LANG languages) (set_nv_languages (Some ls) n) T) by (destruct (ManuProofs.with_set n) as [l E]; unfold Outside; set (LL := languages); clearbody LL; rewrite E; destruct n; reflexivity).
  rewrite O1, O2 in W4.
  destruct (walk_dull tr [s "Emphasis"; ITALIC languages] [s "Strong_20_Emphasis"; BOLD languages] (LANG languages) E3 u4 [] (set_nv_languages (Some ls) n) T) as [u5 W5]; [vm_compute; reflexivity|]. rewrite app_nil_r in W5.
  assert (Run : foldM gfeed (merge (E1 ++ proof_styles_events languages ++ ManuDoc.E2 ++ Eb ++ E3)) (ProofRead.norm (new_ps, new_rs n1)) = Ok (ProofWalk.Out [s "Emphasis"; ITALIC languages] [s "Strong_20_Emphasis"; BOLD languages] (LANG languages) (set_nv_languages (Some ls) n) T)).
  { rewrite ProofRead.pfeed_start. change (ProofRead.norm (new_ps, new_rs n1)) with (ProofWalk.Out [s "Emphasis"] [s "Strong_20_Emphasis"] [] n1 []). rewrite W1, W2, W3. unfold LANG in *. rewrite W4, W5, ProofRead.pfeed_end. apply ProofWalk.flush_out. }
  destruct (ProofRead.delivered tr _ _ Dl _ _ Run) as [st2 [R1 R2]]. change (proof_reader tr) with (ProofRead.H tr). fold n1. rewrite R1. cbn [bind].
  assert (Rn : r_novel (snd st2) = set_nv_languages (Some ls) n) by (change (r_novel (snd st2)) with (r_novel (snd (ProofRead.norm st2))); rewrite R2; reflexivity).
  rewrite Rn. exists ls. split; [exact Hls|]. apply (ManuProofs.nothing_split tr (set_nv_languages (Some ls) n)).
  intros k Hk. destruct M as [_ _ _ _ Ch]. destruct (Ch k Hk) as [c [Hc [_ _ Hsc]]]. exists c. split; [exact Hc|]. intros i Hi. destruct (Hsc i Hi) as [_ [x [Hx [_ Hx2 _]]]]. exists x. split; [exact Hx | exact Hx2].
Qed.
End Whole.
