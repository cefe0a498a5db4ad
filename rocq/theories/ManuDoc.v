(** The document of an exported manuscript: its events. *)
From Coq Require Import String List NArith ZArith Bool Lia Arith.
From Verif Require Import PyStr PyDict YwText YwTextProofs NovelModel OdfXml OdfXmlProofs OdfLex OdtText OdtTextProofs OdtTextProofs2 OdsTree OdsRoundTrip OdsRoundTrip2 Template Templates Manuscript XmlTags.
Import ListNotations.

(** the header, around the automatic styles *)
Definition MARK : str := s "$automaticStyles".
Fixpoint cut (fuel : nat) (t : str) : str * str :=
  match fuel, t with S f, c :: r => if prefixb MARK t then ([], skipn (length MARK) t) else let '(a, b) := cut f r in (c :: a, b) | _, _ => ([], []) end.
Definition HEAD1 : str := Eval vm_compute in fst (cut (length FORMATTED_HEADER) (skipn (length DECL) FORMATTED_HEADER)).
Definition HEAD2 : str := Eval vm_compute in snd (cut (length FORMATTED_HEADER) (skipn (length DECL) FORMATTED_HEADER)).
Definition FOOT : str := OdtWManuscript_fileFooter.
Lemma header_text : forall x, safe_substitute FORMATTED_HEADER [(s "automaticStyles", x)] = DECL ++ HEAD1 ++ x ++ HEAD2.
Proof. intro x. assert (E : FORMATTED_HEADER = DECL ++ HEAD1 ++ MARK ++ HEAD2) by (vm_compute; reflexivity). vm_compute. reflexivity. Qed.

Definition toks (t : str) : list xtok := match xlex t with Some ts => ts | None => [] end.
Definition T1 : list xtok := Eval vm_compute in toks HEAD1.
Definition T2 : list xtok := Eval vm_compute in toks HEAD2.
Definition T3 : list xtok := Eval vm_compute in toks FOOT.
Definition run_events (st : list str) (b : bool) (ts : list xtok) : list event := match nest_run st b ts with Some (e, _, _) => e | None => [] end.
Definition ST1 : list str := [s "office:document-content"].
Definition ST2 : list str := [s "office:text"; s "office:body"; s "office:document-content"].
Definition E1 : list event := Eval vm_compute in run_events [] false T1.
Definition E2 : list event := Eval vm_compute in run_events ST1 true T2.
Definition E3 : list event := Eval vm_compute in run_events ST2 true T3.
Lemma run1 : nest_run [] false T1 = Some (E1, ST1, true).
Proof. vm_compute. reflexivity. Qed.
Lemma run2 : nest_run ST1 true T2 = Some (E2, ST2, true).
Proof. vm_compute. reflexivity. Qed.
Lemma run3 : nest_run ST2 true T3 = Some (E3, [], true).
Proof. vm_compute. reflexivity. Qed.

Theorem manuscript_events : forall styles body Es Eb, frag styles Es -> frag body Eb ->
  sax (DECL ++ HEAD1 ++ styles ++ HEAD2 ++ body ++ FOOT) = Some (merge (E1 ++ Es ++ E2 ++ Eb ++ E3)).
Proof.
  intros styles body Es Eb [Cs [ts [Ls [Gs Ns]]]] [Cb [tb [Lb [Gb Nb]]]].
  assert (C : ~ In 13%N (DECL ++ HEAD1 ++ styles ++ HEAD2 ++ body ++ FOOT)).
  { rewrite !in_app_iff. assert (A : ~ In 13%N DECL /\ ~ In 13%N HEAD1 /\ ~ In 13%N HEAD2 /\ ~ In 13%N FOOT) by (repeat split; apply no_char; vm_compute; reflexivity). tauto. }
  unfold sax. rewrite unl_id by exact C. rewrite skip_DECL.
  assert (L : xlex (HEAD1 ++ styles ++ HEAD2 ++ body ++ FOOT) = Some (T1 ++ ts ++ T2 ++ tb ++ T3)).
  { apply lexes_full. repeat apply lexes_app; try assumption; apply xlex_lexes; vm_compute; reflexivity. }
  rewrite L, no_cdata_end_ok.
  2:{ rewrite !in_app_iff. assert (A : ~ In (XChar 62) T1 /\ ~ In (XChar 62) T2 /\ ~ In (XChar 62) T3) by (repeat split; apply not_gt_in; vm_compute; reflexivity). tauto. }
  rewrite nest_app, run1. unfold ST1. rewrite (Ns _ []). rewrite nest_app. change [s "office:document-content"] with ST1. rewrite run2. unfold ST2. rewrite (Nb _ _ T3). change [s "office:text"; s "office:body"; s "office:document-content"] with ST2.
  rewrite <- (app_nil_r T3), nest_app, run3. cbn [nest option_map]. rewrite app_nil_r. reflexivity.
Qed.
