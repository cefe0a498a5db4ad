(** A document that no project knows: creating a new project, or refusing it. *)
From Coq Require Import List NArith ZArith Bool Lia Arith.
From Verif Require Import PyStr PyDict NovelModel FileOps Converter ConverterProofs2 ConverterProofs3.
Import ListNotations.

Lemma runs_isfile : forall {A} p (k : bool -> prog A) w r w', runs (IsFile p k) w r w' -> runs (k (present w p)) w r w'.
Proof. intros A p k w r w' H. inversion H; subst; assumption. Qed.
Lemma present_some : forall w p, files w p <> None -> present w p = true.
Proof. intros w p H. unfold present. destruct (files w p); [reflexivity | congruence]. Qed.
Lemma runs_told : forall {A} m (r0 : res A) w r w', runs (Tell m (Ret r0)) w r w' -> r = r0 /\ w' = log (Status m) w.
Proof. intros A m r0 w r w' H. inversion H as [| | | | | | | | | | | | | |m' k w1 r1 w1' H1| |]; subst. inversion H1; subst. split; reflexivity. Qed.

Lemma runs_read : forall {A} p (k : res str -> prog A) w r w', runs (ReadFile p k) w r w' ->
  (exists c, files w p = Some c /\ runs (k (Ok c)) w r w') \/ runs (k (Err OSError)) (log (NotRead p) w) r w'.
Proof. intros A p k w r w' H. inversion H; subst; [left; eexists; split; eassumption | right; assumption]. Qed.
Section New.
Variables (en : environment) (cv : converter).
Hypothesis Hcv : In cv [yw7_converter en; yw7_importer en].
(** neither a project nor a document with a known suffix *)
Lemma not_project : forall base e, ~ In 46%N e -> ~ In 47%N e -> (exists c, In c (name_of base) /\ c <> 46%N) -> e <> s "yw7" ->
  exists m, export_source cv (base ++ s "." ++ e) = Err m.
Proof.
  intros base e H1 H2 H3 H4. assert (E : cv_export_source cv = [the_yw7 en]) by (destruct Hcv as [<- | [<- | []]]; reflexivity).
  unfold export_source. rewrite E, (splitext_ext base e H1 H2 H3). cbn [first snd]. change (fc_ext (the_yw7 en)) with (s "." ++ s "yw7").
  destruct (str_eqb (s "." ++ s "yw7") (s "." ++ e)) eqn:EE; [|eexists; reflexivity]. apply str_eqb_eq in EE. apply app_inv_head in EE. congruence.
Qed.
Lemma no_import_source : forall path, (forall x, In x import_kinds -> forall b, path <> b ++ fst x ++ snd x) -> exists m, import_source cv path = Err m.
Proof.
  intros path HK. unfold import_source. assert (E : cv_import_source cv = map (the_reader en) import_kinds) by (destruct Hcv as [<- | [<- | []]]; reflexivity). rewrite E, first_map.
  destruct (first _ import_kinds) as [x|] eqn:F; [|eexists; reflexivity]. exfalso. apply first_In in F. destruct F as [F1 F2]. change (suffixb (ends x) path = true) in F2. apply suffixb_spec in F2. destruct F2 as [r F2].
  exact (HK x F1 r F2).
Qed.
Lemma new_run : forall base e suffix w w' r, ~ In 46%N e -> ~ In 47%N e -> (exists c, In c (name_of base) /\ c <> 46%N) -> e <> s "yw7" ->
  (forall x, In x import_kinds -> forall b, base ++ s "." ++ e <> b ++ fst x ++ snd x) ->
  files w (base ++ s "." ++ e) <> None -> runs (run_converter cv (base ++ s "." ++ e) suffix) w r w' ->
  runs (or_tell (make_new_project cv [] (base ++ s "." ++ e)) (fun st => create_yw7 cv None (fst st) (snd st))) w r w'.
Proof.
  intros base e suffix w w' r H1 H2 H3 H4 H5 H6 H. unfold run_converter in H. apply runs_isfile in H. rewrite (present_some _ _ H6) in H. cbn [negb] in H.
  destruct (not_project base e H1 H2 H3 H4) as [m1 E1]. rewrite E1 in H. destruct (no_import_source _ H5) as [m2 E2]. rewrite E2 in H.
  assert (E : cv_new_project cv = Some []) by (destruct Hcv as [<- | [<- | []]]; reflexivity). rewrite E in H. exact H.
Qed.

(** documents with a suffix not meant to be written back are refused *)
Lemma refused : forall base x e suffix w w' r, In x [s "_xref"; s "_brf_synopsis"] -> ~ In 46%N e -> ~ In 47%N e -> e <> s "yw7" ->
  files w (base ++ x ++ s "." ++ e) <> None -> runs (run_converter cv (base ++ x ++ s "." ++ e) suffix) w r w' ->
  r = Ok None /\ w' = log (Status (s "!This document is not meant to be written back.")) w.
Proof.
  intros base x e suffix w w' r Hx H1 H2 H3 H4 H. assert (Nx : exists c, In c (name_of (base ++ x)) /\ c <> 46%N).
  { exists 95%N. split; [|discriminate]. rewrite name_of_app by (destruct Hx as [<- | [<- | []]]; intro J; vm_compute in J; repeat (destruct J as [J | J]; [discriminate J|]); destruct J).
    apply in_or_app. right. destruct Hx as [<- | [<- | []]]; left; reflexivity. }
  rewrite app_assoc in H, H4. apply new_run in H; [|exact H1 | exact H2 | exact Nx | exact H3 | | exact H4].
  - unfold make_new_project, can_import in H. rewrite (splitext_ext (base ++ x) e H1 H2 Nx) in H. cbn [fst] in H.
    assert (C : forallb (fun x0 => negb (suffixb x0 (base ++ x))) DO_NOT_IMPORT = false).
    { assert (S : suffixb x (base ++ x) = true) by (apply suffixb_spec; exists base; reflexivity).
      unfold DO_NOT_IMPORT. cbn [forallb]. destruct Hx as [<- | [<- | []]]; rewrite S; [reflexivity|]. rewrite andb_false_r. reflexivity. }
    rewrite C in H. cbn [negb] in H. unfold or_tell in H. cbn [pcatch] in H. apply runs_told in H. exact H.
  - intros y Hy b E. apply (f_equal splitext) in E. rewrite (splitext_ext (base ++ x) e H1 H2 Nx), (splitext_kind y b (import_kinds_ok y Hy)) in E. injection E as E _.
    apply (f_equal (@rev N)) in E. rewrite !rev_app_distr in E. unfold import_kinds in Hy. cbn [In] in Hy.
    destruct Hx as [<- | [<- | []]]; repeat (destruct Hy as [<- | Hy]; [discriminate E|]); destruct Hy.
Qed.
(** other documents become new projects: outlines if the document has a heading of level 3 *)
Lemma created : forall base suffix w w' r z content, (exists c, In c (name_of base) /\ c <> 46%N) ->
  (forall x b, In x [s "_xref"; s "_brf_synopsis"] -> base <> b ++ x) ->
  (forall x, In x import_kinds -> forall b, base ++ s ".odt" <> b ++ fst x ++ snd x) ->
  files w (base ++ s ".odt") = Some z -> en_content en z = Some content ->
  runs (run_converter cv (base ++ s ".odt") suffix) w r w' ->
  runs (create_yw7 cv None (Converter.make (if containsb (s "Heading_20_3") content then the_outline en else the_import en) (base ++ s ".odt")) (Converter.make (the_yw7 en) (base ++ s ".yw7"))) w r w' \/
  (r = Ok None /\ exists m, w' = log (Status (s "!Cannot read file: " ++ m)) (log (NotRead (base ++ s ".odt")) w)).
Proof.
  intros base suffix w w' r z content Nb Hx HK Hf Hc H. change (s ".odt") with (s "." ++ s "odt") in H, HK, Hf |- *.
  assert (D1 : ~ In 46%N (s "odt")) by (intro J; vm_compute in J; repeat (destruct J as [J | J]; [discriminate J|]); destruct J).
  assert (D2 : ~ In 47%N (s "odt")) by (intro J; vm_compute in J; repeat (destruct J as [J | J]; [discriminate J|]); destruct J).
  apply new_run in H; [|exact D1 | exact D2 | exact Nb | discriminate | exact HK | rewrite Hf; discriminate].
  unfold make_new_project, can_import in H. rewrite (splitext_ext base (s "odt") D1 D2 Nb) in H. cbn [fst] in H.
  assert (C : forallb (fun x0 => negb (suffixb x0 base)) DO_NOT_IMPORT = true).
  { apply forallb_forall. intros x Ix. apply negb_true_iff. destruct (suffixb x base) eqn:S; [|reflexivity]. apply suffixb_spec in S. destruct S as [b S]. exfalso. exact (Hx x b Ix S). }
  rewrite C in H. cbn [negb] in H. assert (S : suffixb (s "." ++ s "odt") (base ++ s "." ++ s "odt") = true) by (apply suffixb_spec; exists base; reflexivity).
  change (s ".odt") with (s "." ++ s "odt") in H. rewrite S in H. unfold or_tell in H. cbn [pcatch] in H.
  assert (F : cv_content cv = en_content en /\ cv_yw7 cv = the_yw7 en /\ cv_outline cv = the_outline en /\ cv_import cv = the_import en) by (destruct Hcv as [<- | [<- | []]]; repeat split; reflexivity).
  destruct F as (F1 & F2 & F3 & F4). rewrite F1, F2, F3, F4 in H. apply runs_read in H. destruct H as [[c [Hp Hr]] | Hr].
  - rewrite Hf in Hp. injection Hp as <-. rewrite Hc in Hr. cbn [pcatch] in Hr. left. exact Hr.
  - right. cbn [pcatch] in Hr. apply runs_told in Hr. destruct Hr as [-> ->]. split; [reflexivity|]. eexists. reflexivity.
Qed.
End New.
