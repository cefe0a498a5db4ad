(** The converted texts inside a document. *)
From Coq Require Import String List NArith ZArith Bool Lia Arith.
From Verif Require Import PyStr PyDict YwTree YwText YwTextProofs OdfXml OdfXmlProofs OdtText SpecOdf OdtTextProofs.
Import ListNotations.

(** ** carriage returns *)
Lemma esc5_head : forall c r, c <> 13%N -> unl (esc5 c ++ r) = esc5 c ++ unl r.
Proof.
  intros c r Hc. unfold esc5.
  repeat match goal with |- context [N.eqb c ?k] => destruct (N.eqb c k); [reflexivity|] end.
  cbn [app unl]. now rewrite (proj2 (N.eqb_neq c 13)).
Qed.
Definition no_lf_head (r : str) : Prop := match r with c :: _ => c <> 10%N | [] => True end.
Lemma unl_cr : forall r, no_lf_head r -> unl (13%N :: r) = 10%N :: unl r.
Proof. intros [|d r] H; [reflexivity|]. change (unl (13%N :: d :: r)) with (if N.eqb d 10 then 10%N :: unl r else 10%N :: unl (d :: r)). now rewrite (proj2 (N.eqb_neq d 10)). Qed.
Lemma esc5_not_lf : forall d r, d <> 10%N -> no_lf_head (esc5 d ++ r).
Proof. intros d r H. unfold esc5. repeat match goal with |- context [N.eqb d ?k] => destruct (N.eqb d k); [cbn; discriminate|] end. exact H. Qed.
Lemma unl_esc : forall t r, no_lf_head r -> unl (flat_map esc5 t ++ r) = flat_map esc5 (unl t) ++ unl r.
Proof.
  intros t r Hr. enough (H : forall n t, length t <= n -> unl (flat_map esc5 t ++ r) = flat_map esc5 (unl t) ++ unl r) by (apply (H (length t)); lia).
  clear t. induction n as [|n IH]; intros t Ht; (destruct t as [|c t]; [reflexivity|]); cbn [length] in Ht; [lia|].
  cbn [flat_map]. rewrite <- app_assoc. destruct (N.eq_dec c 13) as [->|Hc].
  - change (esc5 13) with [13%N]. cbn [app]. destruct t as [|d t].
    + cbn [flat_map app]. rewrite unl_cr by exact Hr. reflexivity.
    + cbn [length] in Ht. destruct (N.eq_dec d 10) as [->|Hd].
      * cbn [flat_map]. change (esc5 10) with [10%N]. cbn [app].
        change (unl (13%N :: 10%N :: flat_map esc5 t ++ r)) with (10%N :: unl (flat_map esc5 t ++ r)).
        change (unl (13%N :: 10%N :: t)) with (10%N :: unl t). rewrite IH by lia. reflexivity.
      * rewrite (unl_cr (d :: t)) by exact Hd. rewrite unl_cr.
        2:{ cbn [flat_map]. rewrite <- app_assoc. now apply esc5_not_lf. }
        rewrite IH by (cbn; lia). reflexivity.
  - rewrite esc5_head by exact Hc. rewrite IH by lia. cbn [unl]. rewrite (proj2 (N.eqb_neq c 13)) by exact Hc. cbn [flat_map]. apply app_assoc.
Qed.
Lemma unl_no_cr : forall t, ~ In 13%N (unl t).
Proof.
  intro t. enough (H : forall n t, length t <= n -> ~ In 13%N (unl t)) by (apply (H (length t)); lia).
  clear t. induction n as [|n IH]; intros t Ht; (destruct t as [|c t]; [intros []|]); cbn [length] in Ht; [lia|].
  destruct (N.eq_dec c 13) as [->|Hc].
  - destruct t as [|d t]; [cbn; intuition discriminate|]. cbn [length] in Ht.
    change (unl (13%N :: d :: t)) with (if N.eqb d 10 then 10%N :: unl t else 10%N :: unl (d :: t)).
    destruct (N.eqb d 10); intros [H|H]; try discriminate; revert H; apply IH; cbn; lia.
  - cbn [unl]. rewrite (proj2 (N.eqb_neq c 13)) by exact Hc. intros [H|H]; [congruence|]. revert H. apply IH. lia.
Qed.
Lemma xml_text_unl : forall t, xml_text t -> xml_text (unl t).
Proof.
  intro t. enough (H : forall n t, length t <= n -> xml_text t -> xml_text (unl t)) by (apply (H (length t)); lia).
  clear t. induction n as [|n IH]; intros t Ht X; (destruct t as [|c t]; [constructor|]); cbn [length] in Ht; [lia|].
  apply Forall_cons_iff in X as [X1 X2]. destruct (N.eq_dec c 13) as [->|Hc].
  - destruct t as [|d t]; [repeat constructor|]. cbn [length] in Ht. change (unl (13%N :: d :: t)) with (if N.eqb d 10 then 10%N :: unl t else 10%N :: unl (d :: t)).
    destruct (N.eqb d 10); (constructor; [reflexivity|]); apply IH; cbn; try lia; [now apply Forall_cons_iff in X2 as [_ X2] | exact X2].
  - cbn [unl]. rewrite (proj2 (N.eqb_neq c 13)) by exact Hc. constructor; [exact X1 | apply IH; [lia | exact X2]].
Qed.
Lemma unl_app_plain : forall a b, ~ In 13%N a -> unl (a ++ b) = a ++ unl b.
Proof.
  induction a as [|c a IH]; intros b H; [reflexivity|]. cbn [app unl]. rewrite (proj2 (N.eqb_neq c 13)).
  - rewrite IH; [reflexivity | intro; apply H; now right].
  - intros ->. apply H. now left.
Qed.
(** the parser normalises line ends *)
Lemma unl_unl : forall t, unl (unl t) = unl t.
Proof. intro t. apply unl_id. apply unl_no_cr. Qed.
Lemma sax_unl : forall d, sax d = sax (unl d).
Proof. intro d. unfold sax. now rewrite unl_unl. Qed.

(** ** one-liners *)
Lemma odt_quick : forall t, odt_convert (Some t) true = flat_map esc5 t.
Proof. intros [|c t]; [reflexivity|]. unfold odt_convert. rewrite app_nil_r. apply odt_entities. Qed.
Theorem quick_element : forall t, xml_text t ->
  sax (s "<x>" ++ odt_convert (Some t) true ++ s "</x>") = Some (Start (s "x") [] :: data (unl t) ++ [End (s "x")]).
Proof.
  intros t H. rewrite odt_quick, sax_unl. rewrite unl_app_plain by (vm_compute; intuition discriminate).
  rewrite unl_esc by (cbn; discriminate). rewrite (unl_id (s "</x>")) by (vm_compute; intuition discriminate).
  rewrite (frag_doc _ _ _ (s "x") [] (chars (unl t)) 120%N (s ">")); [|lex_tag|lex_tag|vm_compute; intuition discriminate|vm_compute; intuition discriminate| |reflexivity|discriminate].
  - f_equal. apply merge_elem.
  - apply frag_esc; [now apply xml_text_unl | apply unl_no_cr].
Qed.

(** inside an attribute *)
Lemma take_value_esc : forall t f r, xml_text t -> length (flat_map esc5 t) < f ->
  take_value f 34 (flat_map esc5 t ++ 34%N :: r) = Some (blanks t, length (flat_map esc5 t) + 1, r).
Proof.
  induction t as [|c t IH]; intros f r H Hf.
  - destruct f as [|f]; [cbn in Hf; lia|]. reflexivity.
  - apply Forall_cons_iff in H as [H1 H2]. cbn [flat_map blanks map] in *. rewrite app_length in *. rewrite <- app_assoc.
    assert (Hs : forall w v, w = 38%N :: tl w -> length w >= 1 -> take_entity (w ++ flat_map esc5 t ++ 34%N :: r) = Some (v, length w) -> length w + length (flat_map esc5 t) < f ->
       take_value f 34 (w ++ flat_map esc5 t ++ 34%N :: r) = Some (v ++ blanks t, length w + length (flat_map esc5 t) + 1, r)).
    { intros w v Ew Lw Te Lf. destruct f as [|f]; [lia|]. rewrite Ew in *. cbn [app] in *. cbn [take_value]. change (N.eqb 38 34) with false. change (N.eqb 38 60) with false.
      change (N.eqb 38 38) with true. cbv iota. rewrite Te.
      change (38%N :: tl w ++ flat_map esc5 t ++ 34%N :: r) with ((38%N :: tl w) ++ flat_map esc5 t ++ 34%N :: r). rewrite skipn_len.
      rewrite IH by (try exact H2; cbn [length] in *; lia). f_equal. f_equal. f_equal. lia. }
    unfold esc5 in *. 
    destruct (N.eqb_spec c 38) as [->|E1]. { apply (Hs (s "&amp;") [38%N]); [reflexivity | cbn; lia | reflexivity | exact Hf]. }
    destruct (N.eqb_spec c 62) as [->|E2]. { apply (Hs (s "&gt;") [62%N]); [reflexivity | cbn; lia | reflexivity | exact Hf]. }
    destruct (N.eqb_spec c 60) as [->|E3]. { apply (Hs (s "&lt;") [60%N]); [reflexivity | cbn; lia | reflexivity | exact Hf]. }
    destruct (N.eqb_spec c 39) as [->|E4]. { apply (Hs (s "&apos;") [39%N]); [reflexivity | cbn; lia | reflexivity | exact Hf]. }
    destruct (N.eqb_spec c 34) as [->|E5]. { apply (Hs (s "&quot;") [34%N]); [reflexivity | cbn; lia | reflexivity | exact Hf]. }
    clear Hs. cbn [length app] in *. destruct f as [|f]; [lia|]. cbn [take_value].
    rewrite (proj2 (N.eqb_neq c 34)), (proj2 (N.eqb_neq c 60)), (proj2 (N.eqb_neq c 38)), H1 by assumption.
    rewrite IH by (try exact H2; lia). cbn. reflexivity.
Qed.
Lemma xlook_attr : forall t rest, xml_text t ->
  xlook ((s "<x a=""" ++ flat_map esc5 t ++ s """/>") ++ rest) = Some (XEmpty (s "x") [(s "a", blanks t)], length (s "<x a=""" ++ flat_map esc5 t ++ s """/>")).
Proof.
  intros t rest H. rewrite <- !app_assoc. change (s """/>" ++ rest) with (34%N :: s "/>" ++ rest).
  set (w := flat_map esc5 t ++ 34%N :: s "/>" ++ rest).
  assert (T : take_value (length w) 34 w = Some (blanks t, length (flat_map esc5 t) + 1, s "/>" ++ rest)).
  { unfold w at 2. apply take_value_esc; [exact H|]. unfold w. rewrite app_length. cbn [length]. lia. }
  assert (N0 : take_name (s "x a=""" ++ w) = Some (s "x", 1, s " a=""" ++ w)) by reflexivity.
  assert (N1 : take_name (s "a=""" ++ w) = Some (s "a", 1, s "=""" ++ w)) by reflexivity.
  change (s "<x a=""" ++ w) with (60%N :: (s "x a=""" ++ w)). unfold xlook.
  change (N.eqb 60 60) with true. cbv iota. change (prefixb (s "![CDATA[") (s "x a=""" ++ w)) with false. cbv iota.
  change (match s "x a=""" ++ w with 47%N :: r' => _ | _ => ?k end) with k. cbv beta iota. rewrite N0.
  assert (A : take_attrs (length (s " a=""" ++ w)) (s " a=""" ++ w) = Some ([(s "a", blanks t)], true, 1 + 1 + 2 + (length (flat_map esc5 t) + 1) + 2)).
  { remember (length (s " a=""" ++ w)) as n eqn:En. destruct n as [|n]; [cbn in En; lia|]. cbn [take_attrs].
    change (span_len xml_space (length (s " a=""" ++ w)) (s " a=""" ++ w)) with 1. cbn [skipn]. change (s " a=""" ++ w) with (32%N :: s "a=""" ++ w). cbn [skipn].
    change (s "a=""" ++ w) with (97%N :: (s "=""" ++ w)). cbv iota. change (97%N :: (s "=""" ++ w)) with (s "a=""" ++ w). change (0 <? 1) with true. cbv iota.
    rewrite N1. change (s "=""" ++ w) with (61%N :: 34%N :: w). cbv iota. change (N.eqb 34 34 || N.eqb 34 39)%bool with true. cbv iota. rewrite T.
    destruct n as [|n]; [cbn in En; lia|]. cbn. reflexivity. }
  rewrite A. f_equal. f_equal. rewrite !app_length. cbn [length s list_ascii_of_string map]. lia.
Qed.
Theorem quick_attribute : forall t, xml_text t ->
  sax (s "<x a=""" ++ odt_convert (Some t) true ++ s """/>") = Some [Start (s "x") [(s "a", blanks (unl t))]; End (s "x")].
Proof.
  intros t H. rewrite odt_quick, sax_unl. rewrite unl_app_plain by (vm_compute; intuition discriminate).
  rewrite unl_esc by (cbn; discriminate). rewrite (unl_id (s """/>")) by (vm_compute; intuition discriminate).
  apply xml_text_unl in H. pose proof (unl_no_cr t) as Hc. set (u := unl t) in *. clearbody u.
  assert (L : lexes (s "<x a=""" ++ flat_map esc5 u ++ s """/>") [XEmpty (s "x") [(s "a", blanks u)]]).
  { apply lexes_tok; [discriminate|]. intro rest. now apply xlook_attr. }
  unfold sax. rewrite unl_id.
  2:{ rewrite !in_app_iff. intros [X|[X|X]]; try (revert X; vm_compute; intuition discriminate). apply in_flat_map in X as [c [X1 X2]].
      apply esc5_in in X2 as [X2|X2]; [subst c; contradiction | revert X2; vm_compute; intuition discriminate]. }
  change (s "<x a=""" ++ flat_map esc5 u ++ s """/>") with (60%N :: 120%N :: (s " a=""" ++ flat_map esc5 u ++ s """/>")) at 1. rewrite no_declaration by discriminate.
  change (60%N :: 120%N :: s " a=""" ++ flat_map esc5 u ++ s """/>") with (s "<x a=""" ++ flat_map esc5 u ++ s """/>").
  rewrite (lexes_full _ _ L). reflexivity.
Qed.

(** ** paragraphs *)
Lemma odt_long : forall t, odt_convert (Some t) false = br t.
Proof. intros [|c t]; [reflexivity|]. unfold odt_convert. rewrite apply_rs_app, odt_entities. apply odt_breaks. Qed.
Lemma breaks_id : forall t, ~ In 13%N t -> breaks t = t.
Proof.
  induction t as [|c t IH]; intro H; [reflexivity|]. cbn [breaks map]. fold (breaks t). rewrite IH by (intro; apply H; now right).
  destruct (N.eqb_spec c 13) as [->|]; [|reflexivity]. exfalso. apply H. now left.
Qed.
Lemma sax_root : forall w es, frag w es -> sax (s "<doc>" ++ w ++ s "</doc>") = Some (merge (Start (s "doc") [] :: es ++ [End (s "doc")])).
Proof.
  intros w es H. apply (frag_doc _ _ _ (s "doc") [] es 100%N (s "oc>")); [lex_tag|lex_tag|vm_compute; intuition discriminate|vm_compute; intuition discriminate|exact H|reflexivity|discriminate].
Qed.
Lemma merge_end : forall es n, merge (es ++ [End n]) = merge es ++ [End n].
Proof.
  induction es as [|e es IH]; intro n; [reflexivity|]. cbn [app merge]. destruct e as [m a|m|t]; rewrite ?IH; try reflexivity.
  destruct (merge es) as [|[m a|m|u] r]; cbn [app]; try reflexivity; destruct t; reflexivity.
Qed.
Definition glue0 : forall ps, ps <> [] -> glue [] ps = ps.
Proof. intros [|p ps] H; [congruence | reflexivity]. Qed.
Lemma map_nonempty : forall {A B} (f : A -> B) l, l <> [] -> map f l <> [].
Proof. intros A B f [|x l] H; [congruence | discriminate]. Qed.
Theorem long_paragraphs : forall t, xml_text t ->
  exists es, sax (s "<doc>" ++ (s "<text:p>" ++ odt_convert (Some t) false ++ s "</text:p>") ++ s "</doc>") = Some (Start (s "doc") [] :: es ++ [End (s "doc")]) /\
             paragraphs es = Some (map breaks (lines t)).
Proof.
  intros t H. rewrite odt_long. exists (merge (Start text_p [] :: evs t ++ [End text_p])). split.
  - rewrite (sax_root _ (Start text_p [] :: evs t ++ [End text_p])).
    + cbn [merge]. rewrite merge_end. reflexivity.
    + apply frag_para; [now apply pfrag_br | lex_tag | vm_compute; intuition discriminate].
  - unfold paragraphs. rewrite paragraphs_merge. cbn [paragraphs_from]. rewrite str_eqb_refl, paras_evs. cbn [paragraphs_from option_map].
    rewrite app_nil_r, glue0; [reflexivity|]. apply map_nonempty. apply splitc_nonempty.
Qed.

(** ** spreadsheets *)
Definition PS : str := s "</text:p>" ++ [10%N] ++ s "<text:p>".
Definition obr (t : str) : str := flat_map (fun c => if N.eqb c 10 then PS else esc5 c) t.
Definition obr2 (t : str) : str := flat_map (fun c => if N.eqb c 10 then PS else if N.eqb c 13 then [10%N] else esc5 c) t.
Definition oevs (t : str) : list event :=
  flat_map (fun c => if N.eqb c 10 then [End text_p; Data [10%N]; Start text_p []] else [Data [if N.eqb c 13 then 10%N else c]]) t.
Lemma ods_long : forall t, ods_convert (Some t) = obr (rstrip t).
Proof.
  intro t. unfold ods_convert. set (u := rstrip t). clearbody u. change ODS_REPLACEMENTS with (ODS_ENTITIES ++ [([10%N], PS)]).
  rewrite apply_rs_app, ods_entities. unfold apply_replacements. cbn [fold_left fst snd]. rewrite replace_char.
  induction u as [|c u IH]; [reflexivity|]. cbn [flat_map obr]. rewrite flat_map_app, IH. fold (obr u). f_equal.
  destruct (N.eqb_spec c 10) as [->|H]; [vm_compute; reflexivity|].
  destruct (N.eq_dec c 13) as [->|H13]; [reflexivity|]. destruct (esc5_nobreak c H H13) as [A _].
  clear -A. induction (esc5 c) as [|x w IHw]; [reflexivity|]. cbn [flat_map]. rewrite IHw by (intro; apply A; now right).
  rewrite (proj2 (N.eqb_neq 10 x)); [reflexivity | intros <-; apply A; now left].
Qed.
Lemma obr_head : forall t r, no_lf_head r -> no_lf_head (obr t ++ r).
Proof.
  intros [|c t] r H; [exact H|]. cbn [obr flat_map]. fold (obr t). rewrite <- app_assoc. destruct (N.eqb_spec c 10) as [->|Hc]; [cbn; discriminate | now apply esc5_not_lf].
Qed.
Lemma unl_obr : forall t r, no_lf_head r -> unl (obr t ++ r) = obr2 t ++ unl r.
Proof.
  induction t as [|c t IH]; intros r H; [reflexivity|]. cbn [obr obr2 flat_map]. fold (obr t). fold (obr2 t). rewrite <- !app_assoc.
  destruct (N.eqb_spec c 10) as [->|Hc].
  - rewrite unl_app_plain by (vm_compute; intuition discriminate). now rewrite IH.
  - destruct (N.eqb_spec c 13) as [->|H13].
    + change (esc5 13) with [13%N]. cbn [app]. rewrite unl_cr by now apply obr_head. now rewrite IH.
    + rewrite esc5_head by exact H13. now rewrite IH.
Qed.
Lemma pfrag_PS : pfrag PS [End text_p; Data [10%N]; Start text_p []].
Proof.
  split; [vm_compute; intuition discriminate|]. exists ([XEnd text_p] ++ [XChar 10] ++ [XStart text_p []]).
  split; [apply lexes_app; [lex_tag | apply lexes_app; lex_tag] | split; [cbn; intuition discriminate|]].
  intros m st more. cbn [app nest]. rewrite str_eqb_refl. now destruct (nest (text_p :: m :: st) true more).
Qed.
Lemma pfrag_obr2 : forall t, xml_text t -> pfrag (obr2 t) (oevs t).
Proof.
  induction t as [|c t IH]; intro H; [apply frag_pfrag, frag_nil|]. apply Forall_cons_iff in H as [H1 H2].
  cbn [obr2 oevs flat_map]. fold (obr2 t). fold (oevs t). apply pfrag_app; [|now apply IH]. destruct (N.eqb_spec c 10) as [->|Hc]; [apply pfrag_PS|].
  apply frag_pfrag. destruct (N.eqb_spec c 13) as [->|Hn]; [apply frag_char; easy | now apply frag_esc5].
Qed.
Lemma paras_oevs : forall t cur more, paragraphs_from (Some cur) (oevs t ++ End text_p :: more) = option_map (app (glue cur (map breaks (lines t)))) (paragraphs_from None more).
Proof.
  unfold lines. induction t as [|c t IH]; intros cur more.
  - cbn [oevs flat_map app paragraphs_from splitc map breaks glue]. rewrite str_eqb_refl, app_nil_r. destruct (paragraphs_from None more); reflexivity.
  - cbn [oevs flat_map]. fold (oevs t). rewrite <- app_assoc. destruct (N.eqb_spec c 10) as [->|Hc].
    + rewrite splitc_10. cbn [app paragraphs_from]. rewrite str_eqb_refl. cbn [map breaks glue]. rewrite IH, app_nil_r.
      change (forallb xml_space [10%N]) with true. cbv iota. destruct (splitc 10 t) as [|p ps] eqn:E; [now apply splitc_nonempty in E|].
      destruct (paragraphs_from None more); reflexivity.
    + destruct (splitc_c c t Hc) as [p [ps [E1 E2]]]. rewrite E2. cbn [app paragraphs_from]. rewrite IH, E1.
      cbn [map breaks glue]. rewrite <- app_assoc. reflexivity.
Qed.
Lemma xml_text_rstrip : forall t, xml_text t -> xml_text (rstrip t).
Proof.
  intros t H. unfold rstrip. destruct (rstrip_by_prefix is_space t) as [p [E _]]. unfold xml_text in *. rewrite E in H. now apply Forall_app in H as [H _].
Qed.
Theorem ods_paragraphs : forall t, xml_text t ->
  exists es, sax (s "<doc>" ++ (s "<text:p>" ++ ods_convert (Some t) ++ s "</text:p>") ++ s "</doc>") = Some (Start (s "doc") [] :: es ++ [End (s "doc")]) /\
             paragraphs es = Some (map breaks (lines (rstrip t))).
Proof.
  intros t H. rewrite ods_long. apply xml_text_rstrip in H. set (u := rstrip t) in *. clearbody u.
  exists (merge (Start text_p [] :: oevs u ++ [End text_p])). split.
  - rewrite sax_unl. rewrite unl_app_plain by (vm_compute; intuition discriminate). rewrite <- !app_assoc.
    rewrite unl_app_plain by (vm_compute; intuition discriminate). rewrite unl_obr by (cbn; discriminate).
    rewrite (unl_id (s "</text:p>" ++ s "</doc>")) by (vm_compute; intuition discriminate).
    replace (s "<doc>" ++ s "<text:p>" ++ obr2 u ++ s "</text:p>" ++ s "</doc>") with (s "<doc>" ++ (s "<text:p>" ++ obr2 u ++ s "</text:p>") ++ s "</doc>")
      by (rewrite <- !app_assoc; reflexivity).
    rewrite (sax_root _ (Start text_p [] :: oevs u ++ [End text_p])).
    + cbn [merge]. rewrite merge_end. reflexivity.
    + apply frag_para; [now apply pfrag_obr2 | lex_tag | vm_compute; intuition discriminate].
  - unfold paragraphs. rewrite paragraphs_merge. cbn [paragraphs_from]. rewrite str_eqb_refl, paras_oevs. cbn [paragraphs_from option_map].
    rewrite app_nil_r, glue0; [reflexivity|]. apply map_nonempty. apply splitc_nonempty.
Qed.

(** ** missing texts *)
Lemma no_text : odt_convert None true = [] /\ odt_convert None false = [] /\ ods_convert None = [].
Proof. repeat split. Qed.
