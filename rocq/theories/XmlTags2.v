(** Start tags whose attribute values are escaped. *)
From Coq Require Import String List NArith ZArith Bool Lia Arith.
From Verif Require Import PyStr PyDict YwText YwTextProofs OdfXml OdfXmlProofs OdfLex OdtTextProofs OdtTextProofs2 SpecOdf FormatXml4 XmlTags.
Import ListNotations.

Definition esc_value (p : str * str) : str * str := (fst p, flat_map esc5 (snd p)).
Definition attr_kept (p : str * str) : Prop := xname_ok (fst p) = true /\ xml_text (snd p) /\ blanks (snd p) = snd p.
Lemma take_attr_esc : forall a e f rest, Forall attr_kept a -> NoDup (map fst a) -> length a < f ->
  take_attrs f (attr_text (map esc_value a) ++ closing_text e ++ rest) = Some (a, e, length (attr_text (map esc_value a) ++ closing_text e)).
Proof.
  induction a as [|[nm v] a IH]; intros e f rest G ND Hf; destruct f as [|f]; try (cbn in Hf; lia).
  - rewrite take_attrs_eq. destruct e; reflexivity.
  - apply Forall_cons_iff in G as [[G1 [G2 G4]] G3]. cbn [fst snd] in G1, G2, G4. cbn [map fst] in ND. apply NoDup_cons_iff in ND as [ND1 ND2]. rewrite take_attrs_eq.
    set (rest' := attr_text (map esc_value a) ++ closing_text e ++ rest). set (v' := flat_map esc5 v).
    assert (E : attr_text (map esc_value ((nm, v) :: a)) ++ closing_text e ++ rest = 32%N :: nm ++ 61%N :: 34%N :: v' ++ 34%N :: rest').
    { unfold attr_text, rest'. cbn [map flat_map fst snd esc_value]. rewrite <- !app_assoc. reflexivity. }
    rewrite E. destruct (name_head nm G1) as [c [r [En Hc]]].
    assert (W : span_len xml_space (length (32%N :: nm ++ 61%N :: 34%N :: v' ++ 34%N :: rest')) (32%N :: nm ++ 61%N :: 34%N :: v' ++ 34%N :: rest') = 1).
    { subst nm. change (32%N :: (c :: r) ++ 61%N :: 34%N :: v' ++ 34%N :: rest') with ([32%N] ++ c :: (r ++ 61%N :: 34%N :: v' ++ 34%N :: rest')). apply span_len_name; [reflexivity | | cbn; lia].
      unfold xml_space. cbn [existsb]. rewrite !(proj2 (N.eqb_neq c _)) by (apply start_not; [exact Hc | reflexivity]). reflexivity. }
    cbv zeta. rewrite W. cbn [skipn].
    assert (T : gt1 (nm ++ 61%N :: 34%N :: v' ++ 34%N :: rest') = false /\ gt2 (nm ++ 61%N :: 34%N :: v' ++ 34%N :: rest') = false) by (subst nm; exact (name_start_tests c _ Hc)).
    destruct T as [-> ->]. unfold attr_step. change (0 <? 1) with true. cbv iota. rewrite take_name_app; [| exact G1 | reflexivity]. cbn [eq_quote]. change (N.eqb 61 61) with true. cbv iota. change (N.eqb 34 34 || N.eqb 34 39)%bool with true. cbv iota.
    pose proof (take_value_esc v (length (v' ++ 34%N :: rest')) rest' G2) as X. fold v' in X. rewrite G4 in X. rewrite X by (rewrite app_length; cbn [length]; lia).
    unfold rest' at 1. rewrite IH; [| exact G3 | exact ND2 | cbn in Hf; lia].
    assert (M : smem nm (map fst a) = false) by now apply smem_false. rewrite M. f_equal. f_equal. unfold attr_text. cbn [map flat_map fst snd esc_value]. fold v'. rewrite !app_length. cbn [length s list_ascii_of_string map]. lia.
Qed.
Theorem lexes_tag_esc : forall name a e, xname_ok name = true -> Forall attr_kept a -> NoDup (map fst a) ->
  lexes (tag_text name (map esc_value a) e) [if e then XEmpty name a else XStart name a].
Proof.
  intros name a e Hn Ha ND. apply lexes_tok; [discriminate|]. intro rest. unfold tag_text. rewrite <- !app_assoc. set (b := attr_text (map esc_value a)).
  change (s "<" ++ name ++ b ++ closing_text e ++ rest) with (60%N :: name ++ b ++ closing_text e ++ rest).
  rewrite xlook_eq. change (N.eqb 60 60) with true. cbv iota. destruct (name_head name Hn) as [c [r [En Hc]]].
  assert (P : prefixb (s "![CDATA[") (name ++ b ++ closing_text e ++ rest) = false).
  { subst name. change (s "![CDATA[") with (33%N :: s "[CDATA["). cbn [app prefixb]. rewrite (proj2 (N.eqb_neq 33 c)); [reflexivity|]. intros E. apply (start_not c 33); [exact Hc | reflexivity | congruence]. }
  rewrite P. unfold look_tag.
  assert (Sl : slash (name ++ b ++ closing_text e ++ rest) = false).
  { subst name. cbn [app slash]. apply N.eqb_neq. apply start_not; [exact Hc | reflexivity]. }
  rewrite Sl. assert (N0 : exists d x, b ++ closing_text e ++ rest = d :: x /\ xname_char d = false).
  { unfold b. destruct a as [|p a]; [|unfold attr_text; cbn [map flat_map]; rewrite <- !app_assoc; exists 32%N; eexists; split; reflexivity]. destruct e; [exists 47%N | exists 62%N]; eexists; split; reflexivity. }
  destruct N0 as [d [x [E Hd]]]. pose proof (take_attr_esc a e (length (b ++ closing_text e ++ rest)) rest Ha ND) as T. fold b in T. rewrite E in T |- *. rewrite take_name_app by assumption. rewrite T.
  - f_equal. f_equal. rewrite !app_length. change (length (s "<")) with 1. lia.
  - rewrite <- E. rewrite !app_length. pose proof (attr_text_length (map esc_value a)) as L. rewrite map_length in L. fold b in L. destruct e; [change (length (closing_text true)) with 2 | change (length (closing_text false)) with 1]; lia.
Qed.
Lemma esc5_no_cr : forall v, ~ In 13%N v -> ~ In 13%N (flat_map esc5 v).
Proof. intros v H I. apply in_flat_map in I as [c [H1 H2]]. apply esc5_in in H2 as [H2|H2]; [now subst|]. revert H2. vm_compute. intuition discriminate. Qed.
Lemma attr_text_no_cr : forall a, Forall (fun p : str * str => ~ In 13%N (fst p) /\ ~ In 13%N (snd p)) a -> ~ In 13%N (attr_text a).
Proof.
  intros a H I. unfold attr_text in I. apply in_flat_map in I as [p [H1 H2]]. rewrite Forall_forall in H. destruct (H p H1) as [A B].
  rewrite !in_app_iff in H2. destruct H2 as [H2|[H2|[H2|[H2|H2]]]]; try contradiction; revert H2; vm_compute; intuition discriminate.
Qed.
