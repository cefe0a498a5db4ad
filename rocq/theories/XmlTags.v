(** Start tags with attributes, written in the usual way. *)
From Coq Require Import String List NArith ZArith Bool Lia Arith.
From Verif Require Import PyStr PyDict YwText YwTextProofs OdfXml OdfXmlProofs OdfLex OdtTextProofs OdtTextProofs2 FormatXml4.
Import ListNotations.

Definition attr_text (a : attrs) : str := flat_map (fun p => s " " ++ fst p ++ s "=""" ++ snd p ++ s """") a.
Definition closing_text (e : bool) : str := if e then s "/>" else s ">".
Definition tag_text (name : str) (a : attrs) (e : bool) : str := s "<" ++ name ++ attr_text a ++ closing_text e.
Definition attr_good (p : str * str) : Prop := xname_ok (fst p) = true /\ forallb style_char (snd p) = true.

Lemma take_name_app : forall nm c r, xname_ok nm = true -> xname_char c = false -> take_name (nm ++ c :: r) = Some (nm, length nm, c :: r).
Proof.
  intros nm c r H Hc. unfold take_name. assert (F : forallb xname_char nm = true) by (unfold xname_ok in H; now apply andb_true_iff in H).
  rewrite span_len_name; [| exact F | exact Hc | rewrite app_length; lia]. rewrite firstn_len, skipn_len. now rewrite H.
Qed.
Lemma name_head : forall nm, xname_ok nm = true -> exists c r, nm = c :: r /\ name_start c = true.
Proof. intros [|c r] H; [discriminate|]. unfold xname_ok in H. apply andb_true_iff in H as [H _]. now exists c, r. Qed.
Lemma start_not : forall c x, name_start c = true -> name_start x = false -> c <> x.
Proof. intros c x H1 H2 ->. congruence. Qed.
Lemma take_attr_text : forall a e f rest, Forall attr_good a -> NoDup (map fst a) -> length a < f ->
  take_attrs f (attr_text a ++ closing_text e ++ rest) = Some (a, e, length (attr_text a ++ closing_text e)).
Proof.
  induction a as [|[nm v] a IH]; intros e f rest G ND Hf; destruct f as [|f]; try (cbn in Hf; lia).
  - rewrite take_attrs_eq. destruct e; reflexivity.
  - apply Forall_cons_iff in G as [[G1 G2] G3]. cbn [fst snd] in G1, G2. cbn [map fst] in ND. apply NoDup_cons_iff in ND as [ND1 ND2]. rewrite take_attrs_eq.
    set (rest' := attr_text a ++ closing_text e ++ rest).
    assert (E : attr_text ((nm, v) :: a) ++ closing_text e ++ rest = 32%N :: nm ++ 61%N :: 34%N :: v ++ 34%N :: rest').
    { unfold attr_text, rest'. cbn [flat_map fst snd]. rewrite <- !app_assoc. reflexivity. }
    rewrite E. destruct (name_head nm G1) as [c [r [En Hc]]].
    assert (W : span_len xml_space (length (32%N :: nm ++ 61%N :: 34%N :: v ++ 34%N :: rest')) (32%N :: nm ++ 61%N :: 34%N :: v ++ 34%N :: rest') = 1).
    { subst nm. change (32%N :: (c :: r) ++ 61%N :: 34%N :: v ++ 34%N :: rest') with ([32%N] ++ c :: (r ++ 61%N :: 34%N :: v ++ 34%N :: rest')). apply span_len_name; [reflexivity | | cbn; lia].
      unfold xml_space. cbn [existsb]. rewrite !(proj2 (N.eqb_neq c _)) by (apply start_not; [exact Hc | reflexivity]). reflexivity. }
    cbv zeta. rewrite W. cbn [skipn].
    assert (T : gt1 (nm ++ 61%N :: 34%N :: v ++ 34%N :: rest') = false /\ gt2 (nm ++ 61%N :: 34%N :: v ++ 34%N :: rest') = false) by (subst nm; exact (name_start_tests c _ Hc)).
    destruct T as [-> ->]. unfold attr_step. change (0 <? 1) with true. cbv iota. rewrite take_name_app; [| exact G1 | reflexivity]. cbn [eq_quote]. change (N.eqb 61 61) with true. cbv iota. change (N.eqb 34 34 || N.eqb 34 39)%bool with true. cbv iota.
    destruct (esc_style v G2) as [E1 [E2 [E3 _]]]. pose proof (take_value_esc v (length (v ++ 34%N :: rest')) rest' E3) as X. rewrite E1, E2 in X. rewrite X by (rewrite app_length; cbn [length]; lia).
    unfold rest' at 1. rewrite IH; [| exact G3 | exact ND2 | cbn in Hf; lia].
    assert (M : smem nm (map fst a) = false) by now apply smem_false. rewrite M. f_equal. f_equal. unfold attr_text. cbn [flat_map fst snd]. rewrite !app_length. cbn [length s list_ascii_of_string map]. lia.
Qed.
Lemma attr_text_length : forall a, length a <= length (attr_text a).
Proof. induction a as [|p a IH]; [apply le_n|]. unfold attr_text in *. cbn [flat_map length]. rewrite !app_length. change (length (s " ")) with 1. lia. Qed.
Theorem lexes_tag : forall name a e, xname_ok name = true -> Forall attr_good a -> NoDup (map fst a) -> lexes (tag_text name a e) [if e then XEmpty name a else XStart name a].
Proof.
  intros name a e Hn Ha ND. apply lexes_tok; [discriminate|]. intro rest. unfold tag_text. rewrite <- !app_assoc. change (s "<" ++ name ++ attr_text a ++ closing_text e ++ rest) with (60%N :: name ++ attr_text a ++ closing_text e ++ rest).
  rewrite xlook_eq. change (N.eqb 60 60) with true. cbv iota. destruct (name_head name Hn) as [c [r [En Hc]]].
  assert (P : prefixb (s "![CDATA[") (name ++ attr_text a ++ closing_text e ++ rest) = false).
  { subst name. change (s "![CDATA[") with (33%N :: s "[CDATA["). cbn [app prefixb]. rewrite (proj2 (N.eqb_neq 33 c)); [reflexivity|]. intros E. apply (start_not c 33); [exact Hc | reflexivity | congruence]. }
  rewrite P. unfold look_tag.
  assert (Sl : slash (name ++ attr_text a ++ closing_text e ++ rest) = false).
  { subst name. cbn [app slash]. apply N.eqb_neq. apply start_not; [exact Hc | reflexivity]. }
  rewrite Sl. assert (N0 : exists d x, attr_text a ++ closing_text e ++ rest = d :: x /\ xname_char d = false).
  { destruct a as [|p a]; [|unfold attr_text; cbn [flat_map]; rewrite <- !app_assoc; exists 32%N; eexists; split; reflexivity]. destruct e; [exists 47%N | exists 62%N]; eexists; split; reflexivity. }
  destruct N0 as [d [x [E Hd]]]. pose proof (take_attr_text a e (length (attr_text a ++ closing_text e ++ rest)) rest Ha ND) as T. rewrite E in T |- *. rewrite take_name_app by assumption. rewrite T.
  - f_equal. f_equal. rewrite !app_length. change (length (s "<")) with 1. lia.
  - rewrite <- E. rewrite !app_length. pose proof (attr_text_length a). destruct e; [change (length (closing_text true)) with 2 | change (length (closing_text false)) with 1]; lia.
Qed.
