(** Language settings after saving and reading; checks for concrete novels. *)
From Coq Require Import String List NArith ZArith Bool Lia Arith.
From Verif Require Import PyStr PyDict Spec Globals NovelModel NovelOps NovelOpsProofs YwTree IsoDate Yw7Build Yw7Read YwTreeProofs Yw7SceneProofs Yw7SceneRT Yw7ChapterRT
  Yw7ElemRT Yw7ListRT Yw7TreeInv Yw7ProjRT Yw7SecRT Yw7TreeRT YwText YwTextProofs SpecYw7 SpecText SpecFrame Yw7Clean Yw7Repr Yw7Repr2 Yw7Repr3 Yw7Total Yw7Facts Yw7Facts2.
Import ListNotations.

Theorem languages_kept : forall ent ext loc dloc n n1 r1 t, representable n -> locale_text loc -> locale_text dloc ->
  write_text ent loc dloc n None = Ok (n1, r1, t) ->
  exists n', read_text ext t new_novel = Ok n' /\
    list_of (nv_languages n') = list_of (match nv_languages n with Some l => Some l | None => nv_languages (get_languages n) end) /\
    (two_two n -> nv_languageCode n' = nv_languageCode n /\ nv_countryCode n' = nv_countryCode n).
Proof.
  intros ent ext loc dloc n n1 r1 t R L1 L2 Hw. destruct (representable_roundtrip ent ext loc dloc n n1 r1 t R L1 L2 Hw) as (_ & n' & Hr & _ & _ & [S1 S2] & _).
  exists n'. split; [exact Hr|]. split.
  - unfold same_list in S1. rewrite <- S1. unfold with_langs. destruct (nv_languages n) as [l|] eqn:E; [rewrite E; reflexivity | reflexivity].
  - intros (l & c & Hl & Hc & Ll & Lc).
    destruct (with_langs_frame n) as (la & Ela).
    assert (HL : has_language (with_langs n) = true).
    { rewrite Ela. unfold has_language. cbn [nv_languages nv_languageCode nv_countryCode set_nv_languages]. rewrite Hl. destruct l; [discriminate|]. cbn. rewrite orb_true_r. reflexivity. }
    destruct (S2 HL) as [A B]. clear S2.
    unfold write_text in Hw. apply bind_ok in Hw. destruct Hw as ([n1' r1'] & Hw & E). cbn [fst snd] in E. injection E as -> -> _.
    unfold write_tree in Hw. rewrite build_tree_new in Hw. apply build_tree_inv in Hw. destruct Hw as (_ & _ & _ & _ & _ & _ & _ & _ & HV & _).
    destruct (prepare_shape n) as (ls & sc & kw & Epr & Esc & Els & _).
    assert (HE : has_language (prepare n) = true).
    { rewrite Epr. unfold has_language. cbn [nv_languages nv_languageCode nv_countryCode set_nv_languages set_nv_kw set_nv_scenes]. rewrite Hl. destruct l; [discriminate|]. cbn. rewrite orb_true_r. reflexivity. }
    rewrite HE in HV. destruct HV as [HV _]. rewrite check_locale_keep in HV.
    + injection HV as HV. rewrite <- HV, Epr in A, B. cbn [nv_languageCode nv_countryCode set_nv_languages set_nv_kw set_nv_scenes] in A, B. rewrite Hl in *. rewrite Hc in *.
      unfold same_text in A, B. cbn [text_of] in A, B.
      destruct (nv_languageCode n') as [l'|]; [|subst l; discriminate]. destruct (nv_countryCode n') as [c'|]; [|subst c; discriminate]. cbn [text_of] in A, B. subst. split; reflexivity.
    + rewrite Epr. exists l, c. repeat split; assumption.
Qed.

(** ** Decision procedures for instances *)
Definition file_charb (c : N) : bool :=
  (N.eqb c 9 || N.eqb c 10 || ((32 <=? c) && (c <=? 55295) && negb (N.eqb c 124)) || ((57344 <=? c) && (c <=? 65533)) || ((65536 <=? c) && (c <=? 1114111)))%N.
Lemma file_charb_ok : forall c, file_charb c = true -> file_char c.
Proof.
  intros c H. unfold file_charb in H. unfold file_char.
  rewrite !orb_true_iff, !andb_true_iff, negb_true_iff, !N.eqb_eq, N.eqb_neq, !N.leb_le in H. lia.
Qed.
Definition line_textb (v : str) : bool := forallb file_charb v && negb (existsb (N.eqb 10) v).
Definition long_textb (v : str) : bool :=
  forallb file_charb v && negb (containsb (s "]]>") v) && negb (containsb cdata_blank (s "[CDATA[" ++ v)) && negb (containsb newline_close (v ++ s "]]")).
Definition plain_textb (v : str) : bool :=
  forallb file_charb v && negb (existsb (N.eqb 60) v) && negb (existsb (N.eqb 38) v) && negb (containsb (s "]]>") v) && negb (containsb cdata_blank v) && negb (containsb newline_close v).
Lemma not_In_b : forall c (t : str), existsb (N.eqb c) t = false -> ~ In c t.
Proof. intros c t H E. assert (existsb (N.eqb c) t = true) by (apply existsb_exists; exists c; split; [exact E | apply N.eqb_refl]). congruence. Qed.
Lemma file_chars_b : forall v, forallb file_charb v = true -> Forall file_char v.
Proof. intros v H. rewrite forallb_forall in H. rewrite Forall_forall. intros c Hc. apply file_charb_ok. exact (H c Hc). Qed.
Lemma line_textb_ok : forall v, line_textb v = true -> line_text v.
Proof. intros v H. unfold line_textb in H. rewrite andb_true_iff, negb_true_iff in H. destruct H. split; [apply file_chars_b; assumption | apply not_In_b; assumption]. Qed.
Lemma long_textb_ok : forall v, long_textb v = true -> long_text v.
Proof.
  intros v H. unfold long_textb in H. rewrite !andb_true_iff, !negb_true_iff in H. destruct H as [[[A B] C] D].
  split; [apply file_chars_b; exact A|]. split; [apply containsb_occurs; exact B|]. split; apply containsb_occurs; assumption.
Qed.
Lemma plain_textb_ok : forall v, plain_textb v = true -> plain_text v.
Proof.
  intros v H. unfold plain_textb in H. rewrite !andb_true_iff, !negb_true_iff in H. destruct H as [[[[[A B] C] D] E] F].
  split; [apply file_chars_b; exact A|]. split; [apply not_In_b; exact B|]. split; [apply not_In_b; exact C|]. split; [|split]; apply containsb_occurs; assumption.
Qed.
Lemma id_textb_ok : forall v, v <> [] -> plain_textb v = true -> id_text v.
Proof. intros v N H. split; [exact N | apply plain_textb_ok; exact H]. Qed.
