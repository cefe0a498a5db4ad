(** Formatted text (odt_w_formatted.py 98-106): hidden tags, and the result as XML. *)
From Coq Require Import String List NArith ZArith Bool Lia Arith.
From Verif Require Import PyStr YwText WordCount WordCountProofs OdfXml OdfXmlProofs OdtText OdtTextProofs OdtTextProofs2 SpecOdf SpecFormat FormatWords FormatLines FormatXml FormatXml2 FormatXml3.
Import ListNotations.
Ltac nope := vm_compute; intuition discriminate.

(** ** Hidden tags *)
Lemma hide_bol : forall t b b' k, sub_go m_hidden [] b k t = sub_go m_hidden [] b' k t.
Proof. intros [|c t] b b' k; [reflexivity|]. cbn [sub_go]. destruct k; reflexivity. Qed.
Definition hide (t : str) : str := re_sub m_hidden [] t.
Lemma hide_plain : forall w r, ~ In 91%N w -> hide (w ++ r) = w ++ hide r.
Proof.
  induction w as [|c w IH]; intros r H; [reflexivity|]. cbn [app]. unfold hide, re_sub. rewrite sub_go_miss.
  - f_equal. rewrite (hide_bol _ _ true). apply IH. intro Hi. apply H. now right.
  - unfold m_hidden. assert (E : N.eqb c 91 = false) by (apply N.eqb_neq; intro E; apply H; now left). now rewrite E.
Qed.
Lemma span_slashes : forall y r, ~ In 93%N y -> span (N.eqb 47) (y ++ 93%N :: r) + length (slashes y) = length y /\
  skipn (span (N.eqb 47) (y ++ 93%N :: r)) (y ++ 93%N :: r) = slashes y ++ 93%N :: r.
Proof.
  induction y as [|c y IH]; intros r H; [split; reflexivity|]. cbn [app span slashes]. rewrite (N.eqb_sym 47 c). destruct (N.eqb c 47).
  - destruct (IH r) as [I1 I2]; [intro Hi; apply H; now right|]. split; [cbn [length]; lia | exact I2].
  - split; reflexivity.
Qed.
Lemma span_digits : forall ds r, ~ In 93%N ds -> if forallb udigit ds then span udigit (ds ++ 93%N :: r) = length ds /\ skipn (length ds) (ds ++ 93%N :: r) = 93%N :: r
  else exists e x, e <> 93%N /\ skipn (span udigit (ds ++ 93%N :: r)) (ds ++ 93%N :: r) = e :: x.
Proof.
  induction ds as [|c ds IH]; intros r H; [split; reflexivity|]. cbn [app span forallb]. destruct (udigit c) eqn:E; cbn [andb].
  - specialize (IH r (fun Hi => H (or_intror Hi))). destruct (forallb udigit ds); [destruct IH as [I1 I2]; split; [cbn [length]; now rewrite I1 | exact I2] | exact IH].
  - exists c, (ds ++ 93%N :: r). split; [intro Ec; apply H; now left | reflexivity].
Qed.
Lemma slashes_incl : forall y x, In x (slashes y) -> In x y.
Proof. induction y as [|c y IH]; intros x H; [exact H|]. cbn [slashes] in H. destruct (N.eqb c 47); [right; now apply IH | exact H]. Qed.
Lemma hidden_box : forall y r b, ~ In 93%N y -> m_hidden b (box y ++ r) = if invisible y then length (box y) else 0.
Proof.
  intros y r b H. unfold box, invisible. cbn [app]. unfold m_hidden. change (N.eqb 91 91) with true. cbv iota. rewrite <- app_assoc. cbn [app].
  destruct (span_slashes y r H) as [S1 S2]. cbv zeta. rewrite S2. destruct (slashes y) as [|c ds] eqn:E.
  - cbn [app]. reflexivity.
  - cbn [app]. destruct (in_chars (s "h|crsu") c); [|reflexivity]. cbn [andb]. assert (Hd : ~ In 93%N ds) by (intro Hi; apply H, slashes_incl; rewrite E; now right).
    pose proof (span_digits ds r Hd) as D. destruct (forallb udigit ds).
    + destruct D as [D1 D2]. rewrite D1, D2. change (N.eqb 93 93) with true. cbv iota. cbn [length]. rewrite app_length. cbn [length] in *. lia.
    + destruct D as [e [x [D1 D2]]]. rewrite D2. apply N.eqb_neq in D1. now rewrite D1.
Qed.
Lemma invisible_chars : forall w c, invisible w = true -> In c w -> c = 47%N \/ in_chars (s "h|crsu") c = true \/ udigit c = true.
Proof.
  intros w c H. unfold invisible in H. induction w as [|x w IH]; [intros []|]. cbn [slashes] in H. destruct (N.eqb x 47) eqn:E.
  - intros [<- | Hc]; [left; now apply N.eqb_eq | now apply IH].
  - apply andb_true_iff in H as [H1 H2]. intros [<- | Hc]; [now right; left|]. right. right. rewrite forallb_forall in H2. now apply H2.
Qed.
Lemma invisible_esc : forall w, invisible (flat_map esc5 w) = invisible w.
Proof.
  intro w. destruct (esc_amp w) as [A | A]; [now rewrite esc_same|].
  assert (X1 : invisible (flat_map esc5 w) = false).
  { destruct (invisible (flat_map esc5 w)) eqn:E; [|reflexivity]. destruct (invisible_chars _ _ E A) as [F | [F | F]]; vm_compute in F; discriminate. }
  rewrite X1. symmetry. destruct (invisible w) eqn:E; [|reflexivity].
  rewrite esc_same in X1; [congruence|]. intros c Hc. pose proof (invisible_chars _ _ E Hc) as D.
  repeat split; intros ->; destruct D as [F | [F | F]]; vm_compute in F; discriminate.
Qed.
Lemma hide_box : forall y r, boxable y -> hide (box y ++ r) = (if invisible y then [] else box y) ++ hide r.
Proof.
  intros y r [H1 H2]. destruct (invisible y) eqn:E.
  - unfold hide, re_sub. rewrite sub_go_hit; [cbn [app]; apply hide_bol | discriminate|]. rewrite hidden_box by exact H2. now rewrite E.
  - pose proof (hidden_box y r true H2) as M. rewrite E in M. unfold box in *. cbn [app] in *. unfold hide at 1. unfold re_sub. rewrite sub_go_miss by exact M.
    f_equal. rewrite (hide_bol _ _ true). change (sub_go m_hidden [] true 0) with hide. apply hide_plain. intro Hi. apply in_app_iff in Hi. destruct Hi as [Hi | [Hi | []]]; [tauto | discriminate].
Qed.

(** ** Markup as tokens *)
Definition style_char (c : N) : bool := xml_char c && negb (xml_space c) && negb (in_chars (s "[]&<>*'""" ++ [10; 13]%N) c).
Lemma esc_style : forall v, forallb style_char v = true -> flat_map esc5 v = v /\ blanks v = v /\ xml_text v /\ ~ In 91%N v /\ ~ In 13%N v.
Proof.
  intros v H. rewrite forallb_forall in H.
  assert (P : Forall (fun c => plain_char c = true) v).
  { apply Forall_forall. intros c Hc. apply H in Hc. unfold style_char in Hc. apply andb_true_iff in Hc as [Hc H2]. apply andb_true_iff in Hc as [Hc _]. unfold plain_char. now rewrite Hc, H2. }
  split; [now apply esc_plain|]. split; [|split; [|split; apply (plain_no v _ P); inl]].
  - unfold blanks. rewrite <- (map_id v) at 2. apply map_ext_in. intros c Hc. apply H in Hc. unfold style_char in Hc. apply andb_true_iff in Hc as [Hc _].
    apply andb_true_iff in Hc as [_ Hc]. apply negb_true_iff in Hc. now rewrite Hc.
  - apply Forall_forall. intros c Hc. apply H in Hc. unfold style_char in Hc. apply andb_true_iff in Hc as [Hc _]. now apply andb_true_iff in Hc as [Hc _].
Qed.
Lemma xlook_span : forall v rest, forallb style_char v = true -> xlook (SO v ++ rest) = Some (XStart text_span [(style_name, v)], length (SO v)).
Proof.
  intros v rest H. destruct (esc_style v H) as [E1 [E2 [E3 _]]]. unfold SO. rewrite <- !app_assoc. change (s """>" ++ rest) with (34%N :: s ">" ++ rest).
  set (w := v ++ 34%N :: s ">" ++ rest).
  assert (T : take_value (length w) 34 w = Some (v, length v + 1, s ">" ++ rest)).
  { unfold w at 2. pose proof (take_value_esc v (length w) (s ">" ++ rest) E3) as X. rewrite E1, E2 in X. apply X. unfold w. rewrite app_length. cbn [length]. lia. }
  assert (N0 : take_name (s "text:span text:style-name=""" ++ w) = Some (text_span, 9, s " text:style-name=""" ++ w)) by reflexivity.
  assert (N1 : take_name (s "text:style-name=""" ++ w) = Some (style_name, 15, s "=""" ++ w)) by reflexivity.
  change (s "<text:span text:style-name=""" ++ w) with (60%N :: (s "text:span text:style-name=""" ++ w)). unfold xlook.
  change (N.eqb 60 60) with true. cbv iota. change (prefixb (s "![CDATA[") (s "text:span text:style-name=""" ++ w)) with false. cbv iota.
  change (match s "text:span text:style-name=""" ++ w with 47%N :: r' => _ | _ => ?k end) with k. cbv beta iota. rewrite N0.
  assert (A : take_attrs (length (s " text:style-name=""" ++ w)) (s " text:style-name=""" ++ w) = Some ([(style_name, v)], false, 1 + 15 + 2 + (length v + 1) + 1)).
  { remember (length (s " text:style-name=""" ++ w)) as n eqn:En. destruct n as [|n]; [cbn in En; lia|]. cbn [take_attrs].
    change (span_len xml_space (length (s " text:style-name=""" ++ w)) (s " text:style-name=""" ++ w)) with 1. cbn [skipn].
    change (s " text:style-name=""" ++ w) with (32%N :: s "text:style-name=""" ++ w). cbn [skipn].
    change (s "text:style-name=""" ++ w) with (116%N :: (s "ext:style-name=""" ++ w)). cbv iota. change (116%N :: (s "ext:style-name=""" ++ w)) with (s "text:style-name=""" ++ w).
    change (0 <? 1) with true. cbv iota. rewrite N1. change (s "=""" ++ w) with (61%N :: 34%N :: w). cbv iota. change (N.eqb 34 34 || N.eqb 34 39)%bool with true. cbv iota. rewrite T.
    destruct n as [|n]; [cbn in En; lia|]. cbn. reflexivity. }
  rewrite A. f_equal. f_equal. rewrite !app_length. cbn [length s list_ascii_of_string map]. lia.
Qed.
Lemma lexes_span : forall v, forallb style_char v = true -> lexes (SO v) [XStart text_span [(style_name, v)]].
Proof. intros v H. apply lexes_tok; [discriminate|]. intro rest. now apply xlook_span. Qed.
