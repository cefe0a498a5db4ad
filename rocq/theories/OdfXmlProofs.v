(** Composing well-formed XML fragments. *)
From Coq Require Import String List NArith ZArith Bool Lia Arith.
From Verif Require Import PyStr PyDict YwTree YwText YwTextProofs OdfXml.
Import ListNotations.

Definition lexes (w : str) (ts : list xtok) : Prop := forall rest, xlex (w ++ rest) = option_map (app ts) (xlex rest).

Lemma xlex_go_skip : forall p t, xlex_go (length p) (p ++ t) = xlex_go 0 t.
Proof. induction p as [|c p IH]; intro t; [reflexivity | apply IH]. Qed.
Lemma xlex_tok : forall k p rest, p <> [] -> xlook (p ++ rest) = Some (k, length p) -> xlex (p ++ rest) = option_map (cons k) (xlex rest).
Proof.
  intros k p rest Hp H. destruct p as [|c p]; [congruence|]. unfold xlex. cbn [app] in *. cbn [xlex_go]. rewrite H. cbn [length pred].
  rewrite xlex_go_skip. reflexivity.
Qed.
Lemma lexes_nil : lexes [] [].
Proof. intro rest. cbn [app]. destruct (xlex rest); reflexivity. Qed.
Lemma lexes_app : forall a b ta tb, lexes a ta -> lexes b tb -> lexes (a ++ b) (ta ++ tb).
Proof. intros a b ta tb Ha Hb rest. rewrite <- app_assoc, Ha, Hb. apply option_map_app2. Qed.
Lemma lexes_tok : forall w k, w <> [] -> (forall rest, xlook (w ++ rest) = Some (k, length w)) -> lexes w [k].
Proof. intros w k Hw H rest. rewrite (xlex_tok k) by auto. destruct (xlex rest); reflexivity. Qed.
Lemma lexes_full : forall w ts, lexes w ts -> xlex w = Some ts.
Proof. intros w ts H. specialize (H []). rewrite app_nil_r in H. rewrite H. cbn. now rewrite app_nil_r. Qed.
Lemma lexes_char : forall c, xml_char c = true -> c <> 60%N -> c <> 38%N -> lexes [c] [XChar c].
Proof.
  intros c Hx H1 H2. apply lexes_tok; [discriminate|]. intro rest. cbn [app xlook].
  apply N.eqb_neq in H1. apply N.eqb_neq in H2. now rewrite H1, H2, Hx.
Qed.

Ltac lex_tag := apply lexes_tok; [discriminate | intro; vm_compute; reflexivity].

(** ** Nesting *)
Definition nests (ts : list xtok) (es : list event) : Prop :=
  forall m st more, nest (m :: st) true (ts ++ more) = option_map (app es) (nest (m :: st) true more).
Lemma option_map_id : forall {A} (f : A -> A) o, (forall x, f x = x) -> option_map f o = o.
Proof. intros A f [x|] H; [cbn; now rewrite H | reflexivity]. Qed.
Lemma nests_nil : nests [] [].
Proof. intros m st more. symmetry. now apply option_map_id. Qed.
Lemma nests_app : forall a b ea eb, nests a ea -> nests b eb -> nests (a ++ b) (ea ++ eb).
Proof. intros a b ea eb Ha Hb m st more. rewrite <- app_assoc, Ha, Hb. apply option_map_app2. Qed.
Lemma nests_char : forall c, nests [XChar c] [Data [c]].
Proof. intros c m st more. cbn. destruct (nest (m :: st) true more); reflexivity. Qed.
Lemma nests_text : forall t, nests [XText t] [Data t].
Proof. intros c m st more. cbn. destruct (nest (m :: st) true more); reflexivity. Qed.
Lemma nests_empty : forall n a, nests [XEmpty n a] [Start n a; End n].
Proof. intros n a m st more. cbn. destruct (nest (m :: st) true more); reflexivity. Qed.
Lemma nests_elem : forall n a ts es, nests ts es -> nests (XStart n a :: ts ++ [XEnd n]) (Start n a :: es ++ [End n]).
Proof.
  intros n a ts es H m st more. cbn [app nest]. rewrite <- app_assoc, H. cbn [app nest]. rewrite str_eqb_refl.
  destruct (nest (m :: st) true more); cbn; [now rewrite <- app_assoc | reflexivity].
Qed.

(** ** Fragments *)
Definition frag (w : str) (es : list event) : Prop := ~ In 13%N w /\ exists ts, lexes w ts /\ ~ In (XChar 62) ts /\ nests ts es.

Lemma frag_nil : frag [] [].
Proof. split; [intros []|]. exists []. split; [apply lexes_nil | split; [intros [] | apply nests_nil]]. Qed.
Lemma frag_app : forall a b ea eb, frag a ea -> frag b eb -> frag (a ++ b) (ea ++ eb).
Proof.
  intros a b ea eb [Ha [ta [La [Ga Na]]]] [Hb [tb [Lb [Gb Nb]]]]. split; [rewrite in_app_iff; tauto|].
  exists (ta ++ tb). split; [now apply lexes_app | split; [rewrite in_app_iff; tauto | now apply nests_app]].
Qed.
Lemma frag_elem : forall o c w n a es, lexes o [XStart n a] -> lexes c [XEnd n] -> ~ In 13%N o -> ~ In 13%N c -> frag w es ->
  frag (o ++ w ++ c) (Start n a :: es ++ [End n]).
Proof.
  intros o c w n a es Lo Lc Ho Hc [Hw [ts [L [G Nn]]]]. split; [rewrite !in_app_iff; tauto|].
  exists (XStart n a :: ts ++ [XEnd n]). split; [|split].
  - change (XStart n a :: ts ++ [XEnd n]) with ([XStart n a] ++ ts ++ [XEnd n]). apply lexes_app; [exact Lo | now apply lexes_app].
  - cbn [In]. rewrite in_app_iff. intros [H | [H | [H | []]]]; try discriminate. tauto.
  - now apply nests_elem.
Qed.
Lemma frag_empty : forall w n a, lexes w [XEmpty n a] -> ~ In 13%N w -> frag w [Start n a; End n].
Proof.
  intros w n a L H. split; [exact H|]. exists [XEmpty n a]. split; [exact L | split; [intros [D | []]; discriminate | apply nests_empty]].
Qed.
Lemma frag_char : forall c, xml_char c = true -> c <> 60%N -> c <> 38%N -> c <> 62%N -> c <> 13%N -> frag [c] [Data [c]].
Proof.
  intros c Hx H1 H2 H3 H4. split; [intros [E | []]; congruence|]. exists [XChar c].
  split; [now apply lexes_char | split; [intros [E | []]; congruence | apply nests_char]].
Qed.
Lemma frag_text_tok : forall w t, lexes w [XText t] -> ~ In 13%N w -> frag w [Data t].
Proof. intros w t L H. split; [exact H|]. exists [XText t]. split; [exact L | split; [intros [E | []]; discriminate | apply nests_text]]. Qed.

(** a document made of one root element *)
Lemma no_cdata_end_ok : forall ts, ~ In (XChar 62) ts -> no_cdata_end ts = true.
Proof.
  induction ts as [|k ts IH]; intro H; [reflexivity|]. assert (Hts : no_cdata_end ts = true) by (apply IH; intro; apply H; now right).
  destruct k as [| | |a|]; cbn [no_cdata_end]; try exact Hts.
  destruct ts as [|[| | |b|] ts]; try exact Hts. destruct ts as [|[| | |c|] ts]; try exact Hts.
  rewrite Hts, andb_true_r. apply negb_true_iff. destruct (N.eqb c 62) eqn:E; [|now rewrite andb_false_r].
  apply N.eqb_eq in E. subst c. exfalso. apply H. right. right. now left.
Qed.
Lemma no_declaration : forall t c, c <> 63%N -> skip_declaration (60%N :: c :: t) = Some (60%N :: c :: t).
Proof.
  intros t c H. unfold skip_declaration. assert (E : prefixb (s "<?xml") (60%N :: c :: t) = false).
  { change (prefixb (s "<?xml") (60%N :: c :: t)) with (N.eqb 60 60 && (N.eqb 63 c && prefixb (s "xml") t))%bool.
    assert (E : N.eqb 63 c = false) by (apply N.eqb_neq; congruence). now rewrite E. }
  now rewrite E.
Qed.
Lemma frag_doc : forall o c w n a es x r, lexes o [XStart n a] -> lexes c [XEnd n] -> ~ In 13%N o -> ~ In 13%N c -> frag w es ->
  o = 60%N :: x :: r -> x <> 63%N -> sax (o ++ w ++ c) = Some (merge (Start n a :: es ++ [End n])).
Proof.
  intros o c w n a es x r Lo Lc Ho Hc Hw Eo Hx. destruct Hw as [Hw [ts [L [G Nn]]]].
  unfold sax. rewrite unl_id by (rewrite !in_app_iff; tauto).
  assert (Ed : skip_declaration (o ++ w ++ c) = Some (o ++ w ++ c)).
  { rewrite Eo. cbn [app]. now apply no_declaration. }
  rewrite Ed.
  assert (LL : xlex (o ++ w ++ c) = Some ([XStart n a] ++ ts ++ [XEnd n])) by (apply lexes_full; apply lexes_app; [exact Lo | now apply lexes_app]).
  rewrite LL. rewrite no_cdata_end_ok.
  2:{ cbn [app In]. rewrite in_app_iff. intros [H | [H | [H | []]]]; try discriminate. tauto. }
  cbn [app nest]. rewrite Nn. cbn [nest]. rewrite str_eqb_refl. cbn. reflexivity.
Qed.
