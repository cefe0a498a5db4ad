(** The data files. *)
From Coq Require Import String List NArith ZArith Bool Lia Arith.
From Verif Require Import PyStr PyDict NovelModel YwTree Yw7Build Yw7Read YwText YwTextProofs YwTreeProofs Yw7SceneProofs Yw7ListRT Yw7ElemRT Yw7TreeInv Yw7TreeRT Yw7Clean Yw7Clean2 SpecYw7 Yw7Repr Yw7Repr2 Yw7Repr3
  FileOps FileOpsProofs SpecFile FileWrite FileWriteProofs DataFiles SpecData.
Import ListNotations.

(** ** The text *)
Lemma nl_no : forall n c, c <> 10%N -> c <> 32%N -> ~ In c (nl n).
Proof. intros n c A B H. apply nl_chars in H. tauto. Qed.
Lemma nl_cons : forall n, exists t, nl n = 10%N :: t /\ forall c, In c t -> c = 32%N.
Proof. intros n. exists (flat_map (fun _ => s "  ") (repeat tt n)). split; [reflexivity|]. intros c H. apply in_flat_map in H as (x & _ & H). destruct H as [<- | [<- | []]]; reflexivity. Qed.
Lemma cdata_blank : forall t, (forall c, In c t -> c = 32%N) -> cdata_line t = t.
Proof.
  intros t H. pose proof (cdata_line_show [Tx t]) as E. assert (Es : escape t = t) by (apply escape_id; intros c Hc; rewrite (H c Hc); repeat split; discriminate).
  assert (S1 : forall To Tc, show To Tc [Tx t] = t).
  { intros To Tc. unfold show. cbn [flat_map chunks concat app]. rewrite Es, !app_nil_r. reflexivity. }
  rewrite !S1 in E. apply E. constructor; [exact I | constructor].
Qed.
Lemma postprocess_raw : forall ent nc lv j e, clean e -> postprocess ent nc (ser lv e ++ nl j) = xml_header ++ 10%N :: raw (fixed nc (pieces lv e)) ++ nl j.
Proof.
  intros ent nc lv j e Hc. pose proof (pieces_good _ lv Hc) as Hg. set (ps := pieces lv e) in *.
  assert (Gn : piece_good (Tx (nl j))) by (exact (nl_ok j)).
  assert (Hq : Forall piece_good (ps ++ [Tx (nl j)])) by (apply Forall_app; split; [exact Hg | constructor; [exact Gn | constructor]]).
  assert (Sn : forall To Tc qs, show To Tc (qs ++ [Tx (nl j)]) = show To Tc qs ++ nl j).
  { intros To Tc qs. rewrite show_app. f_equal. unfold show. cbn [flat_map chunks concat app]. rewrite !app_nil_r. apply escape_nl. }
  unfold postprocess. rewrite ser_show. fold ps. rewrite <- Sn. pose proof (show_chars none none _ Hq) as Ch.
  rewrite unl_id by (apply chars_no_cr; exact Ch). rewrite split_splitc.
  rewrite join_cons by (destruct (splitc _ _) eqn:E; [exfalso; exact (splitc_nonempty _ _ E) | discriminate]).
  rewrite (join_map_splitc cdata_line 10%N cdata_line_nl). rewrite cdata_line_show by (apply piece_good_ok; exact Hq).
  rewrite Sn. set (T := show cd cd ps) in *.
  assert (Pat : forall p, p <> [] -> ~ In 60%N p -> ~ In 62%N p -> framed p T -> containsb p header_body = false -> containsb p [10%N] = false -> containsb p (nl j) = false ->
     containsb p (xml_header ++ [10%N] ++ T ++ nl j) = false).
  { intros p Hp H60 H62 (u & E & Hu) Hh H10 Hn. rewrite E, header_tagged. unfold tagged.
    replace ((60%N :: header_body ++ [62%N]) ++ [10%N] ++ (60%N :: u ++ [62%N]) ++ nl j) with (60%N :: header_body ++ 62%N :: [10%N] ++ 60%N :: u ++ 62%N :: nl j) by (flat; reflexivity).
    apply sep_head; [exact Hp | exact H60|]. apply sep_all; [exact Hp | exact H62 | exact Hh|]. apply sep_all; [exact Hp | exact H60 | exact H10|]. apply sep_all; assumption. }
  change (s "[CDATA[ " ++ [10%N]) with p_open. change (10%N :: s "]]") with p_close.
  rewrite (replace_absent p_open); [|apply Pat; [discriminate | apply not_in_bool; reflexivity | apply not_in_bool; reflexivity | apply open_framed; exact Hc | reflexivity | reflexivity | apply (containsb_missing p_open 91%N); [left; reflexivity | apply nl_no; discriminate]]].
  rewrite (replace_absent p_close); [|apply Pat; [discriminate | apply not_in_bool; reflexivity | apply not_in_bool; reflexivity | apply close_framed; exact Hc | reflexivity | reflexivity | apply (containsb_missing p_close 93%N); [right; left; reflexivity | apply nl_no; discriminate]]].
  assert (Nc : (if nc then replace (s "<CHAPTERS />") (s "<CHAPTERS></CHAPTERS>") (xml_header ++ [10%N] ++ T ++ nl j) else xml_header ++ [10%N] ++ T ++ nl j)
     = xml_header ++ [10%N] ++ show cd cd (fixed nc ps) ++ nl j).
  { unfold fixed. destruct nc; [|reflexivity]. change (s "<CHAPTERS />") with (tagged (s "CHAPTERS /")).
    assert (Rp : forall q, replace (tagged (s "CHAPTERS /")) q (xml_header ++ [10%N] ++ T ++ nl j) = xml_header ++ [10%N] ++ replace (tagged (s "CHAPTERS /")) q (T ++ nl j)).
    { intro q. rewrite header_tagged. rewrite replace_chunk; [|apply not_in_bool; reflexivity | apply not_in_bool; reflexivity | reflexivity | apply CTag; apply not_in_bool; reflexivity].
      rewrite str_eqb_tagged. change (str_eqb header_body (s "CHAPTERS /")) with false. cbv iota. reflexivity. }
    rewrite Rp. f_equal. f_equal. destruct (nl_cons j) as (sp & Ej & Hsp). rewrite Ej. rewrite replace_app_sep; [|apply not_in_bool; reflexivity | discriminate].
    rewrite (replace_absent (tagged (s "CHAPTERS /")) (s "<CHAPTERS></CHAPTERS>") sp).
    2:{ apply (containsb_missing _ 60%N); [left; reflexivity | intro X; specialize (Hsp _ X); discriminate]. }
    change (tagged (s "CHAPTERS /")) with (s "<CHAPTERS />"). rewrite <- show_fix by (apply piece_good_ok; exact Hg). reflexivity. }
  rewrite Nc. rewrite header_tagged. rewrite unescape_plain by (apply tagged_no_amp; apply not_in_bool; reflexivity).
  rewrite unescape_plain by (apply not_in_bool; reflexivity). cbn [app]. f_equal. f_equal. f_equal.
  rewrite <- Sn. rewrite unescape_show.
  - unfold raw. rewrite flat_map_app. cbn [flat_map raw1 app]. rewrite app_nil_r. reflexivity.
  - apply Forall_app. split; [apply piece_good_ok; apply fixed_good; exact Hg | constructor; [exact I | constructor]].
Qed.
Lemma lex_spaces : forall t, (forall c, In c t -> c = 10%N \/ c = 32%N) -> lex t = Some (map (fun c => TText [c]) t).
Proof.
  induction t as [|c t IH]; intro H; [reflexivity|]. unfold lex. cbn [lex_go].
  assert (L : look (c :: t) = Some (TText [c], 1)) by (destruct (H c (or_introl eq_refl)) as [-> | ->]; reflexivity).
  rewrite L. cbn [pred]. fold (lex t). rewrite IH by (intros d Hd; apply H; right; exact Hd). reflexivity.
Qed.
Lemma make_spaces : forall t e, (forall c, In c t -> c = 10%N \/ c = 32%N) -> make (map (fun c => TText [c]) t) [] (Some e) = Some e.
Proof.
  induction t as [|c t IH]; intros e H; [reflexivity|]. cbn [map make].
  assert (L : forallb xml_space [c] = true) by (destruct (H c (or_introl eq_refl)) as [-> | ->]; reflexivity). rewrite L. apply IH. intros d Hd. apply H. right. exact Hd.
Qed.
Theorem section_parses : forall ent nc lv j e, clean e ->
  exists e', parse_xml (filter kept (unl (postprocess ent nc (ser lv e ++ nl j)))) = Some e' /\ settled out_text e e'.
Proof.
  intros ent nc lv j e Hc. rewrite postprocess_raw by exact Hc. set (ps := pieces lv e). set (W := raw (fixed nc ps)).
  assert (Ch : forallb char_ok (xml_header ++ 10%N :: W ++ nl j) = true).
  { rewrite forallb_app. cbn [forallb]. rewrite forallb_app. unfold W. rewrite raw_chars by (apply fixed_good; apply pieces_good; exact Hc). rewrite nl_ok. reflexivity. }
  rewrite unl_id by (apply chars_no_cr; exact Ch). rewrite chars_kept by exact Ch.
  destruct (clean_parses nc e lv Hc) as (ts & e' & S1 & L1 & (w1 & W1) & M1). fold ps in L1, W1. fold W in L1, W1.
  exists e'. split; [|exact S1].
  unfold parse_xml, skip_declaration. change (prefixb (s "<?xml") (xml_header ++ 10%N :: W ++ nl j)) with true. cbv iota.
  assert (B : before (s "?>") (xml_header ++ 10%N :: W ++ nl j) = Some (s "<?xml version=""1.0"" encoding=""utf-8""")) by reflexivity.
  rewrite B. change (skipn (length (s "<?xml version=""1.0"" encoding=""utf-8""") + 2) (xml_header ++ 10%N :: W ++ nl j)) with (10%N :: W ++ nl j).
  assert (E : lex (10%N :: W ++ nl j) = Some (TText [10%N] :: ts ++ map (fun c => TText [c]) (nl j))).
  { unfold lex at 1. cbn [lex_go]. assert (Lk : look (10%N :: W ++ nl j) = Some (TText [10%N], 1)) by reflexivity. rewrite Lk. cbn [pred]. fold (lex (W ++ nl j)). rewrite L1.
    rewrite lex_spaces by (intros c Hc'; exact (nl_chars j c Hc')). reflexivity. }
  rewrite E. cbn [make forallb]. change (xml_space 10%N && true) with true. cbv iota. rewrite M1 by reflexivity.
  cbn [deliver fst snd]. apply make_spaces. intros c Hc'. exact (nl_chars j c Hc').
Qed.
