(** Proofs about compiling PO files (MsgfmtMake.v): the lines of the header and of the entries; the whole file. *)
From Coq Require Import String List NArith ZArith Bool Lia Arith.
From Verif Require Import PyStr PyDict YwText Template Inliner Translations SpecTrans TransProofs Msgfmt MsgfmtMake SpecPo PoProofs.
From Verif Require ConfigProofs.
Import ListNotations.

Section Lines.
Variables (other : str -> res str) (charset : str -> option codec).
Notation step := (step other charset).

Lemma strip_quoted : forall w, strip (34%N :: w ++ [34; 10]%N) = 34%N :: w ++ [34%N].
Proof. intro w. pose proof (strip_line 34 w 34 eq_refl eq_refl) as P. cbn [app] in P. rewrite <- app_assoc in P. exact P. Qed.
Lemma strip_quoted1 : forall w, strip (32%N :: 34%N :: w ++ [34; 10]%N) = 34%N :: w ++ [34%N].
Proof. intro w. rewrite <- (strip_quoted w). reflexivity. Qed.
Lemma literal_stands : forall w v, stands_for w v -> literal_eval other (34%N :: w ++ [34%N]) = Ok v.
Proof. intros w v H. cbn [literal_eval]. change (N.eqb 34 34) with true. cbn iota. now rewrite (stands_literal w v H). Qed.

Lemma text_part_id : forall ctxt i t p f e ms l w v b, strip l = 34%N :: w ++ [34%N] -> stands_for w v -> encode e v = Ok b ->
  text_part other (mkSt (Some ID) ctxt (Some i) t p f e ms) l = Ok (mkSt (Some ID) ctxt (Some (i ++ b)) t p f e ms).
Proof. intros. unfold text_part. rewrite H. rewrite (literal_stands w v) by assumption. cbn [bind section msgid bound encoding msgctxt msgstr is_plural fuzzy messages]. now rewrite H1. Qed.
Lemma text_part_str : forall ctxt i t p f e ms l w v b, strip l = 34%N :: w ++ [34%N] -> stands_for w v -> encode e v = Ok b ->
  text_part other (mkSt (Some STR) ctxt i (Some t) p f e ms) l = Ok (mkSt (Some STR) ctxt i (Some (t ++ b)) p f e ms).
Proof. intros. unfold text_part. rewrite H. rewrite (literal_stands w v) by assumption. cbn [bind section msgid bound encoding msgctxt msgstr is_plural fuzzy messages]. now rewrite H1. Qed.

(** comments at the beginning *)
Lemma step_comment : forall st line x, decode (encoding st) line = Ok (35%N :: 32%N :: x) -> in_str st = false -> step st line = Ok st.
Proof. intros st line x D S. unfold MsgfmtMake.step. rewrite D. cbn [bind]. rewrite S. cbn [andb bind N.eqb]. rewrite andb_false_r. cbn [bind]. reflexivity. Qed.
(** msgid *)
Lemma step_id : forall st line w v b, decode (encoding st) line = Ok (MSGID ++ w ++ [34; 10]%N) -> stands_for w v ->
  forall st' l, id_line charset st (MSGID ++ w ++ [34; 10]%N) = Ok (l, st') -> section st' = Some ID -> msgid st' = Some [] -> encode (encoding st') v = Ok b ->
  step st line = Ok (mkSt (Some ID) (msgctxt st') (Some b) (msgstr st') (is_plural st') (fuzzy st') (encoding st') (messages st')).
Proof.
  intros st line w v b D W st' l E S I B. unfold MsgfmtMake.step. rewrite D. cbn [bind]. 
  change (MSGID ++ w ++ [34; 10]%N) with (109%N :: (s "sgid """ ++ w ++ [34; 10]%N)) at 1. cbn iota.
  change (N.eqb 109 35) with false. cbn [andb bind]. 
  change (prefixb (s "#,") (MSGID ++ w ++ [34; 10]%N)) with false. cbn [andb]. cbn iota. unfold keyword.
  change (prefixb (s "msgctxt") (MSGID ++ w ++ [34; 10]%N)) with false. change (prefixb (s "msgid") (MSGID ++ w ++ [34; 10]%N)) with true.
  change (prefixb (s "msgid_plural") (MSGID ++ w ++ [34; 10]%N)) with false. cbn [andb negb]. cbn iota. rewrite E. cbn [bind fst snd].
  assert (L : l = 32%N :: 34%N :: w ++ [34; 10]%N).
  { unfold id_line in E. destruct (if in_str st then _ else _) as [x|]; [|discriminate]. cbn [bind] in E. apply (f_equal (fun r => match r with Ok p => fst p | Err _ => [] end)) in E. cbn [fst] in E. rewrite <- E. reflexivity. }
  destruct st' as [sec ct mi mt pl fz en ms]. cbn in S, I, B |- *. subst sec mi l. apply (text_part_id ct [] mt pl fz en ms _ w v b); [apply strip_quoted1 | exact W | exact B].
Qed.
(** msgstr *)
Lemma step_str : forall ct i f e ms line w v b, decode e line = Ok (MSGSTR ++ w ++ [34; 10]%N) -> stands_for w v -> encode e v = Ok b ->
  step (mkSt (Some ID) ct i (Some []) (Some false) f e ms) line = Ok (mkSt (Some STR) ct i (Some b) (Some false) f e ms).
Proof.
  intros ct i f e ms line w v b D W B. unfold MsgfmtMake.step. cbn [encoding]. rewrite D. cbn [bind].
  change (MSGSTR ++ w ++ [34; 10]%N) with (109%N :: (s "sgstr """ ++ w ++ [34; 10]%N)) at 1. cbn iota.
  change (N.eqb 109 35) with false. cbn [andb bind].
  change (prefixb (s "#,") (MSGSTR ++ w ++ [34; 10]%N)) with false. cbn [andb]. cbn iota. unfold keyword.
  change (prefixb (s "msgctxt") (MSGSTR ++ w ++ [34; 10]%N)) with false. change (prefixb (s "msgid") (MSGSTR ++ w ++ [34; 10]%N)) with false.
  change (prefixb (s "msgid_plural") (MSGSTR ++ w ++ [34; 10]%N)) with false. change (prefixb (s "msgstr") (MSGSTR ++ w ++ [34; 10]%N)) with true. cbn [andb negb]. cbn iota.
  unfold str_line. cbn [is_plural bound bind]. change (prefixb (s "msgstr[") (MSGSTR ++ w ++ [34; 10]%N)) with false. cbn iota. cbn [bind fst snd section msgctxt msgid msgstr fuzzy encoding messages is_plural].
  change (skipn 6 (MSGSTR ++ w ++ [34; 10]%N)) with (32%N :: 34%N :: w ++ [34; 10]%N). apply (text_part_str ct i [] (Some false) f e ms _ w v b); [apply strip_quoted1 | exact W | exact B].
Qed.
(** a further line of a msgstr *)
Lemma step_more : forall ct i t p f e ms line w v b, decode e line = Ok (34%N :: w ++ [34; 10]%N) -> stands_for w v -> encode e v = Ok b ->
  step (mkSt (Some STR) ct i (Some t) p f e ms) line = Ok (mkSt (Some STR) ct i (Some (t ++ b)) p f e ms).
Proof.
  intros ct i t p f e ms line w v b D W B. unfold MsgfmtMake.step. cbn [encoding]. rewrite D. cbn [bind].
  change (N.eqb 34 35) with false. cbn [andb bind]. change (prefixb (s "#,") (34%N :: w ++ [34; 10]%N)) with false. cbn [andb]. cbn iota. unfold keyword.
  change (prefixb (s "msgctxt") (34%N :: w ++ [34; 10]%N)) with false. change (prefixb (s "msgid") (34%N :: w ++ [34; 10]%N)) with false.
  change (prefixb (s "msgid_plural") (34%N :: w ++ [34; 10]%N)) with false. change (prefixb (s "msgstr") (34%N :: w ++ [34; 10]%N)) with false. cbn [andb negb]. cbn iota. cbn [bind fst snd].
  apply (text_part_str ct i t p f e ms _ w v b); [apply strip_quoted | exact W | exact B].
Qed.
(** an empty line *)
Lemma step_blank : forall st line, decode (encoding st) line = Ok [10%N] -> step st line = Ok st.
Proof. intros st line D. unfold MsgfmtMake.step. rewrite D. reflexivity. Qed.

(** * An entry *)
Definition entry_state (v tv : str) (ms : dict bytes) : state :=
  mkSt (Some STR) None (Some (utf8_text v)) (Some (utf8_text tv)) (Some false) false utf8 ms.
Lemma decode_line : forall a w b, ascii a -> encodable w -> ascii b -> decode utf8 (utf8_text (a ++ w ++ b)) = Ok (a ++ w ++ b).
Proof. intros a w b A W B. cbn [decode utf8]. apply decode_utf8. apply encodable_app; [now apply ascii_encodable|]. apply encodable_app; [exact W | now apply ascii_encodable]. Qed.
Ltac ascii_tac := repeat (constructor; [reflexivity|]); constructor.
Lemma entry_rest : forall st w t v tv b, stands_for t tv ->
  step st (utf8_text (MSGID ++ w ++ [34; 10]%N)) = Ok (mkSt (Some ID) None (Some (utf8_text v)) (Some []) (Some false) false utf8 b) ->
  foldM step (map utf8_text [MSGID ++ w ++ [34; 10]%N; MSGSTR ++ t ++ [34; 10]%N; [10%N]]) st = Ok (entry_state v tv b).
Proof.
  intros st w t v tv b T E. destruct (stands_value _ _ T) as (T1 & T2 & _). cbn [map foldM]. rewrite E. cbn [bind].
  rewrite (step_str None (Some (utf8_text v)) false utf8 b _ t tv (utf8_text tv)); [| apply decode_line; [ascii_tac | exact T1 | ascii_tac] | exact T | now apply encode_utf8].
  cbn [bind]. rewrite step_blank by reflexivity. reflexivity.
Qed.
(** after another entry *)
Lemma entry_next : forall v0 tv0 ms w t v tv, v0 <> [] -> stands_for w v -> stands_for t tv ->
  foldM step (map utf8_text [MSGID ++ w ++ [34; 10]%N; MSGSTR ++ t ++ [34; 10]%N; [10%N]]) (entry_state v0 tv0 ms) =
  Ok (entry_state v tv (add None (utf8_text v0) (utf8_text tv0) false ms)).
Proof.
  intros v0 tv0 ms w t v tv N0 W T. apply entry_rest; [exact T|]. destruct (stands_value _ _ W) as (W1 & W2 & _).
  assert (X : exists c x, utf8_text v0 = c :: x).
  { destruct v0 as [|c v0]; [congruence|]. unfold utf8_text. cbn [flat_map]. pose proof (utf8_char_some c) as U. destruct (utf8_char c) as [|d u]; [congruence|]. now exists d, (u ++ flat_map utf8_char v0). }
  destruct X as (c & x & X).
  eapply (step_id (entry_state v0 tv0 ms) _ w v (utf8_text v)) with (st' := mkSt (Some ID) None (Some []) (Some []) (Some false) false utf8 (add None (utf8_text v0) (utf8_text tv0) false ms));
    [apply decode_line; [ascii_tac | exact W1 | ascii_tac] | exact W | | reflexivity | reflexivity | now apply encode_utf8].
  unfold id_line, entry_state, in_str. cbn [section bind add_entry msgid msgstr bound msgctxt fuzzy messages is_plural encoding]. rewrite X. reflexivity.
Qed.
(** right after the header: the line is still read in latin-1 *)
Definition header_state (hv : bytes) (ms : dict bytes) : state := mkSt (Some STR) None (Some []) (Some hv) (Some false) false latin1 ms.
Lemma entry_first : forall hv ms w t v tv, header_charset charset hv = Some utf8 -> ascii w -> stands_for w v -> stands_for t tv ->
  foldM step (map utf8_text [MSGID ++ w ++ [34; 10]%N; MSGSTR ++ t ++ [34; 10]%N; [10%N]]) (header_state hv ms) =
  Ok (entry_state v tv (add None [] hv false ms)).
Proof.
  intros hv ms w t v tv C A W T. apply entry_rest; [exact T|]. destruct (stands_value _ _ W) as (W1 & W2 & _).
  eapply (step_id (header_state hv ms) _ w v (utf8_text v)) with (st' := mkSt (Some ID) None (Some []) (Some []) (Some false) false utf8 (add None [] hv false ms));
    [ | exact W | | reflexivity | reflexivity | now apply encode_utf8].
  - cbn [header_state encoding decode latin1]. rewrite utf8_ascii; [reflexivity|]. apply ascii_app; [ascii_tac|]. apply ascii_app; [exact A | ascii_tac].
  - unfold id_line, header_state, in_str. cbn [section bind add_entry msgid msgstr bound msgctxt fuzzy messages is_plural encoding decode latin1]. rewrite C. reflexivity.
Qed.
End Lines.
