(** Proofs about compiling PO files (MsgfmtMake.v): the header, the whole file. *)
From Coq Require Import String List NArith ZArith Bool Lia Arith.
From Verif Require Import PyStr PyDict YwText Template Inliner Translations SpecTrans TransProofs Msgfmt MsgfmtMake SpecPo PoProofs PoProofs2.
Import ListNotations.

(** * The charset of the header *)
Lemma splitc_one : forall c a x, ~ In c a -> splitc c (a ++ c :: x) = a :: splitc c x.
Proof.
  induction a as [|d a IH]; intros x H; [cbn; now rewrite N.eqb_refl|]. cbn [app splitc]. rewrite (proj2 (N.eqb_neq c d)) by (intro; subst; apply H; now left).
  rewrite IH by (intro I; apply H; now right). reflexivity.
Qed.
Lemma splitc_some : forall c x, exists a r, splitc c x = a :: r.
Proof. induction x as [|d x (a & r & IH)]; [now exists [], []|]. cbn [splitc]. destruct (N.eqb c d); [now exists [], (splitc c x)|]. rewrite IH. now exists (d :: a), r. Qed.
Lemma splitc_lines : forall ls, Forall (fun l => ~ In 10%N l) ls -> splitc 10 (concat (map (fun l => l ++ [10%N]) ls)) = ls ++ [[]].
Proof.
  induction ls as [|l ls IH]; intro H; [reflexivity|]. inversion H as [|? ? H1 H2]; subst. cbn [map concat app]. rewrite <- app_assoc. cbn [app].
  exact (eq_trans (splitc_one 10 l _ H1) (f_equal (cons l) (IH H2))).
Qed.
Lemma field_ok : forall name x, ~ In 58%N name -> name <> [] -> forallb name_char name = true ->
  header_field (name ++ 58%N :: x) = Some (name, lstrip_by (fun c => N.eqb c 32 || N.eqb c 9) x).
Proof.
  intros name x H N0 F. unfold header_field. rewrite splitc_one by exact H. destruct (splitc_some 58 x) as (a & r & ->). rewrite F.
  destruct name as [|c name]; [congruence|]. cbn [truthy andb]. do 3 f_equal.
  change (S (length (c :: name))) with (S (length (c :: name))). rewrite skipn_app. rewrite (skipn_all2 (c :: name)) by lia. replace (S (length (c :: name)) - length (c :: name)) with 1 by lia. reflexivity.
Qed.
Lemma fields_lines : forall ls fs, Forall2 (fun l f => header_field l = Some f) ls fs -> all_fields (ls ++ [[]]) = Some fs.
Proof.
  intros ls fs H. induction H as [|l f ls fs E H IH]; [reflexivity|]. cbn [app all_fields]. destruct (ls ++ [[]]) eqn:X; [destruct ls; discriminate|]. now rewrite E, IH.
Qed.
(** the fields of the header *)
Definition header_fields (ver pt now : str) : list str :=
  [s "Project-Id-Version: " ++ ver; s "POT-Creation-Date: " ++ pt; s "PO-Revision-Date: " ++ now; s "Last-Translator: Peter Triesberger"; s "Language: de"; s "MIME-Version: 1.0";
   s "Content-Type: text/plain; charset=UTF-8"; s "Content-Transfer-Encoding: 8bit"].
Definition header_value (ver pt now : str) : str := concat (map (fun l => l ++ [10%N]) (header_fields ver pt now)).
Definition plainb (t : str) : bool := forallb (fun c => ((32 <=? c) && (c <=? 126))%N && negb (N.eqb c 34) && negb (N.eqb c 92)) t.
Lemma plainb_ok : forall t, plainb t = true -> plain t.
Proof.
  intros t H. unfold plain. apply Forall_forall. intros c I. unfold plainb in H. rewrite forallb_forall in H. apply H in I. apply andb_true_iff in I as [I I3]. apply andb_true_iff in I as [I1 I2].
  apply andb_true_iff in I1 as [I0 I1]. apply N.leb_le in I0, I1. apply negb_true_iff, N.eqb_neq in I2, I3. repeat split; assumption.
Qed.
Lemma plain_app : forall a b, plain a -> plain b -> plain (a ++ b).
Proof. intros. apply Forall_app. now split. Qed.
Lemma plain_fields : forall ver pt now, plain ver -> plain pt -> plain now -> Forall plain (header_fields ver pt now).
Proof. intros ver pt now A B C. unfold header_fields. repeat apply (@Forall_cons str plain); try apply (@Forall_nil str plain); try apply plain_app; try assumption; apply plainb_ok; reflexivity. Qed.
Lemma plain_no : forall t c, plain t -> (c < 32)%N -> ~ In c t.
Proof. intros t c H L I. unfold plain in H. rewrite Forall_forall in H. apply H in I. lia. Qed.
Lemma header_utf8 : forall charset ver pt now, plain ver -> plain pt -> plain now -> header_charset charset (header_value ver pt now) = Some utf8.
Proof.
  intros charset ver pt now A B C. pose proof (plain_fields ver pt now A B C) as P. unfold header_charset.
  assert (R : smem [13%N] (map (fun c => [c]) (header_value ver pt now)) = false).
  { destruct (smem [13%N] (map (fun c => [c]) (header_value ver pt now))) eqn:X; [|reflexivity]. exfalso. apply smem_In in X. apply in_map_iff in X as [c [E I]]. injection E as ->.
    unfold header_value in I. apply in_concat in I as [l [L I]]. apply in_map_iff in L as [y [<- L]]. apply in_app_or in I as [I|[I|[]]]; [|discriminate]. rewrite Forall_forall in P. apply (plain_no y 13); auto; reflexivity. }
  rewrite R. unfold header_value. rewrite splitc_lines.
  2:{ eapply Forall_impl; [|exact P]. intros l L. apply (plain_no l 10 L). reflexivity. }
  assert (F : exists x y z, Forall2 (fun l f => header_field l = Some f) (header_fields ver pt now)
    [(s "Project-Id-Version", x); (s "POT-Creation-Date", y); (s "PO-Revision-Date", z); (s "Last-Translator", s "Peter Triesberger"); (s "Language", s "de"); (s "MIME-Version", s "1.0");
     (s "Content-Type", s "text/plain; charset=UTF-8"); (s "Content-Transfer-Encoding", s "8bit")]).
  { eexists. eexists. eexists. unfold header_fields. repeat apply Forall2_cons; try apply Forall2_nil; try reflexivity.
    - exact (field_ok (s "Project-Id-Version") (s " " ++ ver) ltac:(intro I; cbn in I; intuition discriminate) ltac:(discriminate) eq_refl).
    - exact (field_ok (s "POT-Creation-Date") (s " " ++ pt) ltac:(intro I; cbn in I; intuition discriminate) ltac:(discriminate) eq_refl).
    - exact (field_ok (s "PO-Revision-Date") (s " " ++ now) ltac:(intro I; cbn in I; intuition discriminate) ltac:(discriminate) eq_refl). }
  destruct F as (x & y & z & F). pose proof (fields_lines _ _ F) as G. match goal with |- context[all_fields ?x] => replace (all_fields x) with (all_fields (header_fields ver pt now ++ [[]])) by reflexivity end. rewrite G. reflexivity.
Qed.

(** * The lines of the header *)
Section File.
Variables (other : str -> res str) (charset : str -> option codec).
Notation step := (MsgfmtMake.step other charset).
Lemma plain_stands : forall a, plain a -> stands_for (a ++ s "\n") (a ++ [10%N]).
Proof.
  induction a as [|c a IH]; intro H; [apply sf_escape; [cbn; tauto | constructor]|]. inversion H as [|? ? H1 H2]; subst. cbn [app]. apply sf_char; [|now apply IH].
  split; [intro I; cbn [In] in I; lia | left; lia].
Qed.
Lemma plain_ascii : forall a, plain a -> ascii a.
Proof. intros a H. unfold ascii. eapply Forall_impl; [|exact H]. cbn. intros c L. lia. Qed.
Definition quoted_field (a : str) : str := s """" ++ a ++ s "\n""" ++ [10%N].
Lemma header_field_step : forall a t ms, plain a -> step (header_state t ms) (utf8_text (quoted_field a)) = Ok (header_state (t ++ a ++ [10%N]) ms).
Proof.
  intros a t ms P. unfold header_state. apply step_more with (w := a ++ s "\n") (v := a ++ [10%N]).
  - cbn [decode latin1]. rewrite utf8_ascii.
    + unfold quoted_field. rewrite <- app_assoc. reflexivity.
    + unfold quoted_field. apply ascii_app; [repeat (constructor; [reflexivity|]); constructor|]. apply ascii_app; [now apply plain_ascii|]. repeat (constructor; [reflexivity|]). constructor.
  - now apply plain_stands.
  - cbn [encode latin1]. replace (forallb (fun c => (c <? 256)%N) (a ++ [10%N])) with true; [reflexivity|]. symmetry. apply forallb_forall. intros c I. apply N.ltb_lt.
    apply in_app_or in I as [I|[<-|[]]]; [|lia]. apply plain_ascii in P. unfold ascii in P. rewrite Forall_forall in P. apply P in I. lia.
Qed.
Lemma header_fields_steps : forall fs t ms, Forall plain fs ->
  foldM step (map (fun a => utf8_text (quoted_field a)) fs) (header_state t ms) = Ok (header_state (t ++ concat (map (fun l => l ++ [10%N]) fs)) ms).
Proof.
  induction fs as [|a fs IH]; intros t ms H; [cbn; now rewrite app_nil_r|]. inversion H as [|? ? H1 H2]; subst. cbn [map foldM]. rewrite header_field_step by exact H1. cbn [bind]. rewrite IH by exact H2.
  cbn [concat]. now rewrite <- !app_assoc.
Qed.
Definition comment_lines (ap : str) : list str :=
  [s "# " ++ ap ++ s " Dictionary (English-German)" ++ [10%N]; s "# Copyright (C) 2022 Peter Triesberger" ++ [10%N]; s "#" ++ [10%N]; s "msgid """"" ++ [10%N]; s "msgstr """"" ++ [10%N]].
Definition header_lines (ap ver pt now : str) : list str := comment_lines ap ++ map quoted_field (header_fields ver pt now) ++ [[10%N]; [10%N]].
Lemma header_lines_text : forall ap ver pt now, safe_substitute poHeader [(s "app", ap); (s "appVersion", ver); (s "datetime", now); (s "pot_creation", created pt)] = concat (header_lines ap ver pt now).
Proof. intros. rewrite po_header_text. unfold header_lines, comment_lines, header_fields, created, quoted_field. cbn [map concat app]. rewrite <- !app_assoc. vm_compute. reflexivity. Qed.
Lemma comment_steps : forall ap ms, foldM step (map utf8_text (comment_lines ap)) (mkSt None None None None None false latin1 ms) = Ok (header_state [] ms).
Proof.
  intros ap ms. unfold comment_lines. cbn [map foldM]. rewrite step_comment with (x := utf8_text (ap ++ s " Dictionary (English-German)" ++ [10%N])); [| |reflexivity].
  - cbn [bind]. reflexivity.
  - cbn [decode encoding latin1]. rewrite utf8_app. reflexivity.
Qed.
Lemma foldM_app' : forall l1 l2 st, foldM step (l1 ++ l2) st = bind (foldM step l1 st) (foldM step l2).
Proof. induction l1 as [|x l1 IH]; intros l2 st; [reflexivity|]. cbn [app foldM]. destruct (step st x); [cbn [bind]; apply IH | reflexivity]. Qed.
Lemma header_steps : forall ap ver pt now ms, plain ver -> plain pt -> plain now ->
  foldM step (map utf8_text (header_lines ap ver pt now)) (mkSt None None None None None false latin1 ms) = Ok (header_state (header_value ver pt now) ms).
Proof.
  intros ap ver pt now ms A B C. unfold header_lines. rewrite !map_app, foldM_app', comment_steps. cbn [bind]. rewrite foldM_app', map_map, header_fields_steps by (now apply plain_fields). cbn [bind app].
  fold (header_value ver pt now). reflexivity.
Qed.

(** * The entries *)
Definition entry_lines (p : str * str) : list str := [MSGID ++ fst p ++ [34; 10]%N; MSGSTR ++ snd p ++ [34; 10]%N; [10%N]].
Definition stands2 (p q : str * str) : Prop := stands_for (fst p) (fst q) /\ stands_for (snd p) (snd q) /\ fst p <> [].
Definition put_message (ms : dict bytes) (q : str * str) : dict bytes := add None (utf8_text (fst q)) (utf8_text (snd q)) false ms.
Lemma entries_steps : forall ps qs, Forall2 stands2 ps qs -> forall v0 tv0 ms, v0 <> [] ->
  exists st st', foldM step (map utf8_text (flat_map entry_lines ps)) (entry_state v0 tv0 ms) = Ok st /\ in_str st = true /\ add_entry st = Ok st' /\
    messages st' = fold_left put_message ((v0, tv0) :: qs) ms.
Proof.
  intros ps qs H. induction H as [|p q ps qs (W & T & N0) H IH]; intros v0 tv0 ms V.
  - eexists. eexists. split; [reflexivity|]. split; [reflexivity|]. split; reflexivity.
  - cbn [flat_map]. rewrite map_app, foldM_app'. unfold entry_lines at 1. rewrite entry_next with (v := fst q) (tv := snd q) by assumption. cbn [bind].
    assert (Q : fst q <> []) by (intro Q; apply N0; now apply (stands_value _ _ W)).
    destruct (IH (fst q) (snd q) (add None (utf8_text v0) (utf8_text tv0) false ms) Q) as (st & st' & E & S & A & M). exists st, st'. split; [exact E|]. split; [exact S|]. split; [exact A|].
    rewrite M. destruct q. reflexivity.
Qed.
Lemma readlines_concat : forall ls, Forall (fun l => exists x, l = x ++ [10%N] /\ ~ In 10%N x) ls -> readlines (concat ls) = ls.
Proof.
  induction ls as [|l ls IH]; intro H; [reflexivity|]. inversion H as [|? ? (x & -> & Hx) H2]; subst. cbn [concat]. rewrite <- app_assoc. cbn [app]. rewrite readlines_line by exact Hx. now rewrite IH.
Qed.
(** the whole file *)
Lemma parse_file : forall ap ver pt now ps qs, one_line ap -> plain ver -> plain pt -> plain now -> Forall2 stands2 ps qs ->
  match ps with [] => True | p :: _ => ascii (fst p) end ->
  parse other charset (utf8_text (concat (header_lines ap ver pt now) ++ concat (flat_map entry_lines ps))) [] =
  Ok (fold_left put_message qs [([], header_value ver pt now)]).
Proof.
  intros ap ver pt now ps qs O A B C H F. unfold parse. rewrite readlines_utf8, <- concat_app, readlines_concat.
  2:{ apply Forall_app. split.
      - unfold header_lines. apply Forall_app; split; [|apply Forall_app; split; [|apply Forall_cons; [|apply Forall_cons; [|apply Forall_nil]]]]; [unfold comment_lines; repeat apply Forall_cons | | | ].
        + exists (s "# " ++ ap ++ s " Dictionary (English-German)"). split; [now rewrite <- !app_assoc|]. intro I. apply in_app_or in I as [I|I]; [cbn in I; intuition discriminate|]. apply in_app_or in I as [I|I]; [exact (proj1 O I)|]. cbn in I; intuition discriminate.
        + eexists. split; [reflexivity|]. intro I; cbn in I; intuition discriminate.
        + eexists. split; [reflexivity|]. intro I; cbn in I; intuition discriminate.
        + eexists. split; [reflexivity|]. intro I; cbn in I; intuition discriminate.
        + eexists. split; [reflexivity|]. intro I; cbn in I; intuition discriminate.
        + apply Forall_nil.
        + apply Forall_forall. intros l I. apply in_map_iff in I as [a [<- I]]. pose proof (plain_fields ver pt now A B C) as P. rewrite Forall_forall in P. apply P in I.
          exists (s """" ++ a ++ s "\n"""). unfold quoted_field. split; [now rewrite <- !app_assoc|]. intro J. apply in_app_or in J as [J|J]; [cbn in J; intuition discriminate|].
          apply in_app_or in J as [J|J]; [exact (plain_no a 10 I eq_refl J)|]. cbn in J; intuition discriminate.
        + exists []. split; [reflexivity | intros []].
        + exists []. split; [reflexivity | intros []].
      - apply Forall_forall. intros l I. apply in_flat_map in I as [p [Ip I]]. assert (S : exists q, stands2 p q).
        { clear - H Ip. induction H as [|p' q' ps qs S H IH]; [destruct Ip|]. destruct Ip as [->|Ip]; [now exists q' | auto]. }
        destruct S as (q & W & T & _). apply stands_value in W as (_ & _ & _ & W & _). apply stands_value in T as (_ & _ & _ & T & _).
        destruct I as [<-|[<-|[<-|[]]]].
        + exists (MSGID ++ fst p ++ [34%N]). split; [now rewrite <- !app_assoc|]. intro J. apply in_app_or in J as [J|J]; [cbn in J; intuition discriminate|]. apply in_app_or in J as [J|J]; [contradiction|]. cbn in J; intuition discriminate.
        + exists (MSGSTR ++ snd p ++ [34%N]). split; [now rewrite <- !app_assoc|]. intro J. apply in_app_or in J as [J|J]; [cbn in J; intuition discriminate|]. apply in_app_or in J as [J|J]; [contradiction|]. cbn in J; intuition discriminate.
        + exists []. split; [reflexivity | intros []]. }
  rewrite map_app, foldM_app', header_steps by assumption. cbn [bind].
  assert (Hd : exists x y, header_value ver pt now = x :: y) by (eexists; eexists; reflexivity).
  destruct H as [|p q ps qs (W & T & N0) H].
  - cbn [flat_map map foldM bind]. unfold header_state, in_str. cbn [section add_entry bound bind msgid msgstr msgctxt fuzzy messages is_plural encoding]. unfold add. destruct Hd as (x & y & ->). reflexivity.
  - cbn [flat_map]. rewrite map_app, foldM_app'. unfold entry_lines at 1. rewrite entry_first with (v := fst q) (tv := snd q); [|now apply header_utf8 | exact F | exact W | exact T]. cbn [bind].
    assert (Q : fst q <> []) by (intro Q; apply N0; now apply (stands_value _ _ W)).
    destruct (entries_steps ps qs H (fst q) (snd q) (add None [] (header_value ver pt now) false []) Q) as (st & st' & E & S & Ad & M). rewrite E. cbn [bind]. rewrite S, Ad. cbn [bind]. rewrite M.
    destruct q. reflexivity.
Qed.
End File.
