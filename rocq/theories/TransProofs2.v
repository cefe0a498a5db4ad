From Coq Require Import String List NArith Bool Lia Arith Sorting.Permutation Sorting.Sorted.
From Verif Require Import PyStr PyDict Globals GlobalsProofs YwText YwTextProofs Template Inliner Translations SpecTrans TransProofs OdtTextProofs2.
Import ListNotations.

Lemma members_nodup : forall fuel t d d' rest, members fuel t d = Some (d', rest) -> NoDup (dkeys d) -> NoDup (dkeys d').
Proof.
  induction fuel as [|fuel IH]; intros t d d' rest H Nd; [discriminate|]. cbn [members] in H.
  destruct t as [|q t]; [discriminate|]. destruct (negb (N.eqb q 34)); [discriminate|]. destruct (scanstring t) as [[k t1]|]; [|discriminate].
  destruct (skip_space t1) as [|c t2]; [discriminate|]. destruct (negb (N.eqb c 58)); [discriminate|]. destruct (skip_space t2) as [|q2 t3]; [discriminate|]. destruct (negb (N.eqb q2 34)); [discriminate|].
  destruct (scanstring t3) as [[v t4]|]; [|discriminate]. destruct (skip_space t4) as [|e t5]; [discriminate|]. destruct (N.eqb e 125); [injection H as <- _; now apply NoDup_dset|].
  destruct (N.eqb e 44); [|discriminate]. apply IH in H; [exact H|]. now apply NoDup_dset.
Qed.
Lemma json_load_nodup : forall t d, json_load t = Some d -> NoDup (dkeys d).
Proof.
  intros t d H. unfold json_load in H. destruct (skip_space t) as [|b t1]; [discriminate|]. destruct (negb (N.eqb b 123)); [discriminate|]. destruct (skip_space t1) as [|c t2]; [discriminate|].
  destruct (N.eqb c 125); [destruct (skip_space t2); [injection H as <-; constructor | discriminate]|].
  destruct (members (length t1) (c :: t2) []) as [[d1 rest]|] eqn:E; [|discriminate]. destruct (skip_space rest); [|discriminate]. injection H as <-. apply members_nodup in E; [exact E | constructor].
Qed.
Lemma read_json_says : forall json now, let tr := read_json json (new_translations now) in
  NoDup (dkeys (tr_msgDict tr)) /\ tr_msgList tr = [] /\ forall m, dget m (tr_msgDict tr) = json_says json m.
Proof.
  intros [t|] now; cbn [read_json json_says]; [|repeat split; constructor]. destruct (json_load (unl t)) as [d|] eqn:E; [|repeat split; constructor]. cbn [tr_msgDict tr_msgList new_translations].
  apply json_load_nodup in E. split; [apply fold_nodup; constructor|]. split; [reflexivity|]. intro m. rewrite dget_fold by exact E. destruct (dget m d); reflexivity.
Qed.
(** reading a PO file overrides *)
Lemma po_fold_over : forall ls h m d, let a := fold_left po_line ls (h, m, d) in let b := fold_left po_line ls (h, m, []) in
  fst a = fst b /\ forall k, dget k (snd a) = before_or (dget k (snd b)) (dget k d).
Proof.
  induction ls as [|l ls IH] using rev_ind; intros h m d; [split; reflexivity|]. cbv zeta in *. rewrite !fold_left_app. cbn [fold_left]. destruct (IH h m d) as [E F].
  destruct (fold_left po_line ls (h, m, d)) as [[h1 m1] d1], (fold_left po_line ls (h, m, [])) as [[h2 m2] d2]. cbn [fst snd] in *. injection E as -> ->. unfold po_line.
  destruct (if prefixb (MSGID ++ [34%N]) l then h2 else if h2 then negb (prefixb MSGID l) else h2); [split; [reflexivity | exact F]|].
  destruct (prefixb MSGID l); [split; [reflexivity | exact F]|]. destruct (prefixb MSGSTR l); [|split; [reflexivity | exact F]].
  destruct (truthy (extract_text MSGSTR l)); [|split; [reflexivity | exact F]]. split; [reflexivity|]. intro k. cbn [snd]. rewrite !dget_dset. destruct (str_eqb k m2); [reflexivity | apply F].
Qed.
Lemma po_fold_nodup : forall ls st, NoDup (dkeys (snd st)) -> NoDup (dkeys (snd (fold_left po_line ls st))).
Proof.
  induction ls as [|l ls IH]; intros st H; [exact H|]. cbn [fold_left]. apply IH. destruct st as [[h m] d]. unfold po_line. cbn [snd] in H.
  destruct (if prefixb (MSGID ++ [34%N]) l then h else if h then negb (prefixb MSGID l) else h); [exact H|]. destruct (prefixb MSGID l); [exact H|]. destruct (prefixb MSGSTR l); [|exact H].
  destruct (truthy (extract_text MSGSTR l)); [|exact H]. now apply NoDup_dset.
Qed.
Lemma read_po_says : forall a v now po tr, NoDup (dkeys (tr_msgDict tr)) -> let tr' := read_po a v now po tr in
  NoDup (dkeys (tr_msgDict tr')) /\ tr_msgList tr' = tr_msgList tr /\ forall m, dget m (tr_msgDict tr') = before_or (po_file_says po m) (dget m (tr_msgDict tr)).
Proof.
  intros a v now [t|] tr Nd; cbn [read_po tr_msgDict tr_msgList]; [|repeat split; assumption]. split; [now apply po_fold_nodup|]. split; [reflexivity|]. intro m.
  apply (po_fold_over (file_lines t) true [] (tr_msgDict tr)).
Qed.
(** translations read from a PO file are lines *)
Lemma readlines_in : forall t l, In l (readlines t) -> (exists r, l = r ++ [10%N] /\ ~ In 10%N r) \/ ~ In 10%N l.
Proof.
  induction t as [|c t IH]; intros l H; [destruct H|]. cbn [readlines] in H. destruct (N.eqb_spec c 10) as [->|C].
  - destruct H as [<-|H]; [left; exists []; split; [reflexivity | intros []] | now apply IH].
  - destruct (readlines t) as [|x ls] eqn:E.
    + destruct H as [<-|[]]. right. intros [H|[]]. congruence.
    + destruct H as [<-|H]; [|apply IH; now right]. destruct (IH x (or_introl eq_refl)) as [(r & -> & N)|N].
      * left. exists (c :: r). split; [reflexivity|]. intros [H|H]; congruence.
      * right. intros [H|H]; congruence.
Qed.
Lemma readlines_chars : forall t l c, In l (readlines t) -> In c l -> In c t.
Proof.
  induction t as [|d t IH]; intros l c H I; [destruct H|]. cbn [readlines] in H. destruct (N.eqb d 10); [destruct H as [<-|H]; [destruct I as [->|[]]; now left | right; eauto]|].
  destruct (readlines t) as [|x ls] eqn:E; [destruct H as [<-|[]]; destruct I as [->|[]]; now left|]. destruct H as [<-|H]; [destruct I as [->|I]; [now left | right; apply (IH x); [now left | exact I]] | right; apply (IH l); [now right | exact I]].
Qed.
Lemma lstrip_incl : forall f t c, In c (lstrip_by f t) -> In c t.
Proof. induction t as [|d t IH]; intros c H; [exact H|]. cbn [lstrip_by] in H. destruct (f d); [right; now apply IH | exact H]. Qed.
Lemma strip_incl : forall t c, In c (strip t) -> In c t.
Proof. intros t c H. unfold strip, strip_by, rstrip_by in H. apply in_rev in H. apply lstrip_incl in H. apply in_rev in H. now apply lstrip_incl in H. Qed.
Lemma strip_line_nl : forall r, ~ In 10%N r -> ~ In 10%N (strip (r ++ [10%N])).
Proof.
  intros r H I. unfold strip, strip_by in I. assert (G : forall q, ~ In 10%N q -> ~ In 10%N (rstrip_by is_space (q ++ [10%N]))).
  { intros q Hq J. unfold rstrip_by in J. rewrite rev_app_distr in J. cbn [rev app lstrip_by] in J. change (is_space 10) with true in J. cbv iota in J. apply in_rev in J. apply lstrip_incl in J. apply in_rev in J. contradiction. }
  assert (L : forall q, ~ In 10%N q -> exists q', lstrip_by is_space (q ++ [10%N]) = [] \/ (lstrip_by is_space (q ++ [10%N]) = q' ++ [10%N] /\ ~ In 10%N q')).
  { induction q as [|c q IH]; intro Hq; [exists []; left; reflexivity|]. cbn [app lstrip_by]. destruct (is_space c); [apply IH; intro; apply Hq; now right | exists (c :: q); right; split; [reflexivity | exact Hq]]. }
  destruct (L r H) as [q [E|[E N]]]; rewrite E in I; [cbn in I; contradiction | now apply G in I].
Qed.
Lemma file_line_one : forall t l, In l (file_lines t) -> one_line l.
Proof.
  intros t l H. unfold file_lines in H. apply in_map_iff in H as [x [<- H]]. split; intro I.
  - destruct (readlines_in _ _ H) as [(r & -> & N)|N]; [now apply strip_line_nl in I | apply strip_incl in I; contradiction].
  - apply strip_incl in I. apply (readlines_chars _ _ _ H) in I. now apply unl_no_cr in I.
Qed.
Lemma firstn_In : forall {A} n (l : list A) x, In x (firstn n l) -> In x l.
Proof. intros A n l x H. rewrite <- (firstn_skipn n l). apply in_or_app. now left. Qed.
Lemma skipn_In : forall {A} n (l : list A) x, In x (skipn n l) -> In x l.
Proof. intros A n l x H. rewrite <- (firstn_skipn n l). apply in_or_app. now right. Qed.
Lemma po_fold_lines : forall ls st, Forall one_line ls -> (forall k t, dget k (snd st) = Some t -> one_line t) -> forall k t, dget k (snd (fold_left po_line ls st)) = Some t -> one_line t.
Proof.
  induction ls as [|l ls IH]; intros st Hl H; [exact H|]. inversion Hl as [|? ? H1 H2]; subst. cbn [fold_left]. apply IH; [exact H2|]. destruct st as [[h m] d]. unfold po_line. cbn [snd] in *.
  destruct (if prefixb (MSGID ++ [34%N]) l then h else if h then negb (prefixb MSGID l) else h); [exact H|]. destruct (prefixb MSGID l); [exact H|]. destruct (prefixb MSGSTR l); [|exact H].
  destruct (truthy (extract_text MSGSTR l)); [|exact H]. cbn [snd]. intros k t E. rewrite dget_dset in E. destruct (str_eqb k m); [|now apply (H k)]. injection E as <-.
  destruct H1 as [A B]. split; intro I; apply firstn_In in I; apply skipn_In in I; contradiction.
Qed.
Lemma po_file_lines : forall po m t, po_file_says po m = Some t -> one_line t.
Proof.
  intros [po|] m t H; [|discriminate]. unfold po_file_says in H. cbn [read_po tr_msgDict] in H. eapply po_fold_lines; [| |exact H].
  - apply Forall_forall. intros l I. now apply file_line_one in I.
  - intros k x E. discriminate.
Qed.

(** * The whole run *)
Lemma created_line : forall dt, one_line dt -> one_line (created dt) /\ other_line (created dt).
Proof. intros dt H. split; [unfold created; one_line_tac|]. exists 34%N, (s "POT-Creation-Date: " ++ dt ++ s "\n"""). repeat split. discriminate. Qed.
Lemma catalogue_ok : forall msgs l, Forall source_message msgs -> catalogue msgs l -> Forall message_ok l.
Proof. intros msgs l H (_ & _ & C). apply Forall_forall. intros q I. apply C in I as (m & I & ->). apply quoted_ok. rewrite Forall_forall in H. now apply H. Qed.
Lemma present_before : forall a b, present (before_or a b) = before_or (present a) (match a with Some _ => None | None => present b end).
Proof. intros [[|c t]|] b; [reflexivity | reflexivity |]. cbn. reflexivity. Qed.
Lemma main_run : forall a v now json pa pv pdt msgs po,
  one_line a -> one_line v -> one_line now -> one_line pa -> one_line pv -> one_line pdt -> Forall source_message msgs ->
  (forall m t, json_says json m = Some t -> one_line t) ->
  exists json' po' complete l, main a v now true json (Some (write_pot pa pv pdt msgs)) po = Ok (Some json', po', complete) /\ catalogue msgs l /\
    (forall m, json_says (Some json') m = known json po m) /\
    (forall m, po_file_says (Some po') m = if smem m l then known json po m else None) /\
    (complete = true <-> forall m, In m l -> known json po m <> None).
Proof.
  intros a v now json pa pv pdt msgs po H1 H2 H3 H4 H5 H6 Hm Hj.
  pose proof (read_json_says json now) as R. cbv zeta in R. set (tr1 := read_json json (new_translations now)) in *. destruct R as (Nd1 & L1 & S1).
  destruct (pot_back pa pv pdt msgs tr1 H4 H5 H6 Hm L1) as (l & E2 & C). set (tr2 := mkTr (tr_msgDict tr1) l (tr_header tr1) (created pdt)) in *.
  pose proof (read_po_says a v now po tr2 Nd1) as R. cbv zeta in R. remember (read_po a v now po tr2) as tr3 eqn:E3. destruct R as (Nd3 & L3 & S3).
  assert (Hd : header_ok (tr_header tr3)).
  { destruct (created_line pdt H6) as [O1 O2]. rewrite E3. destruct po; cbn [read_po tr_header tr_potCreation]; unfold tr2; cbn [tr_potCreation]; now apply po_header_ok. }
  assert (K : forall m, present (dget m (tr_msgDict tr3)) = known json po m) by (intro m; rewrite S3; unfold known; change (tr_msgDict tr2) with (tr_msgDict tr1); now rewrite S1).
  assert (M : Forall message_ok (tr_msgList tr3)) by (rewrite L3; now apply (catalogue_ok msgs)).
  assert (T : forall m, In m (tr_msgList tr3) -> one_line (translation_of tr3 m)).
  { intros m _. unfold translation_of. destruct (dget m (tr_msgDict tr3)) as [t|] eqn:E; [|split; intros []]. rewrite S3 in E. change (tr_msgDict tr2) with (tr_msgDict tr1) in E. rewrite S1 in E.
    destruct (po_file_says po m) eqn:P; cbn [before_or] in E; [injection E as <-; now apply po_file_lines in P | now apply Hj in E]. }
  exists (write_json tr3), (fst (write_po tr3)), (snd (write_po tr3)), l. split; [|split; [exact C|split; [|split]]].
  - unfold main. fold tr1. rewrite E2. cbn [bind]. cbv zeta. rewrite <- E3. destruct (write_po tr3). reflexivity.
  - intro m. pose proof (json_back tr3 (new_translations []) m Nd3) as B. rewrite K in B. cbn [new_translations tr_msgDict dget] in B.
    pose proof (read_json_says (Some (write_json tr3)) []) as R. cbv zeta in R. destruct R as (_ & _ & R). rewrite <- R. rewrite B. destruct (known json po m); reflexivity.
  - intro m. pose proof (po_back [] [] [] tr3 (new_translations []) m Hd M T) as B. unfold po_file_says. rewrite B. unfold po_says. rewrite K, L3. change (tr_msgList tr2) with l. cbn [new_translations tr_msgDict dget]. destruct (smem m l); [destruct (known json po m); reflexivity | reflexivity].
  - unfold write_po. cbn [snd]. rewrite forallb_forall, L3. change (tr_msgList tr2) with l. split; intros H m I; specialize (H m I); rewrite <- K in *; unfold translation_of in *; destruct (dget m (tr_msgDict tr3)) as [[|c t]|]; cbn in *; try congruence; try discriminate; reflexivity.
Qed.
(** * Scanning *)
Lemma lazy_group_spec : forall close t acc m rest, lazy_group close t acc = Some (m, rest) -> ~ In 10%N acc ->
  m <> [] /\ ~ In 10%N m /\ exists k, m = rev acc ++ k /\ t = k ++ close ++ rest.
Proof.
  induction t as [|c t IH]; intros acc m rest H Ha; [discriminate|]. cbn [lazy_group] in H. destruct (truthy acc && prefixb close (c :: t)) eqn:E.
  - injection H as <- <-. apply andb_true_iff in E as [E1 E2]. apply prefixb_spec in E2 as [r E2]. rewrite E2, skipn_len. split; [|split].
    + destruct acc as [|d acc]; [discriminate|]. cbn [rev]. intro H. apply app_eq_nil in H as [_ H]. discriminate.
    + rewrite <- in_rev. exact Ha.
    + exists []. rewrite app_nil_r. split; reflexivity.
  - destruct (N.eqb_spec c 10) as [->|C]; [discriminate|]. apply IH in H; [|intros [H'|H']; congruence]. destruct H as (A & B & k & E1 & E2). split; [exact A|]. split; [exact B|].
    exists (c :: k). split; [rewrite E1; cbn [rev]; rewrite <- app_assoc; reflexivity | rewrite E2; reflexivity].
Qed.
Lemma findall_spec : forall fuel o c t m, In m (findall fuel o c t) -> m <> [] /\ ~ In 10%N m /\ exists x y, t = x ++ o ++ m ++ c ++ y.
Proof.
  induction fuel as [|fuel IH]; intros o c t m H; [destruct H|]. cbn [findall] in H. destruct t as [|d t]; [destruct H|].
  assert (Skip : In m (findall fuel o c t) -> m <> [] /\ ~ In 10%N m /\ exists x y, d :: t = x ++ o ++ m ++ c ++ y).
  { intro I. apply IH in I as (A & B & x & y & E). split; [exact A|]. split; [exact B|]. exists (d :: x), y. now rewrite E. }
  destruct (prefixb o (d :: t)) eqn:P; [|now apply Skip]. apply prefixb_spec in P as [r E]. rewrite E, skipn_len in H. destruct (lazy_group c r []) as [[g rest]|] eqn:G; [|now apply Skip].
  apply lazy_group_spec in G; [|intros []]. destruct G as (A & B & k & E1 & E2). cbn [rev app] in E1. subst k. destruct H as [<-|H].
  - split; [exact A|]. split; [exact B|]. exists [], rest. cbn [app]. rewrite E, E2. reflexivity.
  - apply IH in H as (A' & B' & x & y & E3). split; [exact A'|]. split; [exact B'|]. exists (o ++ g ++ c ++ x), y. rewrite E, E2, E3. rewrite <- !app_assoc. reflexivity.
Qed.
Lemma scan_source : forall files m, In m (scan files) -> source_message m /\
  exists text x y, In text files /\ (unl text = x ++ s "_(""" ++ m ++ s """)" ++ y \/ unl text = x ++ s "_('" ++ m ++ s "')" ++ y).
Proof.
  intros files m H. unfold scan in H. apply in_flat_map in H as [text [I H]]. unfold get_messages in H.
  assert (CR : forall x o c y, unl text = x ++ o ++ m ++ c ++ y -> ~ In 13%N m) by (intros x o c y E J; apply (unl_no_cr text); rewrite E; rewrite !in_app_iff; tauto).
  apply in_app_or in H as [H|H]; apply findall_spec in H as (A & B & x & y & E); (split; [split; [split; [exact B | now apply CR in E] | exact A]|]; exists text, x, y; split; [exact I|]; [left + right; exact E]).
Qed.
Lemma main_nojson : forall a v now json pot po, main a v now false json pot po = match main a v now true None pot po with Ok (_, p, c) => Ok (json, p, c) | Err e => Err e end.
Proof. intros. unfold main. cbn [read_json]. destruct (read_pot pot (new_translations now)) as [tr|e]; [|reflexivity]. cbn [bind]. destruct (write_po (read_po a v now po tr)). reflexivity. Qed.
Lemma main_twice : forall a v now now2 json pa pv pdt msgs po json' po' complete,
  one_line a -> one_line v -> one_line now -> one_line now2 -> one_line pa -> one_line pv -> one_line pdt -> Forall source_message msgs ->
  (forall m t, json_says json m = Some t -> one_line t) ->
  main a v now true json (Some (write_pot pa pv pdt msgs)) po = Ok (Some json', po', complete) ->
  exists json2 po2, main a v now2 true (Some json') (Some (write_pot pa pv pdt msgs)) (Some po') = Ok (Some json2, po2, complete) /\
    (forall m, json_says (Some json2) m = json_says (Some json') m) /\ (forall m, po_file_says (Some po2) m = po_file_says (Some po') m).
Proof.
  intros a v now now2 json pa pv pdt msgs po json' po' complete H1 H2 H3 H3' H4 H5 H6 Hm Hj Run.
  destruct (main_run a v now json pa pv pdt msgs po H1 H2 H3 H4 H5 H6 Hm Hj) as (j1 & p1 & c1 & l & E & C & J & P & Cm). rewrite E in Run. injection Run as -> -> ->.
  assert (Hj' : forall m t, json_says (Some json') m = Some t -> one_line t).
  { intros m t K. rewrite J in K. unfold known in K. destruct (po_file_says po m) as [x|] eqn:Px; cbn [before_or] in K.
    - destruct x; [discriminate|]. injection K as <-. now apply po_file_lines in Px.
    - destruct (json_says json m) as [x|] eqn:Jx; [|discriminate]. destruct x; [discriminate|]. injection K as <-. now apply Hj in Jx. }
  destruct (main_run a v now2 (Some json') pa pv pdt msgs (Some po') H1 H2 H3' H4 H5 H6 Hm Hj') as (j2 & p2 & c2 & l2 & E2 & C2 & J2 & P2 & Cm2).
  assert (K : forall m, known (Some json') (Some po') m = known json po m).
  { intro m. unfold known at 1. rewrite P, J. assert (PP : present (known json po m) = known json po m) by (unfold known; destruct (before_or (po_file_says po m) (json_says json m)) as [[|]|]; reflexivity).
    destruct (smem m l); [|exact PP]. destruct (known json po m) eqn:Kn; exact PP. }
  assert (S : forall m, smem m l2 = smem m l).
  { intro m. destruct C as (_ & _ & C), C2 as (_ & _ & C2). destruct (smem m l) eqn:Sl, (smem m l2) eqn:S2; try reflexivity; exfalso.
    - apply smem_In in Sl. apply C, C2 in Sl. apply smem_In in Sl. congruence.
    - apply smem_In in S2. apply C2, C in S2. apply smem_In in S2. congruence. }
  exists j2, p2. assert (c2 = complete) as ->.
  { destruct complete, c2; try reflexivity; exfalso.
    - assert (false = true); [|discriminate]. apply Cm2. intros m I. rewrite K. apply Cm; [reflexivity|]. apply smem_In in I. rewrite S in I. now apply smem_In in I.
    - assert (false = true); [|discriminate]. apply Cm. intros m I. rewrite <- K. apply Cm2; [reflexivity|]. apply smem_In in I. rewrite <- S in I. now apply smem_In in I. }
  split; [exact E2|]. split; intro m; [rewrite J2, J, K; reflexivity | rewrite P2, P, S, K; reflexivity].
Qed.
