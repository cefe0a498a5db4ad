(** Proofs about converters: consent and outcome. *)
From Coq Require Import List NArith Bool Lia Arith.
From Verif Require Import PyStr PyDict NovelModel YwTree YwText FileOps FileOpsProofs FileWrite SpecFile FileWriteProofs OdfWriteProofs Converter SpecConv ConverterProofs.
Import ListNotations.

Lemma runs_crashes : forall {A} (x : prog A) w r w', runs x w r w' -> crashes x w w'.
Proof.
  intros A x w r w' R. induction R.
  - apply c_now.
  - apply c_isfile; assumption.
  - apply (c_read _ _ _ c); assumption.
  - apply c_read_fails; assumption.
  - apply (c_replace _ _ _ _ c); assumption.
  - apply c_replace_fails; assumption.
  - apply c_open; assumption.
  - apply c_open_fails; assumption.
  - apply c_put; assumption.
  - apply (c_put_fails _ _ d1 d2); assumption.
  - apply (c_rmtree _ _ _ w1); assumption.
  - apply c_other; assumption.
  - apply c_other_fails; assumption.
  - apply (c_ask _ b); assumption.
  - apply c_tell; assumption.
  - apply c_what; assumption.
  - apply c_warn; assumption.
Qed.

Definition quietly (w w' : fsys) : Prop := exists es, happened w w' es /\ filter ui_event es = [].
Lemma happened_nil : forall w, happened w w [].
Proof. intro w. unfold happened. rewrite app_nil_r. reflexivity. Qed.
Lemma happened_trans : forall w w1 w2 a b, happened w w1 a -> happened w1 w2 b -> happened w w2 (a ++ b).
Proof. unfold happened. intros w w1 w2 a b H1 H2. rewrite H2, H1, app_assoc. reflexivity. Qed.
Lemma happened_log : forall w w1 e es, happened w w1 es -> happened w (log e w1) (es ++ [e]).
Proof. unfold happened. intros w w1 e es H. cbn [log events]. rewrite H, app_assoc. reflexivity. Qed.
Lemma quietly_trans : forall w w1 w2, quietly w w1 -> quietly w1 w2 -> quietly w w2.
Proof.
  intros w w1 w2 (a & A & FA) (b & B & FB). exists (a ++ b). split; [exact (happened_trans _ _ _ _ _ A B)|]. rewrite filter_app, FA, FB. reflexivity.
Qed.
Lemma quiet_status : forall es, filter ui_event es = [] -> status_messages es = [] /\ questions es = [].
Proof.
  induction es as [|e es IH]; intro H; [split; reflexivity|]. cbn [filter] in H. destruct e; cbn [ui_event] in H; try discriminate; cbn [status_messages questions flat_map app]; exact (IH H).
Qed.
Lemma status_app : forall a b, status_messages (a ++ b) = status_messages a ++ status_messages b.
Proof. intros a b. unfold status_messages. rewrite flat_map_app. reflexivity. Qed.
Lemma questions_app : forall a b, questions (a ++ b) = questions a ++ questions b.
Proof. intros a b. unfold questions. rewrite flat_map_app. reflexivity. Qed.

Lemma reader_wp : forall c p n w, good_reader c -> wp (fun w' => files w' = files w) (fc_read c p n) (fun _ w' => files w' = files w /\ quietly w w') w.
Proof.
  intros c p n w H. destruct (H p n) as [S F]. apply wp_complete; [exact (F w)|]. intros r w' R. split; [exact (F _ _ (runs_crashes _ _ _ _ R)) | exact (S _ _ _ R)].
Qed.

Section Conv.
Context (cv : converter) (tmp : str).

Definition frame (tp : str) (w w' : fsys) : Prop :=
  only_at_or_below tmp [tp; bak tp] w w' /\ (below tmp tp = false -> files w tp = None -> files w' (bak tp) = files w (bak tp)).
Lemma frame_files : forall tp w w1 w', files w1 = files w -> frame tp w1 w' -> frame tp w w'.
Proof. intros tp w w1 w' E [H1 H2]. unfold frame, only_at_or_below in *. rewrite E in *. split; assumption. Qed.
Lemma frame_same : forall tp w w', files w' = files w -> frame tp w w'.
Proof. intros tp w w' E. unfold frame, only_at_or_below. rewrite E. split; auto. Qed.

(** what is done after the check: it may write the target *)
Definition body_ok {A} (tp : str) (x : prog A) : Prop := forall w,
  wp (frame tp w) x (fun r w' => frame tp w w' /\ quietly w w' /\ (forall a, r = Ok a -> below tmp tp = false -> files w' tp <> None)) w.
Lemma body_write : forall c p n m, good_writer tmp c -> body_ok p (fc_write c p n m).
Proof.
  intros c p n m H w. destruct (H p n m) as (S & F & X). apply wp_complete; [exact (F w)|].
  intros r w' R. split; [exact (F _ _ (runs_crashes _ _ _ _ R))|]. split; [exact (S _ _ _ R)|]. intros [] ->. exact (X _ _ R).
Qed.
Lemma body_read : forall {B} c p n tp (f : novel * bool * memo -> prog B), good_reader c -> (forall a, body_ok tp (f a)) -> body_ok tp (run r <- fc_read c p n; f r).
Proof.
  intros B c p n tp f H Hf w. apply wp_bind. apply (wp_use _ _ _ _ _ _ (reader_wp c p n w H)); [apply frame_same|].
  intros [a|e] w1 [E Q1].
  - apply (wp_use _ _ _ _ _ _ (Hf a w1)); [intros w' F; exact (frame_files _ _ _ _ E F)|].
    intros r w' (F & Q & X). split; [exact (frame_files _ _ _ _ E F)|]. split; [exact (quietly_trans _ _ _ Q1 Q) | exact X].
  - intros _. split; [exact (frame_same _ _ _ E)|]. split; [exact Q1 | discriminate].
Qed.
Lemma body_map : forall {A B} tp (x : prog A) (g : A -> B), body_ok tp x -> body_ok tp (run a <- x; Ret (Ok (g a))).
Proof.
  intros A B tp x g H w. apply wp_bind. apply (wp_mono _ _ _ _ _) with (2 := H w). intros [a|e] w' (F & Q & X).
  - cbn [wp]. split; [exact F|]. split; [exact F|]. split; [exact Q|]. intros b _. exact (X a eq_refl).
  - intros _. split; [exact F|]. split; [exact Q | discriminate].
Qed.

Lemma check_wp : forall so ta w,
  wp (fun w' => files w' = files w) (check cv so ta) (fun r w' => files w' = files w /\ exists es, happened w w' es /\ status_messages es = [] /\
    match r with
    | Ok _ => exists tp, fo_path ta = Some tp /\ (files w tp <> None -> In (overwrite_question cv tp, true) (questions es)) /\ (forall q, ~ In (q, false) (questions es)) /\ (files w tp = None -> questions es = [])
    | Err e => exists m, e = UserError m /\ ((exists q, In (q, false) (questions es)) -> e = canceled)
    end) w.
Proof.
  intros so ta w. unfold check. destruct (fo_path so) as [sp|].
  2:{ cbn [wp]. split; [reflexivity|]. split; [reflexivity|]. exists []. split; [apply happened_nil|]. split; [reflexivity|]. eexists. split; [reflexivity | intros (q & [])]. }
  cbn [wp]. split; [reflexivity|]. destruct (present w sp); cbn [negb].
  2:{ cbn [wp]. split; [reflexivity|]. split; [reflexivity|]. exists []. split; [apply happened_nil|]. split; [reflexivity|]. eexists. split; [reflexivity | intros (q & [])]. }
  destruct (fo_path ta) as [tp|].
  2:{ cbn [wp]. split; [reflexivity|]. split; [reflexivity|]. exists []. split; [apply happened_nil|]. split; [reflexivity|]. eexists. split; [reflexivity | intros (q & [])]. }
  cbn [wp]. split; [reflexivity|]. unfold present. destruct (files w tp) as [c|] eqn:E.
  - cbn [wp]. split; [reflexivity|]. intros [|]; cbn [wp]; (split; [reflexivity|]); (split; [reflexivity|]).
    + exists [Asked (overwrite_question cv tp) true]. split; [reflexivity|]. split; [reflexivity|]. exists tp. split; [reflexivity|]. split; [intros _; left; reflexivity|].
      split; [intros q [X | []]; discriminate | congruence].
    + exists [Asked (overwrite_question cv tp) false]. split; [reflexivity|]. split; [reflexivity|]. eexists. split; [reflexivity | reflexivity].
  - cbn [wp]. split; [reflexivity|]. split; [reflexivity|]. exists []. split; [apply happened_nil|]. split; [reflexivity|]. exists tp. split; [reflexivity|]. split; [intro H; contradiction (H E)|].
    split; [intros q [] | reflexivity].
Qed.

(** the invariant of a conversion started in w *)
Definition consent (w w' : fsys) : Prop := exists es, happened w w' es /\
  forall q, below tmp q = false -> files w' q <> files w q ->
    exists t, (q = t \/ (q = bak t /\ files w t <> None)) /\ (files w t <> None -> In (overwrite_question cv t, true) (questions es)).
Definition outcome (w : fsys) (r : res (option str)) (w' : fsys) : Prop := exists es, happened w w' es /\
  match r with
  | Ok nf => exists m, status_messages es = [m] /\
      ((exists q, In (q, false) (questions es)) -> nf = None /\ m = s "!Action canceled by user." /\ files w' = files w) /\
      match nf with
      | None => prefixb (s "!") m = true
      | Some t => m = s "File written: " ++ quoted (cv_np cv t) ++ s "." /\ (below tmp t = false -> files w' t <> None) /\ only_at_or_below tmp [t; bak t] w w'
      end
  | Err _ => status_messages es = []
  end.
(** nothing of importance happened yet *)
Definition prelude (w w1 : fsys) : Prop := files w1 = files w /\ exists es, happened w w1 es /\ status_messages es = [] /\ questions es = [].

Lemma consent_same : forall w w' es, files w' = files w -> happened w w' es -> consent w w'.
Proof. intros w w' es E H. exists es. split; [exact H|]. intros q _ X. rewrite E in X. contradiction (X eq_refl). Qed.
Lemma frame_consent : forall tp w w1 w' es1 es2, files w1 = files w -> happened w w1 es1 -> happened w1 w' es2 ->
  (files w tp <> None -> In (overwrite_question cv tp, true) (questions es1)) -> frame tp w1 w' -> consent w w'.
Proof.
  intros tp w w1 w' es1 es2 E H1 H2 Q [F1 F2]. exists (es1 ++ es2). split; [exact (happened_trans _ _ _ _ _ H1 H2)|].
  intros q Hb Hq. rewrite <- E in Hq.
  assert (IN : In q [tp; bak tp]).
  { destruct (in_dec str_eq_dec q [tp; bak tp]) as [X|X]; [exact X|]. contradiction (Hq (F1 q X Hb)). }
  exists tp. split.
  - destruct IN as [X | [X | []]]; [left; congruence|]. right. split; [congruence|]. intro N. rewrite <- E in N. subst q.
    rewrite below_bak in Hb. exact (Hq (F2 Hb N)).
  - intro X. rewrite questions_app. apply in_or_app. left. exact (Q X).
Qed.

Lemma core_wp : forall {A} so ta (body : prog A) (h : res A -> prog (option str)) w w1,
  prelude w w1 -> body_ok (path_of ta) body ->
  (forall e, h (Err e) = Tell (s "!" ++ str_of cv e) (Ret (Ok None))) ->
  (forall a, h (Ok a) = Tell (written cv ta) (Ret (Ok (fo_path ta))) \/ exists x, h (Ok a) = Warn x (Tell (written cv ta) (Ret (Ok (fo_path ta))))) ->
  wp (consent w) (pcatch (run _ <- check cv so ta; body) h) (outcome w) w1.
Proof.
  intros A so ta body h w w1 (E1 & es1 & H1 & M1 & Q1) HB HE HO. apply wp_catch. apply wp_bind.
  assert (C1 : forall w', files w' = files w1 -> (exists es, happened w1 w' es) -> consent w w').
  { intros w' X (es & Y). apply (consent_same _ _ (es1 ++ es)); [congruence | exact (happened_trans _ _ _ _ _ H1 Y)]. }
  assert (K : wp (fun w' => files w' = files w1 /\ exists es, happened w1 w' es) (check cv so ta) (fun r w' => files w' = files w1 /\ exists es, happened w1 w' es /\ status_messages es = [] /\
    match r with
    | Ok _ => exists tp, fo_path ta = Some tp /\ (files w1 tp <> None -> In (overwrite_question cv tp, true) (questions es)) /\ (forall q, ~ In (q, false) (questions es)) /\ (files w1 tp = None -> questions es = [])
    | Err e => exists m, e = UserError m /\ ((exists q, In (q, false) (questions es)) -> e = canceled)
    end) w1).
  { pose proof (check_wp so ta w1) as Cw. apply wp_complete.
    - intros w' C. split; [exact (wp_crashes _ _ _ _ _ Cw C) | exact (crashes_events _ _ _ C)].
    - intros r w' R. exact (wp_runs _ _ _ _ _ _ Cw R). }
  apply (wp_use _ _ _ _ _ _ (wp_inv_post _ _ _ _ K)); [intros w' [X Y]; exact (C1 w' X Y)|]. clear K.
  intros r w2 ((E2 & _) & _ & es2 & H2 & M2 & R2).
  assert (H12 : happened w w2 (es1 ++ es2)) by exact (happened_trans _ _ _ _ _ H1 H2).
  destruct r as [u|e].
  - destruct R2 as (tp & Etp & Qy & Qn & _). assert (Ep : path_of ta = tp) by (unfold path_of; rewrite Etp; reflexivity). rewrite Ep in HB.
    assert (QY : files w tp <> None -> In (overwrite_question cv tp, true) (questions (es1 ++ es2))).
    { intro X. rewrite questions_app. apply in_or_app. right. apply Qy. rewrite E1. exact X. }
    assert (EE : files w2 = files w) by congruence.
    assert (KB : wp (fun w' => frame tp w2 w' /\ exists es, happened w2 w' es) body (fun r w' => frame tp w2 w' /\ quietly w2 w' /\ (forall a, r = Ok a -> below tmp tp = false -> files w' tp <> None)) w2).
    { apply wp_complete.
      - intros w' C. split; [exact (wp_crashes _ _ _ _ _ (HB w2) C) | exact (crashes_events _ _ _ C)].
      - intros r w' R. exact (wp_runs _ _ _ _ _ _ (HB w2) R). }
    apply (wp_use _ _ _ _ _ _ KB).
    { intros w' [F (es3 & H3)]. exact (frame_consent tp w w2 w' _ es3 EE H12 H3 QY F). }
    intros r w3 (F3 & (es3 & H3 & U3) & X3). destruct (quiet_status _ U3) as [M3 Q3].
    assert (H13 : happened w w3 ((es1 ++ es2) ++ es3)) by exact (happened_trans _ _ _ _ _ H12 H3).
    assert (CN : forall e, consent w (log e w3)).
    { intro e. apply (frame_consent tp w w2 (log e w3) _ (es3 ++ [e]) EE H12 (happened_log _ _ _ _ H3) QY). exact F3. }
    assert (C3 : consent w w3) by exact (frame_consent tp w w2 w3 _ es3 EE H12 H3 QY F3).
    assert (MM : status_messages ((es1 ++ es2) ++ es3) = []) by (rewrite !status_app, M1, M2, M3; reflexivity).
    assert (QQ : forall q, ~ In (q, false) (questions ((es1 ++ es2) ++ es3))).
    { intro q. rewrite !questions_app, Q1, Q3, app_nil_r. exact (Qn q). }
    assert (CNN : forall e e', consent w (log e (log e' w3))).
    { intros e e'. apply (frame_consent tp w w2 (log e (log e' w3)) _ ((es3 ++ [e']) ++ [e]) EE H12 (happened_log _ _ _ _ (happened_log _ _ _ _ H3)) QY). exact F3. }
    destruct r as [a|e].
    + assert (FIN : forall w4 es4, happened w w4 es4 -> files w4 = files w3 -> status_messages es4 = [written cv ta] -> (forall q, ~ In (q, false) (questions es4)) -> outcome w (Ok (fo_path ta)) w4).
      { intros w4 es4 H4 E4 M4 Q4. exists es4. split; [exact H4|]. exists (written cv ta). split; [exact M4|]. split; [intros (q & X); contradiction (Q4 q X)|].
        rewrite Etp. split; [unfold written, shown; rewrite Etp; reflexivity|]. split; [intro Hb; rewrite E4; exact (X3 a eq_refl Hb)|].
        intros q Hq Hb. rewrite E4, (proj1 F3 q Hq Hb), EE. reflexivity. }
      destruct (HO a) as [-> | (x & ->)]; cbn [wp].
      * split; [exact C3|]. split; [apply CN|]. apply (FIN _ _ (happened_log _ _ _ _ H13) eq_refl); [rewrite status_app, MM; reflexivity|].
        intros q X. rewrite questions_app in X. apply in_app_or in X. destruct X as [X | []]. exact (QQ q X).
      * split; [exact C3|]. split; [apply CN|]. split; [apply CNN|].
        apply (FIN _ _ (happened_log _ _ _ _ (happened_log _ _ _ _ H13)) eq_refl); [rewrite 2 status_app, MM; reflexivity|].
        intros q X. rewrite 2 questions_app in X. apply in_app_or in X. destruct X as [X | []]. apply in_app_or in X. destruct X as [X | []]. exact (QQ q X).
    + rewrite HE. cbn [wp]. split; [exact C3|]. split; [apply CN|]. exists (((es1 ++ es2) ++ es3) ++ [Status (s "!" ++ str_of cv e)]).
      split; [exact (happened_log _ _ _ _ H13)|]. exists (s "!" ++ str_of cv e). split; [rewrite status_app, MM; reflexivity|]. split; [|reflexivity].
      intros (q & X). rewrite questions_app in X. apply in_app_or in X. destruct X as [X | []]. contradiction (QQ q X).
  - intros _. rewrite HE. cbn [wp]. destruct R2 as (m & -> & Hc).
    assert (C2 : consent w w2) by (apply C1; [exact E2 | exists es2; exact H2]). split; [exact C2|].
    split; [apply C1; [exact E2 | eexists; exact (happened_log _ _ _ _ H2)]|].
    exists ((es1 ++ es2) ++ [Status (s "!" ++ m)]). split; [exact (happened_log _ _ _ _ H12)|]. exists (s "!" ++ m). split; [rewrite !status_app, M1, M2; reflexivity|].
    split; [|reflexivity]. intros (q & X). rewrite !questions_app, Q1 in X. apply in_app_or in X. destruct X as [X | []].
    split; [reflexivity|]. split; [|rewrite files_log; congruence]. assert (Y : UserError m = canceled) by (apply Hc; exists q; exact X). injection Y as ->. reflexivity.
Qed.

Lemma prelude_what : forall w m, prelude w (log (Announced m) w).
Proof. intros w m. split; [reflexivity|]. exists [Announced m]. split; [reflexivity|]. split; reflexivity. Qed.
Lemma prelude_refl : forall w, prelude w w.
Proof. intro w. split; [reflexivity|]. exists []. split; [apply happened_nil|]. split; reflexivity. Qed.
Lemma prelude_consent : forall w w1, prelude w w1 -> consent w w1.
Proof. intros w w1 (E & es & H & _). exact (consent_same _ _ _ E H). Qed.
Lemma prelude_log : forall w w1 e, prelude w w1 -> status_messages [e] = [] -> questions [e] = [] -> prelude w (log e w1).
Proof.
  intros w w1 e (E & es & H & M & Q) Hm Hq. split; [exact E|]. exists (es ++ [e]). split; [exact (happened_log _ _ _ _ H)|]. split; [rewrite status_app, M, Hm | rewrite questions_app, Q, Hq]; reflexivity.
Qed.
Lemma prelude_tell : forall w w1 m, prelude w w1 -> consent w (log (Status (s "!" ++ m)) w1) /\ outcome w (Ok None) (log (Status (s "!" ++ m)) w1).
Proof.
  intros w w1 m (E & es & H & M & Q). split; [exact (consent_same w (log (Status (s "!" ++ m)) w1) _ E (happened_log _ _ _ _ H))|].
  eexists. split; [exact (happened_log _ _ _ _ H)|]. exists (s "!" ++ m). split; [rewrite status_app, M; reflexivity|]. split; [|reflexivity].
  intros (q & X). rewrite questions_app, Q in X. destruct X.
Qed.

Lemma export_wp : forall so ta w w1, prelude w w1 -> good_reader (fo_class so) -> good_writer tmp (fo_class ta) -> wp (consent w) (export_from_yw cv so ta) (outcome w) w1.
Proof.
  intros so ta w w1 P H1 H2. unfold export_from_yw. cbn [wp]. split; [exact (prelude_consent _ _ P)|].
  apply core_wp; [apply prelude_log; [exact P | reflexivity | reflexivity] | apply body_read; [exact H1 | intro a; apply body_write, H2] | reflexivity | intros a; left; reflexivity].
Qed.
Lemma import_wp : forall so ta w w1, prelude w w1 -> good_reader (fo_class so) -> good_reader (fo_class ta) -> good_writer tmp (fo_class ta) -> wp (consent w) (import_to_yw cv so ta) (outcome w) w1.
Proof.
  intros so ta w w1 P H1 H2 H3. unfold import_to_yw. cbn [wp]. split; [exact (prelude_consent _ _ P)|].
  apply core_wp; [apply prelude_log; [exact P | reflexivity | reflexivity] | | reflexivity | intros [|]; [right; eexists; reflexivity | left; reflexivity]].
  apply body_read; [exact H2|]. intro a. apply body_read; [exact H1|]. intro b. apply (body_map _ _ (fun _ => snd (fst b))). apply body_write, H3.
Qed.
(** creating: nothing that existed is changed *)
Lemma create_wp : forall so ta w w1, prelude w w1 -> fo_path ta <> None -> good_reader (fo_class so) -> good_writer tmp (fo_class ta) ->
  wp (consent w) (create_yw7 cv None so ta) (outcome w) w1.
Proof.
  intros so ta w w1 P HN H1 H2. unfold create_yw7. destruct (fo_path ta) as [tp|] eqn:Et; [|contradiction (HN eq_refl)].
  cbn [wp]. split; [exact (prelude_consent _ _ P)|]. set (w2 := log _ w1). assert (P2 : prelude w w2) by (apply prelude_log; [exact P | reflexivity | reflexivity]).
  split; [exact (prelude_consent _ _ P2)|]. destruct (present w2 tp) eqn:Ep.
  - cbn [wp]. split; [exact (prelude_consent _ _ P2)|]. exact (prelude_tell _ _ _ P2).
  - apply core_wp; [exact P2 | apply body_read; [exact H1 | intro a; apply body_write, H2] | reflexivity | rewrite Et; intros a; left; reflexivity].
Qed.
(** a stronger invariant for creating *)
Lemma create_nothing_wp : forall nf so ta w, good_reader (fo_class so) -> good_writer tmp (fo_class ta) ->
  wp (fun w' => forall q, below tmp q = false -> files w q <> None -> files w' q = files w q) (create_yw7 cv nf so ta) (fun _ _ => True) w.
Proof.
  intros nf so ta w H1 H2. unfold create_yw7. cbn [wp]. split; [auto|]. destruct (fo_path ta) as [tp|] eqn:Et; [|cbn [wp]; auto].
  set (w2 := log _ w). assert (E2 : files w2 = files w) by reflexivity. cbn [wp]. split; [auto|]. unfold present. rewrite E2. destruct (files w tp) as [c|] eqn:Ep; [cbn [wp]; auto|].
  apply wp_catch. apply wp_bind. apply (wp_use _ _ _ _ _ _ (check_wp so ta w2)); [intros w' E q _ _; rewrite E; reflexivity|].
  intros [u|e] w3 (E3 & _); [|intros _; cbn [wp]; rewrite !files_log, E3; auto].
  assert (BO : body_ok tp (convert so ta)).
  { unfold convert, path_of. rewrite Et. apply body_read; [exact H1 | intro a; apply body_write, H2]. }
  assert (FR : forall w', frame tp w3 w' -> forall q, below tmp q = false -> files w q <> None -> files w' q = files w q).
  { intros w' [F1 F2] q Hb Hq. rewrite E3, E2 in F2. destruct (str_eq_dec q tp) as [-> | N1]; [congruence|]. destruct (str_eq_dec q (bak tp)) as [-> | N2].
    - rewrite F2; [reflexivity | rewrite <- below_bak; exact Hb | exact Ep].
    - rewrite F1; [rewrite E3; reflexivity | intros [X | [X | []]]; congruence | exact Hb]. }
  apply (wp_use _ _ _ _ _ _ (BO w3)); [exact FR|]. intros r w4 (F4 & _). pose proof (FR _ F4) as G. destruct r as [a|e]; [|]; cbn [wp]; rewrite ?files_log; auto.
Qed.
End Conv.

(** ** run() *)
Lemma first_In : forall {A} (f : A -> bool) l x, first f l = Some x -> In x l /\ f x = true.
Proof. intros A f l x. induction l as [|y l IH]; cbn [first]; intro H; [discriminate|]. destruct (f y) eqn:E; [injection H as ->; split; [left; reflexivity | exact E]|]. destruct (IH H). split; [right; assumption | assumption]. Qed.
Lemma Forall_first : forall {A} (P : A -> Prop) f l x, Forall P l -> first f l = Some x -> P x.
Proof. intros A P f l x H E. rewrite Forall_forall in H. apply H. exact (proj1 (first_In _ _ _ E)). Qed.

Lemma replace_backslash : forall t, replace (s "\") (s "/") t = map (fun c => if N.eqb c 92 then 47%N else c) t.
Proof.
  intro t. change (s "\") with [92%N]. induction t as [|c t IH]; [reflexivity|]. cbn [map].
  destruct (N.eqb c 92) eqn:E.
  - apply N.eqb_eq in E. subst c. change (replace [92%N] (s "/") ([92%N] ++ t) = 47%N :: map (fun c => if N.eqb c 92 then 47%N else c) t). rewrite replace_hit by discriminate. rewrite IH. reflexivity.
  - rewrite replace_miss; [rewrite IH; reflexivity|]. cbn [prefixb]. rewrite N.eqb_sym, E. reflexivity.
Qed.
Lemma suffixb_app : forall a b, suffixb b (a ++ b) = true.
Proof. intros a b. apply suffixb_spec. exists a. reflexivity. Qed.

Lemma yw7_path_accepted : forall base, set_path [] (s ".yw7") (base ++ s ".yw7") <> None.
Proof.
  intros base. unfold set_path. change ([] ++ s ".yw7") with (s ".yw7"). rewrite replace_backslash, map_app. unfold lower. rewrite map_app.
  change (map _ (map _ (s ".yw7"))) with (map lower_char (s ".yw7")). rewrite suffixb_app. discriminate.
Qed.

Lemma first_existing_wp : forall basis l e w, 
  wp (fun w' => w' = w) (first_existing basis l e) (fun r w' => w' = w /\ (r = Err e \/ exists c, In c l /\ r = Ok (Converter.make c (basis ++ fc_ext c)) /\ files w (basis ++ fc_ext c) <> None)) w.
Proof.
  intros basis l e w. induction l as [|c l IH]; cbn [first_existing wp].
  - split; [reflexivity|]. split; [reflexivity | left; reflexivity].
  - split; [reflexivity|]. unfold present. destruct (files w (basis ++ fc_ext c)) eqn:E.
    + cbn [wp]. split; [reflexivity|]. split; [reflexivity|]. right. exists c. split; [left; reflexivity|]. split; [reflexivity | congruence].
    + apply (wp_mono _ _ _ _ _) with (2 := IH). intros r w' [X [Y | (c' & Y1 & Y2)]]; (split; [exact X|]); [left; exact Y | right; exists c'; split; [right; exact Y1 | exact Y2]].
Qed.

Lemma create_noerr : forall cv nf so ta w, fo_path ta <> None -> wp (fun _ => True) (create_yw7 cv nf so ta) (fun r _ => forall e, r <> Err e) w.
Proof.
  intros cv nf so ta w HN. unfold create_yw7. cbn [wp]. split; [exact I|]. destruct (fo_path ta) as [tp|]; [|contradiction (HN eq_refl)].
  cbn [wp]. split; [exact I|]. destruct (present _ tp).
  - cbn [wp]. repeat (split; [exact I|]). discriminate.
  - apply wp_catch. apply wp_complete; [auto|]. intros [a|e] w' _; cbn [wp]; repeat (split; [exact I|]); discriminate.
Qed.
(** no exception gets out of run(), if there is a factory for new projects and the suffix is given *)
Definition run_post (cv : converter) (tmp : str) (suffix : option (option str)) (w : fsys) (r : res (option str)) (w' : fsys) : Prop :=
  outcome cv tmp w r w' /\ (forall e, r = Err e -> cv_new_project cv = None \/ suffix = None).

Lemma run_wp : forall cv tmp path suffix w, good_converter tmp cv -> wp (consent cv tmp w) (run_converter cv path suffix) (run_post cv tmp suffix w) w.
Proof.
  intros cv tmp path suffix w G. unfold run_converter. cbn [wp]. pose proof (prelude_refl w) as P0. split; [exact (prelude_consent _ _ _ _ P0)|].
  assert (OUT : forall x w1, wp (consent cv tmp w) x (outcome cv tmp w) w1 -> (forall r w', runs x w1 r w' -> forall e, r <> Err e) -> wp (consent cv tmp w) x (run_post cv tmp suffix w) w1).
  { intros x w1 W NE. apply wp_complete; [intros w' C; exact (wp_crashes _ _ _ _ _ W C)|]. intros r w' R. split; [exact (wp_runs _ _ _ _ _ _ W R)|]. intros e ->. contradiction (NE _ _ R e eq_refl). }
  assert (OK : forall A (x : prog A) Q w1 r w', wp (fun _ => True) x Q w1 -> runs x w1 r w' -> Q r w') by (intros A x Q w1 r w' W R; exact (wp_runs _ _ _ _ _ _ W R)).
  assert (TL : forall m w1, prelude w w1 -> wp (consent cv tmp w) (Tell (s "!" ++ m) (Ret (Ok None))) (run_post cv tmp suffix w) w1).
  { intros m w1 P. cbn [wp]. split; [exact (prelude_consent _ _ _ _ P)|]. destruct (prelude_tell cv tmp _ _ m P) as [X Y]. split; [exact X|]. split; [exact Y | discriminate]. }
  assert (TRUE : forall A (x : prog A) w1, (forall r w', runs x w1 r w' -> forall e, r <> Err e) -> wp (fun _ => True) x (fun r _ => forall e, r <> Err e) w1).
  { intros A x w1 H. apply wp_complete; auto. }
  assert (ALL : forall A (x : prog A) w1, wp (fun _ => True) x (fun _ _ => True) w1) by (intros A x w1; apply wp_complete; auto).
  assert (CORE : forall A (y : prog A) (h : res A -> prog (option str)) w1, (forall r w2, wp (fun _ => True) (h r) (fun r _ => forall e, r <> Err e) w2) -> forall r w', runs (pcatch y h) w1 r w' -> forall e, r <> Err e).
  { intros A y h w1 Hh r w' R. refine (wp_runs (fun _ => True) _ (fun r _ => forall e, r <> Err e) _ _ _ _ R). apply wp_catch. apply (wp_mono _ _ _ _ _) with (2 := ALL _ y w1). intros r1 w2 _. apply Hh. }
  destruct (present w path); cbn [negb].
  2:{ exact (TL _ _ P0). }
  destruct (export_source cv path) as [so|e1] eqn:E1.
  - (* export *)
    assert (GS : good_reader (fo_class so)).
    { unfold export_source in E1. destruct (first _ (cv_export_source cv)) as [c|] eqn:F; [|discriminate]. injection E1 as <-. exact (Forall_first _ _ _ _ (gc_export_source _ _ G) F). }
    unfold or_tell. cbn [pcatch]. destruct (export_target cv path suffix) as [ta|e2] eqn:E2.
    + assert (GT : good_writer tmp (fo_class ta)).
      { unfold export_target in E2. destruct suffix as [sfx|]; [|discriminate]. destruct (first _ (cv_export_target cv)) as [c|] eqn:F; [|discriminate]. injection E2 as <-. exact (Forall_first _ _ _ _ (gc_export_target _ _ G) F). }
      apply OUT; [apply export_wp; assumption|]. intros r w' R. inversion R; subst. refine (CORE _ _ _ _ _ _ _ ltac:(eassumption)).
      intros [a|e] w2; cbn [wp]; repeat (split; [exact I|]); discriminate.
    + destruct e2; try (exact (TL _ _ P0)); cbn [wp]; (split; [exact (prelude_consent _ _ _ _ P0)|]); unfold export_target in E2;
        (destruct suffix as [sfx|]; [destruct (first _ (cv_export_target cv)); discriminate|]); try discriminate.
      split; [exists []; split; [apply happened_nil | reflexivity] | intros e _; right; reflexivity].
  - destruct (import_source cv path) as [so|e2] eqn:E2.
    + (* update *)
      assert (GS : good_reader (fo_class so)).
      { unfold import_source in E2. destruct (first _ (cv_import_source cv)) as [c|] eqn:F; [|discriminate]. injection E2 as <-. exact (Forall_first _ _ _ _ (gc_import_source _ _ G) F). }
      unfold or_tell, import_target. apply wp_catch. apply (wp_use _ _ _ _ _ _ (first_existing_wp _ _ _ w)); [intros w' ->; exact (prelude_consent _ _ _ _ P0)|].
      intros r w' [-> [-> | (c & Hc & -> & _)]]; [exact (TL _ _ P0)|].
      pose proof (gc_import_target_r _ _ G) as G1. pose proof (gc_import_target _ _ G) as G2. rewrite Forall_forall in G1, G2.
      apply OUT; [apply import_wp; [exact P0 | exact GS | exact (G1 c Hc) | exact (G2 c Hc)]|]. intros r w' R. inversion R; subst. refine (CORE _ _ _ _ _ _ _ ltac:(eassumption)).
      intros [[|]|e] w2; cbn [wp]; repeat (split; [exact I|]); discriminate.
    + destruct (cv_new_project cv) as [classes|] eqn:EN.
      2:{ cbn [wp]. split; [exact (prelude_consent _ _ _ _ P0)|]. split; [exists []; split; [apply happened_nil | reflexivity] | intros e _; left; exact EN]. }
      (* create *)
      assert (CR : forall so w1, prelude w w1 -> good_reader (fo_class so) ->
        wp (consent cv tmp w) (create_yw7 cv None so (Converter.make (cv_yw7 cv) (fst (splitext path) ++ fc_ext (cv_yw7 cv)))) (run_post cv tmp suffix w) w1).
      { intros so w1 P GS. destruct (gc_yw7_path _ _ G) as [X1 X2].
        assert (HN : fo_path (Converter.make (cv_yw7 cv) (fst (splitext path) ++ fc_ext (cv_yw7 cv))) <> None).
        { cbn [Converter.make fo_path]. unfold suffix_of. rewrite X1, X2. apply yw7_path_accepted. }
        apply OUT; [apply create_wp; [exact P | exact HN | exact GS | exact (gc_yw7 _ _ G)]|].
        intros r w' R. exact (wp_runs _ _ _ _ _ _ (create_noerr cv None so _ w1 HN) R). }
      unfold or_tell, make_new_project. destruct (can_import path); cbn [negb pcatch]; [|exact (TL _ _ P0)].
      destruct (suffixb (s ".odt") path).
      * cbn [pcatch wp]. split; [exact (prelude_consent _ _ _ _ P0)|].
        assert (AFTER : forall w1 (o : option str), prelude w w1 ->
          wp (consent cv tmp w) (pcatch (match o with Some content => Ret (Ok (Converter.make (if containsb (s "Heading_20_3") content then cv_outline cv else cv_import cv) path, Converter.make (cv_yw7 cv) (fst (splitext path) ++ fc_ext (cv_yw7 cv))))
             | None => Ret (Err (UserError (s "Cannot read file: " ++ quoted (cv_np cv path) ++ s "."))) end)
             (fun r => match r with Ok a => create_yw7 cv None (fst a) (snd a) | Err (UserError m) => Tell (s "!" ++ m) (Ret (Ok None)) | Err e => Ret (Err e) end)) (run_post cv tmp suffix w) w1).
        { intros w1 [content|] P; cbn [pcatch fst snd]; [|exact (TL _ _ P)]. apply CR; [exact P|]. cbn [Converter.make fo_class].
          destruct (containsb (s "Heading_20_3") content); [exact (gc_outline _ _ G) | exact (gc_import _ _ G)]. }
        split; [intros c _; exact (AFTER w _ P0) | exact (AFTER _ None (prelude_log _ _ (NotRead path) P0 eq_refl eq_refl))].
      * destruct (first _ classes) as [c|] eqn:F; cbn [pcatch fst snd]; [|exact (TL _ _ P0)].
        apply CR; [exact P0|]. exact (Forall_first _ _ _ _ (gc_new _ _ G _ EN) F).
Qed.
