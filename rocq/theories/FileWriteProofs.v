(** Proofs about reading and writing files. *)
From Coq Require Import List NArith ZArith Bool Lia Arith.
From Verif Require Import PyStr PyDict NovelModel YwTree Yw7Build Yw7Read YwText FileOps FileOpsProofs FileWrite SpecFile.
Import ListNotations.

Lemma bak_neq : forall p, bak p <> p.
Proof. intros p H. unfold bak in H. apply (f_equal (@length N)) in H. rewrite app_length in H. cbn in H. lia. Qed.
Lemma bak_eqb : forall p, str_eqb (bak p) p = false.
Proof. intro p. apply str_eqb_neq. apply bak_neq. Qed.
Lemma eqb_bak : forall p, str_eqb p (bak p) = false.
Proof. intro p. apply str_eqb_neq. intro H. symmetry in H. exact (bak_neq p H). Qed.

Lemma wp_or_raise : forall {A} I (x : prog A) e Q w,
  wp I x (fun r w => match r with Ok a => I w /\ Q (Ok a) w | Err _ => I w /\ Q (Err e) w end) w -> wp I (or_raise x e) Q w.
Proof.
  intros A I x e Q w H. unfold or_raise. apply wp_catch. apply (wp_mono I x) with (2 := H).
  intros [a|e'] w' H'; exact H'.
Qed.

(** strengthening by the invariant *)
Lemma wp_inv_post : forall {A} (I : fsys -> Prop) (x : prog A) Q w, wp I x Q w -> wp I x (fun r w => I w /\ Q r w) w.
Proof.
  intros A I x Q. induction x as [r|p k IH|p k IH|a b k IH|p k IH|p d k IH|p k IH|k IH|q k IH|m k IH|m k IH|m k IH]; intros w [HI H]; cbn [wp]; (split; [exact HI|]); auto.
  - destruct H as [H1 H2]. split; auto.
  - destruct H as [H1 H2]. split; auto.
  - destruct H as [H1 H2]. split; auto.
  - destruct H as [H1 H2]. split; auto. intros d1 d2 E. destruct (H2 d1 d2 E). split; auto.
  - destruct H as [H1 H2]. split; auto.
Qed.
(** a consequence of the invariant may be used as invariant *)
Lemma wp_weaken : forall {A} (I J : fsys -> Prop) (x : prog A) Q w, (forall w, I w -> J w) -> wp I x Q w -> wp J x Q w.
Proof.
  intros A I J x Q w HIJ. revert w. induction x as [r|p k IH|p k IH|a b k IH|p k IH|p d k IH|p k IH|k IH|q k IH|m k IH|m k IH|m k IH]; intros w [HI H]; cbn [wp]; (split; [exact (HIJ _ HI)|]); auto.
  - destruct H as [H1 H2]. split; auto.
  - destruct H as [H1 H2]. split; auto.
  - destruct H as [H1 H2]. split; auto.
  - destruct H as [H1 H2]. split; auto. intros d1 d2 E. destruct (H2 d1 d2 E). split; auto.
  - destruct H as [H1 H2]. split; auto.
Qed.

Lemma only_refl : forall l w, only_at l w w.
Proof. intros l w q _. reflexivity. Qed.
Lemma only_log : forall l w w' e, only_at l w w' -> only_at l w (log e w').
Proof. intros l w w' e H q Hq. exact (H q Hq). Qed.
Lemma only_set : forall l w w' p c, In p l -> only_at l w w' -> only_at l w (set_file p c w').
Proof.
  intros l w w' p c Hp H q Hq. rewrite files_other; [exact (H q Hq)|]. intro E. subst q. exact (Hq Hp).
Qed.

Ltac fs := repeat first [rewrite files_log | rewrite files_same | rewrite files_set | rewrite str_eqb_refl | rewrite bak_eqb | rewrite eqb_bak].

Definition save_inv (p : str) (w : fsys) (w' : fsys) : Prop :=
  only_at [p; bak p] w w' /\ (forall c, files w p = Some c -> files w' p = Some c \/ files w' (bak p) = Some c) /\
  (files w p = None -> files w' (bak p) = files w (bak p)).
Definition save_post (p t : str) (w : fsys) (r : res unit) (w' : fsys) : Prop :=
  exists es, events w' = events w ++ es /\
  match r with
  | Ok _ => In (Wrote p) es /\ files w' p = Some t /\ files w' (bak p) = match files w p with Some c => Some c | None => files w (bak p) end
  | Err e => (forall c, files w p = Some c -> files w' p = Some c \/ (In (NotRenamed (bak p) p) es /\ files w' (bak p) = Some c)) /\
             (e = OSError -> In (NotRenamed (bak p) p) es) /\ (e = OSError \/ exists m, e = UserError m) /\
             (files w p = None -> files w' (bak p) = files w (bak p))
  end.

Lemma text_set : forall p c w, text_at (set_file p (Some c) w) p = c.
Proof. intros p c w. unfold text_at. rewrite files_same. reflexivity. Qed.
Lemma text_log : forall e w p, text_at (log e w) p = text_at w p.
Proof. reflexivity. Qed.

Lemma save_inv_start : forall p w, save_inv p w w.
Proof. intros p w. split; [apply only_refl | split; auto]. Qed.
Lemma save_inv_log : forall p w w' e, save_inv p w w' -> save_inv p w (log e w').
Proof. intros p w w' e [H1 H2]. split; [apply only_log; exact H1 | exact H2]. Qed.
(** p may be written when there was no file, or when it was renamed *)
Lemma save_inv_set : forall p w w' c, save_inv p w w' -> (forall d, files w p = Some d -> files w' (bak p) = Some d) -> save_inv p w (set_file p c w').
Proof.
  intros p w w' c (H1 & H2 & H3) H. split; [apply only_set; [left; reflexivity | exact H1]|]. split.
  - intros d Hd. right. fs. exact (H d Hd).
  - intro Hn. fs. exact (H3 Hn).
Qed.

Lemma snoc_events : forall e w (es : list event) w0, events w = events w0 ++ es -> events (log e w) = events w0 ++ (es ++ [e]).
Proof. intros e w es w0 H. unfold log. cbn [events]. rewrite H, app_assoc. reflexivity. Qed.

(** writing p when the old file is out of the way *)
Lemma write_file_wp : forall p t w0 w, save_inv p w0 w -> (forall d, files w0 p = Some d -> files w (bak p) = Some d) ->
  wp (save_inv p w0) (write_file p t) (fun r w' => (exists es, events w' = events w ++ es /\ (r = Err OSError \/ r = Ok tt /\ In (Wrote p) es)) /\ (r = Ok tt -> files w' p = Some t) /\ save_inv p w0 w' /\ files w' (bak p) = files w (bak p)) w.
Proof.
  intros p t w0 w HI Hb. unfold write_file, op_open, op_put. cbn [pbind wp].
  assert (I1 : save_inv p w0 (log (Opened p) (set_file p (Some []) w))) by (apply save_inv_log, save_inv_set; assumption).
  assert (B1 : forall d, files w0 p = Some d -> files (log (Opened p) (set_file p (Some []) w)) (bak p) = Some d).
  { intros d Hd. fs. exact (Hb d Hd). }
  split; [exact HI|]. split.
  - split; [exact I1|]. split.
    + assert (I2 : save_inv p w0 (log (Wrote p) (set_file p (Some (text_at (log (Opened p) (set_file p (Some []) w)) p ++ t)) (log (Opened p) (set_file p (Some []) w)))))
        by (apply save_inv_log, save_inv_set; assumption).
      split; [exact I2|]. split; [|split; [|split; [exact I2|]]].
      * exists [Opened p; Wrote p]. cbn [log events set_file]. rewrite <- app_assoc. split; [reflexivity | right; split; [reflexivity | right; left; reflexivity]].
      * intros _. fs. rewrite text_log, text_set. reflexivity.
      * fs. reflexivity.
    + intros d1 d2 E.
      assert (I2 : save_inv p w0 (set_file p (Some (text_at (log (Opened p) (set_file p (Some []) w)) p ++ d1)) (log (Opened p) (set_file p (Some []) w))))
        by (apply save_inv_set; assumption).
      split; [exact I2|]. split; [apply save_inv_log; exact I2|]. split; [|split; [|split; [apply save_inv_log; exact I2|]]].
      * exists [Opened p; NotWritten p]. cbn [log events set_file]. rewrite <- app_assoc. split; [reflexivity | left; reflexivity].
      * discriminate.
      * fs. reflexivity.
  - split; [apply save_inv_log; exact HI|]. split; [|split; [|split; [apply save_inv_log; exact HI|]]].
    + exists [NotWritten p]. split; [reflexivity | left; reflexivity].
    + discriminate.
    + reflexivity.
Qed.

Lemma save_text_wp : forall np p t w, wp (save_inv p w) (save_text np p t) (save_post p t w) w.
Proof.
  intros np p t w. unfold save_text. apply wp_bind. unfold back_up. cbn [wp].
  split; [apply save_inv_start|]. unfold present. destruct (files w p) as [c|] eqn:E.
  - apply wp_bind. apply wp_or_raise. unfold op_replace. cbn [wp]. split; [apply save_inv_start|]. split.
    + intros c' Hc. assert (c' = c) by congruence. subst c'.
      set (w1 := log (Renamed p (bak p)) (set_file (bak p) (Some c) (set_file p None w))).
      assert (I1 : save_inv p w w1).
      { split; [unfold w1; apply only_log, only_set; [right; left; reflexivity|]; apply only_set; [left; reflexivity | apply only_refl]|].
        split; [intros d Hd; right; unfold w1; fs; congruence | congruence]. }
      assert (B1 : forall d, files w p = Some d -> files w1 (bak p) = Some d) by (intros d Hd; unfold w1; fs; congruence).
      split; [exact I1|]. split; [exact I1|]. split; [exact I1|]. apply wp_catch.
      apply (wp_mono (save_inv p w) (write_file p t)) with (2 := write_file_wp p t w w1 I1 B1).
      intros r w2 ((es & He & Hr) & Hok & I2 & Hb). destruct r as [u|e].
      * cbn [wp]. split; [exact I2|]. unfold save_post. exists (Renamed p (bak p) :: es). split.
        { rewrite He. unfold w1, log, set_file. cbn [events]. rewrite <- app_assoc. reflexivity. }
        rewrite E. split; [right; destruct Hr as [Hr | Hr]; [discriminate | exact (proj2 Hr)]|]. split; [apply Hok; destruct u; reflexivity|]. rewrite Hb. unfold w1. fs. reflexivity.
      * assert (e = OSError) by (destruct Hr as [Hr | [Hr _]]; congruence). subst e. clear Hr Hok. cbn [pbind wp]. split; [exact I2|]. split.
        { intros d Hd. set (w3 := log (Renamed (bak p) p) (set_file p (Some d) (set_file (bak p) None w2))).
          assert (d = c) by (rewrite Hb in Hd; unfold w1 in Hd; revert Hd; fs; congruence). subst d.
          assert (F3 : files w3 p = Some c) by (unfold w3; fs; reflexivity).
          split.
          { split; [unfold w3; apply only_log, only_set; [left; reflexivity|]; apply only_set; [right; left; reflexivity | exact (proj1 I2)]|].
            split; [intros d Hd2; left; congruence | congruence]. }
          exists ((Renamed p (bak p) :: es) ++ [Renamed (bak p) p]). split.
          { unfold w3. rewrite (snoc_events _ _ (Renamed p (bak p) :: es) w); [reflexivity|].
            change (events w2 = events w ++ Renamed p (bak p) :: es). rewrite He. unfold w1, log, set_file. cbn [events]. rewrite <- app_assoc. reflexivity. }
          split; [intros d Hd2; left; congruence|]. split; [discriminate|]. split; [right; eexists; reflexivity | congruence]. }
        { split; [apply save_inv_log; exact I2|]. exists ((Renamed p (bak p) :: es) ++ [NotRenamed (bak p) p]). split.
          { apply snoc_events. rewrite He. unfold w1, log, set_file. cbn [events]. rewrite <- app_assoc. reflexivity. }
          assert (Hin : In (NotRenamed (bak p) p) ((Renamed p (bak p) :: es) ++ [NotRenamed (bak p) p])) by (apply in_or_app; right; left; reflexivity).
          split; [|split; [intros _; exact Hin|]; split; [left; reflexivity | congruence]].
          intros d Hd. right. split; [exact Hin|]. rewrite files_log, Hb. unfold w1. fs. congruence. }
    + split; [apply save_inv_log, save_inv_start|]. split; [apply save_inv_log, save_inv_start|]. intros _.
      exists [NotRenamed p (bak p)]. split; [reflexivity|]. split; [intros d Hd; left; exact Hd|]. split; [discriminate|]. split; [right; eexists; reflexivity | congruence].
  - cbn [wp]. split; [apply save_inv_start|]. apply wp_catch.
    assert (B1 : forall d, files w p = Some d -> files w (bak p) = Some d) by (intros d Hd; congruence).
    apply (wp_mono (save_inv p w) (write_file p t)) with (2 := write_file_wp p t w w (save_inv_start p w) B1).
    intros r w2 ((es & He & Hr) & Hok & I2 & Hb). destruct r as [u|e]; cbn [pbind wp]; (split; [exact I2|]); exists es; (split; [exact He|]).
    + rewrite E. split; [destruct Hr as [Hr | Hr]; [discriminate | exact (proj2 Hr)]|]. split; [apply Hok; destruct u; reflexivity | exact Hb].
    + split; [intros d Hd; congruence|]. split; [discriminate|]. split; [right; eexists; reflexivity | intros _; exact Hb].
Qed.

Definition yw7_post (ent : str -> str) (loc dloc : option str) (p : str) (n : novel) (old : option (list elem)) (w : fsys)
  (r : res (novel * list elem)) (w' : fsys) : Prop :=
  exists es, events w' = events w ++ es /\
  match r with
  | Ok (n1, r1) => write_text ent loc dloc n old = Ok (n1, r1, text_at w' p) /\ files w' p <> None /\ files w (lock p) = None /\
      files w' (bak p) = match files w p with Some c => Some c | None => files w (bak p) end
  | Err e => (files w (lock p) <> None -> e = locked_error /\ w' = w) /\
      forall c, files w p = Some c -> files w' p = Some c \/ (files w' (bak p) = Some c /\ (In (NotRenamed (bak p) p) es \/ In (Wrote p) es))
  end.

Lemma yw7_write_wp : forall np ent loc dloc p n old w,
  wp (fun w' => save_inv p w w' /\ (files w (lock p) <> None -> w' = w)) (yw7_write np ent loc dloc p n old) (yw7_post ent loc dloc p n old w) w.
Proof.
  intros np ent loc dloc p n old w. unfold yw7_write.
  assert (I0 : save_inv p w w /\ (files w (lock p) <> None -> w = w)) by (split; [apply save_inv_start | reflexivity]).
  cbn [wp]. split; [exact I0|].
  unfold present. destruct (files w (lock p)) as [lk|] eqn:EL.
  - cbn [wp]. split; [exact I0|]. exists []. split; [rewrite app_nil_r; reflexivity|].
    split; [intros _; split; reflexivity | intros c Hc; left; exact Hc].
  - apply (wp_weaken (save_inv p w)); [intros w' Hw'; split; [exact Hw' | intro H; contradiction (H eq_refl)]|].
    apply wp_bind. cbn [wp]. split; [apply save_inv_start|].
    destruct (write_tree loc dloc n old) as [[n1 r1]|e] eqn:EW.
    2:{ intros _. exists []. split; [rewrite app_nil_r; reflexivity|]. split; [intro H; contradiction (H EL) | intros c Hc; left; exact Hc]. }
    cbn [snd]. apply wp_bind.
    apply (wp_mono (save_inv p w) (save_text np p (tree_text r1))) with (Q := fun r w' => save_inv p w w' /\ save_post p (tree_text r1) w r w');
      [|apply wp_inv_post, save_text_wp].
    intros r w1 (I1 & es1 & E1 & H1). destruct r as [u|e].
    2:{ intros _. exists es1. split; [exact E1|]. destruct H1 as (Ha & _). split; [intro H; contradiction (H EL)|].
        intros c Hcc. destruct (Ha c Hcc) as [H | [Hin H]]; [left; exact H | right; split; [exact H | left; exact Hin]]. }
    destruct H1 as (Hw1 & Hp1 & Hb1). apply wp_bind. unfold postprocess_file. apply wp_bind. unfold op_read. cbn [wp]. split; [exact I1|].
    assert (B1 : forall d, files w p = Some d -> files w1 (bak p) = Some d) by (intros d Hd; rewrite Hb1, Hd; reflexivity).
    split.
    + intros c Hct. assert (c = tree_text r1) by congruence. subst c. clear Hct.
      split; [exact I1|]. apply wp_or_raise.
      apply (wp_mono (save_inv p w) (write_file p (postprocess ent match nv_chapters n with [] => true | _ :: _ => false end (tree_text r1)))) with (2 := write_file_wp p _ w w1 I1 B1).
      intros r w2 ((es & He & Hr) & Hok & I2 & Hb). destruct r as [u2|e].
      * split; [exact I2|]. split; [exact I2|]. exists (es1 ++ es). split; [rewrite He, E1, app_assoc; reflexivity|].
        assert (HF : files w2 p = Some (postprocess ent match nv_chapters n with [] => true | _ :: _ => false end (tree_text r1))) by (apply Hok; destruct u2; reflexivity).
        split; [|split; [congruence | split; [exact EL | rewrite Hb; exact Hb1]]].
        unfold write_text. rewrite EW. unfold text_at. rewrite HF. reflexivity.
      * split; [exact I2|]. intros _. exists (es1 ++ es). split; [rewrite He, E1, app_assoc; reflexivity|]. split; [intro H; contradiction (H EL)|].
        intros c Hc. right. split; [rewrite Hb; exact (B1 c Hc)|]. right. apply in_or_app. left. exact Hw1.
    + split; [apply save_inv_log; exact I1|]. intros _ _. exists (es1 ++ [NotRead p]). split; [apply snoc_events; exact E1|]. split; [intro H; contradiction (H EL)|].
      intros c Hc. right. split; [exact (B1 c Hc)|]. right. apply in_or_app. left. exact Hw1.
Qed.

(** reading changes nothing *)
Lemma yw7_read_wp : forall ext p n w,
  wp (fun w' => files w' = files w) (yw7_read ext p n)
    (fun r w' => files w' = files w /\ (exists es, events w' = events w ++ es /\ forall e, In e es -> e = NotRead p) /\ (files w (lock p) <> None -> r = Err locked_error) /\
       (forall n', r = Ok n' -> exists t, files w p = Some t /\ read_text ext t n = Ok n')) w.
Proof.
  intros ext p n w. unfold yw7_read, yw7_read_with. cbn [wp]. split; [reflexivity|].
  unfold present. destruct (files w (lock p)) as [lk|] eqn:EL.
  - cbn [wp]. split; [reflexivity|]. split; [reflexivity|]. split; [exists []; split; [rewrite app_nil_r; reflexivity | intros e []]|]. split; [reflexivity | discriminate].
  - cbn [wp]. split; [reflexivity|].
    assert (Q : forall w' es x t, files w' = files w -> events w' = events w ++ es -> (forall e, In e es -> e = NotRead p) -> files w p = Some t -> x = read_text ext t n ->
       files w' = files w /\ (exists es, events w' = events w ++ es /\ forall e, In e es -> e = NotRead p) /\ (@None str <> None -> x = Err locked_error) /\ (forall n', x = Ok n' -> exists t, files w p = Some t /\ read_text ext t n = Ok n')).
    { intros w' es x t A B B2 C D. split; [exact A|]. split; [exists es; split; assumption|]. split; [intro H; contradiction (H eq_refl)|]. intros n' E. exists t. split; [exact C | congruence]. }
    assert (Q2 : forall w' es e, files w' = files w -> events w' = events w ++ es -> (forall e, In e es -> e = NotRead p) ->
       files w' = files w /\ (exists es, events w' = events w ++ es /\ forall e, In e es -> e = NotRead p) /\ (@None str <> None -> @Err novel e = Err locked_error) /\ (forall n' : novel, Err e = Ok n' -> exists t, files w p = Some t /\ read_text ext t n = Ok n')).
    { intros w' es e A B B2. split; [exact A|]. split; [exists es; split; assumption|]. split; [intro H; contradiction (H eq_refl) | discriminate]. }
    assert (Z0 : forall e, In e (@nil event) -> e = NotRead p) by (intros e []).
    assert (Z1 : forall e, In e [NotRead p] -> e = NotRead p) by (intros e [<- | []]; reflexivity).
    assert (Z2 : forall e, In e [NotRead p; NotRead p] -> e = NotRead p) by (intros e [<- | [<- | []]]; reflexivity).
    assert (Z3 : forall e, In e [NotRead p; NotRead p; NotRead p] -> e = NotRead p) by (intros e [<- | [<- | [<- | []]]]; reflexivity).
    split; [intros t Ht; split; [reflexivity|]; apply (Q w [] _ t); auto; rewrite app_nil_r; reflexivity|].
    split; [reflexivity|]. split; [intros t Ht; split; [reflexivity|]; apply (Q _ [NotRead p] _ t); auto|].
    split; [reflexivity|]. split.
    + intros t Ht. destruct (parse_xml t); cbn [wp]; (split; [reflexivity|]); apply (Q2 _ [NotRead p; NotRead p]); auto; cbn [log events]; rewrite <- app_assoc; reflexivity.
    + split; [reflexivity|]. apply (Q2 _ [NotRead p; NotRead p; NotRead p]); auto; cbn [log events]; rewrite <- !app_assoc; reflexivity.
Qed.
