(** Proofs about writing OpenDocument files. *)
From Coq Require Import List NArith ZArith Bool Lia Arith.
From Verif Require Import PyStr PyDict FileOps FileOpsProofs FileWrite SpecFile FileWriteProofs.
Import ListNotations.

Lemma below_app : forall tmp x, below tmp (tmp ++ s "/" ++ x) = true.
Proof. intros tmp x. unfold below. rewrite app_assoc. apply prefixb_app. Qed.
Lemma below_bak : forall tmp q, below tmp q = true -> below tmp (bak q) = true.
Proof. intros tmp q H. unfold below in *. apply prefixb_spec in H. destruct H as [r ->]. unfold bak. rewrite <- !app_assoc. rewrite app_assoc. apply prefixb_app. Qed.

(** outside of tmp, w' is like w *)
Definition outside (tmp : str) (w w' : fsys) : Prop := forall q, below tmp q = false -> files w' q = files w q.
Lemma outside_set : forall tmp w w' q c, below tmp q = true -> outside tmp w w' -> outside tmp w (set_file q c w').
Proof. intros tmp w w' q c Hq H x Hx. rewrite files_other; [exact (H x Hx)|]. intro E. subst x. congruence. Qed.
Lemma outside_log : forall tmp w w' e, outside tmp w w' -> outside tmp w (log e w').
Proof. intros tmp w w' e H x Hx. exact (H x Hx). Qed.
Lemma outside_trans : forall tmp w w1 w2, outside tmp w w1 -> outside tmp w1 w2 -> outside tmp w w2.
Proof. intros tmp w w1 w2 H1 H2 q Hq. rewrite (H2 q Hq). exact (H1 q Hq). Qed.

(** writing a file in tmp *)
Lemma write_tmp_wp : forall tmp w0 w q t, below tmp q = true -> outside tmp w0 w ->
  wp (outside tmp w0) (write_file q t) (fun r w' => (exists es, events w' = events w ++ es) /\ outside tmp w0 w' /\
     (r = Ok tt -> files w' q = Some t /\ forall x, x <> q -> files w' x = files w x)) w.
Proof.
  intros tmp w0 w q t Hq H. unfold write_file, op_open, op_put. cbn [pbind wp]. split; [exact H|].
  assert (H1 : outside tmp w0 (log (Opened q) (set_file q (Some []) w))) by (apply outside_log, outside_set; assumption).
  split.
  - split; [exact H1|]. split.
    + match goal with |- outside tmp w0 ?x /\ _ => assert (H2 : outside tmp w0 x) by (apply outside_log, outside_set; assumption) end.
      split; [exact H2|]. split; [exists [Opened q; Wrote q]; cbn [log events set_file]; rewrite <- app_assoc; reflexivity|]. split; [exact H2|]. intros _.
      rewrite files_log, files_same, text_log, text_set. split; [reflexivity|]. intros x Hx. repeat first [rewrite files_log | rewrite files_other by exact Hx]. reflexivity.
    + intros d1 d2 E. match goal with |- outside tmp w0 ?x /\ _ => assert (H2 : outside tmp w0 x) by (apply outside_set; assumption) end.
      split; [exact H2|]. split; [apply outside_log; exact H2|]. split; [exists [Opened q; NotWritten q]; cbn [log events set_file]; rewrite <- app_assoc; reflexivity|]. split; [apply outside_log; exact H2 | discriminate].
  - split; [apply outside_log; exact H|]. split; [exists [NotWritten q]; reflexivity|]. split; [apply outside_log; exact H | discriminate].
Qed.

Definition in_tmp (tmp : str) (l : list (str * str)) : list (str * str) := map (fun x => (tmp ++ s "/" ++ fst x, snd x)) l.
Lemma in_tmp_inj : forall tmp a b, tmp ++ s "/" ++ a = tmp ++ s "/" ++ b -> a = b.
Proof. intros tmp a b H. apply app_inv_head in H. apply app_inv_head in H. exact H. Qed.

Lemma write_files_wp : forall tmp w0 l w, outside tmp w0 w -> NoDup (map fst l) ->
  wp (outside tmp w0) (write_files (in_tmp tmp l)) (fun r w' => (exists es, events w' = events w ++ es) /\ outside tmp w0 w' /\ (r <> Err OSError) /\
     (r = Ok tt -> (forall x t, In (x, t) l -> files w' (tmp ++ s "/" ++ x) = Some t) /\ (forall q, (forall x, In x (map fst l) -> q <> tmp ++ s "/" ++ x) -> files w' q = files w q))) w.
Proof.
  intros tmp w0 l. induction l as [|[x t] l IH]; intros w H ND; cbn [in_tmp map write_files fst snd].
  - cbn [wp]. split; [exact H|]. split; [exists []; rewrite app_nil_r; reflexivity|]. split; [exact H|]. split; [discriminate|]. intros _. split; [intros x t []|]. reflexivity.
  - apply wp_bind. apply wp_or_raise.
    apply (wp_mono (outside tmp w0) (write_file (tmp ++ s "/" ++ x) t)) with (2 := write_tmp_wp tmp w0 w _ t (below_app tmp x) H).
    intros r w1 ((es & E1) & O1 & K1). destruct r as [u|e].
    2:{ split; [exact O1|]. intros _. split; [exists es; exact E1|]. split; [exact O1|]. split; discriminate. }
    split; [exact O1|]. inversion ND as [|? ? Hn ND']; subst. fold (in_tmp tmp l).
    apply (wp_mono (outside tmp w0) (write_files (in_tmp tmp l))) with (2 := IH w1 O1 ND').
    intros r w2 ((es2 & E2) & O2 & N2 & K2). split; [exists (es ++ es2); rewrite E2, E1, app_assoc; reflexivity|]. split; [exact O2|]. split; [exact N2|]. intro Hr.
    destruct u. destruct (K1 eq_refl) as [K1a K1b]. destruct (K2 Hr) as [K2a K2b]. split.
    + intros y u [E | Hy]; [injection E as <- <- | exact (K2a y u Hy)].
      rewrite K2b; [exact K1a|]. intros z Hz E. apply in_tmp_inj in E. subst z. exact (Hn Hz).
    + intros q Hq. rewrite K2b by (intros z Hz; apply Hq; right; exact Hz). apply K1b. apply Hq. left. reflexivity.
Qed.

Lemma set_up_wp : forall np tmp l w, NoDup (map fst l) ->
  wp (outside tmp w) (set_up np tmp l) (fun r w' => (exists es, events w' = events w ++ es) /\ outside tmp w w' /\ (r <> Err OSError) /\
     (r = Ok tt -> forall x t, In (x, t) l -> files w' (tmp ++ s "/" ++ x) = Some t)) w.
Proof.
  intros np tmp l w ND. unfold set_up. cbn [wp]. assert (O0 : outside tmp w w) by (intros q _; reflexivity). split; [exact O0|].
  intros w1 E1 O1. apply wp_bind. apply wp_or_raise. unfold op_other. cbn [pbind wp].
  assert (O1' : outside tmp w w1) by exact O1.
  assert (Bad : forall w2 es, outside tmp w w2 -> events w2 = events w ++ es -> outside tmp w w2 /\ (outside tmp w w2 -> (exists es, events w2 = events w ++ es) /\ outside tmp w w2 /\
     (@Err unit (UserError (s "Cannot create directory: " ++ quoted (np tmp) ++ s ".")) <> Err OSError) /\ (@Err unit (UserError (s "Cannot create directory: " ++ quoted (np tmp) ++ s ".")) = Ok tt -> forall x t, In (x, t) l -> files w2 (tmp ++ s "/" ++ x) = Some t))).
  { intros w2 es A B. split; [exact A|]. intros _. split; [exists es; exact B|]. split; [exact A|]. split; discriminate. }
  split; [exact O1'|]. split.
  - split; [exact O1'|]. split.
    + split; [exact O1'|]. split; [exact O1'|]. fold (in_tmp tmp l).
      apply (wp_mono (outside tmp w) (write_files (in_tmp tmp l))) with (2 := write_files_wp tmp w l w1 O1' ND).
      intros r w2 ((es & E2) & O2 & N2 & K2). split; [exists es; rewrite E2, E1; reflexivity|]. split; [exact O2|]. split; [exact N2|]. intro Hr. exact (proj1 (K2 Hr)).
    + split; [apply outside_log; exact O1'|]. apply (Bad _ [Trouble]); [apply outside_log; exact O1' | cbn [log events]; rewrite E1; reflexivity].
  - split; [apply outside_log; exact O1'|]. apply (Bad _ [Trouble]); [apply outside_log; exact O1' | cbn [log events]; rewrite E1; reflexivity].
Qed.

(** ** Packing *)
Lemma back_up_wp : forall np p w,
  wp (save_inv p w) (back_up np p) (fun r w1 => save_inv p w w1 /\ (exists es, events w1 = events w ++ es) /\
     match r with
     | Ok b => (forall d, files w p = Some d -> b = true /\ files w1 (bak p) = Some d) /\ (files w p = None -> b = false /\ files w1 = files w)
     | Err e => files w1 = files w /\ e <> OSError
     end) w.
Proof.
  intros np p w. unfold back_up. cbn [wp]. split; [apply save_inv_start|]. unfold present. destruct (files w p) as [c|] eqn:E.
  - apply wp_bind. apply wp_or_raise. unfold op_replace. cbn [wp]. split; [apply save_inv_start|]. split.
    + intros c' Hc. assert (c' = c) by congruence. subst c'.
      set (w1 := log (Renamed p (bak p)) (set_file (bak p) (Some c) (set_file p None w))).
      assert (I1 : save_inv p w w1).
      { split; [unfold w1; apply only_log, only_set; [right; left; reflexivity|]; apply only_set; [left; reflexivity | apply only_refl]|].
        split; [intros d Hd; right; unfold w1; fs; congruence | congruence]. }
      split; [exact I1|]. split; [exact I1|]. split; [exact I1|]. split; [exact I1|]. split; [exists [Renamed p (bak p)]; reflexivity|].
      split; [intros d Hd; split; [reflexivity | unfold w1; fs; congruence] | congruence].
    + assert (I1 : save_inv p w (log (NotRenamed p (bak p)) w)) by apply save_inv_log, save_inv_start.
      split; [exact I1|]. split; [exact I1|]. intros _. split; [exact I1|]. split; [exists [NotRenamed p (bak p)]; reflexivity|]. split; [reflexivity | discriminate].
  - cbn [wp]. split; [apply save_inv_start|]. split; [apply save_inv_start|]. split; [exists []; rewrite app_nil_r; reflexivity|].
    split; [congruence | intros _; split; reflexivity].
Qed.

Definition zipped (zip : str -> str -> str) (tmp : str) (w : fsys) (names : list str) : str :=
  flat_map (fun x => zip x (if str_eqb x (s "META-INF") then [] else text_at w (tmp ++ s "/" ++ x))) names.

Section Pack.
Context (zip : str -> str -> str) (tmp p : str) (HpT : below tmp p = false) (HbT : below tmp (bak p) = false).
Lemma tmp_not : forall x, ~ In (tmp ++ s "/" ++ x) [p; bak p].
Proof.
  intros x [H | [H | []]].
  - rewrite H in HpT. rewrite below_app in HpT. discriminate.
  - rewrite H in HbT. rewrite below_app in HbT. discriminate.
Qed.
Definition packing (w0 w : fsys) : Prop := save_inv p w0 w /\ forall d, files w0 p = Some d -> files w (bak p) = Some d.

Lemma put_wp : forall w0 w d, packing w0 w ->
  wp (save_inv p w0) (op_put p d) (fun r w' => packing w0 w' /\ (exists es, events w' = events w ++ es) /\
     (r = Ok tt -> files w' p = Some (text_at w p ++ d)) /\ files w' (bak p) = files w (bak p)) w.
Proof.
  intros w0 w d [HI HB]. unfold op_put. cbn [wp]. split; [exact HI|].
  assert (X : forall e t, packing w0 (log e (set_file p (Some t) w))).
  { intros e t. split; [apply save_inv_log, save_inv_set; assumption|]. intros c Hc. fs. exact (HB c Hc). }
  split.
  - split; [exact (proj1 (X _ _))|]. split; [apply X|]. split; [exists [Wrote p]; reflexivity|]. split; [intros _; fs; reflexivity | fs; reflexivity].
  - intros d1 d2 E. split; [apply save_inv_set; assumption|]. split; [exact (proj1 (X _ _))|]. split; [apply X|]. split; [exists [NotWritten p]; reflexivity|].
    split; [discriminate | fs; reflexivity].
Qed.

Lemma zip_files_wp : forall w0 names w, packing w0 w -> files w p <> None ->
  wp (save_inv p w0) (zip_files zip tmp p names) (fun r w' => packing w0 w' /\ (exists es, events w' = events w ++ es) /\ files w' (bak p) = files w (bak p) /\
     (r = Ok tt -> files w' p = Some (text_at w p ++ zipped zip tmp w0 names))) w.
Proof.
  intros w0 names. induction names as [|x names IH]; intros w HP HN; cbn [zip_files].
  - cbn [wp]. split; [exact (proj1 HP)|]. split; [exact HP|]. split; [exists []; rewrite app_nil_r; reflexivity|]. split; [reflexivity|]. intros _. cbn [zipped flat_map]. rewrite app_nil_r.
    unfold text_at. destruct (files w p); [reflexivity | contradiction (HN eq_refl)].
  - assert (STEP : forall t w1, packing w0 w1 -> files w1 = files w -> (exists es, events w1 = events w ++ es) ->
        t = (if str_eqb x (s "META-INF") then [] else text_at w0 (tmp ++ s "/" ++ x)) ->
        wp (save_inv p w0) (run _ <- op_put p (zip x t); zip_files zip tmp p names) (fun r w' => packing w0 w' /\ (exists es, events w' = events w ++ es) /\ files w' (bak p) = files w (bak p) /\
           (r = Ok tt -> files w' p = Some (text_at w p ++ zipped zip tmp w0 (x :: names)))) w1).
    { intros t w1 HP1 EF (es1 & EE) Et. apply wp_bind.
      apply (wp_mono (save_inv p w0) (op_put p (zip x t))) with (2 := put_wp w0 w1 (zip x t) HP1).
      intros r w2 (HP2 & (es2 & E2) & K2 & B2). destruct r as [u|e].
      - destruct u. specialize (K2 eq_refl).
        apply (wp_mono (save_inv p w0) (zip_files zip tmp p names)) with (2 := IH w2 HP2 ltac:(congruence)).
        intros r w3 (HP3 & (es3 & E3) & B3 & K3). split; [exact HP3|]. split; [exists (es1 ++ es2 ++ es3); rewrite E3, E2, EE, !app_assoc; reflexivity|].
        split; [rewrite B3, B2, EF; reflexivity|]. intro Hr. rewrite (K3 Hr). f_equal. unfold text_at at 1. rewrite K2. unfold zipped. cbn [flat_map]. rewrite <- app_assoc. subst t.
        unfold text_at at 1 3. rewrite EF. reflexivity.
      - intros _. split; [exact HP2|]. split; [exists (es1 ++ es2); rewrite E2, EE, app_assoc; reflexivity|]. split; [rewrite B2, EF; reflexivity | discriminate]. }
    apply wp_bind. destruct (str_eqb x (s "META-INF")) eqn:EX.
    + unfold op_other. cbn [pbind wp]. split; [exact (proj1 HP)|]. split.
      * split; [exact (proj1 HP)|]. apply STEP; [exact HP | reflexivity | exists []; rewrite app_nil_r; reflexivity | reflexivity].
      * split; [apply save_inv_log; exact (proj1 HP)|]. intros _. split; [split; [apply save_inv_log; exact (proj1 HP) | exact (proj2 HP)]|]. split; [exists [Trouble]; reflexivity|]. split; [reflexivity | discriminate].
    + unfold op_read. cbn [wp]. split; [exact (proj1 HP)|]. split.
      * intros t Ht. split; [exact (proj1 HP)|]. apply STEP; [exact HP | reflexivity | exists []; rewrite app_nil_r; reflexivity|].
        rewrite (proj1 (proj1 HP) _ (tmp_not x)) in Ht. unfold text_at. rewrite Ht. reflexivity.
      * split; [apply save_inv_log; exact (proj1 HP)|]. intros _. split; [split; [apply save_inv_log; exact (proj1 HP) | exact (proj2 HP)]|]. split; [exists [NotRead (tmp ++ s "/" ++ x)]; reflexivity|]. split; [reflexivity | discriminate].
Qed.
End Pack.

(** the text stored for a component *)
Definition part_text (parts : list (str * str)) (t x : str) : str :=
  if str_eqb x (s "META-INF") then [] else match dget x ((s "content.xml", t) :: parts) with Some u => u | None => [] end.
Definition odf_file_text (zip : str -> str -> str) (ending : str) (parts : list (str * str)) (names : list str) (t : str) : str :=
  flat_map (fun x => zip x (part_text parts t x)) names ++ ending.

Lemma wp_use : forall {A} (I J : fsys -> Prop) (x : prog A) (Q R : res A -> fsys -> Prop) w,
  wp J x R w -> (forall w, J w -> I w) -> (forall r w', R r w' -> Q r w') -> wp I x Q w.
Proof. intros A I J x Q R w H HI HQ. apply (wp_weaken J); [exact HI|]. exact (wp_mono J x R Q w HQ H). Qed.

Section Odf.
Context (np : str -> str) (zip : str -> str -> str) (ending tmp : str) (parts : list (str * str)) (names : list str) (text : res str) (p : str).
Context (HpT : below tmp p = false) (HbT : below tmp (bak p) = false).
Context (ND : NoDup (s "content.xml" :: s "content.xml.bak" :: map fst parts)).
Context (HN : forall x, In x names -> x = s "META-INF" \/ x = s "content.xml" \/ In x (map fst parts)).

Definition odf_inv (w w' : fsys) : Prop :=
  (forall q, below tmp q = false -> ~ In q [p; bak p] -> files w' q = files w q) /\
  (forall c, files w p = Some c -> files w' p = Some c \/ files w' (bak p) = Some c) /\
  (files w p = None -> files w' (bak p) = files w (bak p)).
Definition odf_post (w : fsys) (r : res unit) (w' : fsys) : Prop :=
  exists es, events w' = events w ++ es /\
  match r with
  | Ok _ => exists t, text = Ok t /\ files w' p = Some (odf_file_text zip ending parts names t) /\ files w' (bak p) = match files w p with Some c => Some c | None => files w (bak p) end
  | Err e => forall c, files w p = Some c -> files w' p = Some c \/ (files w' (bak p) = Some c /\ (In (NotRenamed (bak p) p) es \/ In Trouble es))
  end.

Lemma outside_inv : forall w w', outside tmp w w' -> odf_inv w w'.
Proof. intros w w' H. split; [intros q Hq _; exact (H q Hq)|]. split; [intros c Hc; left; rewrite (H p HpT); exact Hc | intros _; exact (H _ HbT)]. Qed.
Lemma save_odf_inv : forall w w1 w', outside tmp w w1 -> save_inv p w1 w' -> odf_inv w w'.
Proof.
  intros w w1 w' H (H1 & H2 & H3). split; [|split].
  - intros q Hq Hn. rewrite (H1 q Hn). exact (H q Hq).
  - intros c Hc. apply H2. rewrite (H p HpT). exact Hc.
  - intro Hn. rewrite H3; [exact (H _ HbT)|]. rewrite (H p HpT). exact Hn.
Qed.
Lemma outside_err : forall w w' es e, outside tmp w w' -> events w' = events w ++ es -> odf_post w (Err e) w'.
Proof. intros w w' es e H E. exists es. split; [exact E|]. intros c Hc. left. rewrite (H p HpT). exact Hc. Qed.

Lemma odf_write_wp : forall w, wp (odf_inv w) (odf_write np zip ending tmp parts names text p) (odf_post w) w.
Proof.
  intros w. unfold odf_write. apply wp_bind.
  assert (ND' : NoDup (map fst parts)) by (inversion ND as [|? ? _ X]; inversion X; assumption).
  apply (wp_use _ _ _ _ _ _ (set_up_wp np tmp parts w ND')); [apply outside_inv|].
  intros r w1 ((es1 & E1) & O1 & N1 & K1). destruct r as [u|e]; [|intros _; exact (outside_err _ _ _ _ O1 E1)]. destruct u. specialize (K1 eq_refl). clear N1.
  apply wp_bind. unfold export_write. apply wp_bind. cbn [wp]. split; [apply outside_inv; exact O1|].
  destruct text as [t|e] eqn:ET; [|intros _ _; exact (outside_err _ _ _ _ O1 E1)].
  set (q := tmp ++ s "/content.xml") in *.
  assert (Eq : q = tmp ++ s "/" ++ s "content.xml") by reflexivity.
  assert (Eqb : bak q = tmp ++ s "/" ++ s "content.xml.bak") by (unfold bak, q; rewrite <- app_assoc; reflexivity).
  assert (Sub : forall w', save_inv q w1 w' -> outside tmp w w').
  { intros w' [H1 _] x Hx. rewrite H1; [exact (O1 x Hx)|]. intros [E | [E | []]]; subst x; [rewrite Eq in Hx | rewrite Eqb in Hx]; rewrite below_app in Hx; discriminate. }
  apply (wp_use _ _ _ _ _ _ (wp_inv_post _ _ _ _ (save_text_wp np q t w1))); [intros w' H; apply outside_inv, Sub; exact H|].
  intros r w2 (I2 & es2 & E2 & K2). pose proof (Sub _ I2) as O2. assert (E2' : events w2 = events w ++ (es1 ++ es2)) by (rewrite E2, E1, app_assoc; reflexivity). destruct r as [u|e]; [|intros _; exact (outside_err _ _ _ _ O2 E2')].
  destruct K2 as (_ & K2 & _).
  assert (FT : forall x, In x names -> str_eqb x (s "META-INF") = false -> files w2 (tmp ++ s "/" ++ x) = Some (part_text parts t x)).
  { intros x Hx Hm. unfold part_text. rewrite Hm. cbn [dget]. destruct (str_eqb x (s "content.xml")) eqn:EC.
    - apply str_eqb_eq in EC. subst x. exact K2.
    - destruct (HN x Hx) as [E | [E | Hin]]; [subst x; rewrite str_eqb_refl in Hm; discriminate | subst x; rewrite str_eqb_refl in EC; discriminate|].
      apply dget_Some_key in Hin. destruct Hin as [v Hv]. rewrite Hv.
      rewrite (proj1 I2); [apply K1; apply dget_In; exact Hv|].
      intros [E | [E | []]]; [rewrite Eq in E | rewrite Eqb in E]; apply in_tmp_inj in E; subst x.
      + rewrite str_eqb_refl in EC. discriminate.
      + inversion ND as [|? ? _ X]. inversion X as [|? ? Y _]. apply Y. apply dget_In in Hv. apply (in_map fst) in Hv. exact Hv. }
  apply wp_bind. unfold op_other at 1. cbn [wp]. split; [apply outside_inv; exact O2|]. split.
  2:{ split; [apply outside_inv, outside_log; exact O2|]. intros _. apply (outside_err _ _ ((es1 ++ es2) ++ [Trouble])); [apply outside_log; exact O2 | apply snoc_events; exact E2']. }
  split; [apply outside_inv; exact O2|].
  assert (SI : forall w', save_inv p w2 w' -> odf_inv w w') by (intros w' H; exact (save_odf_inv w w2 w' O2 H)).
  apply wp_bind. apply (wp_use _ _ _ _ _ _ (back_up_wp np p w2)); [exact SI|].
  intros r w3 (I3 & (es3 & E3) & K3). assert (E3' : events w3 = events w ++ ((es1 ++ es2) ++ es3)) by (rewrite E3, E2', <- app_assoc; reflexivity).
  assert (Pw : files w2 p = files w p) by exact (O2 p HpT). assert (Bw : files w2 (bak p) = files w (bak p)) by exact (O2 (bak p) HbT).
  destruct r as [b|e].
  2:{ intros _. exists ((es1 ++ es2) ++ es3). split; [exact E3'|]. intros c Hc. left. rewrite (proj1 K3), Pw. exact Hc. }
  assert (PK3 : packing p w2 w3).
  { split; [exact I3|]. intros d Hd. exact (proj2 (proj1 K3 d Hd)). }
  assert (B3 : files w3 (bak p) = match files w p with Some c => Some c | None => files w (bak p) end).
  { destruct (files w p) as [c|] eqn:EP; [exact (proj2 (proj1 K3 c Pw))|]. rewrite (proj2 (proj2 K3 Pw)). exact Bw. }
  apply wp_catch.
  (* what is known when the packing is over *)
  set (R := fun (r : res unit) w4 => packing p w2 w4 /\ (exists es4, events w4 = events w3 ++ es4) /\ files w4 (bak p) = files w3 (bak p) /\
     (r = Ok tt -> files w4 p = Some (odf_file_text zip ending parts names t))).
  assert (MAIN : wp (save_inv p w2) (run _ <- op_open p; pcatch (run _ <- op_other; zip_files zip tmp p names) (fun r => run _ <- op_put p ending; Ret r)) R w3).
  { apply wp_bind. unfold op_open. cbn [wp]. split; [exact I3|].
    assert (PK4 : packing p w2 (log (Opened p) (set_file p (Some []) w3))).
    { split; [apply save_inv_log, save_inv_set; [exact I3 | exact (proj2 PK3)]|]. intros d Hd. fs. exact (proj2 PK3 d Hd). }
    split.
    2:{ split; [apply save_inv_log; exact I3|]. intros _. split; [split; [apply save_inv_log; exact I3 | exact (proj2 PK3)]|]. split; [exists [NotWritten p]; reflexivity|]. split; [reflexivity | discriminate]. }
    split; [exact (proj1 PK4)|]. apply wp_catch.
    set (w4 := log (Opened p) (set_file p (Some []) w3)) in *.
    assert (FIN : forall (r : res unit) w5, packing p w2 w5 -> (exists es4, events w5 = events w3 ++ es4) -> files w5 (bak p) = files w3 (bak p) ->
       (r = Ok tt -> files w5 p = Some (zipped zip tmp w2 names)) -> wp (save_inv p w2) (run _ <- op_put p ending; Ret r) R w5).
    { intros r w5 PK5 (es5 & E5) B5 K5. apply wp_bind. apply (wp_mono (save_inv p w2) (op_put p ending)) with (2 := put_wp p w2 w5 ending PK5).
      intros r6 w6 (PK6 & (es6 & E6) & K6 & B6). assert (E6' : exists es4, events w6 = events w3 ++ es4) by (exists (es5 ++ es6); rewrite E6, E5, app_assoc; reflexivity).
      destruct r6 as [u6|e6].
      - cbn [wp]. split; [exact (proj1 PK6)|]. split; [exact PK6|]. split; [exact E6'|]. split; [rewrite B6; exact B5|]. intro Hr. destruct u6. rewrite (K6 eq_refl). f_equal.
        unfold text_at. rewrite (K5 Hr). unfold odf_file_text, zipped. f_equal.
        clear - FT. induction names as [|x l IH]; cbn [flat_map]; [reflexivity|]. f_equal.
        + f_equal. unfold part_text at 1. destruct (str_eqb x (s "META-INF")) eqn:EX; [reflexivity|]. unfold text_at. rewrite (FT x (or_introl eq_refl) EX). unfold part_text. rewrite EX. reflexivity.
        + apply IH. intros y Hy. apply FT. right. exact Hy.
      - intros _. split; [exact PK6|]. split; [exact E6'|]. split; [rewrite B6; exact B5 | discriminate]. }
    apply wp_bind. unfold op_other. cbn [wp]. split; [exact (proj1 PK4)|].
    assert (B4 : files w4 (bak p) = files w3 (bak p)) by (unfold w4; fs; reflexivity).
    split.
    - split; [exact (proj1 PK4)|].
      apply (wp_mono (save_inv p w2) (zip_files zip tmp p names)) with (2 := zip_files_wp zip tmp p HpT HbT w2 names w4 PK4 ltac:(unfold w4; fs; discriminate)).
      intros r w5 (PK5 & (es5 & E5) & B5 & K5). apply FIN; [exact PK5 | exists (Opened p :: es5); rewrite E5; unfold w4; cbn [log events set_file]; rewrite <- app_assoc; reflexivity | rewrite B5; exact B4|].
      intro Hr. rewrite (K5 Hr). unfold w4. rewrite text_log, text_set. reflexivity.
    - split; [apply save_inv_log; exact (proj1 PK4)|]. intros _. apply FIN; [split; [apply save_inv_log; exact (proj1 PK4) | exact (proj2 PK4)] | exists [Opened p; Trouble]; unfold w4; cbn [log events set_file]; rewrite <- app_assoc; reflexivity | exact B4 | discriminate]. }
  apply (wp_use _ _ _ _ _ _ MAIN); [exact SI|].
  intros r w4 (PK4 & (es4 & E4) & B4 & K4).
  assert (E4' : events w4 = events w ++ (((es1 ++ es2) ++ es3) ++ es4)) by (rewrite E4, E3', <- app_assoc; reflexivity).
  assert (OLD : forall c, files w p = Some c -> files w4 (bak p) = Some c) by (intros c Hc; rewrite B4, B3, Hc; reflexivity).
  destruct r as [u4|e4].
  - destruct u4. specialize (K4 eq_refl). unfold op_other. cbn [pbind wp]. split; [exact (SI _ (proj1 PK4))|]. split.
    + split; [exact (SI _ (proj1 PK4))|]. intros w5 E5 O5.
      assert (I5 : odf_inv w w5).
      { destruct (SI _ (proj1 PK4)) as (X1 & X2 & X3). split; [|split].
        - intros x Hx Hn. rewrite (O5 x Hx). exact (X1 x Hx Hn).
        - intros c Hc. right. rewrite (O5 _ HbT). exact (OLD c Hc).
        - intro Hn. rewrite (O5 _ HbT). exact (X3 Hn). }
      split; [exact I5|]. exists (((es1 ++ es2) ++ es3) ++ es4). split; [rewrite E5; exact E4'|]. exists t. split; [exact ET|].
      split; [rewrite (O5 _ HpT); exact K4 | rewrite (O5 _ HbT), B4; exact B3].
    + assert (I5 : odf_inv w (log Trouble w4)) by (apply SI, save_inv_log; exact (proj1 PK4)).
      split; [exact I5|]. exists ((((es1 ++ es2) ++ es3) ++ es4) ++ [Trouble]). split; [apply snoc_events; exact E4'|].
      intros c Hc. right. split; [exact (OLD c Hc)|]. right. apply in_or_app. right. left. reflexivity.
  - unfold op_other. cbn [pbind wp]. split; [exact (SI _ (proj1 PK4))|].
    assert (TR : odf_inv w (log Trouble w4) /\ odf_post w (Err OSError) (log Trouble w4)).
    { split; [apply SI, save_inv_log; exact (proj1 PK4)|]. exists ((((es1 ++ es2) ++ es3) ++ es4) ++ [Trouble]). split; [apply snoc_events; exact E4'|].
      intros c Hc. right. split; [exact (OLD c Hc)|]. right. apply in_or_app. right. left. reflexivity. }
    split; [|exact TR].
    destruct (files w p) as [c|] eqn:EP.
    + rewrite (proj1 (proj1 K3 c Pw)). unfold op_replace. cbn [pbind wp]. split; [exact (SI _ (proj1 PK4))|]. split.
      * intros d Hd. assert (d = c) by (specialize (OLD c eq_refl); congruence). subst d.
        set (w5 := log (Renamed (bak p) p) (set_file p (Some c) (set_file (bak p) None w4))).
        assert (F5 : files w5 p = Some c) by (unfold w5; fs; reflexivity).
        split.
        { apply SI. split; [unfold w5; apply only_log, only_set; [left; reflexivity|]; apply only_set; [right; left; reflexivity | exact (proj1 (proj1 PK4))]|].
          split; [intros d Hd2; left; congruence | congruence]. }
        { exists ((((es1 ++ es2) ++ es3) ++ es4) ++ [Renamed (bak p) p]). split; [apply snoc_events; exact E4'|]. intros d Hd2. left. congruence. }
      * split; [apply SI, save_inv_log; exact (proj1 PK4)|]. exists ((((es1 ++ es2) ++ es3) ++ es4) ++ [NotRenamed (bak p) p]). split; [apply snoc_events; exact E4'|].
        intros d Hd2. right. split; [apply OLD; congruence|]. left. apply in_or_app. right. left. reflexivity.
    + rewrite (proj1 (proj2 K3 Pw)). cbn [pbind wp]. split; [exact (SI _ (proj1 PK4))|]. exists (((es1 ++ es2) ++ es3) ++ es4). split; [exact E4'|]. intros c Hc. congruence.
Qed.
End Odf.
