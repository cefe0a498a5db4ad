(** The shape of the tree of a reopened project file. *)
From Coq Require Import String List NArith ZArith Bool Lia Arith.
From Verif Require Import PyStr PyDict Spec Globals GlobalsProofs NovelModel NovelOps NovelOpsProofs YwTree IsoDate Yw7Build Yw7Read YwTreeProofs Yw7SceneProofs
  Yw7StartProofs Yw7SceneRT Yw7ChapterRT Yw7ElemRT Yw7ListRT Yw7TreeInv Yw7ProjRT Yw7SecRT Yw7TreeRT YwText YwTextProofs SpecYw7 Yw7Clean Yw7Clean2 Yw7Strict Yw7Reopen.
Import ListNotations.

(** [o]: what becomes of the texts of the leaves; all IDs and the names of the project variables stay as they are *)
Section Shape.
Variable o : str -> option str -> option str.
Hypothesis o_id : forall i, out_text (s "ID") (Some i) = Some i -> o (s "ID") (Some i) = Some i.
Hypothesis o_title : forall i, out_text (s "Title") (Some i) = Some i -> o (s "Title") (Some i) = Some i.
Notation R := (Forall2 (settled o)).

Lemma R_nil : forall k, R [] k -> k = [].
Proof. intros k H. inversion H. reflexivity. Qed.
Lemma R_one : forall e k, R [e] k -> exists e', k = [e'] /\ settled o e e'.
Proof. intros e k H. inversion H as [|? e' ? l He Hn E1 E2]. inversion Hn. exists e'. auto. Qed.
Lemma R_one' : forall e' k, R k [e'] -> exists e, k = [e] /\ settled o e e'.
Proof. intros e' k H. inversion H as [|e ? l ? He Hn E1 E2]. inversion Hn. exists e. auto. Qed.
Lemma R_leaf : forall t x e', settled o (leaf t x) e' -> e' = leaf t (o t x).
Proof. intros t x e' H. inversion H; subst. reflexivity. Qed.
Lemma leaf1_settled : forall t k k', R k k' -> leaf1 t k -> leaf1 t k'.
Proof.
  intros t k k' H [E | (x & E)]; apply (R_findall o t) in H; rewrite E in H.
  - left. exact (R_nil _ H).
  - right. apply R_one in H. destruct H as (e' & Ek & He). apply R_leaf in He. rewrite Ek, He. eexists. reflexivity.
Qed.
Lemma uniq_settled : forall t k k', R k k' -> uniq t k -> uniq t k'.
Proof.
  intros t k k' H [E | (x & E)]; apply (R_findall o t) in H; rewrite E in H.
  - left. exact (R_nil _ H).
  - right. apply R_one in H. destruct H as (e' & Ek & _). exists e'. exact Ek.
Qed.
Lemma findall_settled_nil : forall t k k', R k k' -> findall t k = [] -> findall t k' = [].
Proof. intros t k k' H E. apply (R_findall o t) in H. rewrite E in H. exact (R_nil _ H). Qed.
Lemma fields_settled : forall names k k', R k k' -> fields_wf names k -> fields_wf names k'.
Proof.
  intros names k k' H [U L]. split; [exact (uniq_settled _ _ _ H U)|]. intros F' HF f Hf. apply (R_findall o (s "Fields")) in H. rewrite HF in H.
  apply R_one' in H. destruct H as (F & E1 & HFF). apply (leaf1_settled f (e_kids F)); [apply settled_kids; exact HFF | apply L; [exact E1 | exact Hf]].
Qed.
Lemma start_settled : forall k k', R k k' -> start_wf k -> start_wf k'.
Proof.
  intros k k' H (H1 & H2 & H3 & H4 & H5). repeat (split; [eapply leaf1_settled; eassumption|]).
  destruct H5 as [H5 | (H5 & H6 & H7)]; [left; exact (findall_settled_nil _ _ _ H H5)|]. right.
  split; [exact (findall_settled_nil _ _ _ H H5)|]. split; [exact (findall_settled_nil _ _ _ H H6) | exact (findall_settled_nil _ _ _ H H7)].
Qed.
Lemma scene_settled : forall k k', R k k' -> scene_wf k -> scene_wf k'.
Proof.
  intros k k' H (H1 & H2 & H3 & H4). split; [intros t Ht; exact (leaf1_settled _ _ _ H (H1 t Ht))|]. split; [intros t Ht; exact (uniq_settled _ _ _ H (H2 t Ht))|].
  split; [exact (fields_settled _ _ _ H H3) | exact (start_settled _ _ H H4)].
Qed.
Lemma chapter_settled : forall k k', R k k' -> chapter_wf k -> chapter_wf k'.
Proof.
  intros k k' H (H1 & H2 & H3). split; [intros t Ht; exact (leaf1_settled _ _ _ H (H1 t Ht))|]. split; [intros t Ht; exact (uniq_settled _ _ _ H (H2 t Ht))|]. exact (fields_settled _ _ _ H H3).
Qed.
Lemma only_settled : forall t k k', R k k' -> only t k -> only t k'.
Proof.
  intros t k k' H. induction H as [|e e' k k' He H IH]; intros O; [intros x []|]. intros x [<- | Hx].
  - rewrite (settled_tag o e e' He). apply O. left. reflexivity.
  - apply IH; [intros y Hy; apply O; right; exact Hy | exact Hx].
Qed.
Lemma has_id_settled : forall i k k', R k k' -> id_ok out_text i -> has_id i k -> has_id i k'.
Proof.
  intros i k k' H Hi E. unfold has_id in *. apply (R_findall o (s "ID")) in H. rewrite E in H. apply R_one in H. destruct H as (e' & Ek & He).
  apply R_leaf in He. rewrite Ek, He. rewrite (o_id i Hi). reflexivity.
Qed.
Lemma section_settled : forall t (P : list elem -> Prop) k l k', (forall a b, R a b -> P a -> P b) -> section_ids out_text t k l -> Forall (fun p => P (e_kids (snd p))) l -> R k k' ->
  exists l', section_ids out_text t k' l' /\ Forall (fun p => P (e_kids (snd p))) l'.
Proof.
  intros t P k l k' HP (E & ND & F) FP H. subst k.
  assert (Q : exists l' : dict elem, map snd l' = k' /\ map fst l' = map fst l /\ Forall (fun p => e_tag (snd p) = t /\ has_id (fst p) (e_kids (snd p)) /\ id_ok out_text (fst p)) l' /\
    Forall (fun p => P (e_kids (snd p))) l').
  { clear ND. revert k' H. induction l as [|[i e] l IH]; intros k' H; cbn [map snd] in H; inversion H as [|? e' ? k1 He Hr]; subst.
    - exists []. repeat split; constructor.
    - inversion F as [|? ? (F1 & F2 & F3) Fr]; subst. inversion FP as [|? ? P1 Pr]; subst. cbn [fst snd] in *. destruct (IH Fr Pr k1 Hr) as (l' & A1 & A2 & A3 & A4).
      exists ((i, e') :: l'). cbn [map fst snd]. rewrite A1, A2. split; [reflexivity|]. split; [reflexivity|]. split; constructor; cbn [fst snd]; try assumption.
      + split; [rewrite (settled_tag o e e' He); reflexivity|]. split; [|exact F3]. exact (has_id_settled i _ _ (settled_kids o _ _ He) F3 F2).
      + exact (HP _ _ (settled_kids o _ _ He) P1). }
  destruct Q as (l' & A1 & A2 & A3 & A4). exists l'. split; [|exact A4]. split; [exact A1|]. split; [rewrite A2; exact ND | exact A3].
Qed.
Lemma vars_settled : forall k k' titles, R k k' -> vars_wf out_text k titles -> vars_wf out_text k' titles.
Proof.
  intros k k' titles H V. unfold vars_wf in *. revert k' H. induction V as [|t e ts k (V1 & V2 & V3 & V4) V IH]; intros k' H; inversion H as [|? e' ? k1 He Hr]; subst; constructor; [|apply IH; exact Hr].
  pose proof (settled_kids o _ _ He) as K. split; [rewrite (settled_tag o e e' He); exact V1|]. split; [|split; [exact (leaf1_settled _ _ _ K V3) | exact V4]].
  apply (R_findall o (s "Title")) in K. rewrite V2 in K. apply R_one in K. destruct K as (z & Ek & Hz). apply R_leaf in Hz. rewrite Ek, Hz, (o_title t V4). reflexivity.
Qed.

Lemma sec_settled_some : forall t r r' k, R r r' -> sec t r = Some k -> exists k', sec t r' = Some k' /\ R k k'.
Proof. intros t r r' k H E. pose proof (sec_settled o t r r' H) as Q. rewrite E in Q. exact Q. Qed.
Lemma sec_settled_nil : forall t r r', R r r' -> R (or_nil (sec t r)) (or_nil (sec t r')).
Proof. intros t r r' H. pose proof (sec_settled o t r r' H) as Q. destruct (sec t r) as [k|]; [destruct Q as (k' & -> & Q); exact Q | rewrite Q; constructor]. Qed.

Theorem tree_settled : forall r r', R r r' -> tree_wf out_text r -> tree_wf out_text r'.
Proof.
  intros r r' H [(kP & EP & (WP1 & WP2)) (kL & EL & WL) (kI & EI & WI) (kC & EC & WC) [WN1 WN2] (titles & WV) (kS & lS & ES & WS & WSs) (kH & lH & EH & WH & WHs)].
  destruct (sec_settled_some _ _ _ _ H EP) as (kP' & EP' & RP). destruct (sec_settled_some _ _ _ _ H EL) as (kL' & EL' & RL).
  destruct (sec_settled_some _ _ _ _ H EI) as (kI' & EI' & RI). destruct (sec_settled_some _ _ _ _ H EC) as (kC' & EC' & RC).
  destruct (sec_settled_some _ _ _ _ H ES) as (kS' & ES' & RS). destruct (sec_settled_some _ _ _ _ H EH) as (kH' & EH' & RH).
  constructor.
  - exists kP'. split; [exact EP'|]. split; [intros t Ht; exact (leaf1_settled _ _ _ RP (WP1 t Ht)) | exact (fields_settled _ _ _ RP WP2)].
  - exists kL'. split; [exact EL' | exact (only_settled _ _ _ RL WL)].
  - exists kI'. split; [exact EI' | exact (only_settled _ _ _ RI WI)].
  - exists kC'. split; [exact EC' | exact (only_settled _ _ _ RC WC)].
  - split; [exact (uniq_settled _ _ _ H WN1) | exact (only_settled _ _ _ (sec_settled_nil _ _ _ H) WN2)].
  - exists titles. exact (vars_settled _ _ _ (sec_settled_nil _ _ _ H) WV).
  - destruct (section_settled _ scene_wf _ _ _ scene_settled WS WSs RS) as (l' & A & B). exists kS', l'. auto.
  - destruct (section_settled _ chapter_wf _ _ _ chapter_settled WH WHs RH) as (l' & A & B). exists kH', l'. auto.
Qed.

End Shape.

(** ** Emptied sections *)
Lemma sec_wipe3_other : forall u r, other u = true -> sec u (wipe3 r) = sec u r.
Proof. intros u r H. unfold sec. rewrite find_wipe3 by exact H. reflexivity. Qed.
Lemma find_wipe_same : forall t r, find t (wipe t r) = option_map (with_kids []) (find t r).
Proof. intros. apply find_upd_same. intros []. reflexivity. Qed.
Lemma sec_wipe3_rebuilt : forall t r, In t [s "LOCATIONS"; s "ITEMS"; s "CHARACTERS"] -> sec t (wipe3 r) = option_map (fun _ => []) (sec t r).
Proof.
  intros t r H. unfold sec, wipe3.
  destruct H as [<- | [<- | [<- | []]]].
  - rewrite find_wipe_same, !find_wipe by reflexivity. destruct (find _ r) as [[]|]; reflexivity.
  - rewrite find_wipe by reflexivity. rewrite find_wipe_same, find_wipe by reflexivity. destruct (find _ r) as [[]|]; reflexivity.
  - rewrite !find_wipe by reflexivity. rewrite find_wipe_same. destruct (find _ r) as [[]|]; reflexivity.
Qed.
Lemma findall_wipe3 : forall u r, other u = true -> findall u (wipe3 r) = findall u r.
Proof.
  intros u r H. apply other_split in H. destruct H as (H1 & H2 & H3).
  assert (Q : forall t r, str_eqb t u = false -> findall u (wipe t r) = findall u r).
  { intros t r0 N. unfold wipe, findall. induction r0 as [|e r0 IH]; [reflexivity|]. cbn [upd]. destruct (str_eqb (e_tag e) t) eqn:E; cbn [filter].
    - rewrite with_kids_tag. apply str_eqb_eq in E. rewrite E, N. reflexivity.
    - rewrite IH. reflexivity. }
  unfold wipe3. rewrite !Q by assumption. reflexivity.
Qed.
Lemma tree_wipe3 : forall r, tree_wf out_text r -> tree_wf out_text (wipe3 r).
Proof.
  intros r [(kP & EP & WP) (kL & EL & WL) (kI & EI & WI) (kC & EC & WC) [WN1 WN2] (titles & WV) (kS & lS & ES & WS) (kH & lH & EH & WH)]. constructor.
  - exists kP. rewrite sec_wipe3_other by reflexivity. auto.
  - exists []. rewrite sec_wipe3_rebuilt by (cbn; tauto). rewrite EL. split; [reflexivity | intros e []].
  - exists []. rewrite sec_wipe3_rebuilt by (cbn; tauto). rewrite EI. split; [reflexivity | intros e []].
  - exists []. rewrite sec_wipe3_rebuilt by (cbn; tauto). rewrite EC. split; [reflexivity | intros e []].
  - unfold uniq. rewrite findall_wipe3, sec_wipe3_other by reflexivity. auto.
  - exists titles. rewrite sec_wipe3_other by reflexivity. exact WV.
  - exists kS, lS. rewrite sec_wipe3_other by reflexivity. auto.
  - exists kH, lH. rewrite sec_wipe3_other by reflexivity. auto.
Qed.

(** the result of a save does not depend on the contents of the sections which are rebuilt *)
Lemma rebuild_only_nil : forall {A} t (bd : A -> list elem -> list elem) ids d k, only t k -> rebuild t bd ids d [] = rebuild t bd ids d k.
Proof. intros A t bd ids d k H. unfold rebuild. rewrite (only_filter t k H). reflexivity. Qed.
Lemma section_wiped : forall t x f r k, sec t r = Some k -> f [] = f k -> in_section t x f (wipe t r) = in_section t x f r.
Proof.
  intros t x f r k E H. unfold in_section. unfold sec in E. rewrite find_wipe_same. destruct (find t r) as [e|]; [|discriminate]. cbn [option_map] in *. injection E as E.
  replace (e_kids (with_kids [] e)) with (@nil elem) by (destruct e; reflexivity). rewrite E, H. destruct (f k) as [k1|]; [|reflexivity]. cbn [bind]. f_equal. apply upd_upd_kids.
Qed.
Theorem build_wiped : forall loc dloc n r n1 r1, tree_wf out_text r -> build_tree loc dloc n (Some r) = Ok (n1, r1) -> build_tree loc dloc n (Some (wipe3 r)) = Ok (n1, r1).
Proof.
  intros loc dloc n r n1 r1 W Hb. destruct W as [_ (kL & EL & WL) (kI & EI & WI) (kC & EC & WC) _ _ _ _]. unfold build_tree in *.
  apply bind_ok in Hb. destruct Hb as (ra & Ha & Hb). pose proof (in_section_ok _ _ _ _ _ Ha) as (_ & _ & _ & _ & _ & Fa).
  rewrite (in_section_wipe3 _ _ _ _ _ (eq_refl : other (s "PROJECT") = true) Ha). cbn [bind].
  assert (EL1 : sec (s "LOCATIONS") ra = Some kL) by (unfold sec; rewrite (Fa (s "LOCATIONS") eq_refl); exact EL).
  assert (EI1 : sec (s "ITEMS") ra = Some kI) by (unfold sec; rewrite (Fa (s "ITEMS") eq_refl); exact EI).
  assert (EC1 : sec (s "CHARACTERS") ra = Some kC) by (unfold sec; rewrite (Fa (s "CHARACTERS") eq_refl); exact EC).
  apply bind_ok in Hb. destruct Hb as (rb & Hb1 & Hb). pose proof (in_section_ok _ _ _ _ _ Hb1) as (_ & _ & _ & _ & _ & Fb).
  unfold wipe3 at 1.
  assert (EL2 : sec (s "LOCATIONS") (wipe (s "ITEMS") (wipe (s "CHARACTERS") ra)) = Some kL) by (unfold sec; rewrite !find_wipe by reflexivity; exact EL1).
  rewrite (section_wiped _ _ _ _ kL EL2) by (apply rebuild_only_nil; exact WL).
  rewrite (in_section_wipe (s "ITEMS") (s "LOCATIONS") _ _ _ _ eq_refl (in_section_wipe (s "CHARACTERS") (s "LOCATIONS") _ _ _ _ eq_refl Hb1)). cbn [bind].
  apply bind_ok in Hb. destruct Hb as (rc & Hc1 & Hb). pose proof (in_section_ok _ _ _ _ _ Hc1) as (_ & _ & _ & _ & _ & Fc).
  assert (EI2 : sec (s "ITEMS") (wipe (s "CHARACTERS") rb) = Some kI) by (unfold sec; rewrite find_wipe by reflexivity; rewrite (Fb (s "ITEMS") eq_refl); exact EI1).
  rewrite (section_wiped _ _ _ _ kI EI2) by (apply rebuild_only_nil; exact WI).
  rewrite (in_section_wipe (s "CHARACTERS") (s "ITEMS") _ _ _ _ eq_refl Hc1). cbn [bind].
  apply bind_ok in Hb. destruct Hb as (rd & Hd1 & Hb).
  assert (EC2 : sec (s "CHARACTERS") rc = Some kC) by (unfold sec; rewrite (Fc (s "CHARACTERS") eq_refl), (Fb (s "CHARACTERS") eq_refl); exact EC1).
  rewrite (section_wiped _ _ _ _ kC EC2) by (apply rebuild_only_nil; exact WC). rewrite Hd1. cbn [bind]. exact Hb.
Qed.
