(** What the pieces show: strictly nested tags. *)
From Coq Require Import String List NArith ZArith Bool Lia Arith.
From Verif Require Import PyStr YwText WordCount WordCountProofs OdfXml OdtText OdtTextProofs SpecOdf SpecFormat FormatWords FormatLines.
Import ListNotations.

Section Run.
Variable author : str.

Inductive pplace := PW (sp : list str) | PN (sp : list str) (ps : list str) (cur : str).
Definition stack (p : pplace) : list str := match p with PW sp => sp | PN sp _ _ => sp end.
Definition strip (p : pplace) : pplace := match p with PW _ => PW [] | PN _ ps cur => PN [] ps cur end.
Definition restack (sp : list str) (p : pplace) : pplace := match p with PW _ => PW sp | PN _ ps cur => PN sp ps cur end.

(** one piece; [strict]: a closing tag must close the last opened tag *)
Definition kstep (strict : bool) (p : pplace) (q : piece) : option (list atom * pplace) :=
  match p, q with
  | PW sp, PC c => Some ([Glyph c sp], p)
  | PW sp, PB => if strict then Some ([Feed], p) else match sp with [] => Some ([Feed], p) | _ => None end
  | PW sp, PO t => Some ([], PW (t :: sp))
  | PW sp, PX t => match sp with u :: sp' => if strict then if str_eqb u t then Some ([], PW sp') else None else Some ([], PW sp') | [] => None end
  | PW sp, PH w => Some (if invisible w then [] else glyphs sp (s "[" ++ w ++ s "]"), p)
  | PW sp, PCo => Some ([], PN sp [] [])
  | PW _, PCx => None
  | PN sp ps cur, PC c => Some ([], PN sp ps (cur ++ [c]))
  | PN sp ps cur, PB => Some ([], PN sp (ps ++ [cur]) [])
  | PN sp ps cur, PCx => Some ([Note author (ps ++ [cur])], PW sp)
  | PN _ _ _, _ => None
  end.
Fixpoint kread (strict : bool) (p : pplace) (l : list piece) : option (list atom * pplace) :=
  match l with
  | [] => Some ([], p)
  | q :: l => match kstep strict p q with
      | Some (a, p1) => match kread strict p1 l with Some (b, p2) => Some (a ++ b, p2) | None => None end
      | None => None
      end
  end.
Lemma kread_app : forall st a b p, kread st p (a ++ b) =
  match kread st p a with Some (x, p1) => match kread st p1 b with Some (y, p2) => Some (x ++ y, p2) | None => None end | None => None end.
Proof.
  intros st a b. induction a as [|q a IH]; intro p.
  - cbn [app kread]. destruct (kread st p b) as [[y p2]|]; reflexivity.
  - cbn [app kread]. destruct (kstep st p q) as [[x p1]|]; [|reflexivity]. rewrite IH. destruct (kread st p1 a) as [[y p2]|]; [|reflexivity].
    destruct (kread st p2 b) as [[z p3]|]; [now rewrite app_assoc | reflexivity].
Qed.
Lemma kread_some_app : forall st a b p x p1 y p2, kread st p a = Some (x, p1) -> kread st p1 b = Some (y, p2) -> kread st p (a ++ b) = Some (x ++ y, p2).
Proof. intros st a b p x p1 y p2 H1 H2. now rewrite kread_app, H1, H2. Qed.

(** ** The strict case *)
(** removing empty pairs changes nothing *)
Lemma kread_rmp : forall t l p r, kread true p l = Some r -> kread true p (rmp t l) = Some r.
Proof.
  intros t l. induction l as [|a|a b l IH1 IH2] using piece_ind2; intros p r H; [exact H | exact H|].
  change (rmp t (a :: b :: l)) with (if isO t a && isX t b then rmp t l else a :: rmp t (b :: l)). destruct (isO t a && isX t b)%bool eqn:E.
  - apply IH1. apply andb_true_iff in E as [E1 E2]. destruct a; try discriminate. destruct b; try discriminate. cbn [isO isX] in *.
    apply str_eqb_eq in E1. apply str_eqb_eq in E2. subst. cbn [kread] in H. destruct p as [sp | sp ps cur]; cbn [kstep] in H; [|discriminate].
    rewrite (str_eqb_refl t) in H. destruct (kread true (PW sp) l) as [[b p2]|]; [exact H | discriminate].
  - set (m := b :: l) in *. change (kread true p (a :: m)) with (kread true p ([a] ++ m)) in H. change (a :: rmp t m) with ([a] ++ rmp t m).
    rewrite kread_app in *. destruct (kread true p [a]) as [[x p1]|]; [|discriminate]. destruct (kread true p1 m) as [[y p2]|] eqn:E2; [|discriminate].
    rewrite (IH2 p1 (y, p2) E2). exact H.
Qed.

(** counting *)
Definition occS (t : str) (sp : list str) : nat := length (filter (fun u => str_eqb u t) sp).
Lemma kread_count : forall t l p a p', kread true p l = Some (a, p') -> cnt (isO t) l + occS t (stack p) = cnt (isX t) l + occS t (stack p').
Proof.
  intros t l. induction l as [|q l IH]; intros p a p' H.
  - cbn [kread] in H. injection H as _ <-. reflexivity.
  - cbn [kread] in H. destruct (kstep true p q) as [[x p1]|] eqn:E; [|discriminate]. destruct (kread true p1 l) as [[b p2]|] eqn:E2; [|discriminate].
    injection H as _ <-. apply IH in E2.
    assert (G : cnt (isO t) [q] + occS t (stack p) = cnt (isX t) [q] + occS t (stack p1)).
    { destruct p as [sp | sp ps cur]; destruct q; cbn [kstep] in E; try discriminate;
        try (injection E as _ <-; reflexivity).
      - injection E as _ <-. unfold cnt, occS. cbn [filter isO isX stack length]. destruct (str_eqb t0 t); cbn [length]; lia.
      - destruct sp as [|u sp]; [discriminate|]. destruct (str_eqb u t0) eqn:Eu; [|discriminate]. apply str_eqb_eq in Eu. subst u. injection E as _ <-.
        unfold cnt, occS. cbn [filter isO isX stack length]. destruct (str_eqb t0 t); cbn [length]; lia. }
    change (q :: l) with ([q] ++ l). rewrite !cnt_app. lia.
Qed.

Definition calm (p : pplace) : Prop := match p with PW _ => True | PN sp _ _ => sp = [] end.
(** the tags that are open, the innermost first, in the order of the tags *)
Definition ordered (tags sp : list str) : Prop := sp = filter (fun t => smem t sp) tags.
Lemma ordered_cons : forall t ts sp, ~ In t ts -> ordered (t :: ts) sp ->
  (smem t sp = true /\ exists sp', sp = t :: sp' /\ ordered ts sp') \/ (smem t sp = false /\ ordered ts sp).
Proof.
  intros t ts sp Ht H. unfold ordered in *. cbn [filter] in H. destruct (smem t sp) eqn:E; [left | right; split; [reflexivity | exact H]].
  split; [reflexivity|]. destruct sp as [|u sp']; [discriminate|]. injection H as Hu H. subst u. exists sp'. split; [reflexivity|].
  assert (G : filter (fun x => smem x (t :: sp')) ts = filter (fun x => smem x sp') ts); [|exact (eq_trans H G)].
  apply filter_ext_in. intros x Hx. unfold smem. cbn [existsb]. destruct (str_eqb x t) eqn:Ex; [|reflexivity].
  apply str_eqb_eq in Ex. subst x. contradiction.
Qed.
Lemma ordered_incl : forall ts sp, ordered ts sp -> incl sp ts.
Proof. intros ts sp H x Hx. unfold ordered in H. rewrite H in Hx. apply filter_In in Hx. tauto. Qed.
Lemma occS_no : forall t sp, smem t sp = false -> occS t sp = 0.
Proof.
  intros t sp H. apply smem_false in H. unfold occS. induction sp as [|u sp IH]; [reflexivity|]. cbn [filter].
  destruct (str_eqb u t) eqn:E; [apply str_eqb_eq in E; subst; exfalso; apply H; now left|]. apply IH. intro Hi. apply H. now right.
Qed.
Lemma smem_self : forall t sp, smem t (t :: sp) = true.
Proof. intros. unfold smem. cbn [existsb]. now rewrite str_eqb_refl. Qed.
Lemma occS_hd : forall t sp, occS t (t :: sp) = S (occS t sp).
Proof. intros. unfold occS. cbn [filter]. now rewrite str_eqb_refl. Qed.
Lemma smem_notin : forall t sp ts, ~ In t ts -> incl sp ts -> smem t sp = false.
Proof. intros t sp ts H Hi. apply smem_false. intro Hx. apply H. now apply Hi. Qed.

(** one tag *)
Lemma adj1_strict : forall t ts l p a p', ~ In t ts -> kread true p l = Some (a, p') -> calm p -> calm p' -> ordered (t :: ts) (stack p) -> ordered (t :: ts) (stack p') ->
  exists S1 S1', ordered ts S1 /\ ordered ts S1' /\
  (forall x, In x ts -> smem x S1 = smem x (stack p)) /\ (forall x, In x ts -> smem x S1' = smem x (stack p')) /\
  kread true (restack S1 p) (fst (adj1 t (smem t (stack p)) l)) = Some (a, restack S1' p') /\ snd (adj1 t (smem t (stack p)) l) = smem t (stack p') /\
  calm (restack S1 p) /\ calm (restack S1' p').
Proof.
  intros t ts l p a p' Ht H C C' O O'.
  destruct (ordered_cons t ts (stack p) Ht O) as [[E [S1 [ES O1]]] | [E O1]];
  destruct (ordered_cons t ts (stack p') Ht O') as [[E' [S1' [ES' O1']]] | [E' O1']].
  - (* open at both ends *)
    exists S1, S1'. destruct p as [sp | sp ps cur]; [|cbn [stack calm] in *; congruence]. destruct p' as [sp' | sp' ps cur]; [|cbn [stack calm] in *; congruence].
    cbn [stack restack calm] in *. subst sp sp'. rewrite E, E'.
    split; [exact O1|]. split; [exact O1'|]. split; [|split; [|split; [|split; [|split; exact I]]]].
    + intros x Hx. unfold smem. cbn [existsb]. destruct (str_eqb x t) eqn:Ex; [apply str_eqb_eq in Ex; subst; contradiction | reflexivity].
    + intros x Hx. unfold smem. cbn [existsb]. destruct (str_eqb x t) eqn:Ex; [apply str_eqb_eq in Ex; subst; contradiction | reflexivity].
    + unfold adj1. cbn [fst]. apply kread_rmp. pose proof (kread_count t _ _ _ _ H) as K. cbn [stack] in K. rewrite !occS_hd in K.
      rewrite (occS_no t S1) in K by (eapply smem_notin; [exact Ht | now apply ordered_incl]).
      rewrite (occS_no t S1') in K by (eapply smem_notin; [exact Ht | now apply ordered_incl]).
      assert (D : cnt (isO t) (PO t :: l) - cnt (isX t) (PO t :: l) = 1).
      { unfold cnt in *. cbn [filter isO isX]. rewrite str_eqb_refl. cbn [length]. lia. }
      rewrite D. assert (D2 : cnt (isX t) ((PO t :: l) ++ repeat (PX t) 1) - cnt (isO t) ((PO t :: l) ++ repeat (PX t) 1) = 0).
      { rewrite !cnt_app. unfold cnt in *. cbn [filter isO isX repeat]. rewrite str_eqb_refl. cbn [length]. lia. }
      rewrite D2. cbn [repeat app]. cbn [kread kstep]. rewrite kread_app, H. cbn [kread kstep]. rewrite str_eqb_refl. now rewrite app_nil_r.
    + unfold adj1. cbn [snd]. pose proof (kread_count t _ _ _ _ H) as K. cbn [stack] in K. rewrite !occS_hd in K.
      rewrite (occS_no t S1) in K by (eapply smem_notin; [exact Ht | now apply ordered_incl]).
      rewrite (occS_no t S1') in K by (eapply smem_notin; [exact Ht | now apply ordered_incl]).
      apply Nat.ltb_lt. unfold cnt in *. cbn [filter isO isX]. rewrite str_eqb_refl. cbn [length]. lia.
  - (* open at the beginning *)
    exists S1, (stack p'). destruct p as [sp | sp ps cur]; [|cbn [stack calm] in *; congruence].
    cbn [stack restack calm] in *. subst sp. rewrite E, E'.
    assert (Er : restack (stack p') p' = p') by (destruct p'; reflexivity). rewrite Er.
    split; [exact O1|]. split; [exact O1'|]. split; [|split; [reflexivity |split; [|split; [|split; [exact I | exact C']]]]].
    + intros x Hx. unfold smem. cbn [existsb]. destruct (str_eqb x t) eqn:Ex; [apply str_eqb_eq in Ex; subst; contradiction | reflexivity].
    + unfold adj1. cbn [fst]. apply kread_rmp. pose proof (kread_count t _ _ _ _ H) as K. cbn [stack] in K. rewrite !occS_hd in K.
      rewrite (occS_no t S1) in K by (eapply smem_notin; [exact Ht | now apply ordered_incl]).
      rewrite (occS_no t (stack p')) in K by exact E'.
      assert (D : cnt (isO t) (PO t :: l) - cnt (isX t) (PO t :: l) = 0).
      { unfold cnt in *. cbn [filter isO isX]. rewrite str_eqb_refl. cbn [length]. lia. }
      rewrite D. cbn [repeat]. rewrite app_nil_r.
      assert (D2 : cnt (isX t) (PO t :: l) - cnt (isO t) (PO t :: l) = 0).
      { unfold cnt in *. cbn [filter isO isX]. rewrite str_eqb_refl. cbn [length]. lia. }
      rewrite D2. cbn [repeat app kread kstep]. now rewrite H.
    + unfold adj1. cbn [snd]. pose proof (kread_count t _ _ _ _ H) as K. cbn [stack] in K. rewrite !occS_hd in K.
      rewrite (occS_no t S1) in K by (eapply smem_notin; [exact Ht | now apply ordered_incl]).
      rewrite (occS_no t (stack p')) in K by exact E'.
      apply Nat.ltb_ge. unfold cnt in *. cbn [filter isO isX]. rewrite str_eqb_refl. cbn [length]. lia.
  - (* open at the end *)
    exists (stack p), S1'. destruct p' as [sp' | sp' ps cur]; [|cbn [stack calm] in *; congruence].
    assert (Er : restack (stack p) p = p) by (destruct p; reflexivity). rewrite Er.
    cbn [stack restack calm] in *. subst sp'. rewrite E, E'.
    split; [exact O1|]. split; [exact O1'|]. split; [reflexivity |]. split; [|split; [|split; [|split; [exact C | exact I]]]].
    + intros x Hx. unfold smem. cbn [existsb]. destruct (str_eqb x t) eqn:Ex; [apply str_eqb_eq in Ex; subst; contradiction | reflexivity].
    + unfold adj1. cbn [fst]. apply kread_rmp. pose proof (kread_count t _ _ _ _ H) as K. cbn [stack] in K. rewrite !occS_hd in K.
      rewrite (occS_no t S1') in K by (eapply smem_notin; [exact Ht | now apply ordered_incl]).
      rewrite (occS_no t (stack p)) in K by exact E.
      assert (D : cnt (isO t) l - cnt (isX t) l = 1) by lia. rewrite D.
      assert (D2 : cnt (isX t) (l ++ repeat (PX t) 1) - cnt (isO t) (l ++ repeat (PX t) 1) = 0).
      { rewrite !cnt_app. unfold cnt in *. cbn [filter isO isX repeat]. rewrite str_eqb_refl. cbn [length]. lia. }
      rewrite D2. cbn [repeat app]. rewrite kread_app, H. cbn [kread kstep]. rewrite str_eqb_refl. now rewrite app_nil_r.
    + unfold adj1. cbn [snd]. pose proof (kread_count t _ _ _ _ H) as K. cbn [stack] in K. rewrite !occS_hd in K.
      rewrite (occS_no t (stack p)) in K by exact E. apply Nat.ltb_lt. lia.
  - (* not open *)
    exists (stack p), (stack p'). assert (Er : restack (stack p) p = p) by (destruct p; reflexivity).
    assert (Er' : restack (stack p') p' = p') by (destruct p'; reflexivity). rewrite Er, Er', E, E'.
    split; [exact O1|]. split; [exact O1'|]. split; [reflexivity |]. split; [reflexivity |]. split; [|split; [|split; assumption]].
    + unfold adj1. cbn [fst]. apply kread_rmp. pose proof (kread_count t _ _ _ _ H) as K.
      rewrite (occS_no t (stack p)) in K by exact E. rewrite (occS_no t (stack p')) in K by exact E'.
      assert (D : cnt (isO t) l - cnt (isX t) l = 0) by lia. rewrite D. cbn [repeat]. rewrite app_nil_r.
      assert (D2 : cnt (isX t) l - cnt (isO t) l = 0) by lia. rewrite D2. exact H.
    + unfold adj1. cbn [snd]. pose proof (kread_count t _ _ _ _ H) as K.
      rewrite (occS_no t (stack p)) in K by exact E. rewrite (occS_no t (stack p')) in K by exact E'. apply Nat.ltb_ge. lia.
Qed.

Definition flags (ts sp : list str) : list (str * bool) := map (fun t => (t, smem t sp)) ts.
Lemma flags_ext : forall ts a b, (forall x, In x ts -> smem x a = smem x b) -> flags ts a = flags ts b.
Proof. intros ts a b H. unfold flags. apply map_ext_in. intros x Hx. now rewrite H. Qed.
(** all tags of a line *)
Lemma adjs_strict : forall ts l p a p', NoDup ts -> kread true p l = Some (a, p') -> calm p -> calm p' -> ordered ts (stack p) -> ordered ts (stack p') ->
  kread true (strip p) (fst (adjs l (flags ts (stack p)))) = Some (a, strip p') /\ snd (adjs l (flags ts (stack p))) = flags ts (stack p').
Proof.
  induction ts as [|t ts IH]; intros l p a p' Hn H C C' O O'.
  - unfold ordered in *. cbn [filter] in *. assert (E : strip p = p) by (destruct p; cbn [stack strip] in *; rewrite O; reflexivity).
    assert (E' : strip p' = p') by (destruct p'; cbn [stack strip] in *; rewrite O'; reflexivity). rewrite E, E'. split; [exact H | reflexivity].
  - apply NoDup_cons_iff in Hn as [Ht Hn]. destruct (adj1_strict t ts l p a p' Ht H C C' O O') as [S1 [S1' [O1 [O1' [F1 [F1' [H1 [B [C1 C1']]]]]]]]].
    specialize (IH _ _ _ _ Hn H1 C1 C1'). assert (Es : forall S q, stack (restack S q) = S) by (intros S [|]; reflexivity). rewrite !Es in IH.
    specialize (IH O1 O1') as [IH1 IH2]. assert (Er : forall S q, strip (restack S q) = strip q) by (intros S [|]; reflexivity). rewrite !Er in IH1.
    unfold flags at 1. unfold flags at 1. cbn [map adjs fst snd]. fold (flags ts (stack p)). rewrite <- (flags_ext ts S1 (stack p) F1). split; [exact IH1|].
    rewrite IH2, B. unfold flags at 2. cbn [map]. f_equal. now apply flags_ext.
Qed.

(** all lines *)
Fixpoint klines (tags : list str) (p : pplace) (ls : list (list piece)) (at' : list atom) (p' : pplace) : Prop :=
  match ls with
  | [] => False
  | [l] => kread true p l = Some (at', p') /\ calm p' /\ ordered tags (stack p')
  | l :: ls => exists a1 p1 a2 p2 a3, kread true p l = Some (a1, p1) /\ calm p1 /\ ordered tags (stack p1) /\ kstep true p1 PB = Some (a2, p2) /\
                 klines tags p2 ls a3 p' /\ at' = a1 ++ a2 ++ a3
  end.
Lemma kstep_pb : forall p a p', kstep true p PB = Some (a, p') -> stack p' = stack p /\ (calm p -> calm p') /\ kstep true (strip p) PB = Some (a, strip p').
Proof. intros p a p' H. destruct p; cbn [kstep] in H; injection H as <- <-; cbn; auto. Qed.
Lemma kread_lax : forall l p r, ~ In PB l -> kread true p l = Some r -> kread false p l = Some r.
Proof.
  induction l as [|q l IH]; intros p r Hb H; [exact H|]. cbn [kread] in *. destruct (kstep true p q) as [[a p1]|] eqn:E; [|discriminate].
  assert (E2 : kstep false p q = Some (a, p1)).
  { destruct p as [sp | sp ps cur]; destruct q; cbn [kstep] in *; try exact E; try discriminate; [exfalso; apply Hb; now left|].
    destruct sp as [|u sp]; [discriminate|]. destruct (str_eqb u t); [exact E | discriminate]. }
  rewrite E2. destruct (kread true p1 l) as [[b p2]|] eqn:E3; [|discriminate]. rewrite (IH p1 (b, p2)); [exact H | intro Hi; apply Hb; now right | exact E3].
Qed.
Lemma untag_pb : forall l, In PB l <-> In PB (untag l).
Proof. intro l. unfold untag. rewrite filter_In. tauto. Qed.
Lemma adjs_untag : forall st l, untag (fst (adjs l st)) = untag l.
Proof. induction st as [|[t b] st IH]; intro l; [reflexivity|]. cbn [adjs fst]. now rewrite IH, untag_adj1. Qed.
Lemma adjs_no_pb : forall st l, ~ In PB l -> ~ In PB (fst (adjs l st)).
Proof. intros st l H Hi. apply H. apply untag_pb. apply untag_pb in Hi. now rewrite adjs_untag in Hi. Qed.
Lemma plines_no_pb : forall l, Forall (fun x => ~ In PB x) (plines l).
Proof.
  induction l as [|p l IH]; [repeat constructor; intros []|]. destruct (plines_cons l) as [h [t E]]. rewrite E in IH. inversion IH as [|? ? I1 I2]; subst.
  assert (C : p = PB \/ p <> PB) by (destruct p; (now left) || (right; discriminate)). destruct C as [-> | C].
  - cbn [plines]. rewrite E. constructor; [intros [] | exact IH].
  - assert (G : plines (p :: l) = (p :: h) :: t) by (destruct p; try congruence; cbn [plines]; now rewrite E). rewrite G. constructor; [|exact I2].
    intros [Hi | Hi]; [congruence | tauto].
Qed.
Lemma adjlines_strict : forall tags ls p a p', NoDup tags -> Forall (fun x => ~ In PB x) ls -> klines tags p ls a p' -> calm p -> ordered tags (stack p) ->
  kread false (strip p) (pjoin (adjlines ls (flags tags (stack p)))) = Some (a, strip p').
Proof.
  intros tags ls. induction ls as [|l ls IH]; intros p a p' Hn Hb H C O; [contradiction|]. inversion Hb as [|? ? B1 B2]; subst. destruct ls as [|m ls].
  - destruct H as [H [C' O']]. cbn [adjlines pjoin]. apply kread_lax; [now apply adjs_no_pb | now apply adjs_strict].
  - destruct H as [a1 [p1 [a2 [p2 [a3 [H1 [C1 [O1 [H2 [H3 ->]]]]]]]]]].
    destruct (adjs_strict tags l p a1 p1 Hn H1 C C1 O O1) as [E1 E2]. destruct (kstep_pb _ _ _ H2) as [K1 [K2 K3]].
    apply kread_lax in E1; [|now apply adjs_no_pb]. assert (K4 : kstep false (strip p1) PB = Some (a2, strip p2)) by (destruct p1; exact K3).
    change (adjlines (l :: m :: ls) (flags tags (stack p))) with (fst (adjs l (flags tags (stack p))) :: adjlines (m :: ls) (snd (adjs l (flags tags (stack p))))).
    rewrite E2. set (A := adjlines (m :: ls) (flags tags (stack p1))).
    assert (EA : exists x y, A = x :: y) by (unfold A; cbn [adjlines]; eauto). destruct EA as [x [y EA]].
    assert (Ej : pjoin (fst (adjs l (flags tags (stack p))) :: A) = fst (adjs l (flags tags (stack p))) ++ PB :: pjoin A) by (rewrite EA; reflexivity).
    rewrite Ej. rewrite kread_app, E1. cbn [kread]. rewrite K4.
    assert (EB : kread false (strip p2) (pjoin A) = Some (a3, strip p')).
    { unfold A. rewrite <- K1. apply IH; [exact Hn | exact B2 | exact H3 | now apply K2 | now rewrite K1]. }
    rewrite EB. now rewrite app_assoc.
Qed.

(** ** From tokens to lines *)
Lemma klines_step : forall tags p q a p1 r at' p', q <> PB -> kstep true p q = Some (a, p1) -> klines tags p1 (plines r) at' p' ->
  klines tags p (plines (q :: r)) (a ++ at') p'.
Proof.
  intros tags p q a p1 r at' p' Hq H K. destruct (plines_cons r) as [h [t E]].
  assert (G : plines (q :: r) = (q :: h) :: t) by (destruct q; try congruence; cbn [plines]; now rewrite E). rewrite G. rewrite E in K.
  destruct t as [|m t].
  - destruct K as [K1 K2]. split; [|exact K2]. cbn [kread]. now rewrite H, K1.
  - destruct K as [a1 [p2 [a2 [p3 [a3 [H1 [C1 [O1 [H2 [H3 ->]]]]]]]]]]. exists (a ++ a1), p2, a2, p3, a3. split; [cbn [kread]; now rewrite H, H1|].
    split; [exact C1|]. split; [exact O1|]. split; [exact H2|]. split; [exact H3 | now rewrite <- app_assoc].
Qed.
Lemma klines_break : forall tags p a p1 r at' p', kstep true p PB = Some (a, p1) -> calm p -> ordered tags (stack p) -> klines tags p1 (plines r) at' p' ->
  klines tags p (plines (PB :: r)) (a ++ at') p'.
Proof.
  intros tags p a p1 r at' p' H C O K. cbn [plines]. destruct (plines_cons r) as [h [t E]]. rewrite E in *.
  change (exists a1 q1 a2 p2 a3, kread true p [] = Some (a1, q1) /\ calm q1 /\ ordered tags (stack q1) /\ kstep true q1 PB = Some (a2, p2) /\
                 klines tags p2 (h :: t) a3 p' /\ a ++ at' = a1 ++ a2 ++ a3).
  exists [], p, a, p1, at'. split; [reflexivity|]. split; [exact C|]. split; [exact O|]. split; [exact H|]. split; [exact K | reflexivity].
Qed.
Lemma lines_cons : forall c t, c <> 10%N -> lines (c :: t) = match lines t with h :: r => (c :: h) :: r | [] => [] end.
Proof. intros c t H. unfold lines. destruct (splitc_c c t H) as [p [ps [E1 E2]]]. rewrite E2, E1. reflexivity. Qed.
Lemma lines_nonempty : forall t, lines t <> [].
Proof. intro t. apply splitc_nonempty. Qed.
Lemma klines_note : forall tags t sp ps cur r at' p', (In 10%N t -> sp = []) -> klines tags (PW sp) (plines r) at' p' ->
  klines tags (PN sp ps cur) (plines (map note_piece t ++ PCx :: r)) (Note author (ps ++ glue cur (lines t)) :: at') p'.
Proof.
  intros tags t. induction t as [|c t IH]; intros sp ps cur r at' p' Hs K.
  - cbn [map app lines splitc glue]. rewrite app_nil_r. apply (klines_step tags (PN sp ps cur) PCx [Note author (ps ++ [cur])] (PW sp)); [discriminate | reflexivity | exact K].
  - cbn [map app]. unfold note_piece at 1. destruct (N.eqb c 10) eqn:E.
    + apply N.eqb_eq in E. subst c. assert (sp = []) by (apply Hs; now left). subst sp.
      unfold lines. rewrite splitc_10. fold (lines t). cbn [glue]. rewrite app_nil_r.
      assert (G : ps ++ cur :: lines t = (ps ++ [cur]) ++ glue [] (lines t)).
      { rewrite <- app_assoc. cbn [app]. destruct (lines t) eqn:El; [now destruct (lines_nonempty t) | reflexivity]. }
      refine (eq_ind_r (fun z => klines tags (PN [] ps cur) (plines (PB :: map note_piece t ++ PCx :: r)) (Note author z :: at') p') _ G).
      apply (klines_break tags (PN [] ps cur) [] (PN [] (ps ++ [cur]) [])); [reflexivity | reflexivity | |].
      * cbn [stack]. unfold ordered. clear. induction tags as [|x l IH]; [reflexivity | exact IH].
      * apply IH; [auto | exact K].
    + apply N.eqb_neq in E. rewrite lines_cons by exact E.
      assert (G : glue cur (match lines t with h :: r => (c :: h) :: r | [] => [] end) = glue (cur ++ [c]) (lines t)).
      { destruct (lines t); [reflexivity|]. cbn [glue]. now rewrite <- app_assoc. }
      rewrite G. apply (klines_step tags (PN sp ps cur) (PC c) [] (PN sp ps (cur ++ [c]))); [discriminate | reflexivity|].
      apply IH; [|exact K]. intro Hi. apply Hs. now right.
Qed.
Lemma drop_head : forall t open, ~ In t open -> drop t (t :: open) = open.
Proof.
  intros t open H. unfold drop. cbn [filter]. rewrite str_eqb_refl. cbn [negb]. induction open as [|u open IH]; [reflexivity|]. cbn [filter].
  destruct (str_eqb u t) eqn:E; [apply str_eqb_eq in E; subst; exfalso; apply H; now left|]. cbn [negb]. f_equal. apply IH. intro Hi. apply H. now right.
Qed.
Lemma klines_tokens : forall languages ks open, NoDup open -> forallb (token_ok languages) ks = true -> tidy open ks = true -> nested (tags_of languages) open ks ->
  exists sp, klines (tags_of languages) (PW open) (plines (pieces ks)) (meaning author open ks) (PW sp).
Proof.
  intros languages ks. set (tags := tags_of languages). induction ks as [|k ks IH]; intros open Hd Hk Ht Hn.
  - exists open. cbn [pieces flat_map plines klines kread meaning]. split; [reflexivity|]. split; [exact I | exact Hn].
  - cbn [forallb] in Hk. apply andb_true_iff in Hk as [H1 H2]. unfold pieces. cbn [flat_map]. fold (pieces ks).
    destruct k as [c | | t | t | w | t]; cbn [tidy nested] in Ht, Hn; cbn [pieces1 app meaning].
    + destruct (IH open Hd H2 Ht Hn) as [sp K]. exists sp. apply (klines_step tags (PW open) (PC c) [Glyph c open] (PW open)); [discriminate | reflexivity | exact K].
    + destruct Hn as [Ho Hn]. destruct (IH open Hd H2 Ht Hn) as [sp K]. exists sp.
      apply (klines_break tags (PW open) [Feed] (PW open)); [reflexivity | exact I | exact Ho | exact K].
    + apply andb_true_iff in Ht as [Hm Ht]. apply negb_true_iff in Hm. apply smem_false in Hm.
      destruct (IH (t :: open) (NoDup_cons t Hm Hd) H2 Ht Hn) as [sp K]. exists sp.
      apply (klines_step tags (PW open) (PO t) [] (PW (t :: open))); [discriminate | reflexivity | exact K].
    + apply andb_true_iff in Ht as [_ Ht]. destruct open as [|u open]; [contradiction|]. destruct Hn as [-> Hn].
      apply NoDup_cons_iff in Hd as [Hd1 Hd]. rewrite drop_head in * by exact Hd1. destruct (IH open Hd H2 Ht Hn) as [sp K]. exists sp.
      apply (klines_step tags (PW (t :: open)) (PX t) [] (PW open)); [discriminate | cbn [kstep]; now rewrite str_eqb_refl | exact K].
    + destruct (IH open Hd H2 Ht Hn) as [sp K]. exists sp. apply (klines_step tags (PW open) (PH w) _ (PW open)); [discriminate | reflexivity | exact K].
    + apply andb_true_iff in Ht as [Hl Ht]. destruct (IH open Hd H2 Ht Hn) as [sp K]. exists sp. rewrite <- app_assoc. cbn [app].
      apply (klines_step tags (PW open) PCo [] (PN open [] [])); [discriminate | reflexivity|].
      replace (lines t) with ([] ++ glue [] (lines t)) by (destruct (lines t) eqn:El; [now destruct (lines_nonempty t) | reflexivity]).
      apply klines_note; [|exact K]. intro Hi. apply orb_true_iff in Hl. destruct Hl as [Hl | Hl].
      * exfalso. apply negb_true_iff in Hl. assert (C : containsb [10%N] t = true); [|congruence]. apply containsb_spec.
        apply in_split in Hi as [x [y E]]. exists x, y. exact E.
      * now destruct open.
Qed.
End Run.
