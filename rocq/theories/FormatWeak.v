(** What the pieces show: tags that are opened and closed in turn. *)
From Coq Require Import String List NArith ZArith Bool Lia Arith.
From Verif Require Import PyStr YwText WordCount WordCountProofs OdfXml OdtText OdtTextProofs SpecOdf SpecFormat FormatWords FormatLines FormatRun.
Import ListNotations.

(** the openings and closings of one tag, in turn; a line ends with the tag closed *)
Fixpoint alt (t : str) (b : bool) (l : list piece) : option bool :=
  match l with
  | [] => Some b
  | q :: l =>
      if isO t q then if b then None else alt t true l
      else if isX t q then if b then alt t false l else None
      else match q with PB => if b then None else alt t b l | _ => alt t b l end
  end.
(** comments contain characters and line breaks only *)
Fixpoint nrun (n : bool) (l : list piece) : option bool :=
  match l with
  | [] => Some n
  | q :: l =>
      match q with
      | PC _ | PB => nrun n l
      | PCo => if n then None else nrun true l
      | PCx => if n then nrun false l else None
      | _ => if n then None else nrun n l
      end
  end.
Lemma alt_app : forall t a b x, alt t x (a ++ b) = match alt t x a with Some y => alt t y b | None => None end.
Proof.
  intros t a b. induction a as [|q a IH]; intro x; [reflexivity|]. cbn [app alt].
  destruct (isO t q); [destruct x; [reflexivity | apply IH]|]. destruct (isX t q); [destruct x; [apply IH | reflexivity]|].
  destruct q; try apply IH. destruct x; [reflexivity | apply IH].
Qed.
Lemma nrun_app : forall a b x, nrun x (a ++ b) = match nrun x a with Some y => nrun y b | None => None end.
Proof.
  intros a b. induction a as [|q a IH]; intro x; [reflexivity|]. cbn [app nrun]. destruct q; try apply IH; destruct x; try reflexivity; apply IH.
Qed.
Lemma isO_other : forall t u q, t <> u -> isO t q = true -> isO u q = false /\ isX u q = false.
Proof. intros t u q H E. destruct q; try discriminate. cbn in *. apply str_eqb_eq in E. subst. split; [now apply str_eqb_neq | reflexivity]. Qed.
Lemma isX_other : forall t u q, t <> u -> isX t q = true -> isO u q = false /\ isX u q = false.
Proof. intros t u q H E. destruct q; try discriminate. cbn in *. apply str_eqb_eq in E. subst. split; [reflexivity | now apply str_eqb_neq]. Qed.
Lemma alt_rmp : forall t u l b r, alt u b l = Some r -> alt u b (rmp t l) = Some r.
Proof.
  intros t u l. induction l as [|a|a c l IH1 IH2] using piece_ind2; intros b r H; [exact H | exact H|].
  change (rmp t (a :: c :: l)) with (if isO t a && isX t c then rmp t l else a :: rmp t (c :: l)).
  destruct (isO t a && isX t c)%bool eqn:E.
  - apply andb_true_iff in E as [E1 E2]. apply IH1. destruct (str_eq_dec t u) as [<- | D].
    + cbn [alt] in H. rewrite E1 in H. destruct b; [discriminate|]. assert (E3 : isO t c = false) by (destruct c; (discriminate || reflexivity)).
      rewrite E3, E2 in H. exact H.
    + cbn [alt] in H. destruct (isO_other t u a D E1) as [F1 F2]. destruct (isX_other t u c D E2) as [G1 G2]. rewrite F1, F2, G1, G2 in H.
      destruct a; try discriminate. destruct c; try discriminate. exact H.
  - change (a :: c :: l) with ([a] ++ c :: l) in H. change (a :: rmp t (c :: l)) with ([a] ++ rmp t (c :: l)). rewrite alt_app in *.
    destruct (alt u b [a]) as [y|]; [|discriminate]. now apply IH2.
Qed.
Lemma nrun_rmp : forall t l n r, nrun n l = Some r -> nrun n (rmp t l) = Some r.
Proof.
  intros t l. induction l as [|a|a c l IH1 IH2] using piece_ind2; intros b r H; [exact H | exact H|].
  change (rmp t (a :: c :: l)) with (if isO t a && isX t c then rmp t l else a :: rmp t (c :: l)).
  destruct (isO t a && isX t c)%bool eqn:E.
  - apply andb_true_iff in E as [E1 E2]. apply IH1. destruct a; try discriminate. destruct c; try discriminate. cbn [nrun] in H. destruct b; [discriminate | exact H].
  - change (a :: c :: l) with ([a] ++ c :: l) in H. change (a :: rmp t (c :: l)) with ([a] ++ rmp t (c :: l)). rewrite nrun_app in *.
    destruct (nrun b [a]) as [y|]; [|discriminate]. now apply IH2.
Qed.
Definition bit (b : bool) : nat := if b then 1 else 0.
Lemma alt_count : forall t l b b', alt t b l = Some b' -> cnt (isO t) l + bit b = cnt (isX t) l + bit b'.
Proof.
  intros t l. induction l as [|q l IH]; intros b b' H; [cbn in H; injection H as <-; reflexivity|]. unfold cnt in *. cbn [filter alt] in *.
  destruct (isO t q) eqn:E1; [|destruct (isX t q) eqn:E2].
  - assert (E2 : isX t q = false) by (destruct q; (discriminate || reflexivity)). rewrite E2. destruct b; [discriminate|]. apply IH in H. cbn [length bit] in *. lia.
  - destruct b; [|discriminate]. apply IH in H. cbn [length bit] in *. lia.
  - apply IH. destruct q; try exact H. destruct b; [discriminate | exact H].
Qed.
Lemma alt_repeat_other : forall t u n b, t <> u -> alt u b (repeat (PX t) n) = Some b /\ alt u b (repeat (PO t) n) = Some b.
Proof.
  intros t u n b H. assert (E : str_eqb t u = false) by now apply str_eqb_neq.
  induction n as [|n [IH1 IH2]]; [split; reflexivity|]. cbn [repeat alt isO isX]. rewrite E. split; assumption.
Qed.
Lemma adj1_other : forall t u x l b r, t <> u -> alt u b l = Some r -> alt u b (fst (adj1 t x l)) = Some r.
Proof.
  intros t u x l b r D H. unfold adj1. cbn [fst]. apply alt_rmp. assert (E : str_eqb t u = false) by now apply str_eqb_neq.
  assert (H1 : alt u b (if x then PO t :: l else l) = Some r) by (destruct x; [cbn [alt isO isX]; now rewrite E | exact H]).
  rewrite alt_app. rewrite (proj2 (alt_repeat_other t u _ b D)). rewrite alt_app, H1. apply (proj1 (alt_repeat_other t u _ r D)).
Qed.
Lemma adj1_same : forall t l b b', alt t b l = Some b' -> alt t false (fst (adj1 t b l)) = Some false /\ snd (adj1 t b l) = b'.
Proof.
  intros t l b b' H. pose proof (alt_count t l b b' H) as K. set (l1 := if b then PO t :: l else l).
  assert (H1 : alt t false l1 = Some b') by (unfold l1; destruct b; [cbn [alt isO]; now rewrite str_eqb_refl | exact H]).
  pose proof (alt_count t l1 false b' H1) as K1. cbn [bit] in K1. rewrite Nat.add_0_r in K1.
  unfold adj1. fold l1. cbn [fst snd]. assert (D : cnt (isO t) l1 - cnt (isX t) l1 = bit b') by lia. rewrite D. split; [|now destruct b'].
  apply alt_rmp. assert (H2 : alt t false (l1 ++ repeat (PX t) (bit b')) = Some false).
  { rewrite alt_app, H1. destruct b'; [|reflexivity]. cbn [bit repeat alt isO isX]. now rewrite str_eqb_refl. }
  pose proof (alt_count _ _ _ _ H2) as K2. cbn [bit] in K2.
  replace (cnt (isX t) (l1 ++ repeat (PX t) (bit b')) - cnt (isO t) (l1 ++ repeat (PX t) (bit b'))) with 0 by lia. exact H2.
Qed.
Lemma adj1_notes : forall t l b b' n n', alt t b l = Some b' -> nrun n l = Some n' -> (n = true -> b = false) -> (n' = true -> b' = false) ->
  nrun n (fst (adj1 t b l)) = Some n'.
Proof.
  intros t l b b' n n' H Hr Hb Hb'. pose proof (alt_count t l b b' H) as K. set (l1 := if b then PO t :: l else l).
  assert (H1 : alt t false l1 = Some b') by (unfold l1; destruct b; [cbn [alt isO]; now rewrite str_eqb_refl | exact H]).
  pose proof (alt_count t l1 false b' H1) as K1. cbn [bit] in K1. rewrite Nat.add_0_r in K1.
  unfold adj1. fold l1. cbn [fst]. assert (D : cnt (isO t) l1 - cnt (isX t) l1 = bit b') by lia. rewrite D.
  apply nrun_rmp. assert (H2 : alt t false (l1 ++ repeat (PX t) (bit b')) = Some false).
  { rewrite alt_app, H1. destruct b'; [|reflexivity]. cbn [bit repeat alt isO isX]. now rewrite str_eqb_refl. }
  pose proof (alt_count _ _ _ _ H2) as K2. cbn [bit] in K2.
  replace (cnt (isX t) (l1 ++ repeat (PX t) (bit b')) - cnt (isO t) (l1 ++ repeat (PX t) (bit b'))) with 0 by lia. cbn [repeat app].
  assert (R1 : nrun n l1 = Some n').
  { unfold l1. destruct b; [|exact Hr]. cbn [nrun]. destruct n; [specialize (Hb eq_refl); discriminate | exact Hr]. }
  rewrite nrun_app, R1. destruct b'; [|reflexivity]. destruct n'; [specialize (Hb' eq_refl); discriminate | reflexivity].
Qed.

Definition vector (ts : list str) (b : str -> bool) : list (str * bool) := map (fun t => (t, b t)) ts.
Lemma adjs_weak : forall ts l b b' n n', NoDup ts -> (forall t, In t ts -> alt t (b t) l = Some (b' t)) -> nrun n l = Some n' ->
  (n = true -> forall t, In t ts -> b t = false) -> (n' = true -> forall t, In t ts -> b' t = false) ->
  (forall t, In t ts -> alt t false (fst (adjs l (vector ts b))) = Some false) /\ nrun n (fst (adjs l (vector ts b))) = Some n' /\
  snd (adjs l (vector ts b)) = vector ts b' /\ (forall u x r, ~ In u ts -> alt u x l = Some r -> alt u x (fst (adjs l (vector ts b))) = Some r).
Proof.
  induction ts as [|t ts IH]; intros l b b' n n' Hn H Hr Hb Hb'.
  - split; [intros t []|]. split; [exact Hr|]. split; [reflexivity|]. intros u x r _ E. exact E.
  - apply NoDup_cons_iff in Hn as [Ht Hn]. cbn [vector map adjs fst snd]. fold (vector ts b).
    assert (H0 := H t (or_introl eq_refl)). destruct (adj1_same t l (b t) (b' t) H0) as [A1 A2].
    assert (R1 : nrun n (fst (adj1 t (b t) l)) = Some n').
    { eapply adj1_notes; [exact H0 | exact Hr | |]; intro E; [apply Hb | apply Hb']; auto; now left. }
    destruct (IH (fst (adj1 t (b t) l)) b b' n n' Hn) as [I1 [I2 [I3 I4]]].
    + intros u Hu. apply adj1_other; [intro E; subst; contradiction | apply H; now right].
    + exact R1.
    + intros E u Hu. apply Hb; [exact E | now right].
    + intros E u Hu. apply Hb'; [exact E | now right].
    + split; [|split; [exact I2|split]].
      * intros u [<- | Hu]; [|now apply I1]. apply I4; [exact Ht | exact A1].
      * rewrite A2, I3. reflexivity.
      * intros u x r Hu E. apply I4; [intro Hi; apply Hu; now right|]. apply adj1_other; [intro D; apply Hu; now left | exact E].
Qed.

Fixpoint wlines (tags : list str) (b : str -> bool) (n : bool) (ls : list (list piece)) : Prop :=
  match ls with
  | [] => n = false
  | l :: ls => exists b' n', (forall t, In t tags -> alt t (b t) l = Some (b' t)) /\ nrun n l = Some n' /\ (n' = true -> forall t, In t tags -> b' t = false) /\
               wlines tags b' n' ls
  end.
Lemma adjlines_weak : forall tags ls b n, NoDup tags -> wlines tags b n ls -> (n = true -> forall t, In t tags -> b t = false) ->
  (forall t, In t tags -> alt t false (pjoin (adjlines ls (vector tags b))) = Some false) /\ nrun n (pjoin (adjlines ls (vector tags b))) = Some false.
Proof.
  intros tags ls. induction ls as [|l ls IH]; intros b n Hn H Hb.
  - cbn [wlines] in H. subst n. split; [reflexivity | reflexivity].
  - destruct H as [b' [n' [H1 [H2 [H3 H4]]]]]. destruct (adjs_weak tags l b b' n n' Hn H1 H2 Hb H3) as [A1 [A2 [A3 _]]].
    cbn [adjlines]. rewrite A3. specialize (IH b' n' Hn H4 H3) as [I1 I2]. destruct ls as [|m ls].
    + cbn [adjlines pjoin]. cbn [wlines] in H4. subst n'. split; assumption.
    + set (A := adjlines (m :: ls) (vector tags b')) in *. assert (EA : exists x y, A = x :: y) by (unfold A; cbn [adjlines]; eauto). destruct EA as [x [y EA]].
      assert (Ej : pjoin (fst (adjs l (vector tags b)) :: A) = fst (adjs l (vector tags b)) ++ PB :: pjoin A) by (rewrite EA; reflexivity).
      rewrite Ej. split.
      * intros t Ht. rewrite alt_app, (A1 t Ht). cbn [alt isO isX]. now apply I1.
      * rewrite nrun_app, A2. cbn [nrun]. exact I2.
Qed.

(** ** Reading *)
Section Read.
Variable author : str.
Lemma filter_count_upd : forall (tags : list str) b u v, NoDup tags -> In u tags -> b u = negb v ->
  length (filter b tags) + bit v = length (filter (fun t => if str_eqb t u then v else b t) tags) + bit (negb v).
Proof.
  induction tags as [|t tags IH]; intros b u v Hn Hi Hb; [contradiction|]. apply NoDup_cons_iff in Hn as [Ht Hn]. cbn [filter].
  destruct (str_eqb t u) eqn:E.
  - apply str_eqb_eq in E. subst t. rewrite Hb.
    assert (G : filter (fun t => if str_eqb t u then v else b t) tags = filter b tags).
    { apply filter_ext_in. intros x Hx. destruct (str_eqb x u) eqn:Ex; [apply str_eqb_eq in Ex; subst; contradiction | reflexivity]. }
    rewrite G. destruct v; cbn [negb bit length]; lia.
  - destruct Hi as [Hi | Hi]; [subst; rewrite str_eqb_refl in E; discriminate|]. specialize (IH b u v Hn Hi Hb).
    destruct (b t); cbn [length]; lia.
Qed.
Lemma read_weak : forall tags l b p n, NoDup tags -> Forall (piece_ok tags) l -> (forall t, In t tags -> alt t (b t) l = Some false) -> nrun n l = Some false ->
  length (stack p) = length (filter b tags) -> n = match p with PW _ => false | PN _ _ _ => true end -> exists out, kread author false p l = Some (out, PW []).
Proof.
  intros tags l. induction l as [|q l IH]; intros b p n Hn Hp Ha Hr Hl En.
  - cbn [nrun alt] in *. injection Hr as ->. destruct p as [sp | sp ps cur]; [|discriminate]. cbn [stack] in Hl.
    assert (F : filter b tags = []).
    { clear -Ha. induction tags as [|t tags IH]; [reflexivity|]. cbn [filter]. pose proof (Ha t (or_introl eq_refl)) as E. injection E as ->.
      apply IH. intros u Hu. apply Ha. now right. }
    rewrite F in Hl. destruct sp; [|discriminate]. exists []. reflexivity.
  - inversion Hp as [|? ? Hq Hp']; subst.
    assert (Hnext : forall b' p1 a n1, kstep author false p q = Some (a, p1) -> (forall t, In t tags -> alt t (b' t) l = Some false) -> nrun n1 l = Some false ->
      length (stack p1) = length (filter b' tags) -> n1 = match p1 with PW _ => false | PN _ _ _ => true end -> exists out, kread author false p (q :: l) = Some (out, PW [])).
    { intros b' p1 a n1 K1 K2 K3 K4 K5. destruct (IH b' p1 n1 Hn Hp' K2 K3 K4 K5) as [out E]. exists (a ++ out). cbn [kread]. now rewrite K1, E. }
    destruct p as [sp | sp ps cur]; destruct q as [c | | u | u | w | |]; cbn [nrun] in Hr; try discriminate.
    + apply (Hnext b (PW sp) [Glyph c sp] false); auto.
    + assert (F : filter b tags = []).
      { clear -Ha. induction tags as [|t tags IH]; [reflexivity|]. cbn [filter]. pose proof (Ha t (or_introl eq_refl)) as E. cbn [alt isO isX] in E.
        destruct (b t); [discriminate|]. apply IH. intros u Hu. apply Ha. now right. }
      cbn [stack] in Hl. rewrite F in Hl. destruct sp; [|discriminate]. apply (Hnext b (PW []) [Feed] false); auto.
      * intros t Ht. specialize (Ha t Ht). cbn [alt isO isX] in Ha. destruct (b t); [discriminate | exact Ha].
      * cbn [stack]. now rewrite F.
    + cbn [piece_ok] in Hq. pose proof (Ha u Hq) as E. cbn [alt isO] in E. rewrite str_eqb_refl in E. destruct (b u) eqn:Eb; [discriminate|].
      apply (Hnext (fun t => if str_eqb t u then true else b t) (PW (u :: sp)) [] false); auto.
      * intros t Ht. destruct (str_eqb t u) eqn:Et; [apply str_eqb_eq in Et; subst; exact E|]. specialize (Ha t Ht). cbn [alt isO isX] in Ha.
        rewrite str_eqb_sym, Et in Ha. exact Ha.
      * pose proof (filter_count_upd tags b u true Hn Hq Eb) as K. cbn [bit negb stack length] in *. lia.
    + cbn [piece_ok] in Hq. pose proof (Ha u Hq) as E. cbn [alt isO isX] in E. rewrite str_eqb_refl in E. destruct (b u) eqn:Eb; [|discriminate].
      pose proof (filter_count_upd tags b u false Hn Hq Eb) as K. cbn [bit negb stack length] in *. destruct sp as [|v sp]; [cbn [length] in Hl; lia|].
      apply (Hnext (fun t => if str_eqb t u then false else b t) (PW sp) [] false); auto.
      * intros t Ht. destruct (str_eqb t u) eqn:Et; [apply str_eqb_eq in Et; subst; exact E|]. specialize (Ha t Ht). cbn [alt isO isX] in Ha.
        rewrite str_eqb_sym, Et in Ha. exact Ha.
      * cbn [stack length] in *. lia.
    + apply (Hnext b (PW sp) (if invisible w then [] else glyphs sp (s "[" ++ w ++ s "]")) false); auto.
    + apply (Hnext b (PN sp [] []) [] true); auto.
    + apply (Hnext b (PN sp ps (cur ++ [c])) [] true); auto.
    + apply (Hnext b (PN sp (ps ++ [cur]) []) [] true); auto. intros t Ht. specialize (Ha t Ht). cbn [alt isO isX] in Ha. destruct (b t); [discriminate | exact Ha].
    + apply (Hnext b (PW sp) [Note author (ps ++ [cur])] false); auto.
Qed.
Lemma undress_glyphs : forall sp t, map undress (glyphs sp t) = glyphs [] t.
Proof. intros sp t. unfold glyphs. rewrite map_map. reflexivity. Qed.
Lemma kread_untag : forall l p out p', kread author false p l = Some (out, p') -> kread author false (strip p) (untag l) = Some (map undress out, strip p').
Proof.
  induction l as [|q l IH]; intros p out p' H.
  - cbn [kread] in H. injection H as <- <-. reflexivity.
  - cbn [kread] in H. destruct (kstep author false p q) as [[a p1]|] eqn:E; [|discriminate]. destruct (kread author false p1 l) as [[b p2]|] eqn:E2; [|discriminate].
    injection H as <- <-. apply IH in E2.
    assert (C : (map undress a = [] /\ strip p1 = strip p /\ untag (q :: l) = untag l) \/
                (untag (q :: l) = q :: untag l /\ kstep author false (strip p) q = Some (map undress a, strip p1))).
    { destruct p as [sp | sp ps cur]; destruct q; cbn [kstep strip untag filter] in *; try discriminate;
        try (right; injection E as <- <-; split; [reflexivity | try reflexivity]).
      - right. destruct sp; [|discriminate]. injection E as <- <-. split; reflexivity.
      - left. injection E as <- <-. repeat split.
      - left. destruct sp as [|u sp]; [discriminate|]. injection E as <- <-. repeat split.
      - cbn [strip kstep]. destruct (invisible w); [reflexivity | 
        change (Glyph 91 sp :: glyphs sp (w ++ s "]")) with (glyphs sp (s "[" ++ w ++ s "]")); now rewrite undress_glyphs]. }
    rewrite map_app. destruct C as [[C1 [C2 C3]] | [C1 C2]].
    + rewrite C1, C3, <- C2. exact E2.
    + rewrite C1. cbn [kread]. rewrite C2, E2. reflexivity.
Qed.
Lemma read_note : forall t ps cur r, kread author false (PN [] ps cur) (map note_piece t ++ PCx :: r) =
  match kread author false (PW []) r with Some (b, p) => Some (Note author (ps ++ glue cur (lines t)) :: b, p) | None => None end.
Proof.
  induction t as [|c t IH]; intros ps cur r.
  - cbn [map app kread kstep lines splitc glue]. destruct (kread author false (PW []) r) as [[b p]|]; [|reflexivity]. cbn [app]. now rewrite app_nil_r.
  - cbn [map app kread]. unfold note_piece at 1. destruct (N.eqb c 10) eqn:E.
    + apply N.eqb_eq in E. subst c. cbn [kstep]. rewrite IH. unfold lines. rewrite splitc_10. fold (lines t). cbn [glue]. rewrite app_nil_r.
      destruct (kread author false (PW []) r) as [[b p]|]; [|reflexivity]. cbn [app]. rewrite <- app_assoc. cbn [app].
      destruct (lines t) eqn:El; [now destruct (lines_nonempty t) | reflexivity].
    + apply N.eqb_neq in E. cbn [kstep]. rewrite IH. rewrite lines_cons by exact E.
      destruct (kread author false (PW []) r) as [[b p]|]; [|reflexivity]. cbn [app]. destruct (lines t); [reflexivity|]. cbn [glue]. now rewrite <- app_assoc.
Qed.
Lemma untag_note : forall t, untag (map note_piece t) = map note_piece t.
Proof.
  induction t as [|c t IH]; [reflexivity|]. cbn [map]. change (note_piece c :: map note_piece t) with ([note_piece c] ++ map note_piece t). rewrite untag_app, IH. f_equal.
  unfold note_piece. destruct (N.eqb c 10); reflexivity.
Qed.
Lemma read_source : forall ks open, kread author false (PW []) (untag (pieces ks)) = Some (map undress (meaning author open ks), PW []).
Proof.
  induction ks as [|k ks IH]; intro open; [reflexivity|]. unfold pieces. cbn [flat_map]. fold (pieces ks). rewrite untag_app.
  destruct k as [c | | t | t | w | t]; cbn [pieces1 meaning].
  - cbn [untag filter app kread kstep]. now rewrite (IH open).
  - cbn [untag filter app kread kstep]. now rewrite (IH open).
  - cbn [untag filter app]. apply IH.
  - cbn [untag filter app]. apply IH.
  - cbn [untag filter app kread kstep]. rewrite (IH open). rewrite map_app. destruct (invisible w); [reflexivity|]. now rewrite undress_glyphs.
  - change (PCo :: map note_piece t ++ [PCx]) with ([PCo] ++ map note_piece t ++ [PCx]). rewrite !untag_app, untag_note. cbn [untag filter app]. rewrite <- app_assoc.
    cbn [app kread kstep]. rewrite read_note, (IH open). cbn [app map undress]. destruct (lines t) eqn:El; [now destruct (lines_nonempty t) | reflexivity].
Qed.
End Read.

(** ** From tokens to lines *)
Definition upd (u : str) (v : bool) (b : str -> bool) : str -> bool := fun t => if str_eqb t u then v else b t.
Lemma wlines_step : forall tags q r b n b1 n1, q <> PB -> (forall t, In t tags -> alt t (b t) [q] = Some (b1 t)) -> nrun n [q] = Some n1 ->
  wlines tags b1 n1 (plines r) -> wlines tags b n (plines (q :: r)).
Proof.
  intros tags q r b n b1 n1 Hq H1 H2 K. destruct (plines_cons r) as [h [t E]].
  assert (G : plines (q :: r) = (q :: h) :: t) by (destruct q; try congruence; cbn [plines]; now rewrite E). rewrite G. rewrite E in K.
  destruct K as [b' [n' [K1 [K2 [K3 K4]]]]]. exists b', n'. split; [|split; [|split; [exact K3 | exact K4]]].
  - intros u Hu. change (q :: h) with ([q] ++ h). rewrite alt_app, (H1 u Hu). now apply K1.
  - change (q :: h) with ([q] ++ h). rewrite nrun_app, H2. exact K2.
Qed.
Lemma wlines_break : forall tags r b n, (n = true -> forall t, In t tags -> b t = false) -> wlines tags b n (plines r) -> wlines tags b n (plines (PB :: r)).
Proof. intros tags r b n H K. cbn [plines wlines]. exists b, n. split; [reflexivity|]. split; [reflexivity|]. split; [exact H | exact K]. Qed.
Lemma wlines_note : forall tags t r b, (In 10%N t -> forall u, In u tags -> b u = false) -> wlines tags b false (plines r) ->
  wlines tags b true (plines (map note_piece t ++ PCx :: r)).
Proof.
  intros tags t r b. induction t as [|c t IH]; intros H K.
  - cbn [map app]. now apply (wlines_step tags PCx r b true b false).
  - cbn [map app]. unfold note_piece at 1. destruct (N.eqb c 10) eqn:E.
    + apply N.eqb_eq in E. subst c. apply wlines_break; [intros _; apply H; now left|]. apply IH; [intro; apply H; now left | exact K].
    + apply (wlines_step tags (PC c) _ b true b true); [discriminate | reflexivity | reflexivity|]. apply IH; [|exact K]. intro Hi. apply H. now right.
Qed.
Lemma wlines_ext : forall tags ls b c n, (forall t, In t tags -> b t = c t) -> wlines tags b n ls -> wlines tags c n ls.
Proof.
  intros tags ls b c n H K. destruct ls as [|l ls]; [exact K|]. destruct K as [b' [n' [K1 K2]]]. exists b', n'. split; [|exact K2].
  intros t Ht. rewrite <- (H t Ht). now apply K1.
Qed.
Lemma wlines_tokens : forall languages ks open, forallb (token_ok languages) ks = true -> tidy open ks = true ->
  wlines (tags_of languages) (fun t => smem t open) false (plines (pieces ks)).
Proof.
  intros languages ks. set (tags := tags_of languages). induction ks as [|k ks IH]; intros open Hk Ht.
  - cbn [pieces flat_map plines wlines]. exists (fun t => smem t open), false. split; [reflexivity|]. split; [reflexivity|]. split; [discriminate | reflexivity].
  - cbn [forallb] in Hk. apply andb_true_iff in Hk as [H1 H2]. unfold pieces. cbn [flat_map]. fold (pieces ks).
    destruct k as [c | | t | t | w | t]; cbn [tidy] in Ht; cbn [pieces1 app].
    + apply (wlines_step tags (PC c) _ _ false (fun t => smem t open) false); [discriminate | reflexivity | reflexivity | now apply IH].
    + apply wlines_break; [discriminate | now apply IH].
    + apply andb_true_iff in Ht as [Hm Ht]. apply negb_true_iff in Hm.
      apply (wlines_step tags (PO t) _ _ false (fun u => smem u (t :: open)) false); [discriminate | | reflexivity | now apply IH].
      intros u Hu. cbn [alt isO isX]. unfold smem at 3. cbn [existsb]. fold (smem u open). rewrite (str_eqb_sym u t). destruct (str_eqb t u) eqn:E; [|reflexivity].
      apply str_eqb_eq in E. subst u. rewrite Hm. reflexivity.
    + apply andb_true_iff in Ht as [Hm Ht].
      apply (wlines_step tags (PX t) _ _ false (fun u => smem u (drop t open)) false); [discriminate | | reflexivity | now apply IH].
      assert (Q : forall u, smem u (drop t open) = (negb (str_eqb t u) && smem u open)%bool).
      { intro u. apply eq_true_iff_eq. rewrite andb_true_iff, !smem_In. unfold drop. rewrite filter_In, !negb_true_iff. rewrite (str_eqb_sym t u). tauto. }
      intros u Hu. cbn [alt isO isX]. rewrite Q. destruct (str_eqb t u) eqn:E; [|reflexivity]. apply str_eqb_eq in E. subst u. rewrite Hm. reflexivity.
    + apply (wlines_step tags (PH w) _ _ false (fun t => smem t open) false); [discriminate | reflexivity | reflexivity | now apply IH].
    + apply andb_true_iff in Ht as [Hl Ht]. rewrite <- app_assoc. cbn [app].
      apply (wlines_step tags PCo _ _ false (fun t => smem t open) true); [discriminate | reflexivity | reflexivity|].
      apply wlines_note; [|now apply IH]. intro Hi. apply orb_true_iff in Hl. destruct Hl as [Hl | Hl].
      * exfalso. apply negb_true_iff in Hl. assert (C : containsb [10%N] t = true); [|congruence]. apply containsb_spec.
        apply in_split in Hi as [x [y E]]. exists x, y. exact E.
      * destruct open; [reflexivity | discriminate].
Qed.
