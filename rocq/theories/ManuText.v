(** Exporting a restorable text: what the formatting conversion does with the tags that are open at line breaks. *)
From Coq Require Import String List NArith ZArith Bool Lia Arith.
From Verif Require Import PyStr YwText WordCount WordCountProofs OdfXml OdtText OdtTextProofs SpecOdf SpecFormat SpecManuscript
  FormatWords FormatLines FormatRun FormatXml FormatProofs.
Import ListNotations.

(** the pieces of a text where the tags selected by f are closed and opened again at line breaks *)
Fixpoint spread (f : str -> bool) (open : list str) (ks : list token) : list piece :=
  match ks with
  | [] => []
  | Brk :: r => match open with t :: _ => if f t then [PX t; PB; PO t] else [PB] | [] => [PB] end ++ spread f open r
  | Opn t :: r => PO t :: spread f (t :: open) r
  | Cls t :: r => PX t :: spread f (tl open) r
  | k :: r => pieces1 k ++ spread f open r
  end.
Lemma spread_false : forall f ks open, (forall t, f t = false) -> spread f open ks = pieces ks.
Proof.
  intros f ks. induction ks as [|k ks IH]; intros open F; [reflexivity|]. unfold pieces in *. cbn [flat_map spread]. destruct k; cbn [pieces1 app]; rewrite IH by exact F; try reflexivity.
  destruct open; [reflexivity|]. now rewrite F.
Qed.

(** ** One line *)
Definition isO' (p : piece) : bool := match p with PO _ => true | _ => false end.
Definition isX' (p : piece) : bool := match p with PX _ => true | _ => false end.
(** no opening tag directly before a closing tag *)
Fixpoint npair (l : list piece) : bool := match l with a :: ((b :: _) as r) => negb (isO' a && isX' b) && npair r | _ => true end.
Lemma npair_tl : forall a l, npair (a :: l) = true -> npair l = true.
Proof. intros a [|b l] H; [reflexivity|]. cbn [npair] in H. now apply andb_true_iff in H. Qed.
Lemma npair_app_l : forall a b, npair (a ++ b) = true -> npair a = true.
Proof.
  induction a as [|x a IH]; intros b H; [reflexivity|]. destruct a as [|y a]; [reflexivity|]. cbn [app] in *. cbn [npair] in *. apply andb_true_iff in H as [H1 H2].
  rewrite H1. exact (IH b H2).
Qed.
Lemma npair_app_r : forall a b, npair (a ++ b) = true -> npair b = true.
Proof. induction a as [|x a IH]; intros b H; [exact H|]. apply IH. cbn [app] in H. now apply npair_tl in H. Qed.
Lemma npair_rmp : forall t l, npair l = true -> rmp t l = l.
Proof.
  intros t l. induction l as [|a|a b r IH1 IH2] using piece_ind2; intro H; [reflexivity | reflexivity|].
  change (rmp t (a :: b :: r)) with (if isO t a && isX t b then rmp t r else a :: rmp t (b :: r)). rewrite IH2 by now apply npair_tl in H. cbn [npair] in H.
  apply andb_true_iff in H as [H _]. apply negb_true_iff in H. destruct (isO t a && isX t b)%bool eqn:E; [|reflexivity]. exfalso. apply andb_true_iff in E as [E1 E2].
  destruct a; try discriminate. destruct b; discriminate.
Qed.
Definition only (t : str) (sp : list str) : list str := if smem t sp then [t] else [].
Lemma adj1_line : forall t l sp0 sp1, length sp0 <= 1 -> length sp1 <= 1 -> npair (map PO sp0 ++ l ++ map PX sp1) = true ->
  cnt (isO t) l + occS t sp0 = cnt (isX t) l + occS t sp1 ->
  adj1 t (smem t sp0) l = (map PO (only t sp0) ++ l ++ map PX (only t sp1), smem t sp1).
Proof.
  intros t l sp0 sp1 L0 L1 Np C.
  assert (O : forall sp, length sp <= 1 -> occS t sp = (if smem t sp then 1 else 0) /\ (smem t sp = true -> sp = [t])).
  { intros [|u [|v sp]] L; cbn [length] in L; try lia; [split; [reflexivity | discriminate]|]. unfold occS, smem. cbn [filter existsb]. rewrite orb_false_r. rewrite (str_eqb_sym t u).
    destruct (str_eqb u t) eqn:E; split; try reflexivity; try discriminate. intros _. apply str_eqb_eq in E. now subst. }
  destruct (O sp0 L0) as [O0 Q0]. destruct (O sp1 L1) as [O1 Q1]. rewrite O0, O1 in C. unfold adj1. cbn [fst snd].
  set (l1 := if smem t sp0 then PO t :: l else l).
  assert (E1 : l1 = map PO (only t sp0) ++ l) by (unfold l1, only; destruct (smem t sp0); reflexivity).
  assert (C1 : cnt (isO t) l1 = cnt (isX t) l1 + if smem t sp1 then 1 else 0).
  { unfold l1. destruct (smem t sp0); [|lia]. change (PO t :: l) with ([PO t] ++ l). rewrite !cnt_app. unfold cnt at 1 3. cbn [filter isO isX]. rewrite str_eqb_refl. cbn [length]. lia. }
  assert (D : cnt (isO t) l1 - cnt (isX t) l1 = if smem t sp1 then 1 else 0) by (rewrite C1; destruct (smem t sp1); lia).
  rewrite D. assert (R : l1 ++ repeat (PX t) (if smem t sp1 then 1 else 0) = l1 ++ map PX (only t sp1)) by (unfold only; destruct (smem t sp1); reflexivity). rewrite R.
  assert (Z : cnt (isX t) (l1 ++ map PX (only t sp1)) - cnt (isO t) (l1 ++ map PX (only t sp1)) = 0).
  { rewrite !cnt_app, C1. unfold only. destruct (smem t sp1); cbn [map]; unfold cnt at 2 4; cbn [filter isO isX]; rewrite ?str_eqb_refl; cbn [length]; lia. }
  rewrite Z. cbn [repeat app]. rewrite npair_rmp.
  - rewrite E1, <- app_assoc. f_equal. destruct (smem t sp1); reflexivity.
  - rewrite E1, <- app_assoc. unfold only. destruct (smem t sp0) eqn:S0.
    + rewrite (Q0 eq_refl) in Np. destruct (smem t sp1) eqn:S1; [rewrite (Q1 eq_refl) in Np; exact Np|]. cbn [map] in *. rewrite app_nil_r. rewrite app_assoc in Np. now apply npair_app_l in Np.
    + cbn [map app]. apply npair_app_r in Np. destruct (smem t sp1) eqn:S1; [rewrite (Q1 eq_refl) in Np; exact Np|]. cbn [map]. rewrite app_nil_r. now apply npair_app_l in Np.
Qed.
Definition within (ts sp : list str) : list str := filter (fun t => smem t ts) sp.
Lemma adjs_line : forall ts l sp0 sp1, NoDup ts -> length sp0 <= 1 -> length sp1 <= 1 -> npair (map PO sp0 ++ l ++ map PX sp1) = true ->
  (forall t, In t ts -> cnt (isO t) l + occS t sp0 = cnt (isX t) l + occS t sp1) ->
  adjs l (flags ts sp0) = (map PO (within ts sp0) ++ l ++ map PX (within ts sp1), flags ts sp1).
Proof.
  induction ts as [|t ts IH]; intros l sp0 sp1 ND L0 L1 Np C.
  - cbn [flags map adjs]. unfold within. rewrite !(filter_ext (fun t => smem t []) (fun _ => false)) by reflexivity. rewrite !none_left. cbn [map app]. now rewrite app_nil_r.
  - apply NoDup_cons_iff in ND as [Nt ND].
    unfold flags. cbn [map]. cbn [adjs]. fold (flags ts sp0). fold (flags ts sp1). rewrite (adj1_line t l sp0 sp1 L0 L1 Np) by (apply C; now left). cbn [fst snd].
    set (sp0' := filter (fun u => negb (str_eqb t u)) sp0). set (sp1' := filter (fun u => negb (str_eqb t u)) sp1).
    assert (A : forall sp, length sp <= 1 -> let sp' := filter (fun u => negb (str_eqb t u)) sp in length sp' <= 1 /\ flags ts sp' = flags ts sp /\
      ((smem t sp = true /\ sp = [t] /\ sp' = []) \/ (smem t sp = false /\ sp' = sp))).
    { intros [|u [|v sp]] L; cbn [length] in L; try lia; cbv zeta; cbn [filter]; [split; [auto | split; [reflexivity | right; split; reflexivity]]|].
      unfold smem. cbn [existsb]. rewrite orb_false_r. destruct (str_eqb t u) eqn:E; cbn [negb length].
      - apply str_eqb_eq in E. subst u. split; [auto|]. split; [|left; auto]. apply flags_ext. intros x Hx. unfold smem. cbn [existsb]. rewrite orb_false_r. symmetry. apply str_eqb_neq. intros ->. contradiction.
      - split; [auto|]. split; [reflexivity | right; auto]. }
    destruct (A sp0 L0) as [A1 [A2 A3]]. destruct (A sp1 L1) as [B1 [B2 B3]]. fold sp0' in A1, A2, A3. fold sp1' in B1, B2, B3. rewrite <- A2.
    assert (T : map PO sp0' ++ (map PO (only t sp0) ++ l ++ map PX (only t sp1)) ++ map PX sp1' = map PO sp0 ++ l ++ map PX sp1).
    { unfold only. destruct A3 as [[-> [E0 ->]] | [-> ->]]; destruct B3 as [[-> [E1 ->]] | [-> ->]]; rewrite ?E0, ?E1; cbn [map app]; rewrite ?app_nil_r; try reflexivity; rewrite <- ?app_assoc; reflexivity. }
    rewrite (IH _ sp0' sp1' ND A1 B1).
    + cbn [fst snd]. rewrite B2. f_equal.
      assert (W : forall sp, map (fun x => x) (within (t :: ts) sp) = within (t :: ts) sp) by (intro; apply map_id).
      assert (V : forall sp sp', length sp <= 1 -> ((smem t sp = true /\ sp = [t] /\ sp' = []) \/ (smem t sp = false /\ sp' = sp)) ->
        (within ts sp' = [] /\ within (t :: ts) sp = only t sp) \/ (only t sp = [] /\ within (t :: ts) sp = within ts sp')).
      { intros sp sp' L [[E1 [E2 E3]] | [E1 E2]]; [left; subst; split; [reflexivity|]; unfold within, only; cbn [filter]; unfold smem; cbn [existsb]; now rewrite str_eqb_refl|].
        right. unfold only. rewrite E1. split; [reflexivity|]. subst sp'. unfold within. apply filter_ext_in. intros x Hx. unfold smem at 1. cbn [existsb]. destruct (str_eqb x t) eqn:E; [|reflexivity].
        apply str_eqb_eq in E. subst x. apply smem_In in Hx. congruence. }
      destruct (V sp0 sp0' L0 A3) as [[V1 V2] | [V1 V2]]; destruct (V sp1 sp1' L1 B3) as [[V3 V4] | [V3 V4]]; rewrite V1, V2, V3, V4; cbn [map app]; rewrite ?app_nil_r; try reflexivity; now rewrite <- ?app_assoc.
    + rewrite T. exact Np.
    + intros u Hu. specialize (C u (or_intror Hu)). assert (Ne : str_eqb t u = false) by (apply str_eqb_neq; intros ->; contradiction).
      assert (K : forall sp, cnt (isO u) (map PO (only t sp)) = 0 /\ cnt (isX u) (map PO (only t sp)) = 0 /\ cnt (isO u) (map PX (only t sp)) = 0 /\ cnt (isX u) (map PX (only t sp)) = 0).
      { intro sp. unfold only. destruct (smem t sp); cbn [map]; unfold cnt; cbn [filter isO isX]; rewrite ?Ne; auto. }
      assert (J : forall sp sp', ((smem t sp = true /\ sp = [t] /\ sp' = []) \/ (smem t sp = false /\ sp' = sp)) -> occS u sp' = occS u sp).
      { intros sp sp' [[_ [-> ->]] | [_ ->]]; [|reflexivity]. unfold occS. cbn [filter]. now rewrite Ne. }
      rewrite !cnt_app. destruct (K sp0) as [K1 [K2 [K3 K4]]]. destruct (K sp1) as [K5 [K6 [K7 K8]]]. rewrite (J _ _ A3), (J _ _ B3). lia.
Qed.

(** ** All lines *)
Definition everywhere : str -> bool := fun _ => true.
Definition is_brk (k : token) : bool := match k with Brk => true | _ => false end.
Lemma first_line : forall ks, (exists k1 k2, ks = k1 ++ Brk :: k2 /\ forallb (fun k => negb (is_brk k)) k1 = true) \/ forallb (fun k => negb (is_brk k)) ks = true.
Proof.
  induction ks as [|k ks IH]; [now right|]. destruct (is_brk k) eqn:E; [left; exists [], ks; destruct k; try discriminate; split; reflexivity|].
  destruct IH as [[k1 [k2 [E1 E2]]] | IH]; [left; exists (k :: k1), k2; subst; cbn [forallb app]; rewrite E; auto | right; cbn [forallb]; rewrite E; exact IH].
Qed.
Lemma plines_one : forall l, ~ In PB l -> plines l = [l].
Proof.
  induction l as [|p l IH]; intro Hn; [reflexivity|]. assert (Hl : ~ In PB l) by (intro; apply Hn; now right). destruct p; try (cbn [plines]; rewrite IH by exact Hl; reflexivity).
  exfalso. apply Hn. now left.
Qed.
Lemma plines_line : forall l r, ~ In PB l -> plines (l ++ PB :: r) = l :: plines r.
Proof.
  induction l as [|p l IH]; intros r Hn; [reflexivity|]. assert (Hl : ~ In PB l) by (intro; apply Hn; now right). cbn [app]. destruct p; try (cbn [plines]; rewrite IH by exact Hl; reflexivity).
  exfalso. apply Hn. now left.
Qed.
Definition neutral (p : piece) : bool := match p with PO _ | PX _ | PB => false | _ => true end.
Lemma neutral_notes : forall t, containsb [10%N] t = false -> forallb neutral (map note_piece t) = true.
Proof.
  intros t E. assert (Hn : ~ In 10%N t). { intro Hi. apply in_split in Hi as [a [b ->]]. assert (C : containsb [10%N] (a ++ 10%N :: b) = true) by (apply containsb_spec; exists a, b; reflexivity). congruence. }
  clear E. induction t as [|c t IH]; [reflexivity|]. cbn [map forallb]. rewrite IH by (intro; apply Hn; now right). unfold note_piece. destruct (N.eqb c 10) eqn:E; [|reflexivity]. apply N.eqb_eq in E. exfalso. apply Hn. now left.
Qed.
Lemma neutral_cnt : forall t l, forallb neutral l = true -> cnt (isO t) l = 0 /\ cnt (isX t) l = 0 /\ ~ In PB l.
Proof.
  intros t l. induction l as [|p l IH]; intro F; [repeat split; auto|]. cbn [forallb] in F. apply andb_true_iff in F as [F1 F2]. destruct (IH F2) as [I1 [I2 I3]].
  unfold cnt in *. cbn [filter]. destruct p; try discriminate; cbn [isO isX]; (split; [exact I1 | split; [exact I2|]]); intros [E | E]; try discriminate; contradiction.
Qed.
Lemma npair_neutral : forall m p l, forallb neutral m = true -> (forall q, isO' q = false -> npair (q :: l) = true) -> m <> [] -> npair (p :: m ++ l) = true.
Proof.
  induction m as [|a m IH]; intros p l F G Hn; [congruence|]. cbn [forallb] in F. apply andb_true_iff in F as [F1 F2]. change (npair (p :: (a :: m) ++ l)) with (negb (isO' p && isX' a) && npair (a :: m ++ l))%bool.
  assert (Ha : isX' a = false /\ isO' a = false) by (destruct a; try discriminate; split; reflexivity). destruct Ha as [-> Ha]. rewrite andb_false_r. cbn [negb andb].
  destruct m as [|b m]; [now apply G | apply IH; [exact F2 | exact G | discriminate]].
Qed.
(** a tag that has just been opened is not closed at once *)
Definition lively (ks : list token) : Prop := match ks with [] | Cls _ :: _ | Brk :: _ => False | _ => True end.
Lemma line_facts : forall tags k1 rest open, forallb (fun k => negb (is_brk k)) k1 = true -> well_tagged open (k1 ++ rest) = true ->
  match rest with [] | Brk :: _ => True | _ => False end ->
  (forall t, In (Opn t) k1 -> In t tags) -> incl open tags ->
  exists open1, well_tagged open1 rest = true /\ (forall f, spread f open (k1 ++ rest) = pieces k1 ++ spread f open1 rest) /\ incl open1 tags /\
    (forall t, cnt (isO t) (pieces k1) + occS t open = cnt (isX t) (pieces k1) + occS t open1) /\ ~ In PB (pieces k1) /\
    (forall p, (isO' p = true -> lively (k1 ++ rest)) -> npair (p :: pieces k1 ++ map PX open1) = true).
Proof.
  intros tags. induction k1 as [|k k1 IH]; intros rest open B W Hr Ht Ho.
  - exists open. split; [exact W|]. split; [reflexivity|]. split; [exact Ho|]. split; [reflexivity|]. split; [auto|]. intros p Hp. cbn [pieces flat_map app]. destruct open as [|t open]; [reflexivity|].
    cbn [map npair]. cbn [isX']. rewrite andb_true_r. destruct (isO' p); [exfalso; specialize (Hp eq_refl); destruct rest as [|[] rest]; contradiction|]. cbn [negb andb].
    clear. revert t. induction open as [|u open IH]; intro t; [reflexivity|]. cbn [map npair isO' negb andb]. apply (IH u).
  - cbn [forallb] in B. apply andb_true_iff in B as [B1 B2]. cbn [app well_tagged] in W.
    assert (Ht2 : forall t, In (Opn t) k1 -> In t tags) by (intros t Hi; apply Ht; now right).
    assert (Neutral : forall m open', pieces1 k = m -> forallb neutral m = true -> m <> [] -> (forall f, spread f open ((k :: k1) ++ rest) = m ++ spread f open (k1 ++ rest)) -> open' = open ->
      well_tagged open (k1 ++ rest) = true -> exists open1, well_tagged open1 rest = true /\ (forall f, spread f open ((k :: k1) ++ rest) = pieces (k :: k1) ++ spread f open1 rest) /\ incl open1 tags /\
      (forall t, cnt (isO t) (pieces (k :: k1)) + occS t open = cnt (isX t) (pieces (k :: k1)) + occS t open1) /\ ~ In PB (pieces (k :: k1)) /\
      (forall p, (isO' p = true -> lively ((k :: k1) ++ rest)) -> npair (p :: pieces (k :: k1) ++ map PX open1) = true)).
    { intros m _ Em Nm Hm Sp _ W2. destruct (IH rest open B2 W2 Hr Ht2 Ho) as [open1 [I1 [I2 [I3 [I4 [I5 I6]]]]]]. exists open1. split; [exact I1|].
      assert (Ep : pieces (k :: k1) = m ++ pieces k1) by (unfold pieces; cbn [flat_map]; now rewrite Em). rewrite Ep. split; [intro f; rewrite Sp, I2; apply app_assoc|]. split; [exact I3|].
      split; [intro t; destruct (neutral_cnt t m Nm) as [N1 [N2 _]]; rewrite !cnt_app, N1, N2; exact (I4 t)|].
      split; [destruct (neutral_cnt [] m Nm) as [_ [_ N3]]; rewrite in_app_iff; tauto|]. intros p _. rewrite <- app_assoc. apply npair_neutral; [exact Nm | | exact Hm]. intros q Hq. apply I6. congruence. }
    destruct k as [c | | t | t | w | t]; cbn [is_brk negb] in B1; try discriminate.
    + apply (Neutral [PC c] open); try reflexivity; try discriminate; exact W.
    + clear Neutral. apply andb_true_iff in W as [W W2]. apply andb_true_iff in W as [W W1]. apply andb_true_iff in W as [W0 _].
      assert (Hl : lively (k1 ++ rest)). { destruct (k1 ++ rest) as [|[] r]; try discriminate; exact I. }
      destruct (IH rest (t :: open) B2 W2 Hr Ht2) as [open1 [I1 [I2 [I3 [I4 [I5 I6]]]]]].
      { intros x [<- | Hx]; [apply Ht; now left | now apply Ho]. }
      exists open1. split; [exact I1|]. split; [intro f; cbn [app spread]; rewrite I2; reflexivity|]. split; [exact I3|]. split; [|split].
      * intro u. specialize (I4 u). unfold pieces in *. cbn [flat_map pieces1 app]. unfold cnt in *. cbn [filter isO isX]. unfold occS in *. cbn [filter] in I4. destruct (str_eqb t u); cbn [length] in *; lia.
      * unfold pieces. cbn [flat_map pieces1 app]. intros [E | E]; [discriminate | now apply I5].
      * intros p _. unfold pieces. cbn [flat_map pieces1 app]. change (npair (p :: PO t :: flat_map pieces1 k1 ++ map PX open1)) with (negb (isO' p && isX' (PO t)) && npair (PO t :: pieces k1 ++ map PX open1))%bool.
        cbn [isX']. rewrite andb_false_r. cbn [negb andb]. apply I6. auto.
    + clear Neutral. destruct open as [|u open]; [discriminate|]. apply andb_true_iff in W as [W W2]. apply andb_true_iff in W as [W0 _]. apply str_eqb_eq in W0. subst u.
      destruct (IH rest open B2 W2 Hr Ht2) as [open1 [I1 [I2 [I3 [I4 [I5 I6]]]]]].
      { intros x Hx. apply Ho. now right. }
      exists open1. split; [exact I1|]. split; [intro f; cbn [app spread tl]; rewrite I2; reflexivity|]. split; [exact I3|]. split; [|split].
      * intro u. specialize (I4 u). unfold pieces in *. cbn [flat_map pieces1 app]. unfold cnt in *. cbn [filter isO isX]. unfold occS in *. cbn [filter]. destruct (str_eqb t u); cbn [length] in *; lia.
      * unfold pieces. cbn [flat_map pieces1 app]. intros [E | E]; [discriminate | now apply I5].
      * intros p Hp. unfold pieces. cbn [flat_map pieces1 app]. change (npair (p :: PX t :: flat_map pieces1 k1 ++ map PX open1)) with (negb (isO' p && isX' (PX t)) && npair (PX t :: pieces k1 ++ map PX open1))%bool.
        cbn [isX']. rewrite andb_true_r. destruct (isO' p); [exfalso; exact (Hp eq_refl)|]. cbn [negb andb]. apply I6. discriminate.
    + apply andb_true_iff in W as [_ W]. apply (Neutral [PH w] open); try reflexivity; try discriminate; exact W.
    + apply andb_true_iff in W as [W W2]. apply andb_true_iff in W as [W _]. apply andb_true_iff in W as [W _]. apply negb_true_iff in W.
      apply (Neutral (PCo :: map note_piece t ++ [PCx]) open); try reflexivity; try discriminate; [|exact W2]. cbn [forallb neutral andb]. rewrite forallb_app, (neutral_notes t W). reflexivity.
Qed.
Lemma within_all : forall ts sp, incl sp ts -> within ts sp = sp.
Proof. intros ts sp. induction sp as [|x sp IH]; intro Hi; [reflexivity|]. unfold within in *. cbn [filter]. assert (E : smem x ts = true) by (apply smem_In; apply Hi; now left). rewrite E. f_equal. apply IH. intros y Hy. apply Hi. now right. Qed.
Lemma well_brk : forall open r, well_tagged open (Brk :: r) = true -> length open <= 1 /\ (open = [] \/ lively r) /\ well_tagged open r = true.
Proof.
  intros [|t [|u open]] r W; cbn [well_tagged] in W; try discriminate; cbn [length]; [split; [lia | split; [now left | exact W]]|].
  apply andb_true_iff in W as [W1 W2]. split; [lia|]. split; [right | exact W2]. destruct r as [|[] r]; try discriminate; exact I.
Qed.
Lemma lines_spread : forall tags m ks open, NoDup tags -> length ks <= m -> length open <= 1 -> well_tagged open ks = true -> (open = [] \/ lively ks) ->
  (forall t, In (Opn t) ks -> In t tags) -> incl open tags ->
  pjoin (adjlines (plines (pieces ks)) (flags tags open)) = map PO open ++ spread everywhere open ks.
Proof.
  intros tags m. induction m as [|m IH]; intros ks open ND L Lo W Hl Ht Ho.
  { destruct ks; [|cbn in L; lia]. destruct open; [|discriminate]. cbn [pieces flat_map plines adjlines pjoin map app spread].
    rewrite (adjs_line tags [] [] [] ND); cbn [length map app]; try lia; reflexivity. }
  assert (Line : forall k1 rest, ks = k1 ++ rest -> forallb (fun k => negb (is_brk k)) k1 = true -> match rest with [] | Brk :: _ => True | _ => False end ->
    exists open1, length open1 <= 1 /\ well_tagged open1 rest = true /\ (forall f, spread f open ks = pieces k1 ++ spread f open1 rest) /\ incl open1 tags /\ ~ In PB (pieces k1) /\
    adjs (pieces k1) (flags tags open) = (map PO open ++ pieces k1 ++ map PX open1, flags tags open1)).
  { intros k1 rest -> B Hr. assert (Ht1 : forall t, In (Opn t) k1 -> In t tags) by (intros t Hi; apply Ht; apply in_app_iff; now left).
    destruct (line_facts tags k1 rest open B W Hr Ht1 Ho) as [open1 [I1 [I2 [I3 [I4 [I5 I6]]]]]]. exists open1.
    assert (L1 : length open1 <= 1). { destruct rest as [|[] rest]; try contradiction; [destruct open1; [cbn; lia | discriminate] | now apply well_brk in I1]. }
    split; [exact L1|]. split; [exact I1|]. split; [exact I2|]. split; [exact I3|]. split; [exact I5|]. rewrite (adjs_line tags (pieces k1) open open1 ND Lo L1).
    - now rewrite (within_all _ _ Ho), (within_all _ _ I3).
    - destruct open as [|t [|u open]]; cbn [length] in Lo; try lia; cbn [map app].
      + specialize (I6 PB). cbn [isO'] in I6. apply npair_tl with (a := PB). apply I6. discriminate.
      + apply I6. intros _. destruct Hl as [Hl | Hl]; [discriminate | exact Hl].
    - intros t _. exact (I4 t). }
  destruct (first_line ks) as [[k1 [k2 [E B]]] | B].
  - destruct (Line k1 (Brk :: k2) E B I) as [open1 [L1 [W1 [S1 [O1 [N1 A1]]]]]]. rewrite S1. assert (Ep : pieces ks = pieces k1 ++ PB :: pieces k2) by (rewrite E; unfold pieces; rewrite flat_map_app; reflexivity).
    rewrite Ep, plines_line by exact N1. cbn [adjlines]. rewrite A1. cbn [fst snd]. destruct (well_brk _ _ W1) as [_ [Hl1 W2]].
    assert (Lk : length k2 <= m) by (rewrite E in L; rewrite app_length in L; cbn [length] in L; lia).
    assert (Hk : forall t, In (Opn t) k2 -> In t tags) by (intros t Hi; apply Ht; rewrite E; apply in_app_iff; right; now right).
    pose proof (IH k2 open1 ND Lk L1 W2 Hl1 Hk O1) as G. destruct (plines_cons (pieces k2)) as [h [tl E2]]. rewrite E2 in *. cbn [adjlines] in *. set (x := fst (adjs h (flags tags open1))) in *. set (y := adjlines tl (snd (adjs h (flags tags open1)))) in *. change (pjoin ((map PO open ++ pieces k1 ++ map PX open1) :: x :: y)) with ((map PO open ++ pieces k1 ++ map PX open1) ++ PB :: pjoin (x :: y)).
    rewrite G. clear - L1. rewrite <- !app_assoc. f_equal. f_equal. cbn [spread]. destruct open1 as [|t [|u open1]]; cbn [length] in L1; try lia; reflexivity.
  - destruct (Line ks [] (eq_sym (app_nil_r ks)) B I) as [open1 [L1 [W1 [S1 [O1 [N1 A1]]]]]]. rewrite S1, plines_one by exact N1. cbn [adjlines pjoin]. rewrite A1. cbn [fst]. destruct open1; [|discriminate]. reflexivity.
Qed.
Theorem adjusted_spread : forall languages ks, NoDup languages -> forallb (token_ok languages) ks = true -> well_tagged [] ks = true -> adjusted languages ks = spread everywhere [] ks.
Proof.
  intros languages ks ND H W. unfold adjusted. change (closed languages) with (flags (tags_of languages) []).
  rewrite (lines_spread (tags_of languages) (length ks) ks []); [reflexivity | now apply tags_nodup | lia | cbn; lia | exact W | now left | | intros x []].
  intros t Hi. rewrite forallb_forall in H. specialize (H _ Hi). cbn [token_ok] in H. now apply smem_In in H.
Qed.

(** ** The conversion keeps everything: there is no white space at the end *)
Lemma spread_snoc : forall f ks k open, exists sp, spread f open (ks ++ [k]) = spread f open ks ++ spread f sp [k].
Proof.
  intros f ks k. induction ks as [|x ks IH]; intro open; [exists open; reflexivity|]. cbn [app spread].
  destruct x; try (destruct (IH open) as [sp E]; exists sp; rewrite E; now rewrite app_assoc).
  - destruct (IH (tag :: open)) as [sp E]. exists sp. now rewrite E.
  - destruct (IH (tl open)) as [sp E]. exists sp. now rewrite E.
Qed.
Lemma well_end : forall ks open, well_tagged open (ks ++ [Brk]) = true -> spread everywhere open (ks ++ [Brk]) = spread everywhere open ks ++ [PB].
Proof.
  induction ks as [|k ks IH]; intros open W.
  - cbn [app well_tagged] in W. destruct open as [|t [|u open]]; try discriminate. reflexivity.
  - cbn [app] in *. destruct k; cbn [spread well_tagged] in *.
    + rewrite (IH _ W). reflexivity.
    + destruct open as [|t [|u open]]; try discriminate; [rewrite (IH _ W); now rewrite <- app_assoc|]. apply andb_true_iff in W as [_ W]. rewrite (IH _ W). reflexivity.
    + apply andb_true_iff in W as [_ W]. rewrite (IH _ W). reflexivity.
    + destruct open as [|u open]; [discriminate|]. apply andb_true_iff in W as [_ W]. cbn [tl]. rewrite (IH _ W). reflexivity.
    + apply andb_true_iff in W as [_ W]. rewrite (IH _ W). reflexivity.
    + apply andb_true_iff in W as [_ W]. rewrite (IH _ W). cbn [pieces1 app]. now rewrite <- !app_assoc.
Qed.
Lemma typed_snoc : forall ks k, typed (ks ++ [k]) = typed ks ++ typed1 k.
Proof. intros. unfold typed. rewrite flat_map_app. cbn [flat_map]. now rewrite app_nil_r. Qed.
Lemma snoc_inj : forall {A} (a b : list A) x y, a ++ [x] = b ++ [y] -> a = b /\ x = y.
Proof. intros A a b x y E. apply app_inj_tail in E. exact E. Qed.
Lemma rstrip_length : forall t, length (rstrip t) <= length t.
Proof.
  intro t. induction t as [|c t IH] using rev_ind; [auto|]. rewrite rstrip_snoc, app_length. destruct (is_space c); [lia | rewrite app_length; lia].
Qed.
Lemma no_blank_tail : forall ks F tail, well_tagged [] ks = true -> rstrip (typed ks) = typed ks -> spread everywhere [] ks = F ++ tail -> Forall (fun p => pblank p = true) tail -> tail = [].
Proof.
  intros ks F tail W Hr E Hb. destruct tail as [|q0 tl0]; [reflexivity|]. destruct (exists_last (l := q0 :: tl0)) as [tl [p Ep]]; [discriminate|]. rewrite Ep in *. exfalso. apply Forall_app in Hb as [_ Hb]. apply Forall_inv in Hb. rewrite app_assoc in E.
  destruct ks as [|k0 ks0] eqn:Ek; [cbn in E; destruct (F ++ tl); discriminate|]. destruct (exists_last (l := k0 :: ks0)) as [ks1 [k Ek1]]; [discriminate|]. rewrite Ek1 in *.
  assert (C : (exists c, k = Chr c /\ p = PC c) \/ k = Brk).
  { destruct k as [c | | t | t | w | t].
    - left. destruct (spread_snoc everywhere ks1 (Chr c) []) as [sp Es]. rewrite Es in E. cbn [spread pieces1 app] in E. apply snoc_inj in E as [_ E]. eauto.
    - now right.
    - destruct (spread_snoc everywhere ks1 (Opn t) []) as [sp Es]. rewrite Es in E. cbn [spread app] in E. apply snoc_inj in E as [_ E]. subst p. discriminate.
    - destruct (spread_snoc everywhere ks1 (Cls t) []) as [sp Es]. rewrite Es in E. cbn [spread app] in E. apply snoc_inj in E as [_ E]. subst p. discriminate.
    - destruct (spread_snoc everywhere ks1 (Box w) []) as [sp Es]. rewrite Es in E. cbn [spread pieces1 app] in E. apply snoc_inj in E as [_ E]. subst p. discriminate.
    - destruct (spread_snoc everywhere ks1 (Com t) []) as [sp Es]. rewrite Es in E. cbn [spread pieces1] in E. rewrite app_nil_r in E. change (PCo :: map note_piece t ++ [PCx]) with ((PCo :: map note_piece t) ++ [PCx]) in E. rewrite app_assoc in E.
      apply snoc_inj in E as [_ E]. subst p. discriminate. }
  rewrite typed_snoc in Hr.
  assert (Q : forall c, is_space c = true -> rstrip (typed ks1 ++ [c]) = typed ks1 ++ [c] -> False).
  { intros c Hc Hx. rewrite rstrip_snoc in Hx. rewrite Hc in Hx. assert (Ln : length (rstrip (typed ks1)) <= length (typed ks1)) by apply rstrip_length. rewrite Hx, app_length in Ln. cbn in Ln. lia. }
  destruct C as [[c [-> ->]] | ->]; [exact (Q c Hb Hr) | exact (Q 10%N eq_refl Hr)].
Qed.
