(** Writing and reading the start of a scene, the export flag, the references and the keyword variables. *)
From Coq Require Import String List NArith ZArith Bool Lia Arith.
From Verif Require Import PyStr PyDict Globals GlobalsProofs NovelModel NovelOps YwTree IsoDate Yw7Build Yw7Read YwTreeProofs Yw7SceneProofs.
Import ListNotations.

(** characters that no layer of the file format touches *)
Definition safe_char (c : N) : bool :=
  is_digit c || ((65 <=? c) && (c <=? 90))%N || ((97 <=? c) && (c <=? 122))%N || existsb (N.eqb c) (s "-+:._ ").
Definition safe (t : str) : Prop := t <> [] /\ forallb safe_char t = true.

(** read_start looks only at the texts of four elements *)
Definition rs (ext : str -> option (str * str)) (sdt day hour minute : option (option str))
  : res (option str * option str * option str) :=
  match sdt with
  | Some None => Ok (Some [], Some [], None)
  | Some (Some t) => match fromiso ext t with Some (d, v) => Ok (Some d, Some v, None) | None => Ok (Some [], Some [], None) end
  | None =>
      do dy <- (match day with
                | None => Ok None | Some None => Err TypeError
                | Some (Some d) => match parse_int d with Some _ => Ok (Some d) | None => Ok (Some []) end end);
      do h <- (match hour with None => Ok (s "00") | Some None => Err AttributeError | Some (Some v) => Ok (zfill2 v) end);
      do m <- (match minute with None => Ok (s "00") | Some None => Err AttributeError | Some (Some v) => Ok (zfill2 v) end);
      Ok (None, (match hour, minute with None, None => None | _, _ => Some (h ++ s ":" ++ m ++ s ":00") end), dy)
  end.

Lemma read_start_rs : forall ext k, read_start ext k =
  rs ext (find_text (s "SpecificDateTime") k) (find_text (s "Day") k) (find_text (s "Hour") k) (find_text (s "Minute") k).
Proof.
  intros ext k. unfold read_start, find_text, has, rs.
  destruct (find (s "SpecificDateTime") k) as [e|]; cbn [option_map].
  - destruct (e_text e); reflexivity.
  - destruct (find (s "Day") k) as [ed|], (find (s "Hour") k) as [eh|], (find (s "Minute") k) as [em|]; cbn [option_map];
      repeat (match goal with |- context [e_text ?e] => destruct (e_text e) end); reflexivity.
Qed.

Section S.
Variable out : str -> option str -> option str.
Hypothesis out_None : forall t, out t None = None.
Hypothesis out_nil : forall t, out t (Some []) = None.
Hypothesis out_safe : forall t v, safe v -> out t (Some v) = Some v.
Notation R := (Forall2 (settled out)).

Definition FT (t : str) (l : list elem) : option (option str) :=
  match l with e :: _ => Some (out t (e_text e)) | [] => None end.

Lemma find_text_FT : forall t k k', R k k' -> leaf1 t k -> find_text t k' = FT t (findall t k).
Proof.
  intros t k k' H L. unfold find_text. rewrite find_findall.
  apply (R_findall out t) in H. destruct L as [L | [x L]]; rewrite L in *.
  - inversion H. reflexivity.
  - inversion H as [|? e' ? ? He]; subst. inversion He. reflexivity.
Qed.

Lemma leaf1_congr : forall t k k', findall t k' = findall t k -> leaf1 t k -> leaf1 t k'.
Proof. intros t k k' E U. unfold leaf1 in *. rewrite E. exact U. Qed.

(** elements of a scene that describe the start *)
Definition start_wf (k : list elem) : Prop :=
  leaf1 (s "SpecificDateTime") k /\ leaf1 (s "Day") k /\ leaf1 (s "Hour") k /\ leaf1 (s "Minute") k /\
  (findall (s "SpecificDateTime") k = [] \/
   (findall (s "Day") k = [] /\ findall (s "Hour") k = [] /\ findall (s "Minute") k = [])).

(** hh:mm:00 *)
Definition clock (t : str) : Prop := exists h m, t = h ++ s ":" ++ m ++ s ":00" /\ length h = 2 /\ length m = 2 /\
  all_digits h = true /\ all_digits m = true.

(** a start that can be stored: a date with time; or a day and/or a time; or nothing *)
Definition start_ok (date time day : option str) : Prop :=
  match date, time, day with
  | Some d, Some t, None => (valid_date d = true /\ valid_time t = true) \/ (d = [] /\ t = [])
  | None, Some t, None => clock t
  | None, None, Some y => safe y /\ parse_int y <> None
  | None, Some t, Some y => clock t /\ safe y /\ parse_int y <> None
  | None, None, None => True
  | _, _, _ => False
  end.

(** the start read back, given the start that is in the file so far *)
Definition new_start (date time day : option str) (old : option str * option str * option str)
  : option str * option str * option str :=
  let '(od, ot, oy) := old in
  match date, time with
  | Some [], Some [] => (None, None, None)
  | Some _, Some _ => (date, time, None)
  | _, _ =>
      match day, time with
      | None, None => old
      | _, _ => (None, (match time with Some _ => time | None => if od then None else ot end),
                 (match day with Some _ => day | None => oy end))
      end
  end.

Lemma digits_safe : forall t, all_digits t = true -> forallb safe_char t = true.
Proof.
  induction t as [|c t IH]; intro H; [reflexivity|]. cbn [all_digits forallb] in *.
  apply andb_prop in H. destruct H as [H1 H2]. rewrite IH by exact H2. unfold safe_char. rewrite H1. reflexivity.
Qed.

Lemma valid_date_safe : forall d, valid_date d = true -> forallb safe_char d = true.
Proof.
  intros d H. do 10 (destruct d as [|? d]; [discriminate H|]). destruct d; [|discriminate H].
  cbn [valid_date all_digits] in H. rewrite !andb_true_iff in H. decompose [and] H. clear H.
  cbn [forallb]. unfold safe_char.
  repeat match goal with H : is_digit ?c = true |- context [is_digit ?c] => rewrite H end.
  repeat match goal with H : (?c =? 45)%N = true |- _ => apply N.eqb_eq in H; subst c end. reflexivity.
Qed.

Lemma valid_time_safe : forall d, valid_time d = true -> forallb safe_char d = true.
Proof.
  intros d H. do 8 (destruct d as [|? d]; [discriminate H|]). destruct d; [|discriminate H].
  cbn [valid_time all_digits] in H. rewrite !andb_true_iff in H. decompose [and] H. clear H.
  cbn [forallb]. unfold safe_char.
  repeat match goal with H : is_digit ?c = true |- context [is_digit ?c] => rewrite H end.
  repeat match goal with H : (?c =? 58)%N = true |- _ => apply N.eqb_eq in H; subst c end. reflexivity.
Qed.

Lemma valid_time_colons : forall d, valid_time d = true -> 2 <= countc 58 d.
Proof.
  intros d H. do 8 (destruct d as [|? d]; [discriminate H|]). destruct d; [|discriminate H].
  cbn [valid_time] in H. rewrite !andb_true_iff in H. decompose [and] H. clear H.
  repeat match goal with H : (?c =? 58)%N = true |- _ => apply N.eqb_eq in H; subst c end.
  unfold countc. cbn [filter]. change (N.eqb 58 58) with true. cbv iota.
  repeat match goal with |- context [if ?b then _ else _] => destruct b end; cbn [length]; lia.
Qed.

Lemma countc_app : forall c a b, countc c (a ++ b) = countc c a + countc c b.
Proof. intros. unfold countc. rewrite filter_app, app_length. reflexivity. Qed.

Lemma clock_split : forall h m : str, all_digits h = true -> all_digits m = true ->
  split (s ":") (h ++ s ":" ++ m ++ s ":00") = [h; m; s "00"].
Proof.
  intros h m Hh Hm. change (s ":") with [58%N]. rewrite split_splitc.
  assert (Hnc : forall t, all_digits t = true -> ~ In 58%N t).
  { induction t as [|c t IH]; intros Ht Hi; [exact Hi|]. cbn [all_digits] in Ht. apply andb_prop in Ht. destruct Ht as [H1 H2].
    destruct Hi as [-> | Hi]; [discriminate H1 | exact (IH H2 Hi)]. }
  change ([58%N] ++ m ++ s ":00") with (58%N :: m ++ 58%N :: s "00").
  rewrite splitc_app_sep by (apply Hnc; exact Hh). rewrite splitc_app_sep by (apply Hnc; exact Hm). reflexivity.
Qed.

Lemma zfill2_two : forall h : str, length h = 2 -> zfill2 h = h.
Proof. intros [|a [|b [|c h]]] H; try discriminate H. unfold zfill2. reflexivity. Qed.

Ltac inner k := match goal with |- match findall ?t ?a with _ => _ end = _ =>
  replace (findall t a) with (findall t k); [|symmetry; rewrite !findall_filt; peel; reflexivity] end.

Theorem start_roundtrip : forall ext date time day k k' kn kn0 old,
  start_wf k -> start_ok date time day -> build_scene_start date time day k = Ok k' ->
  R k kn0 -> R k' kn -> read_start ext kn0 = Ok old ->
  read_start ext kn = Ok (new_start date time day old) /\ start_wf k'.
Proof.
  intros ext date time day k k' kn kn0 old (L1 & L2 & L3 & L4 & Hx) Hok Hb R0 R1 Hold.
  assert (Hgo : start_wf k' /\ rs ext (FT (s "SpecificDateTime") (findall (s "SpecificDateTime") k'))
      (FT (s "Day") (findall (s "Day") k')) (FT (s "Hour") (findall (s "Hour") k'))
      (FT (s "Minute") (findall (s "Minute") k')) = Ok (new_start date time day old)).
  2:{ destruct Hgo as [(M1 & M2 & M3 & M4 & M5) Hgo]. split; [|repeat split; assumption].
      rewrite read_start_rs. rewrite !(find_text_FT _ k' kn R1) by assumption. exact Hgo. }
  rewrite read_start_rs in Hold. rewrite !(find_text_FT _ k kn0 R0) in Hold by assumption.
  clear R0 R1 kn kn0.
  assert (Hrdt : start_wf (remove_date_time k) /\
      rs ext (FT (s "SpecificDateTime") (findall (s "SpecificDateTime") (remove_date_time k)))
      (FT (s "Day") (findall (s "Day") (remove_date_time k))) (FT (s "Hour") (findall (s "Hour") (remove_date_time k)))
      (FT (s "Minute") (findall (s "Minute") (remove_date_time k))) = Ok (None, None, None)).
  { assert (E1 : findall (s "SpecificDateTime") (remove_date_time k) = tl (findall (s "SpecificDateTime") k)).
    { unfold remove_date_time. rewrite !findall_filt. peel. rewrite <- !findall_filt, findall_remove. reflexivity. }
    assert (E2 : findall (s "Day") (remove_date_time k) = tl (findall (s "Day") k)).
    { unfold remove_date_time. rewrite !findall_filt. peel. rewrite <- !findall_filt, findall_remove. f_equal. rewrite !findall_filt. peel. reflexivity. }
    assert (E3 : findall (s "Hour") (remove_date_time k) = tl (findall (s "Hour") k)).
    { unfold remove_date_time. rewrite !findall_filt. peel. rewrite <- !findall_filt, findall_remove. f_equal. rewrite !findall_filt. peel. reflexivity. }
    assert (E4 : findall (s "Minute") (remove_date_time k) = tl (findall (s "Minute") k)).
    { unfold remove_date_time. rewrite !findall_filt. peel. rewrite <- !findall_filt, findall_remove. f_equal. rewrite !findall_filt. peel. reflexivity. }
    unfold start_wf, leaf1. rewrite E1, E2, E3, E4.
    destruct L1 as [L1 | [x1 L1]], L2 as [L2 | [x2 L2]], L3 as [L3 | [x3 L3]], L4 as [L4 | [x4 L4]];
      rewrite L1, L2, L3, L4; cbn [tl]; (split; [tauto | reflexivity]). }
  unfold build_scene_start in Hb.
  destruct date as [d|]; [destruct time as [t|]; [destruct day as [y|]; [destruct Hok|] | destruct day; destruct Hok]|].
  - (* date and time *)
    destruct Hok as [[Hd Ht] | [-> ->]].
    + pose proof (valid_date_len d Hd) as Ld. pose proof (valid_time_len t Ht) as Lt.
      assert (Hne : str_eqb (d ++ s " " ++ t) (s " ") = false).
      { apply str_eqb_neq. intro E. apply (f_equal (@length N)) in E. rewrite !app_length, Ld in E. discriminate E. }
      assert (Hns : new_start (Some d) (Some t) None old = (Some d, Some t, None)).
      { unfold new_start. destruct old as [[? ?] ?]. destruct d; [discriminate Ld|]. reflexivity. }
      assert (Hsafe : safe (d ++ s " " ++ t)).
      { split; [destruct d; [discriminate Ld | discriminate]|]. rewrite !forallb_app, (valid_date_safe d Hd), (valid_time_safe t Ht). reflexivity. }
      rewrite Hns. cbv zeta in Hb. rewrite Hne in Hb. rewrite has_findall in Hb.
      destruct L1 as [L1 | [x1 L1]]; rewrite L1 in *.
      * injection Hb as <-.
        match goal with |- start_wf ?a /\ _ => set (kk := a) end.
        assert (E1 : findall (s "SpecificDateTime") kk = [leaf (s "SpecificDateTime") (Some (d ++ s " " ++ t))]).
        { unfold kk. rewrite !findall_filt. peel. rewrite <- findall_filt, findall_sub, L1. reflexivity. }
        assert (E2 : findall (s "Day") kk = []).
        { transitivity (tl (findall (s "Day") k)); [|destruct L2 as [L2 | [x2 L2]]; rewrite L2; reflexivity].
          unfold kk. rewrite !findall_filt. peel. rewrite <- !findall_filt, findall_remove. f_equal. rewrite !findall_filt. peel. reflexivity. }
        assert (E3 : findall (s "Hour") kk = []).
        { transitivity (tl (findall (s "Hour") k)); [|destruct L3 as [L3 | [x3 L3]]; rewrite L3; reflexivity].
          unfold kk. rewrite !findall_filt. peel. rewrite <- !findall_filt, findall_remove. f_equal. rewrite !findall_filt. peel. reflexivity. }
        assert (E4 : findall (s "Minute") kk = []).
        { transitivity (tl (findall (s "Minute") k)); [|destruct L4 as [L4 | [x4 L4]]; rewrite L4; reflexivity].
          unfold kk. rewrite !findall_filt. peel. rewrite <- !findall_filt, findall_remove. f_equal. rewrite !findall_filt. peel. reflexivity. }
        unfold start_wf, leaf1. rewrite E1, E2, E3, E4. split; [repeat split; eauto|].
        cbn [FT e_text leaf]. rewrite (out_safe _ _ Hsafe). cbn [rs].
        change (d ++ s " " ++ t) with (d ++ 32%N :: t). rewrite (fromiso_valid ext d t 32 Hd Ht). reflexivity.
      * assert (Hc : Nat.ltb (countc 58 (d ++ s " " ++ t)) 2 = false).
        { apply Nat.ltb_ge. rewrite !countc_app. pose proof (valid_time_colons t Ht). lia. }
        rewrite Hc in Hb. injection Hb as <-.
        match goal with |- start_wf ?a /\ _ => set (kk := a) end.
        assert (E1 : findall (s "SpecificDateTime") kk = [leaf (s "SpecificDateTime") (Some (d ++ s " " ++ t))]).
        { unfold kk. rewrite findall_set_text, L1. reflexivity. }
        assert (Eo : forall u, In u [s "Day"; s "Hour"; s "Minute"] -> findall u kk = findall u k).
        { intros u [<- | [<- | [<- | []]]]; unfold kk; rewrite !findall_filt; peel; reflexivity. }
        unfold start_wf, leaf1. rewrite E1, !Eo by (cbn; tauto).
        split; [repeat split; eauto; right; destruct Hx as [Hx | Hx]; [discriminate Hx | exact Hx]|].
        cbn [FT e_text leaf]. rewrite (out_safe _ _ Hsafe). cbn [rs].
        change (d ++ s " " ++ t) with (d ++ 32%N :: t). rewrite (fromiso_valid ext d t 32 Hd Ht). reflexivity.
    + cbn in Hb. injection Hb as <-. destruct Hrdt as [W1 W2]. split; [exact W1|]. rewrite W2. destruct old as [[? ?] ?]. reflexivity.
  - (* no date *)
    assert (Hrest : forall k2, 
      k2 = remove (s "SpecificDateMode") (remove (s "SpecificDateTime") k) ->
      findall (s "SpecificDateTime") k2 = [] /\ findall (s "Day") k2 = findall (s "Day") k /\
      findall (s "Hour") k2 = findall (s "Hour") k /\ findall (s "Minute") k2 = findall (s "Minute") k).
    { intros k2 ->. split.
      - transitivity (tl (findall (s "SpecificDateTime") k)); [|destruct L1 as [L1 | [x1 L1]]; rewrite L1; reflexivity].
        rewrite !findall_filt. peel. rewrite <- !findall_filt, findall_remove. reflexivity.
      - repeat split; rewrite !findall_filt; peel; reflexivity. }
    destruct (Hrest _ eq_refl) as (K1 & K2 & K3 & K4). clear Hrest.
    set (k2 := remove (s "SpecificDateMode") (remove (s "SpecificDateTime") k)) in *. clearbody k2.
    assert (Hold' : forall od ot oy, old = (od, ot, oy) ->
       rs ext None (FT (s "Day") (findall (s "Day") k)) (FT (s "Hour") (findall (s "Hour") k)) (FT (s "Minute") (findall (s "Minute") k))
        = Ok (None, (if od then None else ot), oy)).
    { intros od ot oy ->. destruct L1 as [L1 | [x1 L1]]; rewrite L1 in *; cbn [FT] in Hold.
      - rewrite Hold. destruct (FT (s "Day") _) as [[dd|]|]; cbn [rs] in Hold; [destruct (parse_int dd)|discriminate|];
          destruct (FT (s "Hour") _) as [[hh|]|], (FT (s "Minute") _) as [[mm|]|]; cbn in Hold; try discriminate; injection Hold as <- <- <-; reflexivity.
      - destruct Hx as [Hx | [X2 [X3 X4]]]; [discriminate Hx|]. rewrite X2, X3, X4. cbn [rs FT].
        destruct (out _ _) as [v|]; cbn [rs e_text leaf] in Hold.
        + destruct (fromiso ext v) as [[? ?]|]; injection Hold as <- <- <-; reflexivity.
        + injection Hold as <- <- <-; reflexivity. }
    destruct day as [y|]; destruct time as [t|].
    + destruct Hok as ((h & m & -> & Lh & Lm & Dh & Dm) & Sy & Py).
      match type of Hb with (if ?b then _ else _) = _ => replace b with false in Hb by (symmetry; destruct y; [destruct Sy as [Sy _]; congruence | reflexivity]) end. cbv zeta in Hb. rewrite (clock_split h m Dh Dm) in Hb. injection Hb as <-.
      match goal with |- start_wf ?a /\ _ => set (kk := a) end.
      assert (E1 : findall (s "SpecificDateTime") kk = []).
      { unfold kk. rewrite !findall_filt. peel. exact K1. }
      assert (E2 : findall (s "Day") kk = [leaf (s "Day") (Some y)]).
      { unfold kk. rewrite !findall_filt. peel. rewrite <- findall_filt, findall_put, K2. destruct L2 as [L2 | [x2 L2]]; rewrite L2; reflexivity. }
      assert (E3 : findall (s "Hour") kk = [leaf (s "Hour") (Some h)]).
      { unfold kk. rewrite !findall_filt. peel. rewrite <- findall_filt, findall_put.
        inner k2.
        rewrite K3. destruct L3 as [L3 | [x3 L3]]; rewrite L3; reflexivity. }
      assert (E4 : findall (s "Minute") kk = [leaf (s "Minute") (Some m)]).
      { unfold kk. rewrite findall_put.
        inner k2.
        rewrite K4. destruct L4 as [L4 | [x4 L4]]; rewrite L4; reflexivity. }
      unfold start_wf, leaf1. rewrite E1, E2, E3, E4. split; [repeat split; eauto|].
      cbn [FT e_text leaf]. rewrite !out_safe.
      2:{ split; [intro X; rewrite X in Lm; discriminate | apply digits_safe; exact Dm]. }
      2:{ split; [intro X; rewrite X in Lh; discriminate | apply digits_safe; exact Dh]. }
      2:{ exact Sy. }
      cbn [rs]. destruct (parse_int y); [|congruence]. cbn [bind]. rewrite !zfill2_two by assumption. destruct old as [[? ?] ?]. reflexivity.
    + destruct Hok as (Sy & Py).
      match type of Hb with (if ?b then _ else _) = _ => replace b with false in Hb by (symmetry; destruct y; [destruct Sy as [Sy _]; congruence | reflexivity]) end. injection Hb as <-.
      match goal with |- start_wf ?a /\ _ => set (kk := a) end.
      assert (E1 : findall (s "SpecificDateTime") kk = []).
      { unfold kk. rewrite !findall_filt. peel. exact K1. }
      assert (E2 : findall (s "Day") kk = [leaf (s "Day") (Some y)]).
      { unfold kk. rewrite findall_put, K2. destruct L2 as [L2 | [x2 L2]]; rewrite L2; reflexivity. }
      assert (E3 : findall (s "Hour") kk = findall (s "Hour") k).
      { unfold kk. rewrite !findall_filt. peel. exact K3. }
      assert (E4 : findall (s "Minute") kk = findall (s "Minute") k).
      { unfold kk. rewrite !findall_filt. peel. exact K4. }
      unfold start_wf. unfold leaf1 at 1 2. rewrite E1, E2.
      split; [repeat split; eauto; eapply leaf1_congr; eassumption|].
      rewrite E3, E4. cbn [FT e_text leaf]. rewrite out_safe by exact Sy.
      destruct old as [[od ot] oy]. specialize (Hold' od ot oy eq_refl). cbn [rs] in *.
      destruct (parse_int y); [|congruence]. cbn [bind].
      match type of Hold' with bind ?a _ = _ => destruct a; cbn [bind] in Hold'; [|discriminate Hold'] end.
      destruct (FT (s "Hour") _) as [[hh|]|], (FT (s "Minute") _) as [[mm|]|]; cbn [bind] in *; try discriminate; injection Hold' as E5 E6; cbn [new_start]; rewrite <- E5; reflexivity.
    + pose proof Hok as (h & m & -> & Lh & Lm & Dh & Dm).
      match type of Hb with (if ?b then _ else _) = _ => replace b with false in Hb by (symmetry; destruct h; reflexivity) end. cbv zeta in Hb. rewrite (clock_split h m Dh Dm) in Hb. injection Hb as <-.
      match goal with |- start_wf ?a /\ _ => set (kk := a) end.
      assert (E1 : findall (s "SpecificDateTime") kk = []).
      { unfold kk. rewrite !findall_filt. peel. exact K1. }
      assert (E2 : findall (s "Day") kk = findall (s "Day") k).
      { unfold kk. rewrite !findall_filt. peel. exact K2. }
      assert (E3 : findall (s "Hour") kk = [leaf (s "Hour") (Some h)]).
      { unfold kk. rewrite !findall_filt. peel. rewrite <- findall_filt, findall_put.
        rewrite K3. destruct L3 as [L3 | [x3 L3]]; rewrite L3; reflexivity. }
      assert (E4 : findall (s "Minute") kk = [leaf (s "Minute") (Some m)]).
      { unfold kk. rewrite findall_put.
        inner k2.
        rewrite K4. destruct L4 as [L4 | [x4 L4]]; rewrite L4; reflexivity. }
      unfold start_wf. unfold leaf1 at 1 3 4. rewrite E1, E3, E4.
      split; [repeat split; eauto; eapply leaf1_congr; eassumption|].
      rewrite E2. cbn [FT e_text leaf]. rewrite !out_safe.
      2:{ split; [intro X; rewrite X in Lm; discriminate | apply digits_safe; exact Dm]. }
      2:{ split; [intro X; rewrite X in Lh; discriminate | apply digits_safe; exact Dh]. }
      destruct old as [[od ot] oy]. specialize (Hold' od ot oy eq_refl). cbn [rs] in *.
      match type of Hold' with bind ?a _ = _ => destruct a; cbn [bind] in *; [|discriminate Hold'] end.
      rewrite !zfill2_two by assumption.
      destruct (FT (s "Hour") _) as [[hh|]|], (FT (s "Minute") _) as [[mm|]|]; cbn [bind] in *; try discriminate; injection Hold' as E5 E6; cbn [new_start]; rewrite E6; reflexivity.
    + injection Hb as <-. split; [repeat split; assumption|]. rewrite Hold. destruct old as [[? ?] ?]. reflexivity.
Qed.
End S.
