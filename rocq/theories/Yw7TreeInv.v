(** What writing does to each section of the project tree. *)
From Coq Require Import String List NArith ZArith Bool Lia Arith.
From Verif Require Import PyStr PyDict Globals GlobalsProofs WordCount NovelModel NovelOps YwTree IsoDate Yw7Build Yw7Read YwTreeProofs Yw7SceneProofs Yw7StartProofs Yw7SceneRT Yw7ListRT.
Import ListNotations.

(** frame: an operation on section t leaves the elements with other tags alone *)
Definition frame (t : str) (r r' : list elem) : Prop := forall P, P t = false -> filt P r' = filt P r.
Lemma frame_findall : forall t u r r', frame t r r' -> str_eqb u t = false -> findall u r' = findall u r.
Proof. intros t u r r' H Hu. rewrite !findall_filt. apply H. rewrite str_eqb_sym. exact Hu. Qed.
Lemma frame_find : forall t u r r', frame t r r' -> str_eqb u t = false -> find u r' = find u r.
Proof. intros t u r r' H Hu. rewrite !find_findall, (frame_findall t u r r' H Hu). reflexivity. Qed.
Lemma frame_trans : forall t r r' r'', frame t r r' -> frame t r' r'' -> frame t r r''.
Proof. intros t r r' r'' H1 H2 P HP. rewrite (H2 P HP). apply H1. exact HP. Qed.

Lemma in_section_inv : forall t e f r r', in_section t e f r = Ok r' ->
  exists k0 k1, sec t r = Some k0 /\ f k0 = Ok k1 /\ sec t r' = Some k1 /\ frame t r r'.
Proof.
  intros t e f r r' H. destruct (in_section_ok t e f r r' H) as (k0 & k1 & H0 & H1 & H2 & _).
  exists k0, k1. repeat (split; [assumption|]). unfold in_section in H. destruct (find t r); [|discriminate].
  apply bind_ok in H. destruct H as (k & _ & H). injection H as <-. intros P HP. apply filt_upd; [reflexivity | exact HP].
Qed.

Definition or_nil (k : option (list elem)) : list elem := match k with Some k => k | None => [] end.

(** the notes section afterwards *)
Lemma build_notes_ok : forall n r r', build_notes n r = Ok r' ->
  frame (s "PROJECTNOTES") r r' /\
  match nv_srtPrjNotes n with
  | [] => r' = remove (s "PROJECTNOTES") r
  | _ => exists k1, rebuild (s "PROJECTNOTE") build_note (nv_srtPrjNotes n) (nv_projectNotes n) (or_nil (sec (s "PROJECTNOTES") r)) = Ok k1 /\
         sec (s "PROJECTNOTES") r' = Some k1
  end /\ (uniq (s "PROJECTNOTES") r -> uniq (s "PROJECTNOTES") r').
Proof.
  intros n r r' H.
  assert (Hu : uniq (s "PROJECTNOTES") r -> uniq (s "PROJECTNOTES") r').
  { intro U. unfold build_notes in H. destruct (nv_srtPrjNotes n) as [|i l].
    - injection H as <-. unfold uniq. rewrite findall_remove. destruct U as [-> | [e ->]]; left; reflexivity.
    - unfold in_section in H. match type of H with match find _ ?r2 with _ => _ end = _ => assert (U2 : uniq (s "PROJECTNOTES") r2) end.
      { unfold has. rewrite find_findall. destruct U as [U | [e U]].
        - rewrite U. cbn [hd_error]. right. rewrite findall_sub, U. eexists. reflexivity.
        - rewrite U. right. exists e. exact U. }
      match type of H with match find _ ?r2 with _ => _ end = _ => set (r2' := r2) in * end.
      destruct (find (s "PROJECTNOTES") r2'); [|discriminate]. apply bind_ok in H. destruct H as (k & _ & H). injection H as <-.
      unfold uniq. rewrite findall_upd by reflexivity. destruct U2 as [-> | [e0 ->]]; [left; reflexivity | right; eexists; reflexivity]. }
  revert H. enough (H2 : build_notes n r = Ok r' -> frame (s "PROJECTNOTES") r r' /\
  match nv_srtPrjNotes n with
  | [] => r' = remove (s "PROJECTNOTES") r
  | _ => exists k1, rebuild (s "PROJECTNOTE") build_note (nv_srtPrjNotes n) (nv_projectNotes n) (or_nil (sec (s "PROJECTNOTES") r)) = Ok k1 /\
         sec (s "PROJECTNOTES") r' = Some k1
  end) by (intro H; destruct (H2 H); auto).
  clear Hu. intro H. unfold build_notes in H. destruct (nv_srtPrjNotes n) as [|i l].
  - injection H as <-. split; [|reflexivity]. intros P HP. apply filt_remove. exact HP.
  - apply in_section_inv in H. destruct H as (k0 & k1 & H0 & Hf & H1 & Ho).
    unfold has in *. destruct (find (s "PROJECTNOTES") r) as [e|] eqn:E.
    + split; [exact Ho|]. exists k1. unfold sec in *. rewrite E in *. injection H0 as <-. split; [exact Hf | exact H1].
    + split; [intros P HP; rewrite (Ho P HP); apply filt_sub; exact HP|].
      exists k1. unfold sec in H0 |- *. rewrite E. cbn [option_map or_nil].
      assert (Hk : k0 = []).
      { rewrite find_findall, findall_sub in H0. rewrite find_findall in E.
        destruct (findall (s "PROJECTNOTES") r); [|discriminate]. injection H0 as <-. reflexivity. }
      subst k0. split; [exact Hf | exact H1].
Qed.

(** [n1] differs from [n] at most in the locale *)
Definition same_but_locale (n n1 : novel) : Prop := n1 = set_nv_countryCode (nv_countryCode n1) (set_nv_languageCode (nv_languageCode n1) n).

Lemma check_locale_frame : forall loc dloc n n1, check_locale loc dloc n = Ok n1 -> same_but_locale n n1.
Proof.
  intros loc dloc n n1 H. unfold check_locale in H. unfold same_but_locale.
  destruct (negb (otruthy (nv_languageCode n))).
  - destruct (locale_pair loc) as [[l c]|]; [injection H as <-; reflexivity|].
    destruct (locale_pair dloc) as [[l c]|]; [injection H as <-; reflexivity | discriminate].
  - match type of H with (if ?b then _ else _) = _ => destruct b end; injection H as <-; [destruct n|]; reflexivity.
Qed.

(** the sections PyWriter handles *)
Definition section_tags : list str :=
  [s "PROJECT"; s "LOCATIONS"; s "ITEMS"; s "CHARACTERS"; s "PROJECTNOTES"; s "PROJECTVARS"; s "SCENES"; s "CHAPTERS"].

Theorem build_tree_inv : forall loc dloc n r0 n1 r1, build_tree loc dloc n (Some r0) = Ok (n1, r1) ->
  same_but_locale n n1 /\
  (forall P, forallb (fun t => negb (P t)) section_tags = true -> filt P r1 = filt P r0) /\
  (exists k, sec (s "PROJECT") r0 = Some k /\ sec (s "PROJECT") r1 = Some (build_project n k)) /\
  (exists k k1, sec (s "LOCATIONS") r0 = Some k /\ rebuild (s "LOCATION") (build_world LOC_KWVAR) (nv_srtLocations n) (nv_locations n) k = Ok k1 /\
     sec (s "LOCATIONS") r1 = Some k1) /\
  (exists k k1, sec (s "ITEMS") r0 = Some k /\ rebuild (s "ITEM") (build_world ITM_KWVAR) (nv_srtItems n) (nv_items n) k = Ok k1 /\
     sec (s "ITEMS") r1 = Some k1) /\
  (exists k k1, sec (s "CHARACTERS") r0 = Some k /\ rebuild (s "CHARACTER") build_character (nv_srtCharacters n) (nv_characters n) k = Ok k1 /\
     sec (s "CHARACTERS") r1 = Some k1) /\
  (match nv_srtPrjNotes n with
   | [] => findall (s "PROJECTNOTES") r1 = tl (findall (s "PROJECTNOTES") r0)
   | _ => exists k1, rebuild (s "PROJECTNOTE") build_note (nv_srtPrjNotes n) (nv_projectNotes n) (or_nil (sec (s "PROJECTNOTES") r0)) = Ok k1 /\
         sec (s "PROJECTNOTES") r1 = Some k1
   end) /\
  (uniq (s "PROJECTNOTES") r0 -> uniq (s "PROJECTNOTES") r1) /\
  (if has_language n then
     check_locale loc dloc n = Ok n1 /\ exists ls k1, nv_languages n = Some ls /\
       build_projectvars n1 ls (or_nil (sec (s "PROJECTVARS") r0)) = Ok k1 /\ sec (s "PROJECTVARS") r1 = Some k1
   else n1 = n /\ find (s "PROJECTVARS") r1 = find (s "PROJECTVARS") r0) /\
  (exists k k1 k2, sec (s "SCENES") r0 = Some k /\ build_scenes n1 k = Ok k1 /\ mapM (finish_scene n1) k1 = Ok k2 /\
     sec (s "SCENES") r1 = Some k2) /\
  (exists k k1, sec (s "CHAPTERS") r0 = Some k /\ build_chapters n1 k = Ok k1 /\ sec (s "CHAPTERS") r1 = Some k1).
Proof.
  intros loc dloc n r0 n1 r1 H. unfold build_tree in H.
  apply bind_ok in H. destruct H as (rP & HP & H). apply bind_ok in H. destruct H as (rL & HL & H).
  apply bind_ok in H. destruct H as (rI & HI & H). apply bind_ok in H. destruct H as (rC & HC & H).
  apply bind_ok in H. destruct H as (rN & HN & H). apply bind_ok in H. destruct H as ([n2 rV] & HV & H).
  apply bind_ok in H. destruct H as (rS & HS & H). apply bind_ok in H. destruct H as (rH & HH & H).
  apply bind_ok in H. destruct H as (rF & HF & H). injection H as Hn Hr. subst n2 rF.
  apply in_section_inv in HP. destruct HP as (kp & kp1 & P0 & P1 & P2 & PO). injection P1 as <-.
  apply in_section_inv in HL. destruct HL as (kl & kl1 & L0 & L1 & L2 & LO).
  apply in_section_inv in HI. destruct HI as (ki & ki1 & I0 & I1 & I2 & IO).
  apply in_section_inv in HC. destruct HC as (kc & kc1 & C0 & C1 & C2 & CO).
  apply build_notes_ok in HN. destruct HN as (NO & HN & NU).
  apply in_section_inv in HS. destruct HS as (ks & ks1 & S0 & S1 & S2 & SO).
  apply in_section_inv in HH. destruct HH as (kh & kh1 & H0 & H1 & H2 & HO).
  apply in_section_inv in HF. destruct HF as (kf & kf1 & F0 & F1 & F2 & FO).
  assert (HV' : same_but_locale n n1 /\ frame (s "PROJECTVARS") rN rV /\
     if has_language n then
     check_locale loc dloc n = Ok n1 /\ exists ls k1, nv_languages n = Some ls /\
       build_projectvars n1 ls (or_nil (sec (s "PROJECTVARS") rN)) = Ok k1 /\ sec (s "PROJECTVARS") rV = Some k1
     else n1 = n /\ rV = rN).
  { destruct (has_language n) eqn:E.
    - apply bind_ok in HV. destruct HV as (n2 & Hc & HV). pose proof (check_locale_frame _ _ _ _ Hc) as Hs.
      assert (Hl : nv_languages n2 = nv_languages n) by (rewrite Hs; reflexivity).
      rewrite Hl in HV. destruct (nv_languages n) as [ls|] eqn:El; [|discriminate].
      apply bind_ok in HV. destruct HV as (r & Hv & HV). injection HV as -> ->.
      apply in_section_inv in Hv. destruct Hv as (k0 & k1 & V0 & V1 & V2 & VO).
      split; [exact Hs|]. unfold has in *. destruct (find (s "PROJECTVARS") rN) as [e|] eqn:Ef.
      + split; [exact VO|]. split; [exact Hc|]. exists ls, k1. split; [reflexivity|].
        unfold sec in *. rewrite Ef in *. injection V0 as <-. split; [exact V1 | exact V2].
      + split; [intros P HP; rewrite (VO P HP); apply filt_sub; exact HP|].
        split; [exact Hc|]. exists ls, k1. split; [reflexivity|]. unfold sec in V0 |- *. rewrite Ef. cbn [option_map or_nil].
        assert (Hk : k0 = []).
        { rewrite find_findall, findall_sub in V0. rewrite find_findall in Ef.
          destruct (findall (s "PROJECTVARS") rN); [|discriminate]. injection V0 as <-. reflexivity. }
        subst k0. split; [exact V1 | exact V2].
    - injection HV as -> ->. split; [unfold same_but_locale; destruct n1; reflexivity|]. split; [intros P HP; reflexivity|]. split; reflexivity. }
  destruct HV' as (Hs & VO & HV').
  assert (HNf : nv_srtPrjNotes n = [] -> findall (s "PROJECTNOTES") r1 = tl (findall (s "PROJECTNOTES") r0)).
  { intro E. rewrite E in HN. rewrite (frame_findall _ _ _ _ FO), (frame_findall _ _ _ _ HO), (frame_findall _ _ _ _ SO), (frame_findall _ _ _ _ VO) by reflexivity.
    rewrite HN, findall_remove. f_equal.
    rewrite (frame_findall _ _ _ _ CO), (frame_findall _ _ _ _ IO), (frame_findall _ _ _ _ LO), (frame_findall _ _ _ _ PO) by reflexivity. reflexivity. }
  assert (HNu : uniq (s "PROJECTNOTES") r0 -> uniq (s "PROJECTNOTES") r1).
  { assert (E : findall (s "PROJECTNOTES") r1 = findall (s "PROJECTNOTES") rN).
    { rewrite (frame_findall _ _ _ _ FO), (frame_findall _ _ _ _ HO), (frame_findall _ _ _ _ SO), (frame_findall _ _ _ _ VO) by reflexivity. reflexivity. }
    assert (E2 : findall (s "PROJECTNOTES") rC = findall (s "PROJECTNOTES") r0).
    { rewrite (frame_findall _ _ _ _ CO), (frame_findall _ _ _ _ IO), (frame_findall _ _ _ _ LO), (frame_findall _ _ _ _ PO) by reflexivity. reflexivity. }
    unfold uniq in *. rewrite E, <- E2. exact NU. }
  assert (HFr : forall P, forallb (fun t => negb (P t)) section_tags = true -> filt P r1 = filt P r0).
  { intros P HP. rewrite forallb_forall in HP.
    assert (HQ : forall t, In t section_tags -> P t = false) by (intros t Ht; apply negb_true_iff; apply HP; exact Ht).
    rewrite FO, HO, SO, VO, NO, CO, IO, LO, PO by (apply HQ; unfold section_tags; cbn [In]; tauto). reflexivity. }
  pose proof (fun u => frame_find _ u _ _ FO) as FO'. pose proof (fun u => frame_find _ u _ _ HO) as HO'. pose proof (fun u => frame_find _ u _ _ SO) as SO'.
  pose proof (fun u => frame_find _ u _ _ VO) as VO'. pose proof (fun u => frame_find _ u _ _ NO) as NO'. pose proof (fun u => frame_find _ u _ _ CO) as CO'.
  pose proof (fun u => frame_find _ u _ _ IO) as IO'. pose proof (fun u => frame_find _ u _ _ LO) as LO'. pose proof (fun u => frame_find _ u _ _ PO) as PO'.
  clear FO HO SO VO NO CO IO LO PO. rename FO' into FO, HO' into HO, SO' into SO, VO' into VO, NO' into NO, CO' into CO, IO' into IO, LO' into LO, PO' into PO.
  assert (E9 : forall u, str_eqb u (s "SCENES") = false -> str_eqb u (s "CHAPTERS") = false -> find u r1 = find u rV).
  { intros u U1 U2. rewrite (FO u U1), (HO u U2), (SO u U1). reflexivity. }
  assert (E6 : forall u, str_eqb u (s "PROJECTVARS") = false -> str_eqb u (s "PROJECTNOTES") = false -> find u rV = find u rC).
  { intros u U1 U2. rewrite (VO u U1), (NO u U2). reflexivity. }
  split; [exact Hs|]. split; [exact HFr|]. split; [|split; [|split; [|split; [|split; [|split; [|split; [|split]]]]]]].
  - exists kp. split; [exact P0|]. unfold sec. rewrite E9, E6, CO, IO, LO by reflexivity. exact P2.
  - exists kl, kl1. split; [unfold sec in *; rewrite PO in L0 by reflexivity; exact L0|]. split; [exact L1|].
    unfold sec. rewrite E9, E6, CO, IO by reflexivity. exact L2.
  - exists ki, ki1. split; [unfold sec in *; rewrite LO, PO in I0 by reflexivity; exact I0|]. split; [exact I1|].
    unfold sec. rewrite E9, E6, CO by reflexivity. exact I2.
  - exists kc, kc1. split; [unfold sec in *; rewrite IO, LO, PO in C0 by reflexivity; exact C0|]. split; [exact C1|].
    unfold sec. rewrite E9, E6 by reflexivity. exact C2.
  - assert (Hno : find (s "PROJECTNOTES") rC = find (s "PROJECTNOTES") r0) by (rewrite CO, IO, LO, PO by reflexivity; reflexivity).
    destruct (nv_srtPrjNotes n) as [|i l].
    + apply HNf. reflexivity.
    + destruct HN as (k1 & N1 & N2). exists k1. split.
      * unfold sec in N1 |- *. rewrite Hno in N1. exact N1.
      * unfold sec. rewrite E9, VO by reflexivity. exact N2.
  - exact HNu.
  - assert (Hvo : find (s "PROJECTVARS") rN = find (s "PROJECTVARS") r0) by (rewrite NO, CO, IO, LO, PO by reflexivity; reflexivity).
    destruct (has_language n).
    + destruct HV' as (Hc & ls & k1 & V1 & V2 & V3). split; [exact Hc|]. exists ls, k1. split; [exact V1|].
      split; [unfold sec in V2 |- *; rewrite Hvo in V2; exact V2|]. unfold sec. rewrite E9 by reflexivity. exact V3.
    + destruct HV' as [-> ->]. split; [reflexivity|]. rewrite E9 by reflexivity. exact Hvo.
  - exists ks, ks1, kf1. split.
    + unfold sec in *. rewrite VO, NO, CO, IO, LO, PO in S0 by reflexivity. exact S0.
    + split; [exact S1|]. split; [|exact F2]. unfold sec in F0, S2. rewrite (HO (s "SCENES") eq_refl), S2 in F0. injection F0 as ->. exact F1.
  - exists kh, kh1. split; [|split; [exact H1|]].
    + unfold sec in *. rewrite SO, VO, NO, CO, IO, LO, PO in H0 by reflexivity. exact H0.
    + unfold sec. rewrite FO by reflexivity. exact H2.
Qed.
