From Coq Require Import String List NArith ZArith Bool Lia Arith Sorting.Permutation.
From Verif Require Import PyStr PyDict NovelModel NovelOps WordCount Splitter SpecNovel SpecSplit OdfXml OdtRead SpecRead ReadFrame ReadFrame2 ReadFrame3.
Import ListNotations.

#[local] Arguments dkeys {A} d : simpl never.
#[local] Arguments dset {A} k v d : simpl never.
#[local] Arguments dget {A} k d : simpl never.
#[local] Arguments dmem {A} k d : simpl never.

(** an invariant of a reader *)
Definition named (es : list event) (c : call) : Prop := match c with CStart tag a => tag = s "div" -> exists v, a = [Some (s "id", Some v)] /\ In v (section_names es) | _ => True end.
Lemma foldM_inv : forall {A} (I : rs -> Prop) (f : rs -> A -> res rs) l st st', (forall st st' x, In x l -> I st -> f st x = Ok st' -> I st') -> I st -> foldM f l st = Ok st' -> I st'.
Proof.
  intros A I f l. induction l as [|x l IH]; intros st st' H Hi E; cbn [foldM] in E; [apply ok_eq in E; now subst|]. okstep E. eapply IH; [|eapply H; [left; reflexivity | exact Hi | exact E0] | exact E]. intros. eapply H; [right|..]; eassumption.
Qed.
Theorem feed_inv : forall (I : rs -> Prop) h styles title author desc es n n',
  (forall c st st', named es c -> I st -> handle h st c = Ok st' -> I st') -> I (new_rs n) ->
  feed h (opening_calls styles title author desc) es n = Ok n' -> exists st, I st /\ n' = r_novel st.
Proof.
  intros I h styles title author desc es n n' Hr H0 H. unfold feed in H. okstep H. okstep H. apply ok_eq in H. subst n'. exists (snd y0). split; [|reflexivity].
  assert (S1 : I y). { eapply foldM_inv; [|exact H0|exact E]. intros s1 s2 c Ic Hi Ec. eapply Hr; [|exact Hi|exact Ec]. 
    destruct c as [tag a|tag|t|t]; try exact Logic.I. intro T. exfalso. subst tag.
    unfold opening_calls in Ic. rewrite !in_app_iff in Ic. destruct Ic as [J|[J|[J|J]]].
    - destruct styles as [[l k]|]; cbn [In] in J; intuition discriminate.
    - destruct title as [[|x t]|]; cbn [In] in J; intuition discriminate.
    - destruct author as [[|x t]|]; cbn [In] in J; intuition discriminate.
    - destruct desc as [[|x t]|]; cbn [In] in J; intuition discriminate. }
  assert (S2 : forall l, incl l es -> forall p r p' r', head_ok p -> I r -> foldM (feed_event h) l (p, r) = Ok (p', r') -> I r').
  { induction l as [|e l IH]; intros Hl p r p' r' Hp Hi El; cbn [foldM] in El; [apply ok_eq in El; injection El as <- <-; exact Hi|].
    okstep El. destruct y1 as [p1 r1]. unfold feed_event in E1. cbn [fst snd] in E1. okstep E1. destruct y1 as [p2 calls]. okstep E1. apply ok_eq in E1. injection E1 as <- <-.
    destruct (parser_calls _ _ _ _ E2 Hp) as [Hp2 Hc]. eapply (IH (fun x Hx => Hl x (or_intror Hx))); [exact Hp2 | | exact El].
    eapply foldM_inv; [|exact Hi|exact E3]. intros s1 s2 c J Hs Ec. eapply Hr; [|exact Hs|exact Ec]. destruct c as [tag a|tag|t|t]; cbn; try exact Logic.I.
    intro T. destruct (Hc tag a J T) as (v & Iv & ->). exists v. split; [reflexivity|]. eapply section_names_in; [apply Hl; left; reflexivity | exact Iv]. }
  destruct y0 as [p' r']. exact (S2 es (fun x Hx => Hx) new_ps y p' r' (Forall_nil _) S1 E0).
Qed.

Section Lists.
Context {A : Type}.
Variables (M : str -> Prop) (core : A -> A) (fresh : A).
Lemma list_framed_refl : forall d l, list_framed M core fresh d d l l.
Proof. intros d l. constructor; [reflexivity | intros id x H; now rewrite H |]. exists []. now rewrite !app_nil_r. Qed.
Lemma list_framed_set : forall d0 d l0 l id x y, list_framed M core fresh d0 d l0 l -> M id -> dget id d = Some x -> core y = core x -> list_framed M core fresh d0 (dset id y d) l0 l.
Proof.
  intros d0 d l0 l id x y [F1 F2 (new & F3 & F4)] Hm Hx Hy. constructor.
  - intros i Hi. rewrite dget_dset. destruct (str_eqb i id) eqn:E; [apply str_eqb_eq in E; subst; contradiction | now apply F1].
  - intros i z Hz. rewrite dget_dset in Hz. destruct (str_eqb i id) eqn:E; [|now apply F2]. apply str_eqb_eq in E. subst. injection Hz as <-. rewrite Hy. now apply F2.
  - exists new. rewrite dkeys_dset_in by (eapply dget_dmem; eassumption). auto.
Qed.
Lemma list_framed_new : forall d0 d l0 l id, list_framed M core fresh d0 d l0 l -> M id -> dmem id d = false -> list_framed M core fresh d0 (dset id fresh d) l0 (l ++ [id]).
Proof.
  intros d0 d l0 l id [F1 F2 (new & F3 & F4)] Hm Hx.
  assert (Hn : dget id d0 = None). { apply dmem_false. apply dmem_false in Hx. destruct (dmem id d0) eqn:D; [|reflexivity]. exfalso. unfold dmem in *. apply smem_In in D. apply dget_None in Hx. apply Hx. rewrite F3. apply in_or_app. now left. }
  constructor.
  - intros i Hi. rewrite dget_dset. destruct (str_eqb i id) eqn:E; [apply str_eqb_eq in E; subst; contradiction | now apply F1].
  - intros i z Hz. rewrite dget_dset in Hz. destruct (str_eqb i id) eqn:E; [|now apply F2]. apply str_eqb_eq in E. subst. injection Hz as <-. now rewrite Hn.
  - exists (new ++ [id]). rewrite dkeys_dset_new by exact Hx. rewrite F3, F4, !app_assoc. auto.
Qed.
End Lists.

(** characters *)
Definition no_characters (n : novel) : novel := set_nv_srtCharacters [] (set_nv_characters [] n).
Definition cr_inv (es : list event) (n0 : novel) (st : rs) : Prop :=
  no_characters (r_novel st) = no_characters n0 /\ (forall id, r_crId st = Some id -> marked (s "CrID_desc") es id) /\
  r_scId st = None /\
  list_framed (marked (s "CrID_desc") es) character_core new_character (nv_characters n0) (nv_characters (r_novel st)) (nv_srtCharacters n0) (nv_srtCharacters (r_novel st)).
Lemma characters_frame : forall styles title author desc es n n', feed characters_reader (opening_calls styles title author desc) es n = Ok n' ->
  no_characters n' = no_characters n /\ list_framed (marked (s "CrID_desc") es) character_core new_character (nv_characters n) (nv_characters n') (nv_srtCharacters n) (nv_srtCharacters n').
Proof.
  intros styles title author desc es n n' H. assert (X : exists st, cr_inv es n st /\ n' = r_novel st); [refine (feed_inv _ _ _ _ _ _ _ _ _ _ _ H) | destruct X as (st & (I1 & I2 & I3 & I4) & ->)].
  - intros c st st' Hc (I1 & I2 & I3 & I4) E. destruct c as [tag a|tag|t|t]; cbn [handle characters_reader h_start h_end h_data h_comment] in E.
    + unfold cr_start in E. destruct (str_eqb tag (s "div")) eqn:Et.
      * apply str_eqb_eq in Et. destruct (Hc Et) as (v & -> & V). cbn [first_attr bind] in E. rewrite str_eqb_refl in E. destruct (prefixb (s "CrID_desc") v) eqn:P.
        -- okstep E. apply ok_eq in E. subst st'. assert (Hy : marked (s "CrID_desc") es y). { exists v. unfold number_in in E0. destruct (first_number v) eqn:F; [|discriminate]. apply ok_eq in E0. subst. auto. }
           cbn [r_novel set_r_crId]. destruct (dmem y (nv_characters (r_novel st))) eqn:D; (split; [exact I1|]); (split; [cbn; intros i Ei; injection Ei as <-; exact Hy|]); (split; [exact I3|]); [exact I4|].
           cbn. now apply list_framed_new.
        -- repeat match type of E with (if ?b then _ else _) = _ => destruct b end; apply ok_eq in E; subst st'; repeat split; first [exact I1 | exact I2 | exact I3 | apply I4].
      * destruct (str_eqb tag (s "s")); apply ok_eq in E; subst st'; repeat split; first [exact I1 | exact I2 | exact I3 | apply I4].
    + unfold cr_end in E. destruct (r_crId st) as [k|] eqn:Ek; [|apply ok_eq in E; subst st'; repeat split; first [exact I1 | now rewrite Ek | exact I3 | apply I4]].
      assert (Hk := I2 k eq_refl). cbv zeta in E.
      destruct (tag_is tag (s "div")).
      * assert (G : forall f, (forall x, character_core (f x) = character_core x) -> (do st <- on_character k f st; Ok (set_r_section None (set_r_lines [] st))) = Ok st' -> cr_inv es n st').
        { intros f Hf E'. okstep E'. apply ok_eq in E'. subst st'. unfold on_character in E0. okstep E0. apply ok_eq in E0. subst y. unfold dindex in E1. destruct (dget k (nv_characters (r_novel st))) as [x|] eqn:D; [|discriminate]. apply ok_eq in E1. subst.
          split; [exact I1|]. split; [cbn; rewrite Ek; exact I2|]. split; [exact I3|]. cbn. eapply list_framed_set; [exact I4 | exact Hk | exact D | apply Hf]. }
        repeat match type of E with (if ?b then _ else _) = _ => destruct b; [refine (G _ _ E); reflexivity|] end. apply ok_eq in E. subst st'. repeat split; first [exact I1 | now rewrite Ek | exact I3 | apply I4].
      * destruct (tag_is tag (s "p")); apply ok_eq in E; subst st'; repeat split; first [exact I1 | cbn; now rewrite Ek | exact I3 | apply I4].
    + unfold cr_data in E. apply ok_eq in E. subst st'. destruct (r_section st); repeat split; first [exact I1 | exact I2 | exact I3 | apply I4].
    + unfold base_comment in E. rewrite I3 in E. apply ok_eq in E. subst st'. repeat split; first [exact I1 | exact I2 | exact I3 | apply I4].
  - split; [reflexivity|]. split; [discriminate|]. split; [reflexivity|]. apply list_framed_refl.
  - auto.
Qed.
(** items *)
Definition no_items (n : novel) : novel := set_nv_srtItems [] (set_nv_items [] n).
Definition it_inv (es : list event) (n0 : novel) (st : rs) : Prop :=
  no_items (r_novel st) = no_items n0 /\ (forall id, r_itId st = Some id -> marked (s "ItID") es id) /\ r_scId st = None /\
  list_framed (marked (s "ItID") es) element_core new_world (nv_items n0) (nv_items (r_novel st)) (nv_srtItems n0) (nv_srtItems (r_novel st)).
Lemma items_frame : forall styles title author desc es n n', feed items_reader (opening_calls styles title author desc) es n = Ok n' ->
  no_items n' = no_items n /\ list_framed (marked (s "ItID") es) element_core new_world (nv_items n) (nv_items n') (nv_srtItems n) (nv_srtItems n').
Proof.
  intros styles title author desc es n n' H. assert (X : exists st, it_inv es n st /\ n' = r_novel st); [refine (feed_inv _ _ _ _ _ _ _ _ _ _ _ H) | destruct X as (st & (I1 & I2 & I3 & I4) & ->)].
  - intros c st st' Hc (I1 & I2 & I3 & I4) E. destruct c as [tag a|tag|t|t]; cbn [handle items_reader h_start h_end h_data h_comment] in E.
    + unfold it_start in E. destruct (str_eqb tag (s "div")) eqn:Et.
      * apply str_eqb_eq in Et. destruct (Hc Et) as (v & -> & V). cbn [first_attr bind] in E. rewrite str_eqb_refl in E. destruct (prefixb (s "ItID") v) eqn:P.
        -- okstep E. apply ok_eq in E. subst st'. assert (Hy : marked (s "ItID") es y). { exists v. unfold number_in in E0. destruct (first_number v) eqn:F; [|discriminate]. apply ok_eq in E0. subst. auto. }
           cbn [r_novel set_r_itId]. destruct (dmem y (nv_items (r_novel st))) eqn:D; (split; [exact I1|]); (split; [cbn; intros i Ei; injection Ei as <-; exact Hy|]); (split; [exact I3|]); [exact I4|].
           cbn. now apply list_framed_new.
        -- apply ok_eq in E; subst st'; repeat split; first [exact I1 | exact I2 | exact I3 | apply I4].
      * destruct (str_eqb tag (s "s")); apply ok_eq in E; subst st'; repeat split; first [exact I1 | exact I2 | exact I3 | apply I4].
    + unfold it_end in E. destruct (r_itId st) as [k|] eqn:Ek; [|apply ok_eq in E; subst st'; repeat split; first [exact I1 | now rewrite Ek | exact I3 | apply I4]].
      assert (Hk := I2 k eq_refl). cbv zeta in E.
      destruct (tag_is tag (s "div")).
      * okstep E. apply ok_eq in E. subst st'. unfold dindex in E0. destruct (dget k (nv_items (r_novel st))) as [x|] eqn:D; [|discriminate]. apply ok_eq in E0. subst.
        split; [exact I1|]. split; [discriminate|]. split; [exact I3|]. cbn. eapply list_framed_set; [exact I4 | exact Hk | exact D | reflexivity].
      * destruct (tag_is tag (s "p")); apply ok_eq in E; subst st'; repeat split; first [exact I1 | cbn; now rewrite Ek | exact I3 | apply I4].
    + unfold it_data in E. apply ok_eq in E. subst st'. destruct (r_itId st) eqn:Ek; repeat split; first [exact I1 | cbn; now rewrite Ek | exact I3 | apply I4].
    + unfold base_comment in E. rewrite I3 in E. apply ok_eq in E. subst st'. repeat split; first [exact I1 | exact I2 | exact I3 | apply I4].
  - split; [reflexivity|]. split; [discriminate|]. split; [reflexivity|]. apply list_framed_refl.
  - auto.
Qed.
(** locations *)
Definition no_locations (n : novel) : novel := set_nv_srtLocations [] (set_nv_locations [] n).
Definition lc_inv (es : list event) (n0 : novel) (st : rs) : Prop :=
  no_locations (r_novel st) = no_locations n0 /\ (forall id, r_lcId st = Some id -> marked (s "LcID") es id) /\ r_scId st = None /\
  list_framed (marked (s "LcID") es) element_core new_world (nv_locations n0) (nv_locations (r_novel st)) (nv_srtLocations n0) (nv_srtLocations (r_novel st)).
Lemma locations_frame : forall styles title author desc es n n', feed locations_reader (opening_calls styles title author desc) es n = Ok n' ->
  no_locations n' = no_locations n /\ list_framed (marked (s "LcID") es) element_core new_world (nv_locations n) (nv_locations n') (nv_srtLocations n) (nv_srtLocations n').
Proof.
  intros styles title author desc es n n' H. assert (X : exists st, lc_inv es n st /\ n' = r_novel st); [refine (feed_inv _ _ _ _ _ _ _ _ _ _ _ H) | destruct X as (st & (I1 & I2 & I3 & I4) & ->)].
  - intros c st st' Hc (I1 & I2 & I3 & I4) E. destruct c as [tag a|tag|t|t]; cbn [handle locations_reader h_start h_end h_data h_comment] in E.
    + unfold lc_start in E. destruct (str_eqb tag (s "div")) eqn:Et.
      * apply str_eqb_eq in Et. destruct (Hc Et) as (v & -> & V). cbn [first_attr bind] in E. rewrite str_eqb_refl in E. destruct (prefixb (s "LcID") v) eqn:P.
        -- okstep E. apply ok_eq in E. subst st'. assert (Hy : marked (s "LcID") es y). { exists v. unfold number_in in E0. destruct (first_number v) eqn:F; [|discriminate]. apply ok_eq in E0. subst. auto. }
           cbn [r_novel set_r_lcId]. destruct (dmem y (nv_locations (r_novel st))) eqn:D; (split; [exact I1|]); (split; [cbn; intros i Ei; injection Ei as <-; exact Hy|]); (split; [exact I3|]); [exact I4|].
           cbn. now apply list_framed_new.
        -- apply ok_eq in E; subst st'; repeat split; first [exact I1 | exact I2 | exact I3 | apply I4].
      * destruct (str_eqb tag (s "s")); apply ok_eq in E; subst st'; repeat split; first [exact I1 | exact I2 | exact I3 | apply I4].
    + unfold lc_end in E. destruct (r_lcId st) as [k|] eqn:Ek; [|apply ok_eq in E; subst st'; repeat split; first [exact I1 | now rewrite Ek | exact I3 | apply I4]].
      assert (Hk := I2 k eq_refl). cbv zeta in E.
      destruct (tag_is tag (s "div")).
      * okstep E. apply ok_eq in E. subst st'. unfold dindex in E0. destruct (dget k (nv_locations (r_novel st))) as [x|] eqn:D; [|discriminate]. apply ok_eq in E0. subst.
        split; [exact I1|]. split; [discriminate|]. split; [exact I3|]. cbn. eapply list_framed_set; [exact I4 | exact Hk | exact D | reflexivity].
      * destruct (tag_is tag (s "p")); apply ok_eq in E; subst st'; repeat split; first [exact I1 | cbn; now rewrite Ek | exact I3 | apply I4].
    + unfold lc_data in E. apply ok_eq in E. subst st'. destruct (r_lcId st) eqn:Ek; repeat split; first [exact I1 | cbn; now rewrite Ek | exact I3 | apply I4].
    + unfold base_comment in E. rewrite I3 in E. apply ok_eq in E. subst st'. repeat split; first [exact I1 | exact I2 | exact I3 | apply I4].
  - split; [reflexivity|]. split; [discriminate|]. split; [reflexivity|]. apply list_framed_refl.
  - auto.
Qed.
