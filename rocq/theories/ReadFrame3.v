From Coq Require Import String List NArith ZArith Bool Lia Arith Sorting.Permutation.
From Verif Require Import PyStr PyDict NovelModel NovelOps WordCount Splitter SpecNovel SpecSplit OdfXml OdtRead SpecRead ReadFrame ReadFrame2.
Import ListNotations.

#[local] Arguments dkeys {A} d : simpl never.
#[local] Arguments dset {A} k v d : simpl never.
#[local] Arguments dget {A} k d : simpl never.
#[local] Arguments dmem {A} k d : simpl never.

Section Steps.
Variables (SM CM : str -> Prop) (sc : scene -> scene) (cc : chapter -> chapter) (ht : chapter -> bool).
Definition good (st : rs) : Prop := (forall id, r_scId st = Some id -> SM id) /\ (forall id, r_chId st = Some id -> CM id).
Definition step (st st' : rs) : Prop := good st -> changes SM CM sc cc ht (r_novel st) (r_novel st') /\ good st'.
Lemma step_refl : forall st, step st st.
Proof. intros st G. split; [apply cs_nil | exact G]. Qed.
Lemma step_trans : forall a b c, step a b -> step b c -> step a c.
Proof. intros a b c H K G. destruct (H G) as [H1 H2]. destruct (K H2) as [K1 K2]. split; [eapply changes_trans; eassumption | exact K2]. Qed.
(** the novel and the IDs are the same *)
Lemma step_same : forall st st', r_novel st' = r_novel st -> r_scId st' = r_scId st -> r_chId st' = r_chId st -> step st st'.
Proof. intros st st' A B C [G1 G2]. rewrite A. split; [apply cs_nil|]. split; rewrite ?B, ?C; assumption. Qed.
Lemma step_put : forall t st, step st (put_line t st).
Proof. intros. now apply step_same. Qed.
Lemma step_lines : forall t st, step st (set_r_lines t st).
Proof. intros. now apply step_same. Qed.
Lemma step_skip : forall t st, step st (set_r_skip t st).
Proof. intros. now apply step_same. Qed.
Lemma step_language : forall t st, step st (set_r_language t st).
Proof. intros. now apply step_same. Qed.
Lemma step_noscene : forall st, step st (set_r_scId None st).
Proof. intros st [G1 G2]. split; [apply cs_nil|]. split; [discriminate | exact G2]. Qed.
Lemma step_nochapter : forall st, step st (set_r_chId None st).
Proof. intros st [G1 G2]. split; [apply cs_nil|]. split; [exact G1 | discriminate]. Qed.
Lemma step_scene : forall id st, SM id -> step st (set_r_scId (Some id) st).
Proof. intros id st H [G1 G2]. split; [apply cs_nil|]. split; [cbn; intros i E; injection E as <-; exact H | exact G2]. Qed.
Lemma step_chapter : forall id st, CM id -> step st (set_r_chId (Some id) st).
Proof. intros id st H [G1 G2]. split; [apply cs_nil|]. split; [exact G1 | cbn; intros i E; injection E as <-; exact H]. Qed.
Lemma step_close : forall st, step st (close_language st).
Proof. intro st. unfold close_language. destruct (truthy (r_language st)); [|apply step_refl]. now apply step_same. Qed.
Lemma step_novel : forall st n, change SM CM sc cc ht (r_novel st) n -> step st (set_r_novel n st).
Proof. intros st n H G. split; [now apply changes_one | exact G]. Qed.
Lemma step_open : forall a st, step st (open_language a st).
Proof.
  intros a st. unfold open_language. destruct a as [|[[k [l|]]|] a]; try apply step_refl. destruct (str_eqb k (s "lang")); [|apply step_refl].
  destruct (nv_languages (r_novel st)) as [ls|]; [|apply step_language]. eapply step_trans; [apply (step_language l)|]. eapply step_trans; [|apply step_put]. apply step_novel. apply ch_languages.
Qed.
Lemma step_foldM : forall {A} (f : rs -> A -> res rs) l st st', (forall st st' x, In x l -> f st x = Ok st' -> step st st') -> foldM f l st = Ok st' -> step st st'.
Proof.
  intros A f l. induction l as [|x l IH]; intros st st' H E; cbn [foldM] in E; [apply ok_eq in E; subst; apply step_refl|]. okstep E. eapply step_trans; [apply (H st y x (or_introl eq_refl)), E0 | apply IH; [|exact E]]. intros. eapply H; [right|]; eassumption.
Qed.
Lemma step_body : forall a st st', body_tag a st = Ok st' -> step st st'.
Proof.
  intros a st st'. apply step_foldM. intros s1 s2 x _ E. unfold body_attr in E. destruct x as [[k v]|]; [|discriminate]. apply ok_eq in E. subst s2. destruct (otruthy v); [|apply step_refl].
  destruct (str_eqb k (s "language")); [apply step_novel, ch_languageCode|]. destruct (str_eqb k (s "country")); [apply step_novel, ch_countryCode | apply step_refl].
Qed.
Lemma on_scene_step : forall id f st st', (forall i, id = Some i -> SM i) -> (forall x, sc (f x) = sc x) -> on_scene id f st = Ok st' -> step st st'.
Proof.
  intros id f st st' Hi Hf E. unfold on_scene in E. destruct id as [id|]; [|discriminate]. cbn [key bind] in E. okstep E. apply ok_eq in E. subst. apply step_novel. unfold dindex in E0. destruct (dget id (nv_scenes (r_novel st))) as [x|] eqn:D; [|discriminate]. apply ok_eq in E0. subst.
  eapply ch_scene; [now apply Hi | exact D | apply Hf].
Qed.
Lemma on_chapter_step : forall id f st st', (forall i, id = Some i -> CM i) -> (forall c, cc (f c) = cc c) -> (forall c, ch_srtScenes (f c) = ch_srtScenes c) -> (forall c, ht c = true -> ch_title (f c) = ch_title c) ->
  on_chapter id f st = Ok st' -> step st st'.
Proof.
  intros id f st st' Hi Hf Hs Ht E. unfold on_chapter in E. destruct id as [id|]; [|discriminate]. cbn [key bind] in E. okstep E. apply ok_eq in E. subst. apply step_novel. unfold dindex in E0. destruct (dget id (nv_chapters (r_novel st))) as [x|] eqn:D; [|discriminate]. apply ok_eq in E0. subst.
  eapply ch_chapter; [now apply Hi | exact D | apply Hf | apply Hs | apply Ht].
Qed.
(** the call is a div with the name of a marked section, or no div *)
Definition div_ok (tag : str) (a : list attr) : Prop := tag = s "div" -> exists v, a = [Some (s "id", Some v)] /\
  (prefixb (s "ScID") v = true -> forall id, first_number v = Some id -> SM id) /\ (prefixb (s "ChID") v = true -> forall id, first_number v = Some id -> CM id).
Lemma base_step : forall TYPE tag a st st', (forall x t, sc (set_sc_type t x) = sc x) -> (forall x t, cc (set_ch_type t x) = cc x) ->
  div_ok tag a -> base_start TYPE tag a st = Ok st' -> step st st'.
Proof.
  intros TYPE tag a st st' Hs Hc Hd E. unfold base_start in E. destruct (str_eqb tag (s "div")) eqn:Et.
  - apply str_eqb_eq in Et. destruct (Hd Et) as (v & -> & V1 & V2). cbn [first_attr bind] in E. rewrite str_eqb_refl in E. destruct (prefixb (s "ScID") v) eqn:P1.
    + okstep E. assert (Hy : SM y). { unfold number_in in E0. destruct (first_number v) eqn:F; [|discriminate]. apply ok_eq in E0. subst. now apply V1. }
      eapply step_trans; [apply (step_scene y), Hy|]. okstep E. eapply step_trans; [|refine (on_scene_step _ _ _ _ _ _ E); [intros i Ei; injection Ei as <-; exact Hy | intro; apply Hs]].
      cbn [r_novel set_r_scId r_chId] in E1. destruct (dmem y (nv_scenes (r_novel st))) eqn:D; [apply ok_eq in E1; subst; apply step_refl|].
      intro G. destruct (r_chId st) as [k|] eqn:Ek; [|discriminate]. unfold on_chapter in E1. cbn [key bind] in E1. okstep E1. apply ok_eq in E1. subst. unfold dindex in E2. cbn [add_scene r_novel set_r_novel set_nv_scenes nv_chapters set_r_scId] in *.
      destruct (dget k (nv_chapters (r_novel st))) as [c|] eqn:Dk; [|discriminate]. apply ok_eq in E2. subst. split; [|exact G]. apply changes_one. apply (ch_new_scene SM CM sc cc ht (r_novel st) y k y1); [exact Hy | apply (proj2 G); exact Ek | exact D | exact Dk].
    + destruct (prefixb (s "ChID") v) eqn:P2; [|apply ok_eq in E; subst; apply step_refl].
      okstep E. assert (Hy : CM y). { unfold number_in in E0. destruct (first_number v) eqn:F; [|discriminate]. apply ok_eq in E0. subst. now apply V2. }
      eapply step_trans; [apply (step_chapter y), Hy|]. eapply step_trans; [|refine (on_chapter_step _ _ _ _ _ _ _ _ E); [intros i Ei; injection Ei as <-; exact Hy | intro; apply Hc | reflexivity | reflexivity]].
      cbn [r_novel set_r_chId]. destruct (dmem y (nv_chapters (r_novel st))) eqn:D; [apply step_refl|]. apply step_novel. apply ch_new_chapter; [exact Hy | exact D].
  - destruct (str_eqb tag (s "s")); apply ok_eq in E; subst; [apply step_put | apply step_refl].
Qed.
Lemma base_comment_step : forall t st st', base_comment t st = Ok st' -> step st st'.
Proof. intros t st st' E. unfold base_comment in E. apply ok_eq in E. subst. destruct (r_scId st); [apply step_put | apply step_refl]. Qed.
(** what is needed of a reader *)
Definition call_ok (D : str -> Prop) (c : call) : Prop := match c with CStart tag a => div_ok tag a | CData t => D t | _ => True end.
Definition reader_ok (D : str -> Prop) (h : reader) : Prop := forall c st st', call_ok D c -> handle h st c = Ok st' -> step st st'.
End Steps.

(** data of a call comes from an event *)
Lemma parser_data : forall e p p' calls t, parser_event e p = Ok (p', calls) -> In (CData t) calls -> e = Data t.
Proof.
  intros e p p' calls t H I. destruct e as [name a|name|u]; cbn [parser_event] in H.
  - exfalso. unfold start_element in H. set (style := match dget (s "text:style-name") a with Some x => x | None => [] end) in *.
    destruct (str_eqb name (s "text:p")) eqn:E1.
    { match type of H with (let '(_, _) := ?m in _) = _ => destruct m as [p1 c1] eqn:M end. destruct (emphasis style p1) as [p2 c2] eqn:Em. apply ok_eq in H. injection H as <- <-.
      apply in_app_case in I as [I|I].
      - destruct (p_count p); [injection M as <- <-; destruct I|]. destruct (smem style (p_quote p)); [injection M as <- <-; destruct I as [I|[]]; discriminate|].
        destruct (prefixb (s "Heading") style); [injection M as <- <-; destruct I as [I|[]]; discriminate|]. destruct (dget style (p_head p)) as [h|] eqn:D; [injection M as <- <-; destruct I as [I|[]]; discriminate|].
        destruct (p_list p); injection M as <- <-; destruct I as [I|[]]; discriminate.
      - pose proof (emphasis_calls style p1 (CData t)) as Ec. rewrite Em in Ec. destruct (Ec I); discriminate. }
    destruct (str_eqb name (s "text:span")) eqn:E2.
    { destruct (emphasis style p) as [p2 c2] eqn:Em. pose proof (emphasis_calls style p) as Ec. rewrite Em in Ec. cbn [snd] in Ec.
      destruct (dget style (p_lang p2)); apply ok_eq in H; injection H as <- <-; [apply in_app_case in I as [I|[I|[]]]; [destruct (Ec _ I); discriminate | discriminate] | destruct (Ec _ I); discriminate]. }
    destruct (str_eqb name (s "text:section")) eqn:E3; [okstep H; apply ok_eq in H; injection H as <- <-; destruct I as [I|[]]; discriminate|].
    destruct (str_eqb name (s "office:annotation")); [apply ok_eq in H; injection H as <- <-; destruct I|].
    destruct (str_eqb name (s "text:h")); [okstep H; apply ok_eq in H; injection H as <- <-; destruct I as [I|[]]; discriminate|].
    destruct (str_eqb name (s "text:list-item")); [apply ok_eq in H; injection H as <- <-; destruct I|].
    destruct (str_eqb name (s "style:style")).
    { match type of H with (if ?b then _ else _) = _ => destruct b end; [apply ok_eq in H; injection H as <- <-; destruct I|].
      match type of H with (if ?b then _ else _) = _ => destruct b end; apply ok_eq in H; injection H as <- <-; destruct I. }
    destruct (str_eqb name (s "style:text-properties")).
    { match type of H with (if ?b then _ else _) = _ => destruct b end; [okstep H; okstep H|]; apply ok_eq in H; injection H as <- <-; destruct I. }
    destruct (str_eqb name (s "text:s")); apply ok_eq in H; injection H as <- <-; [destruct I as [I|[]]; discriminate | destruct I].
  - exfalso. apply ok_eq in H. unfold end_element in H. revert H. destruct (str_eqb name (s "text:p")).
    + destruct (p_count p); [intro H; injection H as <- <-; destruct I|].
      assert (Sp : forall l, In (CData t) (map (fun t => CEnd (Some t)) l) -> False) by (intros l J; apply in_map_iff in J as [t' [J _]]; discriminate).
      destruct (p_blockquote (set_p_span [] p)); [|destruct (otruthy (p_heading (set_p_span [] p)))]; intro H; injection H as <- <-; (apply in_app_case in I as [I|[I|[]]]; [now apply Sp in I | discriminate]).
    + destruct (str_eqb name (s "text:span")); [destruct (p_span p); intro H; injection H as <- <-; [destruct I | destruct I as [I|[]]; discriminate]|].
      destruct (str_eqb name (s "text:section")); [intro H; injection H as <- <-; destruct I as [I|[]]; discriminate|]. destruct (str_eqb name (s "office:annotation")); [intro H; injection H as <- <-; destruct I as [I|[]]; discriminate|].
      destruct (str_eqb name (s "text:h")); [intro H; injection H as <- <-; destruct I as [I|[]]; discriminate|]. destruct (str_eqb name (s "text:list-item")); [intro H; injection H as <- <-; destruct I|]. destruct (str_eqb name (s "style:style")); intro H; injection H as <- <-; destruct I.
  - apply ok_eq in H. unfold characters in H. destruct (p_count p) as [[|[|k]]|]; [| | |destruct (p_paragraph p); [|destruct (p_heading p)]]; injection H as <- <-; cbn in I; try tauto; destruct I as [I|[]]; injection I as <-; reflexivity.
Qed.

(** the calls before the content *)
Lemma opening_ok : forall SM CM (D : str -> Prop) styles title author desc c, In c (opening_calls styles title author desc) -> (forall t, title = Some t -> D t) -> call_ok SM CM D c.
Proof.
  intros SM CM D styles title author desc c I Ht. unfold opening_calls in I. rewrite !in_app_iff in I. destruct I as [I|[I|[I|I]]].
  1: { destruct styles as [[l k]|]; [|destruct I]. destruct I as [<-|[]]. intro E. discriminate. }
  1: { destruct title as [[|x t]|]; try now destruct I. destruct I as [<-|[<-|[<-|[]]]]; cbn; [intro E; discriminate | now apply Ht | exact Logic.I]. }
  1: { destruct author as [[|x t]|]; try now destruct I. destruct I as [<-|[]]. intro E; discriminate. }
  { destruct desc as [[|x t]|]; try now destruct I. destruct I as [<-|[]]. intro E; discriminate. }
Qed.
Lemma section_names_in : forall es e v, In e es -> In v (section_of e) -> In v (section_names es).
Proof. intros es e v H I. unfold section_names. apply in_flat_map. exists e. split; [exact H|]. unfold section_of, section_names in I. cbn [flat_map] in I. now rewrite app_nil_r in I. Qed.
Theorem feed_changes : forall (SM CM D : str -> Prop) sc cc ht h styles title author desc es n n',
  reader_ok SM CM sc cc ht D h ->
  (forall id, marked (s "ScID") es id -> SM id) -> (forall id, marked (s "ChID") es id -> CM id) -> (forall t, In (Data t) es -> D t) -> (forall t, title = Some t -> D t) ->
  feed h (opening_calls styles title author desc) es n = Ok n' -> changes SM CM sc cc ht n n'.
Proof.
  intros SM CM D sc cc ht h styles title author desc es n n' Hr HS HC HD Ht H. unfold feed in H. okstep H. okstep H. apply ok_eq in H. subst n'.
  assert (S1 : step SM CM sc cc ht (new_rs n) y). { eapply step_foldM; [|exact E]. intros s1 s2 c I Ec. eapply Hr; [|exact Ec]. eapply opening_ok; eassumption. }
  assert (S2 : forall l, incl l es -> forall p r p' r', head_ok p -> foldM (feed_event h) l (p, r) = Ok (p', r') -> step SM CM sc cc ht r r').
  { induction l as [|e l IH]; intros Hl p r p' r' Hp El; cbn [foldM] in El; [apply ok_eq in El; injection El as <- <-; apply step_refl|].
    okstep El. destruct y1 as [p1 r1]. unfold feed_event in E1. cbn [fst snd] in E1. okstep E1. destruct y1 as [p2 calls]. okstep E1. apply ok_eq in E1. injection E1 as <- <-.
    destruct (parser_calls _ _ _ _ E2 Hp) as [Hp2 Hc]. eapply step_trans; [|eapply (IH (fun x Hx => Hl x (or_intror Hx))); [exact Hp2 | exact El]].
    eapply step_foldM; [|exact E3]. intros s1 s2 c I Ec. eapply Hr; [|exact Ec]. destruct c as [tag a|tag|t|t]; cbn; try exact Logic.I.
    - intro T. destruct (Hc tag a I T) as (v & Iv & ->). exists v. split; [reflexivity|]. assert (Iv' : In v (section_names es)) by (eapply section_names_in; [apply Hl; left; reflexivity | exact Iv]).
      split; intros P id F; [apply HS | apply HC]; exists v; auto.
    - apply HD. apply (parser_data _ _ _ _ _ E2) in I. subst e. apply Hl. now left. }
  destruct y0 as [p' r']. assert (S3 := S2 es (fun x Hx => Hx) new_ps y p' r' (Forall_nil _) E0). cbn [snd].
  assert (G0 : good SM CM (new_rs n)) by (split; discriminate). destruct (S1 G0) as [C1 G1]. destruct (S3 G1) as [C2 _]. eapply changes_trans; eassumption.
Qed.
