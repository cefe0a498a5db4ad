(** Saving again adds no project variables. *)
From Coq Require Import String List NArith ZArith Bool Lia Arith.
From Verif Require Import PyStr PyDict NovelModel NovelOps YwTree Yw7Build SpecVars VarsProofs.
Import ListNotations.

Lemma there_In : forall (t : str) (old : list (option str)), existsb (fun o => match o with Some u => str_eqb u t | None => false end) old = true <-> In (Some t) old.
Proof.
  intros t old. rewrite existsb_exists. split.
  - intros ([u|] & H & E); [|discriminate]. apply str_eqb_eq in E. subst u. exact H.
  - intro H. exists (Some t). split; [exact H | apply str_eqb_refl].
Qed.
Lemma nothing_missing : forall old ls, In (Some (s "Language")) old -> In (Some (s "Country")) old -> (forall l, In l ls -> In (Some (s "lang=" ++ l)) old) -> missing_titles old ls = [].
Proof.
  intros old ls H1 H2 H3. unfold missing_titles. apply there_In in H1, H2. rewrite H1, H2. cbn [app].
  induction ls as [|l ls IH]; [reflexivity|]. cbn [flat_map]. rewrite (proj2 (there_In (s "lang=" ++ l) old) (H3 l (or_introl eq_refl))). cbn [app]. apply IH. intros x Hx. apply H3. right. exact Hx.
Qed.
Lemma missing_there : forall old ls, let all := old ++ map Some (missing_titles old ls) in
  In (Some (s "Language")) all /\ In (Some (s "Country")) all /\ forall l, In l ls -> In (Some (s "lang=" ++ l)) all.
Proof.
  intros old ls all. subst all. unfold missing_titles.
  assert (X : forall t, In (Some t) old \/ existsb (fun o => match o with Some u => str_eqb u t | None => false end) old = false).
  { intro t. destruct (existsb (fun o => match o with Some u => str_eqb u t | None => false end) old) eqn:E; [left; apply there_In; exact E | right; reflexivity]. }
  split; [|split].
  - apply in_or_app. destruct (X (s "Language")) as [H | H]; [left; exact H|]. right. apply in_map. rewrite H. left. reflexivity.
  - apply in_or_app. destruct (X (s "Country")) as [H | H]; [left; exact H|]. right. apply in_map. apply in_or_app. right. rewrite H. left. reflexivity.
  - intros l Hl. apply in_or_app. destruct (X (s "lang=" ++ l)) as [H | H]; [left; exact H|]. right. apply in_map. apply in_or_app. right. apply in_or_app. right.
    apply in_flat_map. exists l. split; [exact Hl|]. rewrite H. left. reflexivity.
Qed.

Theorem vars_again : forall loc dloc n old n1 r1 ls loc2 dloc2 m m1 r2 ls2, write_tree loc dloc n old = Ok (n1, r1) ->
  nv_languages (prepare n) = Some ls -> NoDup ls /\ Forall (fun c => ~ In 61%N c) ls ->
  write_tree loc2 dloc2 m (Some r1) = Ok (m1, r2) -> nv_languages (prepare m) = Some ls2 -> NoDup ls2 -> incl ls2 ls ->
  (has_language (prepare m) = true -> has_language (prepare n) = true) ->
  map described (variables r2) = map described (variables r1).
Proof.
  intros loc dloc n old n1 r1 ls loc2 dloc2 m m1 r2 ls2 Hw El Hls Hw2 El2 Hn2 Hi Hh.
  destruct (vars_saved loc dloc n old n1 r1 ls Hw El Hls) as (new & A1 & A2 & _).
  assert (F2 : Forall (fun c => ~ In 61%N c) ls2) by (destruct Hls as [_ F]; rewrite Forall_forall in *; intros c Hc; apply F; apply Hi; exact Hc).
  destruct (vars_saved loc2 dloc2 m (Some r1) m1 r2 ls2 Hw2 El2 (conj Hn2 F2)) as (new2 & B1 & B2 & _). cbv iota in B1, B2.
  assert (Z : map snd new2 = []).
  { rewrite B2. destruct (has_language (prepare m)); [|reflexivity]. rewrite (Hh eq_refl) in A2.
    assert (T : map variable_title (variables r1) = map variable_title (variables (match old with Some r => r | None => [] end)) ++ map Some (missing_titles (map variable_title (variables (match old with Some r => r | None => [] end))) ls)).
    { rewrite <- A2. assert (D : forall k, map variable_title k = map snd (map described k)) by (intro k; rewrite map_map; reflexivity). rewrite !D, A1, map_app. reflexivity. }
    rewrite T. destruct (missing_there (map variable_title (variables (match old with Some r => r | None => [] end))) ls) as (C1 & C2 & C3). rewrite nothing_missing; [reflexivity | exact C1 | exact C2|].
    intros l Hl. apply C3. apply Hi. exact Hl. }
  rewrite B1. destruct new2; [apply app_nil_r | discriminate].
Qed.
