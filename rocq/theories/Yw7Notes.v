(** The project notes of a file are read with their texts. *)
From Coq Require Import String List NArith ZArith Bool Lia Arith.
From Verif Require Import PyStr PyDict Spec Globals NovelModel NovelOps NovelOpsProofs YwTree IsoDate Yw7Build Yw7Read YwTreeProofs Yw7SceneProofs Yw7SceneRT Yw7ChapterRT
  Yw7ElemRT Yw7ListRT Yw7TreeInv Yw7ProjRT Yw7SecRT Yw7TreeRT SpecYw7 SpecText Yw7Facts Yw7Facts2 SplitterProofs.
Import ListNotations.

Lemma notes_from : forall ext r n', read_tree ext r new_novel = Ok n' ->
  (nv_srtPrjNotes n', nv_projectNotes n') = match find (s "PROJECTNOTES") r with Some e => read_notes (e_kids e) ([], []) | None => ([], []) end.
Proof.
  intros ext r n' H. unfold read_tree in H.
  apply bind_ok in H. destruct H as (n1 & HP & H).
  assert (Z6 : nv_projectNotes n1 = []).
  { cbv beta delta [read_project] in HP. set (fp := find (s "PROJECT") r) in *. clearbody fp. destruct fp as [p|]; [|discriminate HP].
    cbv iota in HP.
    match type of HP with (let x := ?v in @?f x) = ?R => remember v as k eqn:Ek in HP; change (f k = R) in HP; cbv beta in HP end.
    repeat match type of HP with (let x := ?v in @?f x) = ?R => let y := fresh "m" in let E := fresh "E" in
      remember v as y eqn:E in HP; change (f y = R) in HP; cbv beta in HP end.
    injection HP as HP. rewrite <- HP; clear HP; unstep; reflexivity. }
  clear HP.
  apply bind_ok in H. destruct H as ([sL dL] & _ & H).
  apply bind_ok in H. destruct H as ([sI dI] & _ & H). cbn [fst snd] in H.
  apply bind_ok in H. destruct H as ([sC dC] & _ & H). cbn [fst snd] in H.
  match type of H with context [match find (s "PROJECTVARS") r with Some e => read_projectvars (e_kids e) ?x | None => ?x end] =>
    assert (PV : exists l c ls, match find (s "PROJECTVARS") r with Some e => read_projectvars (e_kids e) x | None => x end = set_nv_languages ls (set_nv_countryCode c (set_nv_languageCode l x)));
    [destruct (find (s "PROJECTVARS") r) as [e|]; [apply read_pv_frame | exists (nv_languageCode n1), (nv_countryCode n1), (nv_languages n1); destruct n1; reflexivity]|];
    destruct PV as (pl & pc & pls & PV); rewrite PV in H; clear PV end.
  match type of H with context [read_notes _ ([], nv_projectNotes ?x)] => change (nv_projectNotes x) with (nv_projectNotes n1) in H end. rewrite Z6 in H.
  match type of H with context [set_nv_projectNotes (snd ?a) (set_nv_srtPrjNotes (fst ?a) _)] =>
    change (match find (s "PROJECTNOTES") r with Some e => read_notes (e_kids e) ([], []) | None => ([], []) end) with a; generalize dependent a; intros [sN dN]; intros H end.
  cbn [fst snd] in H.
  apply bind_ok in H. destruct H as (n2 & HS & H). unfold read_scenes in HS.
  destruct (find (s "SCENES") r) as [eS|]; [|discriminate]. apply bind_ok in HS. destruct HS as (scs & _ & E). injection E as <-.
  apply bind_ok in H. destruct H as ([sH dH] & _ & H). cbn [fst snd] in H.
  apply bind_ok in H. destruct H as (n3 & HA & H). unfold adjust_scene_types in HA. apply bind_ok in HA. destruct HA as (scs2 & _ & E). injection E as <-.
  injection H as <-. reflexivity.
Qed.

Lemma notes_loop : forall es st, (forall e, In e es -> simple_note e) -> unique_ids es ->
  let st' := read_notes es st in
  (forall e i, In e es -> first_text (s "ID") (e_kids e) = Some i -> dget i (snd st') = Some (mkNote (get_text (s "Title") (e_kids e)) (get_text (s "Desc") (e_kids e)) [])) /\
  (forall i, (forall e, In e es -> first_text (s "ID") (e_kids e) <> Some i) -> dget i (snd st') = dget i (snd st)) /\
  map Some (fst st') = map Some (fst st) ++ map (fun e => first_text (s "ID") (e_kids e)) es.
Proof.
  induction es as [|e es IH]; intros st Hs U st'; [split; [intros e i []|]; split; [reflexivity | rewrite app_nil_r; reflexivity]|].
  destruct (Hs e (or_introl eq_refl)) as [Hi Hf]. rewrite tag_present_has in Hf. rewrite first_text_get in Hi. unfold get_text, find_text in Hi.
  destruct (find (s "ID") (e_kids e)) as [x|] eqn:Fi; [|contradiction Hi; reflexivity]. cbn [option_map] in Hi. destruct (e_text x) as [v|] eqn:Ev; [|contradiction Hi; reflexivity].
  assert (Ev' : first_text (s "ID") (e_kids e) = Some v) by (rewrite first_text_get; unfold get_text, find_text; rewrite Fi; exact Ev).
  subst st'. cbn [read_notes]. rewrite Fi, Ev, Hf. inversion U as [|? ? U1 U2]; subst.
  set (st1 := (fst st ++ [v], dset v (mkNote (get_text (s "Title") (e_kids e)) (get_text (s "Desc") (e_kids e)) []) (snd st))).
  destruct (IH st1 (fun e' H => Hs e' (or_intror H)) U2) as (A & B & C). split; [|split].
  - intros e' i [<- | He'] E; [|exact (A e' i He' E)]. rewrite Ev' in E. injection E as <-. rewrite B.
    + apply dget_dset_same.
    + intros e' He' E. apply U1. apply in_map_iff. exists e'. split; [rewrite E; symmetry; exact Ev' | exact He'].
  - intros i Hni. rewrite B by (intros e' He'; apply Hni; right; exact He'). apply dget_dset_other. intros ->. exact (Hni e (or_introl eq_refl) Ev').
  - rewrite C. unfold st1. cbn [fst]. rewrite map_app, <- app_assoc. cbn [map app]. rewrite Ev'. reflexivity.
Qed.

Theorem read_note_texts : forall ext r n', read_tree ext r new_novel = Ok n' -> unique_ids (entries (s "PROJECTNOTES") r) -> Forall simple_note (entries (s "PROJECTNOTES") r) ->
  texts_present note_text_fields (entries (s "PROJECTNOTES") r) (nv_projectNotes n') /\
  map Some (nv_srtPrjNotes n') = map (fun e => first_text (s "ID") (e_kids e)) (entries (s "PROJECTNOTES") r).
Proof.
  intros ext r n' H U S. pose proof (notes_from ext r n' H) as E. destruct (find (s "PROJECTNOTES") r) as [e|] eqn:F.
  - rewrite (entries_find _ _ _ F) in *. rewrite Forall_forall in S. destruct (notes_loop (e_kids e) ([], []) S U) as (A & B & C). rewrite <- E in *. cbn [fst snd] in *. split; [|exact C].
    intros x i Hx Hi. eexists. split; [exact (A x i Hx Hi)|]. intros t f Hf. repeat (destruct Hf as [Hf | Hf]; [injection Hf as <- <-; cbn [pn_title pn_desc]; symmetry; apply first_text_get|]). destruct Hf.
  - assert (Z : entries (s "PROJECTNOTES") r = []).
    { unfold entries. rewrite filter_none; [reflexivity|]. intros e He. destruct (str_eqb (e_tag e) (s "PROJECTNOTES")) eqn:E2; [|reflexivity]. exfalso.
      clear -F He E2. induction r as [|x r IH]; [destruct He|]. cbn [find] in F. destruct (str_eqb (e_tag x) (s "PROJECTNOTES")) eqn:E3; [discriminate|].
      destruct He as [-> | He]; [congruence | exact (IH F He)]. }
    rewrite Z. injection E as -> ->. split; [intros x i [] | reflexivity].
Qed.
