From Coq Require Import String List NArith ZArith Bool Lia Arith Sorting.Permutation.
From Verif Require Import PyStr PyDict NovelModel NovelOps WordCount Splitter SpecNovel SpecSplit OdfXml OdtRead SpecRead ReadFrame ReadFrame2 ReadFrame3.
Import ListNotations.

#[local] Arguments dkeys {A} d : simpl never.
#[local] Arguments dset {A} k v d : simpl never.
#[local] Arguments dget {A} k d : simpl never.
#[local] Arguments dmem {A} k d : simpl never.

Definition any (t : str) : Prop := True.
Definition titled (c : chapter) : bool := match ch_title c with Some _ => true | None => false end.
Definition has_text (c : chapter) : bool := otruthy (ch_title c).
Ltac fin := first [apply step_refl | apply step_put | apply step_skip | apply step_lines | apply step_open | apply step_close | apply step_noscene | apply step_nochapter].
Ltac ids := intros ? ?; match goal with G : good _ _ _ |- _ => first [apply (proj1 G) | apply (proj2 G)]; congruence end.

Lemma manuscript_ok : forall SM CM TYPE, reader_ok SM CM ms_scene ms_chapter titled any (manuscript_reader TYPE).
Proof.
  intros SM CM TYPE c st st' Hc E G. revert G. change (step SM CM ms_scene ms_chapter titled st st'). destruct c as [tag a|tag|t|t]; cbn [handle manuscript_reader h_start h_end h_data h_comment] in E.
  - unfold ms_start in E. okstep E. eapply step_trans; [eapply base_step; [| |exact Hc|exact E0]; reflexivity|]. destruct (r_scId y) as [i|].
    + apply ok_eq in E. subst st'. repeat match goal with |- context [if ?b then _ else _] => destruct b; [fin|] end; try fin.
      destruct (str_eqb tag (s "blockquote")); [eapply step_trans; [apply step_put | apply step_open] | fin].
    + destruct (str_eqb tag (s "body")); [eapply step_body, E|]. destruct (str_eqb tag (s "s")); apply ok_eq in E; subst; fin.
  - unfold ms_end in E. destruct (r_scId st) as [id|] eqn:Es.
    + destruct (tag_in tag [s "p"; s "blockquote"]); [apply ok_eq in E; subst; eapply step_trans; [apply step_close | apply step_put]|].
      destruct (tag_is tag (s "em")); [apply ok_eq in E; subst; fin|]. destruct (tag_is tag (s "strong")); [apply ok_eq in E; subst; fin|]. destruct (tag_is tag (s "lang")); [apply ok_eq in E; subst; fin|].
      destruct (tag_is tag (s "div")).
      * okstep E. okstep E. apply ok_eq in E. subst. intro G. revert G. eapply step_trans; [|eapply step_trans; [apply (step_lines _ _ _ _ _ [])| apply step_noscene]].
        intro G. revert G. intro G. refine (on_scene_step SM CM ms_scene ms_chapter titled _ _ _ _ _ _ E1 G); [ids | reflexivity].
      * destruct (tag_in tag [s "h1"; s "h2"]); apply ok_eq in E; subst; fin.
    + apply ok_eq in E. subst. destruct (r_chId st) as [k|]; [|fin]. destruct (tag_is tag (s "div")); fin.
  - unfold ms_data in E. destruct (r_skip st); [apply ok_eq in E; subst; fin|]. destruct (r_scId st) as [id|]; [apply ok_eq in E; subst; destruct (isspace t); fin|].
    destruct (r_chId st) as [k|] eqn:Ek; [|apply ok_eq in E; subst; fin]. intro G. refine (on_chapter_step SM CM ms_scene ms_chapter titled _ _ _ _ _ _ _ _ E G).
    + ids.
    + intro c. destruct (ch_title c); reflexivity.
    + intro c. destruct (ch_title c); reflexivity.
    + intros c H. unfold titled in H. destruct (ch_title c) eqn:T; [exact T | discriminate].
  - unfold ms_comment in E. destruct (r_scId st) as [id|] eqn:Es; [|apply ok_eq in E; subst; fin]. destruct (bracketed t) as [u|]; apply ok_eq in E; subst; [|fin].
    destruct (on_scene (Some id) (set_sc_title (Some (strip u))) st) as [s1|] eqn:E1; [|fin]. intro G. refine (on_scene_step SM CM ms_scene ms_chapter titled _ _ _ _ _ _ E1 G); [ids | reflexivity].
Qed.

Lemma scenedesc_ok : forall SM CM, reader_ok SM CM sd_scene ms_chapter has_text any scenedesc_reader.
Proof.
  intros SM CM c st st' Hc E. destruct c as [tag a|tag|t|t]; cbn [handle scenedesc_reader h_start h_end h_data h_comment] in E.
  - eapply base_step; [| |exact Hc|exact E]; reflexivity.
  - unfold sd_end in E. destruct (r_scId st) as [id|] eqn:Es.
    + destruct (tag_is tag (s "div")).
      * match type of E with (let '(_, _) := ?m in _) = _ => destruct m as [ti tx] end. okstep E. apply ok_eq in E. subst. eapply step_trans; [|eapply step_trans; [apply (step_lines _ _ _ _ _ [])| apply step_noscene]].
        intro G. refine (on_scene_step SM CM sd_scene ms_chapter has_text _ _ _ _ _ _ E0 G); [ids | destruct ti; reflexivity].
      * destruct (tag_is tag (s "p")); apply ok_eq in E; subst; fin.
    + apply ok_eq in E. subst. destruct (r_chId st) as [k|]; [|fin]. destruct (tag_is tag (s "div")); fin.
  - unfold sd_data in E. destruct (r_scId st) as [id|]; [apply ok_eq in E; subst; fin|].
    destruct (r_chId st) as [k|] eqn:Ek; [|apply ok_eq in E; subst; fin]. intro G. refine (on_chapter_step SM CM sd_scene ms_chapter has_text _ _ _ _ _ _ _ _ E G).
    + ids.
    + intro c. destruct (otruthy (ch_title c)); reflexivity.
    + intro c. destruct (otruthy (ch_title c)); reflexivity.
    + intros c H. unfold has_text in H. now rewrite H.
  - eapply base_comment_step, E.
Qed.
Lemma chapterdesc_ok : forall SM CM, reader_ok SM CM cd_scene cd_chapter has_text any chapterdesc_reader.
Proof.
  intros SM CM c st st' Hc E. destruct c as [tag a|tag|t|t]; cbn [handle chapterdesc_reader h_start h_end h_data h_comment] in E.
  - eapply base_step; [| |exact Hc|exact E]; reflexivity.
  - unfold cd_end in E. destruct (r_chId st) as [id|] eqn:Es; [|apply ok_eq in E; subst; fin]. destruct (tag_is tag (s "div")).
    + okstep E. apply ok_eq in E. subst. eapply step_trans; [|eapply step_trans; [apply (step_lines _ _ _ _ _ [])| apply step_nochapter]].
      intro G. refine (on_chapter_step SM CM cd_scene cd_chapter has_text _ _ _ _ _ _ _ _ E0 G); [ids | reflexivity | reflexivity | reflexivity].
    + destruct (tag_is tag (s "p")); [apply ok_eq in E; subst; fin|]. destruct (tag_in tag [s "h1"; s "h2"]); [|apply ok_eq in E; subst; fin].
      okstep E. apply ok_eq in E. subst. eapply step_trans; [|apply step_lines]. intro G. refine (on_chapter_step SM CM cd_scene cd_chapter has_text _ _ _ _ _ _ _ _ E0 G).
      * ids.
      * intro c. destruct (otruthy (ch_title c)); reflexivity.
      * intro c. destruct (otruthy (ch_title c)); reflexivity.
      * intros c H. unfold has_text in H. now rewrite H.
  - unfold cd_data in E. apply ok_eq in E. subst. destruct (r_chId st); fin.
  - eapply base_comment_step, E.
Qed.
Lemma proof_ok : forall SM tr, reader_ok SM (fun _ => False) pf_scene id (fun _ => true) (fun t => containsb (s "[ScID") t = true -> forall i, first_number t = Some i -> SM i) (proof_reader tr).
Proof.
  intros SM tr c st st' Hc E. set (CM := fun _ : str => False) in *. destruct c as [tag a|tag|t|t]; cbn [handle proof_reader h_start h_end h_data h_comment] in E.
  - unfold pf_start in E. repeat match type of E with (if ?b then _ else _) = _ => destruct b; [first [apply ok_eq in E; subst; first [fin | eapply step_trans; [apply step_put | apply step_open]] | eapply step_body, E]|] end. apply ok_eq in E; subst; fin.
  - unfold pf_end in E. apply ok_eq in E. subst. destruct (tag_in tag [s "p"; s "h2"; s "h1"; s "blockquote"]); [eapply step_trans; [apply step_put | apply step_close]|].
    repeat match goal with |- context [if ?b then _ else _] => destruct b; [fin|] end. fin.
  - unfold pf_data in E. match type of E with match ?r with _ => _ end = _ => destruct r as [s1|] eqn:R; [|discriminate] end. apply ok_eq in E. subst s1. destruct (r_skip st); [apply ok_eq in R; subst; fin|].
    destruct (containsb (s "[ScID") t) eqn:C1.
    + okstep R. apply ok_eq in R. subst. cbn [call_ok] in Hc. assert (Hy : SM y). { unfold number_in in E. destruct (first_number t) eqn:F; [|discriminate]. apply ok_eq in E. subst. now apply Hc. }
      eapply step_trans; [apply (step_scene _ _ _ _ _ y), Hy | apply step_lines].
    + destruct (containsb (s "[/ScID") t).
      * okstep R. apply ok_eq in R. subst. eapply step_trans; [|apply step_noscene]. destruct (r_scId st) as [i|] eqn:Es; [|apply ok_eq in E; subst; fin]. destruct (dmem i (nv_scenes (r_novel st))); [|apply ok_eq in E; subst; fin].
        okstep E. okstep E. apply ok_eq in E. subst. eapply step_trans; [|apply step_lines]. intro G. refine (on_scene_step SM CM pf_scene id (fun _ => true) _ _ _ _ _ _ E1 G); [ids | reflexivity].
      * apply ok_eq in R. subst. destruct (r_scId st); fin.
  - eapply base_comment_step, E.
Qed.
