(** Property theorems about working with a project over several runs of the application: C42.
    Only statements, [exact], assumptions and instances.
    [ent]: the HTML entity table, [ext]: date-time formats beyond YYYY-MM-DD hh:mm:ss that some Python versions accept.
    All theorems hold for every choice. *)
From Coq Require Import List NArith ZArith Bool Lia Arith.
From Verif Require Import PyStr PyDict NovelModel NovelOps NovelOpsProofs YwTree IsoDate Yw7Build Yw7Read YwText SpecYw7 SpecText SpecFrame Yw7Facts Yw7Facts2 Yw7Facts3 Yw7Session SpecSession SessionProofs SessionUnchanged P_Yw7.
Import ListNotations.

(** After every history of saving novels and opening the file again, the file contains exactly what the history of
    saves says ([contents], see SpecSession): same chapters, scenes, project data, locations, items, characters and notes *)
Theorem C42_history : forall ent l p, Forall fits l -> saves l <> [] -> run ent new_project l = Ok p ->
  exists t, p_file p = Some t /\ forall ext, exists n', read_text ext t new_novel = Ok n' /\
    same_story (contents (saves l)) n' /\ same_world_data (contents (saves l)) n'.
Proof. exact session. Qed.
Print Assumptions C42_history.

(** and nothing in such a history fails, once the project has been saved for the first time *)
Theorem C42_succeeds : forall ent loc dloc n l, Forall fits (Save loc dloc n :: l) -> Forall known (Save loc dloc n :: l) ->
  exists p, run ent new_project (Save loc dloc n :: l) = Ok p.
Proof. exact session_total. Qed.
Print Assumptions C42_succeeds.

(** What is read from the file after such a history can be saved again, and this changes nothing: opening the project
    and saving it unchanged succeeds if the language can be determined, and the file still contains the same novel.
    ([plain_save]: no language tag in a scene has an equal sign in its language code.) *)
Theorem C42_unchanged : forall ent ext l p t n', Forall fits l -> Forall plain_save l -> run ent new_project l = Ok p -> p_file p = Some t -> read_text ext t new_novel = Ok n' ->
  representable n' /\ plain_tags n' /\
  (forall loc dloc, locale_text loc -> locale_text dloc -> language_known loc dloc n' -> exists p', run ent p [Open; Save loc dloc n'] = Ok p') /\
  (forall loc dloc p', locale_text loc -> locale_text dloc -> run ent p [Open; Save loc dloc n'] = Ok p' ->
    exists t' n2, p_file p' = Some t' /\ read_text ext t' new_novel = Ok n2 /\ same_story n' n2 /\ same_world_data n' n2).
Proof. exact unchanged. Qed.
Print Assumptions C42_unchanged.

(** a history: a novel, then the same novel without its title, its notes and the content of a scene, and with a new scene description *)
Definition S_scene : scene := Eval vm_compute in set_sc_desc (Some (s "It <rains> & rains.")) (set_sc_content None (set_sc_date None (set_sc_time None Y_scene1))).
Definition S_novel : novel := Eval vm_compute in set_nv_title None (set_nv_srtPrjNotes [] (set_nv_projectNotes [] (set_nv_scenes [(s "5", S_scene); (s "6", Y_scene2)] Y_novel))).
Lemma S_representable : representable S_novel.
Proof.
  constructor; try text.
  - split; [split; [nodup | refs]|]. intros i H. mem H. eexists. split; [reflexivity|]. constructor; try text; [tags | fields].
  - split; [split; [nodup | refs]|]. intros i H. mem H. eexists. split; [reflexivity|]. constructor; try text; [tags | fields].
  - split; [split; [nodup | refs]|]. intros i H. mem H; (eexists; split; [reflexivity|]; constructor; try text; [tags | fields]).
  - split; [split; [nodup | refs]|]. intros i [].
  - split; [split; [nodup | refs]|]. intros i x H. apply dget_In in H. cbn in H. mem H; match goal with E : (_, _) = (_, _) |- _ => injection E as <- <- end.
    + apply Build_scene_ok; [text|text|text|text|text|text|text|text|text|text|text|text|text|text|text|vm_compute; discriminate|tags| |refs|refs|refs| |intros Z; discriminate Z].
      * constructor; vm_compute; reflexivity.
      * split; [text|]. intros c Hc Hd. vm_compute in Hc, Hd. intuition (subst; discriminate).
    + apply Build_scene_ok; [text|text|text|text|text|text|text|text|text|text|text|text|text|text|text|vm_compute; discriminate|tags| |refs|refs|refs|text|intros _; reflexivity].
      apply st_day_time; [split; [discriminate | reflexivity] | exists (s "07"), (s "30"); repeat split].
  - split; [split; [nodup | refs]|]. split; [reflexivity|]. intros i c H. apply dget_In in H. cbn in H. mem H; match goal with E : (_, _) = (_, _) |- _ => injection E as <- <- end;
      (apply Build_chapter_ok; [text|text|vm_compute; discriminate|first [left; reflexivity | right; left; reflexivity]|refs]).
  - intros i c H Hne j x Hj Hx. apply dget_In in H. cbn in H. mem H; match goal with E : (_, _) = (_, _) |- _ => injection E as <- <- end.
    + exfalso. apply Hne. reflexivity.
    + cbn in Hj. mem Hj. vm_compute in Hx. injection Hx as <-. reflexivity.
  - split; [nodup|]. intros c H. mem H. split; [text|]. split; apply not_In_b; vm_compute; reflexivity.
Qed.
Definition S_history : list action := [Save None None Y_novel; Save None None Y_novel; Open; Save None None S_novel; Open; Open; Save None None S_novel].
Lemma S_fits : Forall fits S_history.
Proof. repeat (constructor; [first [exact I | split; [first [exact Y_representable | exact S_representable] | split; exact I]]|]). constructor. Qed.
Lemma S_known : Forall known S_history.
Proof. repeat (constructor; [first [exact I | left; eexists; split; [reflexivity | discriminate]]|]). constructor. Qed.
(** the title, the content and the date of the scene are still there, the note is gone, the description is new *)
Example C42_instance : forall ent ext, exists p t n' x, run ent new_project S_history = Ok p /\ p_file p = Some t /\ read_text ext t new_novel = Ok n' /\
  nv_title n' = Some (s "Tom & Jerry") /\ nv_srtPrjNotes n' = [] /\ dget (s "5") (nv_scenes n') = Some x /\ sc_content x = sc_content Y_scene1 /\
  sc_desc x = Some (s "It <rains> & rains.") /\ (sc_date x, sc_time x) = (Some (s "1999-12-31"), Some (s "23:59:58")).
Proof.
  intros ent ext. destruct (C42_succeeds ent _ _ _ _ S_fits S_known) as (p & Hp). destruct (C42_history ent S_history p S_fits ltac:(discriminate) Hp) as (t & Ht & H).
  destruct (H ext) as (n' & Hn & [_ H2 _] & [W1 _ _ _ _ _ _ _ _ _ W2]). destruct (H2 (s "5") (over_scene S_scene (over_scene S_scene (over_scene Y_scene1 Y_scene1)))) as (x & Hx & Q); [vm_compute; reflexivity|].
  exists p, t, n', x. split; [exact Hp|]. split; [exact Ht|]. split; [exact Hn|]. split; [|split; [apply W2|]; split; [exact Hx|]; split; [|split]].
  - unfold same_text in W1. destruct (nv_title n') as [v|]; [|vm_compute in W1; discriminate W1]. f_equal. symmetry. exact W1.
  - pose proof (ss_content _ _ Q) as E. unfold same_text in E. destruct (sc_content x) as [v|]; [|vm_compute in E; discriminate E]. refine (eq_trans (eq_sym (f_equal (@Some str) E)) _). vm_compute. reflexivity.
  - pose proof (ss_desc _ _ Q) as E. unfold same_text in E. destruct (sc_desc x) as [v|]; [|vm_compute in E; discriminate E]. refine (eq_trans (eq_sym (f_equal (@Some str) E)) _). vm_compute. reflexivity.
  - pose proof (ss_start _ _ Q) as E. assert (E' := f_equal fst E). cbn [fst] in E'. rewrite E'. vm_compute. reflexivity.
Qed.

Lemma S_plain : Forall plain_save S_history.
Proof.
  assert (Q : forall t, ~ occurs (s "[lang=") t -> forall c, occurs (s "[lang=" ++ c ++ s "]") t -> ~ In 61%N c).
  { intros t H c (a & b & ->). exfalso. apply H. exists a, (c ++ s "]" ++ b). rewrite <- !app_assoc. reflexivity. }
  assert (PN : forall n, forallb (fun p => match sc_content (snd p) with Some t => negb (containsb (s "[lang=") t) | None => true end) (nv_scenes n) = true -> plain_tags n).
  { intros n H i x t c Hx Ht _ Ho. apply (Q t); [|exact Ho]. intros (a & b & E). apply dget_In in Hx. rewrite forallb_forall in H. specialize (H _ Hx). cbn [snd] in H. rewrite Ht in H.
    assert (Z : containsb (s "[lang=") t = true) by (apply containsb_spec; exists a, b; exact E). rewrite Z in H. discriminate H. }
  repeat (constructor; [first [exact I | apply PN; vm_compute; reflexivity]|]). constructor.
Qed.
(** the novel of the history above can be opened and saved again *)
Example C42_unchanged_instance : forall ent ext, exists p t n' p' t' n2, run ent new_project S_history = Ok p /\ p_file p = Some t /\ read_text ext t new_novel = Ok n' /\
  run ent p [Open; Save (Some (s "de_AT")) None n'] = Ok p' /\ p_file p' = Some t' /\ read_text ext t' new_novel = Ok n2 /\ same_story n' n2 /\ same_world_data n' n2.
Proof.
  intros ent ext. destruct (C42_instance ent ext) as (p & t & n' & x & H1 & H2 & H3 & _). destruct (C42_unchanged ent ext _ p t n' S_fits S_plain H1 H2 H3) as (_ & _ & Q1 & Q2).
  assert (L : locale_text (Some (s "de_AT"))) by (split; [text | apply not_In_b; vm_compute; reflexivity]).
  destruct (Q1 (Some (s "de_AT")) None L I) as (p' & Hp'); [right; left; exists (s "de"), (s "AT"); split; [reflexivity | split; apply not_In_b; vm_compute; reflexivity]|].
  destruct (Q2 _ None p' L I Hp') as (t' & n2 & E1 & E2 & E3 & E4). exists p, t, n', p', t', n2. repeat split; first [assumption | apply E3 | apply E4].
Qed.

(** One might expect that the file contains what was saved last.  A value which is missing in the novel does not clear
    the value in the file: *)
Theorem C42_last_refuted : forall ent ext, exists l n p t n', Forall fits (l ++ [Save None None n]) /\ run ent new_project (l ++ [Save None None n]) = Ok p /\
  p_file p = Some t /\ read_text ext t new_novel = Ok n' /\ nv_title n = None /\ nv_title n' = Some (s "Tom & Jerry").
Proof.
  intros ent ext. destruct (C42_instance ent ext) as (p & t & n' & x & H1 & H2 & H3 & H4 & _). exists (firstn 6 S_history), S_novel, p, t, n'.
  split; [exact S_fits|]. split; [exact H1|]. split; [exact H2|]. split; [exact H3|]. split; [reflexivity | exact H4].
Qed.
Print Assumptions C42_last_refuted.
