(** The main window. *)
From Coq Require Import String List NArith ZArith Bool Lia Arith.
From Verif Require Import PyStr NovelModel Converter MainTk SpecMain.
Import ListNotations.

Lemma caption_names : forall tr app n, names_novel tr app n (caption tr app n).
Proof.
  intros tr app n. exists (or_else (nv_title n) (tr (s "Untitled project"))), (or_else (nv_authorName n) (tr (s "Unknown author"))). split; [reflexivity|].
  repeat split; [intros [|c t] -> H; [congruence | reflexivity] | intros [-> | ->]; reflexivity | intros [|c t] -> H; [congruence | reflexivity] | intros [-> | ->]; reflexivity].
Qed.
Lemma app_kept : forall tr np w a, w_app (act tr np w a) = w_app w.
Proof.
  intros tr np w [f b x r| | |m|m]; try reflexivity. cbn [act]. unfold open_project. destruct (negb (truthy _)); [reflexivity|]. destruct (r _); cbn; destruct (w_file w); reflexivity.
Qed.
Lemma act_fits : forall tr np w a, orderly a -> fitting tr np (w_app w) w -> fitting tr np (w_app w) (act tr np w a).
Proof.
  intros tr np w a O F. destruct a as [f b x r| | |m|m]; cbn [act]; [|repeat split | exact F | exact F | exact F].
  unfold open_project. destruct (negb (truthy _)); [exact F|]. cbn [orderly] in O. specialize (O (select_project f b x)). destruct (r (select_project f b x)) as [n|m n|n]; [| |destruct (O n eq_refl)].
  - cbn [fst]. unfold fitting. assert (C : forall X Y Z : Prop, X -> Y -> Z -> X /\ Y /\ Z) by tauto. cbn. destruct (w_file w); (apply C; [reflexivity | reflexivity | exists n; split; [reflexivity | apply caption_names]]).
  - cbn [fst]. unfold fitting. cbn. destruct (w_file w); repeat split.
Qed.
Theorem session_fits : forall tr np app last h, Forall orderly h -> fitting tr np app (session tr np app last h).
Proof.
  intros tr np app last h F. unfold session.
  assert (G : forall h w, Forall orderly h -> w_app w = app -> fitting tr np app w -> fitting tr np app (fold_left (act tr np) h w)).
  { clear. induction h as [|a h IH]; intros w F A W; [exact W|]. apply Forall_cons_iff in F as [F1 F2]. cbn [fold_left]. apply IH; [exact F2 | now rewrite app_kept|]. rewrite <- A. apply act_fits; [exact F1 | now rewrite A]. }
  apply G; [exact F | reflexivity | repeat split].
Qed.
Theorem open_results : forall tr np w file isfile answer r, let chosen := if truthy file && isfile then file else answer in
  let '(w', res) := open_project tr np file isfile answer r w in
  (chosen = [] -> res = Some false /\ w_bar w' = (w_status w, Normal) /\ w_file w' = w_file w /\ w_novel w' = w_novel w /\ w_last w' = w_last w /\ w_caption w' = w_caption w /\ w_path w' = w_path w /\ w_menu w' = w_menu w) /\
  (chosen <> [] -> w_last w' = Some chosen /\
    (forall n, r chosen = Reads n -> res = Some true /\ w_file w' = Some (set_path [] (s ".yw7") chosen) /\ w_novel w' = Some n /\ w_bar w' = (match w_file w with Some _ => [] | None => w_status w end, Normal)) /\
    (forall m n, r chosen = Fails m n -> res = Some false /\ w_file w' = None /\ w_bar w' = (strip m, Red) /\ w_info w' = strip m)).
Proof.
  intros tr np w file isfile answer r chosen. unfold open_project.
  assert (E : select_project file isfile answer = chosen) by (unfold select_project, chosen; destruct (truthy file), isfile; reflexivity). rewrite E. clearbody chosen. clear E.
  destruct chosen as [|c t]; cbn [truthy negb]; [split; [intros _; repeat split | congruence]|].
  destruct (r (c :: t)) as [n|m n|n]; (split; [discriminate|]); intros _.
  - split; [reflexivity|]. split; [|discriminate]. intros n' H. injection H as <-. repeat split. cbn. destruct (w_file w); reflexivity.
  - split; [cbn; destruct (w_file w); reflexivity|]. split; [discriminate|]. intros m' n' H. injection H as <- <-. repeat split.
  - split; [reflexivity|]. split; discriminate.
Qed.
(** restoring the status *)
Definition only_how (a : action) : Prop := match a with How _ | Restore => True | _ => False end.
Lemma how_status : forall tr np h w, Forall only_how h -> w_status (fold_left (act tr np) h w) = w_status w.
Proof. intros tr np. induction h as [|a h IH]; intros w F; [reflexivity|]. apply Forall_cons_iff in F as [F1 F2]. cbn [fold_left]. rewrite IH by exact F2. destruct a; try destruct F1; reflexivity. Qed.
Theorem status_back : forall tr np app last h m k, Forall only_how k -> w_bar (session tr np app last (h ++ [Status m] ++ k ++ [Restore])) = (m, Normal).
Proof. intros tr np app last h m k F. unfold session. rewrite !fold_left_app. cbn [fold_left act]. unfold restore_status. cbn [show_status w_bar]. now rewrite how_status. Qed.
