(** C40: what the main window shows. *)
From Coq Require Import String List NArith ZArith Bool Lia Arith.
From Verif Require Import PyStr NovelModel Converter MainTk SpecMain MainProofs.
Import ListNotations.

(** After any history of opening (with any outcome of reading but an unforeseen exception), closing and messages: without a
    project, the entry Close is disabled, the caption is the name of the application and the path bar is empty; with a project,
    Close is enabled, the path bar shows the path and the caption names title and author of the novel that was read. *)
Theorem C40_consistent : forall tr np app last h, Forall orderly h -> fitting tr np app (session tr np app last h).
Proof. exact session_fits. Qed.
Print Assumptions C40_consistent.

(** Opening: cancelling the dialog changes nothing but the message; a project that is read replaces the old one; a failure
    leaves no project open, and the error message is shown in red.  The chosen path is remembered for the next dialog. *)
Theorem C40_open : forall tr np w file isfile answer r, let chosen := if truthy file && isfile then file else answer in
  let '(w', res) := open_project tr np file isfile answer r w in
  (chosen = [] -> res = Some false /\ w_bar w' = (w_status w, Normal) /\ w_file w' = w_file w /\ w_novel w' = w_novel w /\ w_last w' = w_last w /\ w_caption w' = w_caption w /\ w_path w' = w_path w /\ w_menu w' = w_menu w) /\
  (chosen <> [] -> w_last w' = Some chosen /\
    (forall n, r chosen = Reads n -> res = Some true /\ w_file w' = Some (set_path [] (s ".yw7") chosen) /\ w_novel w' = Some n /\ w_bar w' = (match w_file w with Some _ => [] | None => w_status w end, Normal)) /\
    (forall m n, r chosen = Fails m n -> res = Some false /\ w_file w' = None /\ w_bar w' = (strip m, Red) /\ w_info w' = strip m)).
Proof. exact open_results. Qed.
Print Assumptions C40_open.

(** However many error or success messages are shown after a status message, clicking them away brings the status back. *)
Theorem C40_status : forall tr np app last h m k, Forall only_how k -> w_bar (session tr np app last (h ++ [Status m] ++ k ++ [Restore])) = (m, Normal).
Proof. exact status_back. Qed.
Print Assumptions C40_status.

(** A message is shown in red exactly if it starts with an exclamation mark, which is not shown; the command line says FAIL instead. *)
Theorem C40_messages : forall m, (forall t, m = s "!" ++ t -> tk_how m = (strip t, Red) /\ ui_how m = s "FAIL: " ++ strip t) /\
  ((forall t, m <> s "!" ++ t) -> tk_how m = (m, Green) /\ ui_how m = m).
Proof.
  intros m. split; [intros t ->; split; reflexivity|]. intros H. unfold tk_how, ui_how.
  destruct (prefixb (s "!") m) eqn:E; [|split; reflexivity]. apply prefixb_spec in E as [t E]. destruct (H t E).
Qed.
Print Assumptions C40_messages.

(** Without the hypothesis it fails: if reading raises an unforeseen exception (a project with a malformed number, see C09 and
    C35), a project is open, but Close is disabled and the caption and the path are missing. *)
Theorem C40_broken_refuted : exists tr np app last h, ~ fitting tr np app (session tr np app last h) /\
  w_file (session tr np app last h) <> None /\ w_menu (session tr np app last h) = false.
Proof.
  exists (fun x => x), (fun x => x), (s "novelyst"), None, [Open (s "a.yw7") true [] (fun _ => Breaks new_novel)].
  split; [|split; [discriminate | reflexivity]]. intros [H _]. discriminate.
Qed.
Print Assumptions C40_broken_refuted.
(** Closing does not discard the novel: the window still holds the novel of the closed project. *)
Theorem C40_closed_novel_refuted : exists tr np app last h n, Forall orderly h /\ w_file (session tr np app last h) = None /\ w_novel (session tr np app last h) = Some n.
Proof.
  exists (fun x => x), (fun x => x), (s "novelyst"), None, [Open (s "a.yw7") true [] (fun _ => Reads new_novel); Close], new_novel.
  split; [|split; reflexivity]. constructor; [intros f n H; discriminate | constructor; [exact I | constructor]].
Qed.
Print Assumptions C40_closed_novel_refuted.

(** An instance: a project is opened, a second one cannot be read. *)
Definition W_novel : novel := set_nv_title (Some (s "Ulysses")) new_novel.
Example C40_instance :
  let one := Open (s "C:\my\a.yw7") true [] (fun _ => Reads W_novel) in
  let two := Open (s "") false (s "b.yw7") (fun _ => Fails (s " Cannot process file. ") new_novel) in
  let w1 := session (fun x => x) (fun x => x) (s "app") None [one] in
  let w2 := session (fun x => x) (fun x => x) (s "app") None [one; two] in
  Forall orderly [one; two] /\
  w_caption w1 = s "Ulysses by Unknown author - app" /\ w_path w1 = s "C:/my/a.yw7" /\ w_menu w1 = true /\
  w_caption w2 = s "app" /\ w_bar w2 = (s "Cannot process file.", Red) /\ w_menu w2 = false /\ w_last w2 = Some (s "b.yw7").
Proof. cbv zeta. split; [|vm_compute; repeat split]. constructor; [intros f n H; discriminate | constructor; [intros f n H; discriminate | constructor]]. Qed.
