(** Property theorems C06, C07 (splitting scenes).  Only statements, [exact], assumptions and instances.
    [tr] is the translation of the interface texts; the theorems hold for every translation. *)
From Coq Require Import List NArith ZArith Bool Lia Arith.
From Verif Require Import PyStr PyDict NovelModel NovelOps SpecNovel SpecSplit Splitter SplitterProofs SplitMarks SpecOutline OutlineProofs.
Import ListNotations.

(** * C06 *)
(** all non-empty lines stay, in order, except the separator lines - unless a scene heading directly follows
    a chapter or part heading (splittable) *)
Theorem C06_split_keeps_lines : forall tr n n' flag, structure_ok n -> splittable n ->
  split_scenes tr n = Ok (n', flag) ->
  novel_lines n' = filter (fun l => negb (is_separator l)) (novel_lines n).
Proof. exact split_keeps_lines. Qed.
Print Assumptions C06_split_keeps_lines.

(** stronger: the scene texts afterwards are exactly the line groups between the separators *)
Theorem C06_split_contents : forall tr n n' flag, structure_ok n -> splittable n ->
  split_scenes tr n = Ok (n', flag) ->
  map (content_at n') (all_scenes n') = flat_map (fun k => parts_of (content_at n k)) (all_scenes n).
Proof. exact (fun tr n n' flag H G E => proj2 (proj2 (split_scenes_main tr n n' flag H E)) G). Qed.
Print Assumptions C06_split_contents.

Definition C06_lines (l : list str) : str := join [10%N] l.
Definition C06_novel (texts : list (list str)) : novel :=
  let ids := map (fun i => str_of_N (N.of_nat i)) (seq 1 (length texts)) in
  set_nv_srtChapters [s "1"] (set_nv_chapters [(s "1", set_ch_srtScenes ids new_chapter)]
   (set_nv_scenes (combine ids (map (fun t => set_sc_status (Some 3%Z) (set_sceneContent (C06_lines t) new_scene)) texts)) new_novel)).

Example C06_instance : let n := C06_novel [[s "one"; s "### Second | description"; s "two"; s ""; s "three"; s "## Chapter"; s "four"]; [s "five"]] in
  structure_ok n /\ splittable n /\ exists n', split_scenes (fun x => x) n = Ok (n', true) /\
  all_scenes n' = [s "1"; s "3"; s "4"; s "2"] /\ nv_srtChapters n' = [s "1"; s "2"] /\
  novel_lines n' = [s "one"; s "two"; s "three"; s "four"; s "five"].
Proof.
  cbn zeta. split; [|split].
  - unfold structure_ok. vm_compute. repeat split; try (intros ? H; exact H); repeat constructor; cbn; intuition discriminate.
  - intros k t Hk. vm_compute in Hk. destruct Hk as [<- | [<- | []]]; vm_compute; intro E; injection E as <-; reflexivity.
  - eexists. split; [vm_compute; reflexivity|]. repeat split; vm_compute; reflexivity.
Qed.

(** Without the guard the claim is false of the code: in
      foo / ## Chapter / ### Scene / bar
    the line "foo" is lost *)
Theorem C06_split_keeps_lines_refuted : exists n n' flag, structure_ok n /\
  split_scenes (fun x => x) n = Ok (n', flag) /\
  novel_lines n = [s "foo"; s "## Chapter"; s "### Scene"; s "bar"] /\ novel_lines n' = [s "bar"].
Proof.
  exists (C06_novel [[s "foo"; s "## Chapter"; s "### Scene"; s "bar"]]). do 2 eexists. split.
  - unfold structure_ok. vm_compute. repeat split; try (intros ? H; exact H); repeat constructor; cbn; intuition discriminate.
  - split; [vm_compute; reflexivity|]. split; vm_compute; reflexivity.
Qed.
Print Assumptions C06_split_keeps_lines_refuted.

(** * C07 *)
(** The structure stays consistent: every listed ID exists and is listed once; old chapters and scenes keep
    their IDs and relative order; everything new has a fresh ID and is listed; nothing else is changed *)
Theorem C07_split_structure : forall tr n n' flag, structure_ok n -> split_scenes tr n = Ok (n', flag) ->
  structure_ok n' /\ novel_rest n' = novel_rest n /\
  (exists NC, dkeys (nv_chapters n') = dkeys (nv_chapters n) ++ NC) /\
  (exists NS, dkeys (nv_scenes n') = dkeys (nv_scenes n) ++ NS) /\
  filter (fun k => dmem k (nv_chapters n)) (nv_srtChapters n') = nv_srtChapters n /\
  filter (fun k => dmem k (nv_scenes n)) (all_scenes n') = all_scenes n /\
  (forall k, ~ In k (dkeys (nv_chapters n)) -> In k (dkeys (nv_chapters n')) -> In k (nv_srtChapters n')) /\
  (forall k, ~ In k (dkeys (nv_scenes n)) -> In k (dkeys (nv_scenes n')) -> In k (all_scenes n')).
Proof. exact split_structure. Qed.
Print Assumptions C07_split_structure.

(** elements: what may change; scenes without separators are unchanged (counts recomputed), empty ones and
    scenes outside the chapters entirely *)
Theorem C07_split_elements : forall tr n n' flag, structure_ok n -> split_scenes tr n = Ok (n', flag) ->
  (forall k x, dget k (nv_scenes n) = Some x -> exists y, dget k (nv_scenes n') = Some y /\ scene_core y = scene_core x) /\
  (forall k x, dget k (nv_scenes n) = Some x -> ~ In k (all_scenes n) -> dget k (nv_scenes n') = Some x) /\
  (forall k x, dget k (nv_scenes n) = Some x -> In k (all_scenes n) ->
     (sc_content x = None \/ sc_content x = Some []) -> dget k (nv_scenes n') = Some x) /\
  (forall k x t, dget k (nv_scenes n) = Some x -> In k (all_scenes n) -> sc_content x = Some t -> t <> [] ->
     (forall l, In l (text_lines t) -> is_separator l = false) ->
     dget k (nv_scenes n') = Some (set_sceneContent t x)) /\
  (forall k x, dget k (nv_chapters n) = Some x -> exists y, dget k (nv_chapters n') = Some y /\ chapter_core y = chapter_core x) /\
  (forall k y, ~ In k (dkeys (nv_chapters n)) -> dget k (nv_chapters n') = Some y ->
     ch_type y = Some 0%N /\ (ch_level y = Some 0%N \/ ch_level y = Some 1%N)).
Proof. exact split_elements. Qed.
Print Assumptions C07_split_elements.

(** the result is True exactly if a scene or a chapter (not just a part) was created *)
Theorem C07_split_flag : forall tr n n' flag, structure_ok n -> split_scenes tr n = Ok (n', flag) ->
  (flag = true <->
   (exists k, In k (all_scenes n') /\ ~ In k (dkeys (nv_scenes n))) \/
   (exists k y, ~ In k (dkeys (nv_chapters n)) /\ dget k (nv_chapters n') = Some y /\ ch_level y = Some 0%N)).
Proof. exact split_flag. Qed.
Print Assumptions C07_split_flag.

(** the scenes that are split are marked for checking, all others keep status and notes; new scenes take over type, status and time of the one they were split from *)
Theorem C07_split_marks : forall tr n n' flag, structure_ok n -> split_scenes tr n = Ok (n', flag) ->
  incl (dkeys (nv_scenes n)) (dkeys (nv_scenes n')) /\
  forall k y, dget k (nv_scenes n') = Some y ->
    match dget k (nv_scenes n) with
    | Some x => same_notes x y \/ marked_scene x y
    | None => exists p x z, In p (all_scenes n) /\ dget p (nv_scenes n) = Some x /\ born_scene x y /\ dget p (nv_scenes n') = Some z /\ marked_scene x z
    end.
Proof. exact split_marks. Qed.
Print Assumptions C07_split_marks.

(** so "False" does not mean "unchanged": a new part at the end of a scene goes unreported *)
Theorem C07_split_flag_refuted : exists n n', structure_ok n /\
  split_scenes (fun x => x) n = Ok (n', false) /\ nv_srtChapters n' <> nv_srtChapters n.
Proof.
  exists (C06_novel [[s "foo"; s "# Part two"]]). eexists. split.
  - unfold structure_ok. vm_compute. repeat split; try (intros ? H; exact H); repeat constructor; cbn; intuition discriminate.
  - split; [vm_compute; reflexivity|]. discriminate.
Qed.
Print Assumptions C07_split_flag_refuted.

(** it never fails if all scenes have a status *)
Theorem C07_split_total : forall tr n, structure_ok n ->
  (forall k x, dget k (nv_scenes n) = Some x -> sc_status x <> None) ->
  exists n' flag, split_scenes tr n = Ok (n', flag).
Proof. exact split_scenes_total. Qed.
Print Assumptions C07_split_total.
Example C07_instance : let n := C06_novel [[s "one"; s "### x"; s "two"]] in
  forall k x, dget k (nv_scenes n) = Some x -> sc_status x <> None.
Proof.
  cbn zeta. intros k x. vm_compute. destruct (str_eqb k (s "1")) eqn:E.
  - apply str_eqb_eq in E as ->. intro H. injection H as <-. discriminate.
  - destruct k as [|c [|]]; try discriminate.
    + destruct c as [|p]; try discriminate. repeat (destruct p as [p|p|]; try discriminate).
    + destruct c as [|p]; try discriminate. repeat (destruct p as [p|p|]; try discriminate).
Qed.

(** the outline afterwards is exactly the one the separator lines ask for: the old chapters and scenes in their order, behind each of them the
    new chapters, parts and scenes of its separator lines, with the titles and descriptions given there *)
Theorem C07_split_outline : forall tr n n' flag, structure_ok n -> split_scenes tr n = Ok (n', flag) -> outline n n' = split_outline tr n.
Proof. exact outline_split. Qed.
Print Assumptions C07_split_outline.
Example C07_instance_outline : let n := C06_novel [[s "one"; s "### x | about x"; s "two"; s "## Next"; s "three"; s "# "; s "four"]; [s "five"]] in
  structure_ok n /\
  split_outline (fun x => x) n = [OldChapter (s "1"); OldScene (s "1"); NewScene (Some (s "x ")) (Some (s " about x"));
    NewChapter (set_ch_type (Some 0%N) (set_ch_level (Some 0%N) (set_ch_desc (Some []) (set_ch_title (Some (s "Next")) new_chapter))));
    NewScene (Some (s "New Scene Split: 1")) None;
    NewChapter (set_ch_type (Some 0%N) (set_ch_level (Some 1%N) (set_ch_desc (Some []) (set_ch_title (Some (s "New Part")) new_chapter))));
    NewScene (Some (s "New Scene Split: 1")) None; OldScene (s "2")] /\
  match split_scenes (fun x => x) n with Ok (n', _) => outline n n' = split_outline (fun x => x) n | Err _ => False end.
Proof.
  cbn zeta. split; [|split; vm_compute; reflexivity].
  unfold structure_ok. vm_compute. repeat split; try (intros ? H; exact H); repeat constructor; cbn; intuition discriminate.
Qed.
