(** Exporting and reading back the notes and the "todo" chapters (C46). *)
From Coq Require Import String List NArith ZArith Bool.
From Verif Require Import PyStr PyDict YwText NovelModel NovelOps OdfXml OdtText SpecOdf NovelOps SpecFormat SpecManuscript SpecExport SpecRetext SpecNotes OdtRead Splitter Export Manuscript Notes ManuProofs NotesExport P_Manuscript.
Import ListNotations.

(** The document with the notes can be written and is well-formed XML; reading it, in whatever pieces the parser delivers the text, into the same novel, or into a novel m in which the notes have any other texts, gives the novel the document was made from, except for the list of
    languages, which are among those of the export. *)
Theorem C46_notes : forall tr pn pp n, let languages := languages_in (with_languages n) in
  novel_fit 1 (py_str (nv_authorName n)) languages n -> NoDup (map fst (nv_scenes n)) ->
  exists doc es, notes_text tr pn pp n = Ok doc /\ sax doc = Some es /\
  forall m es' styles title name desc, other_texts (in_typed_document 1 n) n m -> deliver es es' -> styles = None \/ styles = Some (nv_languageCode n, nv_countryCode n) ->
  exists ls, incl ls languages /\ read_formatted tr (manuscript_reader 1) (opening_calls styles title name desc) es' m = Ok (set_nv_languages (Some ls) n, false).
Proof. intros tr pn pp n languages H K. exact (typed_round_trip 1 tr pn pp n _ (notes_writes tr pn pp) H K). Qed.
Print Assumptions C46_notes.

(** The same for "todo" chapters. *)
Theorem C46_todo : forall tr pn pp n, let languages := languages_in (with_languages n) in
  novel_fit 2 (py_str (nv_authorName n)) languages n -> NoDup (map fst (nv_scenes n)) ->
  exists doc es, todo_text tr pn pp n = Ok doc /\ sax doc = Some es /\
  forall m es' styles title name desc, other_texts (in_typed_document 2 n) n m -> deliver es es' -> styles = None \/ styles = Some (nv_languageCode n, nv_countryCode n) ->
  exists ls, incl ls languages /\ read_formatted tr (manuscript_reader 2) (opening_calls styles title name desc) es' m = Ok (set_nv_languages (Some ls) n, false).
Proof. intros tr pn pp n languages H K. exact (typed_round_trip 2 tr pn pp n _ (todo_writes tr pn pp) H K). Qed.
Print Assumptions C46_todo.

(** A novel with a normal chapter, whose second scene is a note, a chapter of notes and a part with things to do *)
Definition T_scene (kind : N) (t : str) : scene := set_sc_type (Some kind) (M_scene t).
Definition T_chapter (kind level : N) (t : string) (ids : list str) : chapter := set_ch_srtScenes ids (set_ch_title (Some (s t)) (set_ch_type (Some kind) (set_ch_level (Some level) new_chapter))).
Definition T_sample : novel := Eval vm_compute in
  set_nv_title (Some (s "The <Title>")) (set_nv_authorName (Some (s "A. Author")) (set_nv_srtChapters [s "1"; s "2"; s "3"]
   (set_nv_chapters [(s "1", T_chapter 0 0 "One" [s "1"; s "2"]); (s "2", T_chapter 1 0 "Notes & more" [s "3"]); (s "3", T_chapter 2 1 "To do" [s "4"])]
   (set_nv_scenes [(s "1", M_scene (s "[i]a[/i] [b]b[/b]")); (s "2", T_scene 1 (typed M_text1)); (s "3", T_scene 1 (typed M_text2)); (s "4", T_scene 2 (typed M_text2))] new_novel)))).
Example C46_instance : let languages := languages_in (with_languages T_sample) in languages = [s "de-DE"] /\
  forall kind, kind = 1%N \/ kind = 2%N -> novel_fit kind (py_str (nv_authorName T_sample)) languages T_sample /\ NoDup (map fst (nv_scenes T_sample)).
Proof.
  cbv zeta. assert (L : languages_in (with_languages T_sample) = [s "de-DE"]) by (vm_compute; reflexivity). rewrite L. split; [reflexivity|]. intros kind Hk. split.
  2: { repeat (constructor; [intro E; cbn in E; intuition discriminate|]). constructor. }
  assert (R1 : restorable [s "de-DE"] (typed M_text1)) by (exists M_text1; unfold marked_up; repeat split; vm_compute; reflexivity).
  assert (R2 : restorable [s "de-DE"] (typed M_text2)) by (exists M_text2; unfold marked_up; repeat split; vm_compute; reflexivity).
  assert (Sc : forall k t x, (k <= 2)%N -> x = T_scene k t -> k = 0%N \/ restorable [s "de-DE"] t -> Forall (fun l => prefixb (s "#") l = false) (lines t) -> scene_fit kind [s "de-DE"] T_sample x).
  { intros k t x Hb -> Hr Hn. constructor; [|reflexivity | discriminate | discriminate | |].
    - cbn. apply N.leb_le. eapply N.le_trans; [exact Hb | discriminate].
    - intros u E. cbn in E. injection E as <-. split; [exact Hn | reflexivity].
    - intro E. split; [reflexivity|]. exists t. split; [reflexivity|]. destruct Hr as [-> | Hr]; [|exact Hr]. cbn in E. destruct Hk as [-> | ->]; discriminate E. }
  constructor; [| | reflexivity | reflexivity|].
  - split; [|split]; [repeat constructor | repeat constructor|]. constructor; [intros [] | constructor].
  - constructor; [|constructor]. exists (s "de"), (s "DE"). split; [reflexivity|]. repeat split; try discriminate; [intro I; vm_compute in I; intuition discriminate | repeat constructor].
  - intros i [<- | [<- | [<- | []]]]; (split; [reflexivity|]); eexists; (split; [reflexivity|]); (constructor; [reflexivity | intros _; eexists; split; reflexivity|]).
    + intros j [<- | [<- | []]]; (split; [reflexivity|]); eexists; (split; [reflexivity|]).
      * apply (Sc 0%N (s "[i]a[/i] [b]b[/b]")); [discriminate | vm_compute; reflexivity | now left | vm_compute; repeat constructor].
      * apply (Sc 1%N (typed M_text1)); [discriminate | vm_compute; reflexivity | now right | vm_compute; repeat constructor].
    + intros j [<- | []]; (split; [reflexivity|]); eexists; (split; [reflexivity|]). apply (Sc 1%N (typed M_text2)); [discriminate | vm_compute; reflexivity | now right | vm_compute; repeat constructor].
    + intros j [<- | []]; (split; [reflexivity|]); eexists; (split; [reflexivity|]). apply (Sc 2%N (typed M_text2)); [discriminate | vm_compute; reflexivity | now right | vm_compute; repeat constructor].
Qed.
(** the novel before reading the notes may have other texts in them, in notes chapters and elsewhere *)
Definition T_other : novel := Eval vm_compute in set_nv_scenes (dset (s "2") (set_sceneContent (s "other") (T_scene 1 (typed M_text1))) (dset (s "3") (set_sceneContent [] (T_scene 1 (typed M_text2))) (nv_scenes T_sample))) T_sample.
Example C46_other : other_texts (in_typed_document 1 T_sample) T_sample T_other /\ T_other <> T_sample.
Proof.
  split; [|discriminate]. eexists. split; [reflexivity|].
  constructor; [split; [reflexivity | now left]|]. constructor; [|constructor; [|constructor; [split; [reflexivity | now left] | constructor]]]; (split; [reflexivity|]); right.
  - split; [exists (s "1"); split; [now left|]; split; [right; now left | reflexivity]|]. exists (s "other"). vm_compute. reflexivity.
  - split; [exists (s "2"); split; [right; now left|]; split; [now left | reflexivity]|]. exists []. vm_compute. reflexivity.
Qed.
(** what the document with the notes contains: the chapter, both notes, and nothing of the other scenes *)
Example C46_instance_text : exists doc, notes_text (fun x => x) None None T_sample = Ok doc /\ containsb (s "ChID:2") doc = true /\ containsb (s "ScID:2") doc = true /\ containsb (s "ScID:3") doc = true /\
  containsb (s "ChID:1") doc = false /\ containsb (s "ScID:1") doc = false /\ containsb (s "ScID:4") doc = false.
Proof. eexists. split; [vm_compute; reflexivity|]. repeat split; vm_compute; reflexivity. Qed.

(** A normal scene, which is not in the document, prevents the export of the notes if it refers to a location that does not exist. *)
Definition T_dangling : novel := set_nv_scenes [(s "1", set_sc_locations (Some [s "9"]) (M_scene [])); (s "2", T_scene 1 [])] (set_nv_srtChapters [s "1"] (set_nv_chapters [(s "1", T_chapter 0 0 "One" [s "1"; s "2"])] new_novel)).
Theorem C46_dangling_refuted : notes_text (fun x => x) None None T_dangling = Err KeyError /\ todo_text (fun x => x) None None T_dangling = Err KeyError /\
  exists doc, notes_text (fun x => x) None None (set_nv_scenes [(s "1", M_scene []); (s "2", T_scene 1 [])] T_dangling) = Ok doc.
Proof. split; [vm_compute; reflexivity|]. split; [vm_compute; reflexivity|]. eexists. vm_compute. reflexivity. Qed.
Print Assumptions C46_dangling_refuted.
