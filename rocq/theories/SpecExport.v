(** What an exported document consists of. *)
From Coq Require Import List NArith ZArith Bool.
From Verif Require Import PyStr PyDict NovelModel Template Export.
Import ListNotations.

(** each element of a list with the elements before it *)
Fixpoint with_before_from {A} (before l : list A) : list (list A * A) :=
  match l with [] => [] | x :: l' => (before, x) :: with_before_from (before ++ [x]) l' end.
Definition with_before {A} (l : list A) : list (list A * A) := with_before_from [] l.

(** ** Kinds of chapters and scenes *)
Inductive kind := Normal | Part | Notes | NotesPart | Todo | TodoPart | Unused | Hidden.

Definition scene_of (n : novel) (i : str) : scene := match dget i (nv_scenes n) with Some x => x | None => new_scene end.
Definition chapter_of (n : novel) (i : str) : chapter := match dget i (nv_chapters n) with Some x => x | None => new_chapter end.
Definition hidden_scene (n : novel) (i : str) : bool := match sc_doNotExport (scene_of n i) with Some b => b | None => false end.
(** a chapter is hidden if it has scenes and all of them are "do not export" *)
Definition hidden_chapter (n : novel) (c : chapter) : bool :=
  match ch_srtScenes c with [] => false | l => forallb (hidden_scene n) l end.
Definition is_part (c : chapter) : bool := match ch_level c with Some 1%N => true | _ => false end.
Definition chapter_kind (n : novel) (i : str) : kind :=
  let c := chapter_of n i in
  match ch_type c with
  | Some 2%N => if is_part c then TodoPart else Todo
  | Some 1%N => if is_part c then NotesPart else Notes
  | Some 3%N => Unused
  | _ => if hidden_chapter n c then Hidden else if is_part c then Part else Normal
  end.
(** the heading template for each kind; parts have the chapter heading if there is no part heading *)
Definition heading (e : exporter) (k : kind) : str :=
  match k with
  | Normal => t_chapter e | Part => match t_part e with [] => t_chapter e | p => p end
  | Notes => t_notesChapter e | NotesPart => t_notesPart e | Todo => t_todoChapter e | TodoPart => t_todoPart e
  | Unused => t_unusedChapter e | Hidden => t_notExportedChapter e
  end.
Definition ending (e : exporter) (k : kind) : str :=
  match k with
  | Normal | Part => t_chapterEnd e | Notes | NotesPart => t_notesChapterEnd e | Todo | TodoPart => t_todoChapterEnd e
  | Unused => t_unusedChapterEnd e | Hidden => t_notExportedChapterEnd e
  end.
(** chapters that get a number *)
Definition numbered_chapter (e : exporter) (n : novel) (i : str) : bool :=
  match chapter_kind n i with Normal => true | Part => negb (truthy (t_part e)) | _ => false end.
(** headings that appear: numbered ones always *)
Definition has_heading (e : exporter) (n : novel) (i : str) : bool := numbered_chapter e n i || truthy (heading e (chapter_kind n i)).

(** scenes; ch is the chapter *)
Definition raw_code (x : scene) : bool :=
  match sc_content x with Some t => prefixb (s "<HTML>") t || prefixb (s "<TEX>") t | None => false end.
Definition scene_kind (n : novel) (ch i : str) : kind :=
  match sc_type (scene_of n i) with
  | Some 2%N => Todo
  | Some 1%N => Notes
  | Some 3%N => Unused
  | _ => match ch_type (chapter_of n ch) with
      | Some 3%N => Unused
      | _ => if hidden_scene n i || hidden_chapter n (chapter_of n ch) then Hidden else Normal
      end
  end.
Definition shown_scene (e : exporter) (n : novel) (ch i : str) : bool :=
  f_scene e i &&
  match scene_kind n ch i with
  | Todo => truthy (t_todoScene e) | Notes => truthy (t_notesScene e) | Unused => truthy (t_unusedScene e) | Hidden => truthy (t_notExportedScene e)
  | _ => negb (raw_code (scene_of n i))
  end.
Definition numbered_scene (n : novel) (x : str * str) : bool := match scene_kind n (fst x) (snd x) with Normal => true | _ => false end.
Definition appended (n : novel) (i : str) : bool := match sc_appendToPrev (scene_of n i) with Some b => b | None => false end.

(** ** The document *)
Inductive block :=
| BHeading (ch : str) (number : nat)
| BDivider
| BScene (ch sc : str) (first : bool) (number words letters : nat)
| BEnding (ch : str) (number : nat).

Definition accepted_chapters (e : exporter) (n : novel) : list str := filter (f_chapter e) (nv_srtChapters n).
Definition shown_scenes (e : exporter) (n : novel) (ch : str) : list str := filter (shown_scene e n ch) (ch_srtScenes (chapter_of n ch)).
Definition scenes_in (e : exporter) (n : novel) (chs : list str) : list (str * str) := flat_map (fun ch => map (pair ch) (shown_scenes e n ch)) chs.

(** the numbers count the numbered elements up to this one; 0 stands for no number *)
Definition chapter_number (e : exporter) (n : novel) (before : list str) (ch : str) : nat :=
  if numbered_chapter e n ch then length (filter (numbered_chapter e n) (before ++ [ch])) else 0.
Definition total (f : scene -> nat) (n : novel) (l : list (str * str)) : nat :=
  list_sum (map (fun x => f (scene_of n (snd x))) (filter (numbered_scene n) l)).
(** the scenes of a chapter; before: all scenes of earlier chapters *)
Definition scene_blocks (n : novel) (before : list (str * str)) (ch : str) (x : list str * str) : list block :=
  let '(earlier, i) := x in
  let first := match earlier with [] => true | _ => false end in
  let upto := before ++ map (pair ch) (earlier ++ [i]) in
  (if first || appended n i then [] else [BDivider]) ++
  [BScene ch i first (if numbered_scene n (ch, i) then length (filter (numbered_scene n) upto) else 0) (total sc_wordCount n upto) (total sc_letterCount n upto)].
Definition chapter_blocks (e : exporter) (n : novel) (x : list str * str) : list block :=
  let '(before, ch) := x in
  (if has_heading e n ch then [BHeading ch (chapter_number e n before ch)] else []) ++
  flat_map (scene_blocks n (scenes_in e n before) ch) (with_before (shown_scenes e n ch)) ++
  (if truthy (ending e (chapter_kind n ch)) then [BEnding ch (chapter_number e n before ch)] else []).
Definition document (e : exporter) (n : novel) : list block := flat_map (chapter_blocks e n) (with_before (accepted_chapters e n)).

(** the text of a block *)
Definition scene_form (e : exporter) (n : novel) (ch i : str) (first : bool) : str :=
  if first && truthy (t_firstScene e) then t_firstScene e
  else match scene_kind n ch i with
  | Todo => t_todoScene e | Notes => t_notesScene e | Unused => t_unusedScene e | Hidden => t_notExportedScene e
  | _ => if negb first && appended n i && truthy (t_appendedScene e) then t_appendedScene e else t_scene e
  end.
Definition block_text (e : exporter) (n : novel) (b : block) : res str :=
  match b with
  | BHeading ch k => fill (heading e (chapter_kind n ch)) (m_chapter e n ch k)
  | BDivider => Ok (t_divider e)
  | BScene ch i first k w l => fill (scene_form e n ch i first) (m_scene e n i k w l)
  | BEnding ch k => fill (ending e (chapter_kind n ch)) (m_chapter e n ch k)
  end.
(** all chapters and scenes named in the lists exist *)
Definition all_listed (n : novel) : Prop :=
  forall ch, In ch (nv_srtChapters n) -> exists c, dget ch (nv_chapters n) = Some c /\ forall i, In i (ch_srtScenes c) -> exists x, dget i (nv_scenes n) = Some x.

(** ** Views of a document *)
Definition headings (bs : list block) : list (str * nat) := flat_map (fun b => match b with BHeading ch k => [(ch, k)] | _ => [] end) bs.
Definition scenes (bs : list block) : list (str * str * nat) := flat_map (fun b => match b with BScene ch i _ k _ _ => [(ch, i, k)] | _ => [] end) bs.
Definition of_chapter (ch : str) (b : block) : bool := match b with BHeading c _ | BEnding c _ | BScene c _ _ _ _ _ => str_eqb c ch | BDivider => false end.

(** ** The kind of export file that has no support for anything but normal chapters and scenes *)
Definition normal_only (e : exporter) : Prop :=
  t_notesPart e = [] /\ t_todoPart e = [] /\ t_notesChapter e = [] /\ t_todoChapter e = [] /\ t_unusedChapter e = [] /\ t_notExportedChapter e = [] /\
  t_notesScene e = [] /\ t_todoScene e = [] /\ t_unusedScene e = [] /\ t_notExportedScene e = [] /\
  t_notesChapterEnd e = [] /\ t_todoChapterEnd e = [] /\ t_unusedChapterEnd e = [] /\ t_notExportedChapterEnd e = [].

(** ** A novel whose parts all exist *)
Definition refs_exist {A} (d : dict A) (ids : list str) : Prop := forall i, In i ids -> exists x, dget i d = Some x.
Definition orefs_exist {A} (d : dict A) (ids : option (list str)) : Prop := match ids with Some l => refs_exist d l | None => True end.
Record complete (n : novel) : Prop := {
  cn_listed : all_listed n;
  cn_scenes : forall i x, dget i (nv_scenes n) = Some x ->
     orefs_exist (nv_locations n) (sc_locations x) /\ orefs_exist (nv_items n) (sc_items x) /\ exists z, sc_status x = Some z /\ (0 <= z <= 5)%Z;
  cn_characters : refs_exist (nv_characters n) (nv_srtCharacters n);
  cn_locations : refs_exist (nv_locations n) (nv_srtLocations n);
  cn_items : refs_exist (nv_items n) (nv_srtItems n);
  cn_notes : refs_exist (nv_projectNotes n) (nv_srtPrjNotes n) }.
(** an exporter with the mappings of FileExport itself and some _convert_from_yw that always returns *)
Definition standard (e : exporter) (conv : option str -> bool -> res str) (name path : option str) : Prop :=
  (forall t q, exists v, conv t q = Ok v) /\
  m_fileHeader e = fileHeaderMapping conv /\ m_chapter e = chapterMapping conv name path /\ m_scene e = sceneMapping conv name path /\
  m_character e = characterMapping conv name path /\ m_location e = (fun n => worldMapping conv name path (nv_locations n)) /\
  m_item e = (fun n => worldMapping conv name path (nv_items n)) /\ m_projectNote e = prjNoteMapping conv name path.
