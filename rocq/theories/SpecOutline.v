(** The outline of a novel after its scenes have been split. *)
From Coq Require Import List NArith ZArith Bool.
From Verif Require Import PyStr PyDict NovelModel SpecNovel SpecSplit.
Import ListNotations.

(** An outline: existing chapters and scenes by their IDs, new chapters with all they have but scenes, new scenes with title and description. *)
Inductive entry := OldChapter (id : str) | NewChapter (c : chapter) | OldScene (id : str) | NewScene (title desc : option str).

(** ** The outline of n, seen from the novel n0 before *)
Definition chapter_entry (n0 n : novel) (id : str) : entry :=
  if dmem id (nv_chapters n0) then OldChapter id else match dget id (nv_chapters n) with Some c => NewChapter (chapter_core c) | None => OldChapter id end.
Definition scene_entry (n0 n : novel) (id : str) : entry :=
  if dmem id (nv_scenes n0) then OldScene id else match dget id (nv_scenes n) with Some x => NewScene (sc_title x) (sc_desc x) | None => OldScene id end.
Definition outline (n0 n : novel) : list entry :=
  flat_map (fun ch => chapter_entry n0 n ch :: map (scene_entry n0 n) (chapter_scenes n ch)) (nv_srtChapters n).

(** ** What the separator lines ask for *)

(** "## Title|Description": the line without number signs and blanks at both ends; the title ends at the first bar, the description at the second *)
Fixpoint drop_marks (t : str) : str := match t with c :: r => if ((c =? 35) || (c =? 32))%N then drop_marks r else t | [] => [] end.
Definition bare_line (l : str) : str := rev (drop_marks (rev (drop_marks l))).
Fixpoint before_bar (t : str) : str := match t with c :: r => if (c =? 124)%N then [] else c :: before_bar r | [] => [] end.
Fixpoint behind_bar (t : str) : str := match t with c :: r => if (c =? 124)%N then r else behind_bar r | [] => [] end.
Definition given_title (l : str) : str := before_bar (bare_line l).
Definition given_desc (l : str) : str := before_bar (behind_bar (bare_line l)).

Section Split.
Variable tr : str -> str.  (* the translation of a message *)
Definition or_else (a b : str) : str := match a with [] => b | _ => a end.
(** a new chapter (level 0) or part (level 1) *)
Definition new_heading (level : N) (name : str) (l : str) : entry :=
  NewChapter (set_ch_type (Some 0%N) (set_ch_level (Some level) (set_ch_desc (Some (given_desc l)) (set_ch_title (Some (or_else (given_title l) (tr name))) new_chapter)))).
(** the title of a scene that has none: that of the scene that is split, at most 20 characters of it, and the number of the split *)
Definition clipped (t : str) : str := if 20 <? length t then firstn 20 t ++ s "..." else t.
Definition automatic_title (parent : option str) (k : N) : str :=
  (match parent with Some (c :: t) => clipped (c :: t) | _ => tr (s "New Scene") end) ++ s " Split: " ++ str_of_N k.
Definition new_scene_entry (title desc : str) (parent : option str) (k : N) : entry :=
  NewScene (Some (or_else title (automatic_title parent k))) (match desc with [] => None | _ => Some desc end).

(** the lines of a scene with the title parent. k: number of the latest new scene since the last heading of a chapter or part;
    inside: a line of text here belongs to a scene, otherwise it begins one *)
Fixpoint entries (parent : option str) (inside : bool) (k : N) (ls : list str) : list entry :=
  match ls with
  | [] => []
  | l :: ls' =>
      if prefixb (s "###") l then new_scene_entry (given_title l) (given_desc l) parent (k + 1) :: entries parent true (k + 1) ls'
      else if prefixb (s "##") l then new_heading 0 (s "New Chapter") l :: entries parent false 0 ls'
      else if prefixb (s "#") l then new_heading 1 (s "New Part") l :: entries parent false 0 ls'
      else if inside then entries parent true k ls'
      else new_scene_entry [] [] parent (k + 1) :: entries parent true (k + 1) ls'
  end.
Definition scene_entries (n : novel) (id : str) : list entry :=
  OldScene id :: match dget id (nv_scenes n) with
                 | Some x => match sc_content x with Some (c :: t) => entries (sc_title x) true 0 (text_lines (c :: t)) | _ => [] end
                 | None => []
                 end.
Definition split_outline (n : novel) : list entry :=
  flat_map (fun ch => OldChapter ch :: flat_map (scene_entries n) (chapter_scenes n ch)) (nv_srtChapters n).
End Split.
