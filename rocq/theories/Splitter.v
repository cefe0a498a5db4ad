(** Model of src/pywriter/model/splitter.py Splitter.split_scenes.
    [tr] is the translation function "_" (gettext). *)
From Coq Require Import List NArith ZArith Bool Lia Arith.
From Verif Require Import PyStr PyDict Globals NovelModel WordCount NovelOps.
Import ListNotations.

Section Splitter.
Variable tr : str -> str.

(** splitter.py 28-32 *)
Definition SCENE_SEPARATOR := s "###".
Definition CHAPTER_SEPARATOR := s "##".
Definition PART_SEPARATOR := s "#".
Definition CLIP_TITLE := 20.
Definition WARNING := s "(!)".

(** the local variables of split_scenes; sp_n is file.novel *)
Record sp := mkSp {
  sp_n : novel; sp_srtCh : list str; sp_chId : str; sp_srtSc : list str; sp_scId : str;
  sp_new : list str; sp_in : bool; sp_cnt : N; sp_split : bool }.

(** splitter.py 48-62 create_chapter *)
Definition create_chapter (chapterId title desc : str) (level : N) (n : novel) : novel :=
  set_nv_chapters (dset chapterId
    (set_ch_type (Some 0%N) (set_ch_level (Some level) (set_ch_desc (Some desc) (set_ch_title (Some title) new_chapter))))
    (nv_chapters n)) n.

(** splitter.py 90-97: if parent.x and not parent.x.startswith(WARNING): parent.x = WARNING + parent.x *)
Definition warn (x : option str) : option str :=
  match x with
  | Some (c :: t) => if prefixb WARNING (c :: t) then x else Some (WARNING ++ c :: t)
  | _ => x
  end.

(** splitter.py 78-87: the title of the new scene *)
Definition split_title (title : str) (parentTitle : option str) (splitCount : N) : str :=
  if truthy title then title
  else match parentTitle with
       | Some (c :: t) =>
           (if Nat.ltb CLIP_TITLE (length (c :: t)) then firstn CLIP_TITLE (c :: t) ++ s "..." else c :: t)
           ++ s " Split: " ++ str_of_N splitCount
       | _ => tr (s "New Scene") ++ s " Split: " ++ str_of_N splitCount
       end.

(** splitter.py 90-101: marking the parent scene; parent.status > 2 raises TypeError if the status is None *)
Definition mark_parent (p : scene) : res scene :=
  match sc_status p with
  | None => Err TypeError
  | Some st =>
      Ok (set_sc_status (Some (if Z.ltb 2 st then 2 else st)%Z)
         (set_sc_outcome (warn (sc_outcome p)) (set_sc_conflict (warn (sc_conflict p))
         (set_sc_goal (warn (sc_goal p)) (set_sc_desc (warn (sc_desc p)) p)))))
  end.

(** splitter.py 77-89, 102-109: the new scene, made after the parent p has been marked *)
Definition child_scene (p : scene) (splitCount : N) (title desc : str) : scene :=
  set_sc_lastsMinutes (sc_lastsMinutes p) (set_sc_lastsHours (sc_lastsHours p) (set_sc_lastsDays (sc_lastsDays p)
  (set_sc_day (sc_day p) (set_sc_time (sc_time p) (set_sc_date (sc_date p) (set_sc_type (sc_type p)
  (set_sc_status (sc_status p) (set_sc_desc (if truthy desc then Some desc else None)
  (set_sc_title (Some (split_title title (sc_title p) splitCount)) new_scene))))))))).

(** splitter.py 64-110 create_scene *)
Definition create_scene (sceneId parentId : str) (splitCount : N) (title desc : str) (n : novel) : res novel :=
  do parent <- dindex parentId (nv_scenes n);
  do parent <- mark_parent parent;
  Ok (set_nv_scenes (dset sceneId (child_scene parent splitCount title desc)
                      (dset parentId parent (nv_scenes n))) n).

(** file.novel.scenes[sceneId].sceneContent = '\n'.join(newLines)    (splitter.py 140, 151, 166, 189) *)
Definition put_content (sceneId : str) (newLines : list str) (n : novel) : res novel :=
  do x <- dindex sceneId (nv_scenes n);
  Ok (set_nv_scenes (dset sceneId (set_sceneContent (join [10%N] newLines) x) (nv_scenes n)) n).

(** file.novel.chapters[chapterId].srtScenes = srtScenes      (splitter.py 155, 170, 190) *)
Definition put_srtScenes (chapterId : str) (srtScenes : list str) (n : novel) : res novel :=
  do c <- dindex chapterId (nv_chapters n);
  Ok (set_nv_chapters (dset chapterId (set_ch_srtScenes srtScenes c) (nv_chapters n)) n).

(** splitter.py 132-137: title and description in a separator line *)
Definition heading (line : str) : str * str :=
  match split (s "|") (strip_by (in_chars (s "# ")) line) with
  | t :: d :: _ => (t, d)
  | [t] => (t, [])
  | [] => ([], [])
  end.

(** splitter.py 148-162 and 163-176: start a new chapter (level 0) or part (level 1);
    [flag] is the new value of scenesSplit *)
Definition start_chapter (title desc : str) (level : N) (dflt : str) (flag : bool) (st : sp) : res sp :=
  do '(n, new, cnt) <-
    (if sp_in st
     then do n <- put_content (sp_scId st) (sp_new st) (sp_n st); Ok (n, [], 0%N)
     else Ok (sp_n st, sp_new st, sp_cnt st));
  do n <- put_srtScenes (sp_chId st) (sp_srtSc st) n;
  let chapterId := new_id (dkeys (nv_chapters n)) in
  let title := if truthy title then title else tr dflt in
  Ok (mkSp (create_chapter chapterId title desc level n) (sp_srtCh st ++ [chapterId]) chapterId [] (sp_scId st)
        new false cnt flag).

(** splitter.py 131-187: the loop body for one line of the scene scId *)
Definition split_line (scId : str) (st : sp) (line : str) : res sp :=
  let '(title, desc) := heading line in
  if prefixb SCENE_SEPARATOR line then
    do n <- put_content (sp_scId st) (sp_new st) (sp_n st);
    let cnt := N.succ (sp_cnt st) in
    let sceneId := new_id (dkeys (nv_scenes n)) in
    do n <- create_scene sceneId scId cnt title desc n;
    Ok (mkSp n (sp_srtCh st) (sp_chId st) (sp_srtSc st ++ [sceneId]) sceneId [] true cnt true)
  else if prefixb CHAPTER_SEPARATOR line then
    start_chapter title desc 0 (s "New Chapter") true st
  else if prefixb PART_SEPARATOR line then
    start_chapter title desc 1 (s "New Part") (sp_split st) st
  else if negb (sp_in st) then
    let cnt := N.succ (sp_cnt st) in
    let sceneId := new_id (dkeys (nv_scenes (sp_n st))) in
    do n <- create_scene sceneId scId cnt [] [] (sp_n st);
    Ok (mkSp n (sp_srtCh st) (sp_chId st) (sp_srtSc st ++ [sceneId]) sceneId (sp_new st ++ [line]) true cnt true)
  else
    Ok (mkSp (sp_n st) (sp_srtCh st) (sp_chId st) (sp_srtSc st) (sp_scId st) (sp_new st ++ [line]) (sp_in st)
          (sp_cnt st) (sp_split st)).

(** splitter.py 119-189: the loop body for one scene *)
Definition split_scene (st : sp) (scId : str) : res sp :=
  let st := mkSp (sp_n st) (sp_srtCh st) (sp_chId st) (sp_srtSc st ++ [scId]) (sp_scId st) (sp_new st) (sp_in st)
                 (sp_cnt st) (sp_split st) in
  do x <- dindex scId (nv_scenes (sp_n st));
  match sc_content x with
  | Some (c :: t) =>
      do st <- foldM (split_line scId) (split [10%N] (c :: t))
                 (mkSp (sp_n st) (sp_srtCh st) (sp_chId st) (sp_srtSc st) scId [] true 0 (sp_split st));
      if sp_in st then
        do n <- put_content (sp_scId st) (sp_new st) (sp_n st);
        Ok (mkSp n (sp_srtCh st) (sp_chId st) (sp_srtSc st) (sp_scId st) (sp_new st) (sp_in st) (sp_cnt st) (sp_split st))
      else Ok st
  | _ => Ok st
  end.

(** splitter.py 115-190: the loop body for one chapter *)
Definition split_chapter (st : sp) (chId : str) : res sp :=
  let st := mkSp (sp_n st) (sp_srtCh st ++ [chId]) chId [] (sp_scId st) (sp_new st) (sp_in st) (sp_cnt st) (sp_split st) in
  do ch <- dindex chId (nv_chapters (sp_n st));
  do st <- foldM split_scene (ch_srtScenes ch) st;
  do n <- put_srtScenes (sp_chId st) (sp_srtSc st) (sp_n st);
  Ok (mkSp n (sp_srtCh st) (sp_chId st) (sp_srtSc st) (sp_scId st) (sp_new st) (sp_in st) (sp_cnt st) (sp_split st)).

(** splitter.py 35-192 split_scenes: the updated novel and the return value.  (The initial values of the
    variables not yet assigned in Python do not matter: they are assigned before use.) *)
Definition split_scenes (n : novel) : res (novel * bool) :=
  do st <- foldM split_chapter (nv_srtChapters n) (mkSp n [] [] [] [] [] false 0 false);
  Ok (set_nv_srtChapters (sp_srtCh st) (sp_n st), sp_split st).

End Splitter.
