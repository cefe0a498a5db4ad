(** Template-based export: src/pywriter/file/file_export.py.

    The class attributes (templates), the filters and the mapping methods, which subclasses extend, are the fields of a
    record; the mapping methods of the class itself are defined below. Mapping values are kept as the strings that
    str() makes of them, because safe_substitute does nothing else with them. *)
From Coq Require Import List NArith ZArith Bool Lia Arith.
From Verif Require Import PyStr PyDict Globals NovelModel Template.
Import ListNotations.

(** 28-57 the templates; 73-77 the filters; 103-120, 137-159, 251-283, 318-341, 362-385, 406-548, 633-648 the mapping methods *)
Record exporter := mkExporter {
  t_fileHeader : str;
  t_part : str; t_chapter : str; t_notesPart : str; t_todoPart : str; t_notesChapter : str; t_todoChapter : str;
  t_unusedChapter : str; t_notExportedChapter : str;
  t_scene : str; t_firstScene : str; t_appendedScene : str; t_notesScene : str; t_todoScene : str; t_unusedScene : str;
  t_notExportedScene : str; t_divider : str;
  t_chapterEnd : str; t_unusedChapterEnd : str; t_notExportedChapterEnd : str; t_notesChapterEnd : str; t_todoChapterEnd : str;
  t_characterHeading : str; t_character : str; t_locationHeading : str; t_location : str; t_itemHeading : str; t_item : str;
  t_fileFooter : str; t_projectNote : str;
  f_scene : str -> bool; f_chapter : str -> bool; f_character : str -> bool; f_location : str -> bool; f_item : str -> bool;
  m_fileHeader : novel -> res (dict str);
  m_chapter : novel -> str -> nat -> res (dict str);
  m_scene : novel -> str -> nat -> nat -> nat -> res (dict str);
  m_character : novel -> str -> res (dict str);
  m_location : novel -> str -> res (dict str);
  m_item : novel -> str -> res (dict str);
  m_projectNote : novel -> str -> res (dict str) }.

(** str(x) for a string or None *)
Definition py_str (t : option str) : str := match t with Some x => x | None => s "None" end.
Definition nat_str (n : nat) : str := str_of_N (N.of_nat n).
Definition is_type (t : option N) (k : N) : bool := match t with Some x => N.eqb x k | None => false end.
Definition flag (b : option bool) : bool := match b with Some b => b | None => false end.
(** Template(t) if t else None *)
Definition if_given (t : str) : option str := if truthy t then Some t else None.
Definition fill (t : str) (m : res (dict str)) : res str := do m <- m; Ok (safe_substitute t m).

(** * 161-249 _get_chapters *)

(** 185-195: a chapter all of whose scenes are not to be exported *)
Definition not_exported (n : novel) (ids : list str) : res bool :=
  do counts <- foldM (fun (c : nat * nat) scId =>
      do x <- dindex scId (nv_scenes n);
      Ok (S (fst c), if flag (sc_doNotExport x) then S (snd c) else snd c)) ids (0, 0);
  Ok ((0 <? fst counts) && (snd counts =? fst counts)).
(** 196-222: the template of the chapter heading, if any, and whether the chapter gets a number *)
Definition chapter_template (e : exporter) (c : chapter) (doNotExport : bool) : option str * bool :=
  if is_type (ch_type c) 2 then (if is_type (ch_level c) 1 then if_given (t_todoPart e) else if_given (t_todoChapter e), false)
  else if is_type (ch_type c) 1 then (if is_type (ch_level c) 1 then if_given (t_notesPart e) else if_given (t_notesChapter e), false)
  else if is_type (ch_type c) 3 then (if_given (t_unusedChapter e), false)
  else if doNotExport then (if_given (t_notExportedChapter e), false)
  else if is_type (ch_level c) 1 && truthy (t_part e) then (Some (t_part e), false)
  else (Some (t_chapter e), true).
(** 231-246: the template of the chapter ending *)
Definition chapter_end_template (e : exporter) (c : chapter) (doNotExport : bool) : option str :=
  if is_type (ch_type c) 2 then if_given (t_todoChapterEnd e)
  else if is_type (ch_type c) 1 then if_given (t_notesChapterEnd e)
  else if is_type (ch_type c) 3 then if_given (t_unusedChapterEnd e)
  else if doNotExport then if_given (t_notExportedChapterEnd e)
  else if_given (t_chapterEnd e).

(** 550-631 _get_scenes: 584-623 the template of a scene, if any, and whether the scene gets a number *)
Definition scene_template (e : exporter) (c : chapter) (x : scene) (doNotExport first : bool) : option str * bool :=
  let content := match sc_content x with Some t => t | None => [] end in
  if is_type (sc_type x) 2 then (if_given (t_todoScene e), false)
  else if is_type (sc_type x) 1 then (if_given (t_notesScene e), false)
  else if is_type (sc_type x) 3 || is_type (ch_type c) 3 then (if_given (t_unusedScene e), false)
  else if flag (sc_doNotExport x) || doNotExport then (if_given (t_notExportedScene e), false)
  else if prefixb (s "<HTML>") content then (None, false)
  else if prefixb (s "<TEX>") content then (None, false)
  else (Some (if negb first && flag (sc_appendToPrev x) && truthy (t_appendedScene e) then t_appendedScene e else t_scene e), true).

(** the running totals: number of scenes, words, letters *)
Record totals := mkTotals { tt_scenes : nat; tt_words : nat; tt_letters : nat }.
Definition add_scene (x : scene) (t : totals) : totals :=
  mkTotals (S (tt_scenes t)) (tt_words t + sc_wordCount x) (tt_letters t + sc_letterCount x).
(** 574-630 the loop body; the state is (lines, firstSceneInChapter, totals) *)
Definition scene_step (e : exporter) (n : novel) (c : chapter) (doNotExport : bool) (st : list str * bool * totals) (scId : str)
  : res (list str * bool * totals) :=
  let '(lines, first, t) := st in
  if negb (f_scene e scId) then Ok st
  else
    do x <- dindex scId (nv_scenes n);
    match scene_template e c x doNotExport first with
    | (None, _) => Ok st
    | (Some tpl, numbered) =>
        let t' := if numbered then add_scene x t else t in
        let disp := if numbered then tt_scenes t' else 0 in
        let lines1 := if negb (first || flag (sc_appendToPrev x)) then lines ++ [t_divider e] else lines in
        let tpl1 := if first && truthy (t_firstScene e) then t_firstScene e else tpl in
        do text <- fill tpl1 (m_scene e n scId disp (tt_words t') (tt_letters t'));
        Ok (lines1 ++ [text], false, t')
    end.
Definition get_scenes (e : exporter) (n : novel) (c : chapter) (doNotExport : bool) (t : totals) : res (list str * totals) :=
  do ' (lines, _, t') <- foldM (scene_step e n c doNotExport) (ch_srtScenes c) ([], true, t);
  Ok (lines, t').

(** 176-248 the loop body; the state is (lines, chapterNumber, totals) *)
Definition chapter_step (e : exporter) (n : novel) (st : list str * nat * totals) (chId : str) : res (list str * nat * totals) :=
  let '(lines, number, t) := st in
  if negb (f_chapter e chId) then Ok st
  else
    do c <- dindex chId (nv_chapters n);
    do dne <- not_exported n (ch_srtScenes c);
    let tn := chapter_template e c dne in
    let number' := if snd tn then S number else number in
    let disp := if snd tn then number' else 0 in
    do head <- match fst tn with Some tpl => do x <- fill tpl (m_chapter e n chId disp); Ok [x] | None => Ok [] end;
    do ' (scs, t') <- get_scenes e n c dne t;
    do tail <- match chapter_end_template e c dne with Some tpl => do x <- fill tpl (m_chapter e n chId disp); Ok [x] | None => Ok [] end;
    Ok (lines ++ head ++ scs ++ tail, number', t').
Definition get_chapters (e : exporter) (n : novel) : res (list str) :=
  do ' (lines, _, _) <- foldM (chapter_step e n) (nv_srtChapters n) ([], 0, mkTotals 0 0 0);
  Ok lines.

(** * The other parts *)

(** 285-302 _get_characters, 343-360 _get_items, 387-404 _get_locations: the section heading, if any, and one block for
    every accepted element *)
Definition get_elements (heading tpl : str) (accept : str -> bool) (m : str -> res (dict str)) (ids : list str) : res (list str) :=
  do blocks <- mapM (fun i => fill tpl (m i)) (filter accept ids);
  Ok ((if truthy heading then [heading] else []) ++ blocks).
Definition get_characters (e : exporter) (n : novel) : res (list str) :=
  get_elements (t_characterHeading e) (t_character e) (f_character e) (m_character e n) (nv_srtCharacters n).
Definition get_locations (e : exporter) (n : novel) : res (list str) :=
  get_elements (t_locationHeading e) (t_location e) (f_location e) (m_location e n) (nv_srtLocations n).
Definition get_items (e : exporter) (n : novel) : res (list str) :=
  get_elements (t_itemHeading e) (t_item e) (f_item e) (m_item e n) (nv_srtItems n).
(** 650-664 _get_projectNotes *)
Definition get_projectNotes (e : exporter) (n : novel) : res (list str) :=
  mapM (fun i => fill (t_projectNote e) (m_projectNote e n i)) (nv_srtPrjNotes n).
(** 304-316 _get_fileHeader *)
Definition get_fileHeader (e : exporter) (n : novel) : res str := fill (t_fileHeader e) (m_fileHeader e n).
(** 666-679 _get_text *)
Definition get_text (e : exporter) (n : novel) : res str :=
  do h <- get_fileHeader e n;
  do c <- get_chapters e n;
  do p <- get_characters e n;
  do l <- get_locations e n;
  do i <- get_items e n;
  do o <- get_projectNotes e n;
  Ok (concat ([h] ++ c ++ p ++ l ++ i ++ o ++ [t_fileFooter e])).

(** * The mapping methods of the class

    conv is _convert_from_yw (None stands for None); its error stands for a call that does not return. *)
Section Mappings.
Variable conv : option str -> bool -> res str.
Variables projectName projectPath : option str.
Variable n : novel.

(** a mapping given by its keys and the computations of the values *)
Fixpoint mapping (l : list (str * res str)) : res (dict str) :=
  match l with
  | [] => Ok []
  | (k, v) :: l' => do x <- v; do m <- mapping l'; Ok ((k, x) :: m)
  end.
Definition DIVIDER : str := s ", ".  (* 59 *)
(** tags joined, '' for None *)
Definition tags_text (tags : option (list str)) : str := match tags with Some l => list_to_string (Some l) DIVIDER | None => [] end.
(** list_to_string of titles, each a string or None: joining fails if one is None *)
Fixpoint all_some {A} (l : list (option A)) : option (list A) :=
  match l with [] => Some [] | x :: l' => match x, all_some l' with Some a, Some r => Some (a :: r) | _, _ => None end end.
Definition titles_text (l : list (option str)) : str := list_to_string (all_some l) DIVIDER.
(** '' in place of the number 0 *)
Definition disp (k : nat) : str := match k with O => [] | _ => nat_str k end.

(** 103-120 _get_fileHeaderMapping *)
Definition fileHeaderMapping : res (dict str) :=
  mapping [(s "Title", conv (nv_title n) true); (s "Desc", conv (nv_desc n) false); (s "AuthorName", conv (nv_authorName n) true);
    (s "AuthorBio", conv (nv_authorBio n) true); (s "FieldTitle1", conv (nv_fieldTitle1 n) true); (s "FieldTitle2", conv (nv_fieldTitle2 n) true);
    (s "FieldTitle3", conv (nv_fieldTitle3 n) true); (s "FieldTitle4", conv (nv_fieldTitle4 n) true);
    (s "Language", Ok (py_str (nv_languageCode n))); (s "Country", Ok (py_str (nv_countryCode n)))].
(** 137-159 _get_chapterMapping *)
Definition chapterMapping (chId : str) (number : nat) : res (dict str) :=
  do c <- dindex chId (nv_chapters n);
  mapping [(s "ID", Ok chId); (s "ChapterNumber", Ok (disp number)); (s "Title", conv (ch_title c) true); (s "Desc", conv (ch_desc c) false);
    (s "ProjectName", conv projectName true); (s "ProjectPath", Ok (py_str projectPath));
    (s "Language", Ok (py_str (nv_languageCode n))); (s "Country", Ok (py_str (nv_countryCode n)))].
(** 251-283 _get_characterMapping *)
Definition characterMapping (crId : str) : res (dict str) :=
  do c <- dindex crId (nv_characters n);
  mapping [(s "ID", Ok crId); (s "Title", conv (cr_title c) true); (s "Desc", conv (cr_desc c) false); (s "Tags", conv (Some (tags_text (cr_tags c))) false);
    (s "Image", Ok (py_str (cr_image c))); (s "AKA", conv (cr_aka c) true); (s "Notes", conv (cr_notes c) false); (s "Bio", conv (cr_bio c) false);
    (s "Goals", conv (cr_goals c) false); (s "FullName", conv (cr_fullName c) true); (s "Status", Ok (if flag (cr_isMajor c) then s "Major" else s "Minor"));
    (s "ProjectName", conv projectName false); (s "ProjectPath", Ok (py_str projectPath))].
(** 318-341 _get_itemMapping and 362-385 _get_locationMapping, which differ only in the dictionary *)
Definition worldMapping (d : dict world) (i : str) : res (dict str) :=
  do w <- dindex i d;
  mapping [(s "ID", Ok i); (s "Title", conv (we_title w) true); (s "Desc", conv (we_desc w) false); (s "Tags", conv (Some (tags_text (we_tags w))) true);
    (s "Image", Ok (py_str (we_image w))); (s "AKA", conv (we_aka w) true); (s "ProjectName", conv projectName true); (s "ProjectPath", Ok (py_str projectPath))].
(** 633-648 _get_prjNoteMapping *)
Definition prjNoteMapping (i : str) : res (dict str) :=
  do p <- dindex i (nv_projectNotes n);
  mapping [(s "ID", Ok i); (s "Title", conv (pn_title p) true); (s "Desc", conv (pn_desc p) true); (s "ProjectName", conv projectName true);
    (s "ProjectPath", Ok (py_str projectPath))].

(** src/pywriter/model/scene.py 63-69 STATUS; indexing with None raises TypeError, a negative index counts from the end *)
Definition STATUS : list (option str) := [None; Some (s "Outline"); Some (s "Draft"); Some (s "1st Edit"); Some (s "2nd Edit"); Some (s "Done")].
Definition status_text (st : option Z) : res str :=
  match st with
  | None => Err TypeError
  | Some z =>
      let k := if (z <? 0)%Z then (z + 6)%Z else z in
      if (0 <=? k)%Z then match nth_error STATUS (Z.to_nat k) with Some t => Ok (py_str t) | None => Err IndexError end else Err IndexError
  end.
(** x and ''.format(x) unless it is None or '0' *)
Definition lasts (v : option str) : str := match v with Some t => if str_eqb t (s "0") then [] else t | None => [] end.
Definition lasts_unit (v : option str) (u : str) : str := match v with Some t => if str_eqb t (s "0") then [] else t ++ u | None => [] end.
(** rsplit(':', 1)[0] *)
Fixpoint before_last (c : N) (t : str) : option str :=
  match t with
  | [] => None
  | d :: t' => match before_last c t' with Some r => Some (d :: r) | None => if N.eqb d c then Some [] else None end
  end.
Definition without_seconds (t : str) : str := match before_last 58 t with Some r => r | None => t end.

(** 427-456 characters, locations, items of a scene *)
Definition scene_characters (x : scene) : str * str :=
  match sc_characters x with
  | None => ([], [])
  | Some ids =>
      match mapM (fun i => do c <- dindex i (nv_characters n); Ok (cr_title c)) ids with
      | Ok ((v :: _) as titles) => (titles_text titles, py_str v)
      | _ => ([], [])
      end
  end.
Definition scene_places (d : dict world) (ids : option (list str)) : res str :=
  match ids with
  | None => Ok []
  | Some ids => do titles <- mapM (fun i => do w <- dindex i d; Ok (we_title w)) ids; Ok (titles_text titles)
  end.
Definition dated (x : scene) : bool := match sc_date x with Some d => negb (str_eqb d (s "0001-01-01")) | None => false end.
Definition ostr (t : option str) : str := match t with Some x => x | None => [] end.
(** 406-548 _get_sceneMapping *)
Definition sceneMapping (scId : str) (number words letters : nat) : res (dict str) :=
  do x <- dindex scId (nv_scenes n);
  do locs <- scene_places (nv_locations n) (sc_locations x);
  do its <- scene_places (nv_items n) (sc_items x);
  mapping [(s "ID", Ok scId); (s "SceneNumber", Ok (disp number)); (s "Title", conv (sc_title x) true); (s "Desc", conv (sc_desc x) false);
    (s "WordCount", Ok (nat_str (sc_wordCount x))); (s "WordsTotal", Ok (nat_str words)); (s "LetterCount", Ok (nat_str (sc_letterCount x)));
    (s "LettersTotal", Ok (nat_str letters)); (s "Status", status_text (sc_status x)); (s "SceneContent", conv (sc_content x) false);
    (s "FieldTitle1", conv (nv_fieldTitle1 n) true); (s "FieldTitle2", conv (nv_fieldTitle2 n) true);
    (s "FieldTitle3", conv (nv_fieldTitle3 n) true); (s "FieldTitle4", conv (nv_fieldTitle4 n) true);
    (s "Field1", Ok (py_str (sc_field1 x))); (s "Field2", Ok (py_str (sc_field2 x))); (s "Field3", Ok (py_str (sc_field3 x))); (s "Field4", Ok (py_str (sc_field4 x)));
    (s "Date", Ok (if dated x then ostr (sc_date x) else [])); (s "Time", Ok (match sc_time x with Some t => without_seconds t | None => [] end));
    (s "Day", Ok (if dated x then [] else ostr (sc_day x)));
    (s "ScDate", Ok (if dated x then ostr (sc_date x) else match sc_day x with Some d => s "Day " ++ d | None => [] end));
    (s "LastsDays", Ok (lasts (sc_lastsDays x))); (s "LastsHours", Ok (lasts (sc_lastsHours x))); (s "LastsMinutes", Ok (lasts (sc_lastsMinutes x)));
    (s "Duration", Ok (lasts_unit (sc_lastsDays x) (s "d ") ++ lasts_unit (sc_lastsHours x) (s "h ") ++ lasts_unit (sc_lastsMinutes x) (s "min")));
    (s "ReactionScene", Ok (if flag (sc_isReactionScene x) then s "R" else s "A"));
    (s "Goal", conv (sc_goal x) false); (s "Conflict", conv (sc_conflict x) false); (s "Outcome", conv (sc_outcome x) false);
    (s "Tags", conv (Some (tags_text (sc_tags x))) true); (s "Image", Ok (py_str (sc_image x)));
    (s "Characters", Ok (fst (scene_characters x))); (s "Viewpoint", Ok (snd (scene_characters x))); (s "Locations", Ok locs); (s "Items", Ok its);
    (s "Notes", conv (sc_notes x) false); (s "ProjectName", conv projectName true); (s "ProjectPath", Ok (py_str projectPath));
    (s "Language", Ok (py_str (nv_languageCode n))); (s "Country", Ok (py_str (nv_countryCode n)))].
End Mappings.

(** 122-135 FileExport._convert_from_yw *)
Definition plain_convert (t : option str) (quick : bool) : res str := Ok (ostr t).
