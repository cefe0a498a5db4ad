(** Model of src/pywriter/yw/yw7_file.py 114-177 and 1156-1682: from the element tree to the novel.
    Simplification: an <ID> element without text is the dictionary key None in Python; here it raises TypeError. *)
From Coq Require Import String List NArith ZArith Bool Lia Arith.
From Verif Require Import PyStr PyDict Globals NovelModel NovelOps YwTree IsoDate Yw7Build.
Import ListNotations.

(** for fieldName in names: kwVar[fieldName] = None
    for xmlFields in findall('Fields'): for fieldName in names: if there is such a field: kwVar[fieldName] = field.text
    (yw7_file.py 1197-1205, 1240-1248, 1277-1285, 1331-1339, 1427-1435, 1640-1661) *)
Definition read_kw1 (fields : elem) (kw : dict (option str)) (name : str) : dict (option str) :=
  match find name (e_kids fields) with Some f => dset name (e_text f) kw | None => kw end.
Definition read_kws (names : list str) (k : list elem) (kw : dict (option str)) : dict (option str) :=
  fold_left (fun kw fields => fold_left (read_kw1 fields) names kw) (findall (s "Fields") k)
    (fold_left (fun kw name => dset name None kw) names kw).

(** if find('Tags') is not None and its text is not None: tags = _strip_spaces(string_to_list(text))
    (1234-1237, 1271-1274, 1308-1311, 1461-1464; _strip_spaces 1671-1682) *)
Definition read_tags (k : list elem) : option (list str) :=
  match get_text (s "Tags") k with
  | None => None
  | Some t => Some (map strip (string_to_list (Some t) semicolon))
  end.

(** int(text) in a try with bare except: default 0 (1186-1194) *)
Definition int_or_0 (x : option str) : Z :=
  match x with Some t => match parse_int t with Some z => z | None => 0%Z end | None => 0%Z end.

(** keep the old value if there is no such element *)
Definition text_or (t : str) (k : list elem) (old : option str) : option str :=
  match find t k with Some e => e_text e | None => old end.

(** yw7_file.py 1156-1211 _read_project *)
Definition read_project (r : list elem) (n : novel) : res novel :=
  match find (s "PROJECT") r with
  | None => Err AttributeError
  | Some p =>
      let k := e_kids p in
      let n := set_nv_title (text_or (s "Title") k (nv_title n)) n in
      let n := set_nv_authorName (text_or (s "AuthorName") k (nv_authorName n)) n in
      let n := set_nv_authorBio (text_or (s "Bio") k (nv_authorBio n)) n in
      let n := set_nv_desc (text_or (s "Desc") k (nv_desc n)) n in
      let n := set_nv_fieldTitle1 (text_or (s "FieldTitle1") k (nv_fieldTitle1 n)) n in
      let n := set_nv_fieldTitle2 (text_or (s "FieldTitle2") k (nv_fieldTitle2 n)) n in
      let n := set_nv_fieldTitle3 (text_or (s "FieldTitle3") k (nv_fieldTitle3 n)) n in
      let n := set_nv_fieldTitle4 (text_or (s "FieldTitle4") k (nv_fieldTitle4 n)) n in
      let n := match find (s "WordCountStart") k with
               | Some e => set_nv_wordCountStart (Some (int_or_0 (e_text e))) n | None => n end in
      let n := match find (s "WordTarget") k with
               | Some e => set_nv_wordTarget (Some (int_or_0 (e_text e))) n | None => n end in
      let n := set_nv_kw (read_kws PRJ_KWVAR k (nv_kw n)) n in
      let n := if otruthy (get_kw (s "Field_LanguageCode") (nv_kw n))
               then set_nv_languageCode (get_kw (s "Field_LanguageCode") (nv_kw n)) n else n in
      let n := if otruthy (get_kw (s "Field_CountryCode") (nv_kw n))
               then set_nv_countryCode (get_kw (s "Field_CountryCode") (nv_kw n)) n else n in
      Ok n
  end.

(** xmlElement.find('ID').text *)
Definition read_id (e : elem) : res str :=
  match find (s "ID") (e_kids e) with
  | None => Err AttributeError
  | Some i => match e_text i with Some v => Ok v | None => Err TypeError end
  end.

(** yw7_file.py 1222-1248 and 1259-1285: one location or item *)
Definition read_world (names : list str) (k : list elem) : world :=
  mkWorld (get_text (s "Title") k) (get_text (s "Desc") k) (read_kws names k [])
          (get_text (s "ImageFile") k) (read_tags k) (get_text (s "AKA") k).

(** yw7_file.py 1296-1339: one character *)
Definition read_character (k : list elem) : character :=
  mkCharacter (get_text (s "Title") k) (get_text (s "Desc") k) (read_kws CRT_KWVAR k [])
          (get_text (s "ImageFile") k) (read_tags k) (get_text (s "AKA") k) (get_text (s "Notes") k)
          (get_text (s "Bio") k) (get_text (s "Goals") k) (get_text (s "FullName") k)
          (Some (has (s "Major") k)).

(** The loops 1217-1220, 1254-1257, 1291-1294: a list of IDs and a dictionary are filled *)
Definition read_into {A} (rd : list elem -> A) (es : list elem) (st : list str * dict A)
  : res (list str * dict A) :=
  foldM (fun st e => do i <- read_id e; Ok (fst st ++ [i], dset i (rd (e_kids e)) (snd st))) es st.
Definition read_list {A} (section : str) (rd : list elem -> A) (r : list elem) (d : dict A)
  : res (list str * dict A) :=
  match find section r with
  | None => Err TypeError
  | Some e => read_into rd (e_kids e) ([], d)
  end.

(** yw7_file.py 1341-1367 _read_projectnotes.  The whole loop is in a try with "except: pass".  PNT_KWVAR is
    empty, so fieldName is unbound: a note with <Fields> ends the loop (UnboundLocalError, 1363). *)
Fixpoint read_notes (es : list elem) (st : list str * dict note) : list str * dict note :=
  match es with
  | [] => st
  | e :: es' =>
      let k := e_kids e in
      match find (s "ID") k with
      | Some i =>
          match e_text i with
          | None => st
          | Some v =>
              let st := (fst st ++ [v],
                         dset v (mkNote (get_text (s "Title") k) (get_text (s "Desc") k) []) (snd st)) in
              if has (s "Fields") k then st else read_notes es' st
          end
      | None => if has (s "Fields") k then st else read_notes es' st
      end
  end.

(** yw7_file.py 1369-1392 _read_projectvars *)
Fixpoint read_projectvars (es : list elem) (n : novel) : novel :=
  match es with
  | [] => n
  | e :: es' =>
      let k := e_kids e in
      match find (s "Title") k with
      | None => read_projectvars es' n
      | Some te =>
          match e_text te with
          | None => n                                         (* None.startswith: caught, the loop ends *)
          | Some title =>
              if str_eqb title (s "Language") then
                read_projectvars es' (set_nv_languageCode (text_or (s "Desc") k (nv_languageCode n)) n)
              else if str_eqb title (s "Country") then
                read_projectvars es' (set_nv_countryCode (text_or (s "Desc") k (nv_countryCode n)) n)
              else if prefixb (s "lang=") title then
                match split (s "=") title with
                | [_; code] =>
                    read_projectvars es'
                      (set_nv_languages (Some (match nv_languages n with Some l => l | None => [] end ++ [code])) n)
                | _ => read_projectvars es' n
                end
              else read_projectvars es' n
          end
      end
  end.

(** yw7_file.py 1424-1445: the scene type *)
Definition read_scene_type (k : list elem) : N :=
  let t := fold_left (fun t fields =>
             match find_text (s "Field_SceneType") (e_kids fields) with
             | Some (Some y) => if str_eqb y (s "1") then 1%N else if str_eqb y (s "2") then 2%N else t
             | _ => t
             end) (findall (s "Fields") k) 0%N in
  if has (s "Unused") k && N.eqb t 0 then 3%N else t.

(** yw7_file.py 1447-1453 *)
Definition read_doNotExport (k : list elem) : bool :=
  has (s "ExportCondSpecific") k && negb (has (s "ExportWhenRTF") k).

(** yw7_file.py 1483-1520: the scene start as (date, time, day) *)
Definition read_start (ext : str -> option (str * str)) (k : list elem)
  : res (option str * option str * option str) :=
  match find (s "SpecificDateTime") k with
  | Some e =>
      match e_text e with
      | None => Ok (Some [], Some [], None)                   (* fromisoformat(None): TypeError, caught *)
      | Some t => match fromiso ext t with
                  | Some (d, v) => Ok (Some d, Some v, None)
                  | None => Ok (Some [], Some [], None)
                  end
      end
  | None =>
      do day <- (match find (s "Day") k with
                 | None => Ok None
                 | Some e => match e_text e with
                             | None => Err TypeError          (* int(None) is not caught by "except ValueError" *)
                             | Some d => match parse_int d with Some _ => Ok (Some d) | None => Ok (Some []) end
                             end
                 end);
      let part t := match find t k with
                    | None => Ok (s "00")
                    | Some e => match e_text e with None => Err AttributeError | Some v => Ok (zfill2 v) end
                    end in
      do hour <- part (s "Hour");
      do minute <- part (s "Minute");
      Ok (None, (if has (s "Hour") k || has (s "Minute") k then Some (hour ++ s ":" ++ minute ++ s ":00") else None), day)
  end.

(** yw7_file.py 1554-1576: the references to existing elements; None if there are none *)
Definition read_refs (t idTag : str) (known : list str) (k : list elem) : option (list str) :=
  match find t k with
  | None => None
  | Some e =>
      let ids := flat_map (fun x => match e_text x with Some i => if smem i known then [i] else [] | None => [] end)
                   (iter idTag e) in
      match ids with [] => None | _ => Some ids end
  end.

(** yw7_file.py 1398-1576: one scene.  [cs], [ls], [is] are the IDs of the characters, locations, items. *)
Definition read_scene (ext : str -> option (str * str)) (cs ls is : list str) (k : list elem) : res scene :=
  do st <- (match find (s "Status") k with
            | None => Ok None
            | Some e => match e_text e with
                        | None => Err TypeError
                        | Some t => match parse_int t with Some z => Ok (Some z) | None => Err ValueError end
                        end
            end);
  do start <- read_start ext k;
  let '(date, time, day) := start in
  let x := new_scene in
  let x := set_sc_title (get_text (s "Title") k) x in
  let x := set_sc_desc (get_text (s "Desc") k) x in
  let x := match get_text (s "SceneContent") k with Some c => set_sceneContent c x | None => x end in
  let x := set_sc_type (Some (read_scene_type k)) x in
  let x := set_sc_kw (read_kws SCN_KWVAR k []) x in
  let x := set_sc_doNotExport (Some (read_doNotExport k)) x in
  let x := set_sc_status st x in
  let x := set_sc_notes (get_text (s "Notes") k) x in
  let x := set_sc_tags (read_tags k) x in
  let x := set_sc_field1 (get_text (s "Field1") k) x in
  let x := set_sc_field2 (get_text (s "Field2") k) x in
  let x := set_sc_field3 (get_text (s "Field3") k) x in
  let x := set_sc_field4 (get_text (s "Field4") k) x in
  let x := set_sc_appendToPrev (Some (has (s "AppendToPrev") k)) x in
  let x := set_sc_date date x in
  let x := set_sc_time time x in
  let x := set_sc_day day x in
  let x := set_sc_lastsDays (get_text (s "LastsDays") k) x in
  let x := set_sc_lastsHours (get_text (s "LastsHours") k) x in
  let x := set_sc_lastsMinutes (get_text (s "LastsMinutes") k) x in
  let x := set_sc_isReactionScene (Some (has (s "ReactionScene") k)) x in
  let x := set_sc_isSubPlot (Some (has (s "SubPlot") k)) x in
  let x := set_sc_goal (get_text (s "Goal") k) x in
  let x := set_sc_conflict (get_text (s "Conflict") k) x in
  let x := set_sc_outcome (get_text (s "Outcome") k) x in
  let x := set_sc_image (get_text (s "ImageFile") k) x in
  let x := set_sc_characters (read_refs (s "Characters") (s "CharID") cs k) x in
  let x := set_sc_locations (read_refs (s "Locations") (s "LocID") ls k) x in
  let x := set_sc_items (read_refs (s "Items") (s "ItemID") is k) x in
  Ok x.

(** yw7_file.py 1394-1398 *)
Definition read_scenes (ext : str -> option (str * str)) (r : list elem) (n : novel) : res novel :=
  match find (s "SCENES") r with
  | None => Err TypeError
  | Some e =>
      do d <- foldM (fun d e => do i <- read_id e;
                                do x <- read_scene ext (nv_srtCharacters n) (nv_srtLocations n) (nv_srtItems n) (e_kids e);
                                Ok (dset i x d)) (e_kids e) (nv_scenes n);
      Ok (set_nv_scenes d n)
  end.

(** yw7_file.py 1611-1632: the chapter type *)
Definition read_chapter_type (k : list elem) : N :=
  let unused := has (s "Unused") k in
  match find (s "ChapterType") k with
  | Some e =>
      match e_text e with
      | Some y => if str_eqb y (s "2") then 2%N else if str_eqb y (s "1") then 1%N
                  else if unused then 3%N else 0%N
      | None => if unused then 3%N else 0%N
      end
  | None =>
      match find (s "Type") k with
      | Some e =>
          match e_text e with
          | Some y => if str_eqb y (s "1") then 1%N else if unused then 3%N else 0%N
          | None => if unused then 3%N else 0%N
          end
      | None => 0%N
      end
  end.

Definition field_is_1 (field : str) (fields : elem) : bool :=
  match find_text field (e_kids fields) with Some (Some y) => str_eqb y (s "1") | _ => false end.

(** yw7_file.py 1584-1669: one chapter; [scs] are the scenes read before *)
Definition read_chapter (scs : dict scene) (k : list elem) : chapter :=
  let title := get_text (s "Title") k in
  let fs := findall (s "Fields") k in
  let at_sign := match title with Some t => prefixb (s "@") t | None => false end in
  mkChapter title (get_text (s "Desc") k) (read_kws CHP_KWVAR k [])
    (Some (if has (s "SectionStart") k then 1%N else 0%N))
    (Some (read_chapter_type k))
    (Some (at_sign || existsb (field_is_1 (s "Field_SuppressChapterTitle")) fs))
    (fold_left (fun _ f => Some (field_is_1 (s "Field_IsTrash") f)) fs None)
    (fold_left (fun _ f => Some (field_is_1 (s "Field_SuppressChapterBreak") f)) fs None)
    (match find (s "Scenes") k with
     | None => []
     | Some e => flat_map (fun x => match e_text x with Some i => if dmem i scs then [i] else [] | None => [] end)
                   (findall (s "ScID") (e_kids e))
     end).

(** yw7_file.py 114-119 adjust_scene_types *)
Definition adjust_scene_types (n : novel) : res novel :=
  do scs <- foldM (fun scs chId =>
              do c <- dindex chId (nv_chapters n);
              match ch_type c with
              | Some 0%N => Ok scs
              | t => foldM (fun scs scId => do x <- dindex scId scs; Ok (dset scId (set_sc_type t x) scs))
                       (ch_srtScenes c) scs
              end) (nv_srtChapters n) (nv_scenes n);
  Ok (set_nv_scenes scs n).

(** yw7_file.py 170-177: scnArcs and scnMode from the keyword variables *)
Definition custom_vars (x : scene) : scene :=
  let x := set_sc_scnArcs (get_kw (s "Field_SceneArcs") (sc_kw x)) x in
  set_sc_scnMode (match get_kw (s "Field_SceneMode") (sc_kw x) with Some t => parse_int t | None => None end) x.

(** yw7_file.py 160-177 (and 136-137): the novel [n] is filled from the sub-elements [r] of the root *)
Definition read_tree (ext : str -> option (str * str)) (r : list elem) (n : novel) : res novel :=
  do n <- read_project r n;
  do p <- read_list (s "LOCATIONS") (read_world LOC_KWVAR) r (nv_locations n);
  let n := set_nv_locations (snd p) (set_nv_srtLocations (fst p) n) in
  do p <- read_list (s "ITEMS") (read_world ITM_KWVAR) r (nv_items n);
  let n := set_nv_items (snd p) (set_nv_srtItems (fst p) n) in
  do p <- read_list (s "CHARACTERS") read_character r (nv_characters n);
  let n := set_nv_characters (snd p) (set_nv_srtCharacters (fst p) n) in
  let n := match find (s "PROJECTVARS") r with Some e => read_projectvars (e_kids e) n | None => n end in
  let p := match find (s "PROJECTNOTES") r with
           | Some e => read_notes (e_kids e) ([], nv_projectNotes n) | None => ([], nv_projectNotes n) end in
  let n := set_nv_projectNotes (snd p) (set_nv_srtPrjNotes (fst p) n) in
  do n <- read_scenes ext r n;
  do p <- read_list (s "CHAPTERS") (read_chapter (nv_scenes n)) r (nv_chapters n);
  let n := set_nv_chapters (snd p) (set_nv_srtChapters (fst p) n) in
  do n <- adjust_scene_types n;
  Ok (set_nv_scenes (map (fun p => (fst p, custom_vars (snd p))) (nv_scenes n)) n).
