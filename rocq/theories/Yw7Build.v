(** Model of src/pywriter/yw/yw7_file.py 179-1093: Yw7File.write up to the finished element tree.
    Element trees are values here: "modify in place" becomes "return the modified sub-element list". *)
From Coq Require Import String List NArith ZArith Bool Lia Arith.
From Verif Require Import PyStr PyDict Globals NovelModel NovelOps YwTree.
Import ListNotations.

(** yw7_file.py 43-76 _CDATA_TAGS.  'Conflict' 'Field_ChapterHeadingPrefix' is one string: there is no comma
    between the two literals (63-64). *)
Definition CDATA_TAGS : list str :=
  [s "Title"; s "AuthorName"; s "Bio"; s "Desc"; s "FieldTitle1"; s "FieldTitle2"; s "FieldTitle3";
   s "FieldTitle4"; s "LaTeXHeaderFile"; s "Tags"; s "AKA"; s "ImageFile"; s "FullName"; s "Goals";
   s "Notes"; s "RTFFile"; s "SceneContent"; s "Outcome"; s "Goal";
   s "ConflictField_ChapterHeadingPrefix"; s "Field_ChapterHeadingSuffix"; s "Field_PartHeadingPrefix";
   s "Field_PartHeadingSuffix"; s "Field_CustomGoal"; s "Field_CustomConflict"; s "Field_CustomOutcome";
   s "Field_CustomChrBio"; s "Field_CustomChrGoals"; s "Field_ArcDefinition"; s "Field_SceneArcs";
   s "Field_CustomAR"].

(** yw7_file.py 80-98; CHP_KWVAR and PNT_KWVAR are inherited from file/file.py 47, 52 *)
Definition PRJ_KWVAR : list str := [s "Field_LanguageCode"; s "Field_CountryCode"].
Definition SCN_KWVAR : list str := [s "Field_SceneArcs"; s "Field_SceneMode"].
Definition CRT_KWVAR : list str := [s "Field_Link"; s "Field_BirthDate"; s "Field_DeathDate"].
Definition LOC_KWVAR : list str := [s "Field_Link"].
Definition ITM_KWVAR : list str := [s "Field_Link"].
Definition CHP_KWVAR : list str := [].
Definition PNT_KWVAR : list str := [].

(** yw7_file.py 1095-1119 _convert_from_yw *)
Definition convert_from_yw (t : str) : str :=
  replace (s """") (s "&quot;")
   (replace (s "'") (s "&apos;")
     (replace (s "<") (s "&lt;")
       (replace (s ">") (s "&gt;")
         (replace (s "&") (s "&amp;") t)))).

(** x.kwVar.get(field, None) *)
Definition get_kw (field : str) (kw : dict (option str)) : option str :=
  match dget field kw with Some v => v | None => None end.

(** One step of the loops over the keyword variables (320-333, 612-626, 672-685, 728-741, 780-793, 874-888).
    [mk] puts a new empty <Fields> element into the parent's sub-elements. *)
Definition put_kw (mk : list elem -> list elem) (kw : dict (option str)) (k : list elem) (field : str)
  : list elem :=
  match get_kw field kw with
  | Some ((_ :: _) as v) =>
      let k := if has (s "Fields") k then k else mk k in
      upd (s "Fields") (on_kids (put field (Some (convert_from_yw v)))) k
  | _ => upd (s "Fields") (on_kids (remove field)) k
  end.
Definition put_kws (mk : list elem -> list elem) (names : list str) (kw : dict (option str)) (k : list elem)
  : list elem := fold_left (put_kw mk kw) names k.
Definition mk_fields : list elem -> list elem := sub (s "Fields") None.

(** yw7_file.py 210-221 set_element *)
Definition set_element (t : str) (x : option str) (ki : list elem * nat) : list elem * nat :=
  let (k, i) := ki in
  if has t k then
    match x with None => (k, i) | Some _ => (set_text t x k, S i) end
  else match x with None => (k, i) | Some _ => (insert_at i (leaf t x) k, S i) end.

(** yw7_file.py 225-240 remove_date_time *)
Definition remove_date_time (k : list elem) : list elem :=
  remove (s "Minute") (remove (s "Hour") (remove (s "Day")
    (remove (s "SpecificDateMode") (remove (s "SpecificDateTime") k)))).

(** yw7_file.py 272-277 scTypeEncoding: (Unused, Field_SceneType); IndexError beyond the tuple *)
Definition scene_type_code (t : N) : res (bool * option str) :=
  if N.eqb t 0 then Ok (false, None)
  else if N.eqb t 1 then Ok (true, Some (s "1"))
  else if N.eqb t 2 then Ok (true, Some (s "2"))
  else if N.eqb t 3 then Ok (true, Some (s "0"))
  else Err IndexError.

(** yw7_file.py 278-279: None counts as 0 *)
Definition type_or_0 (t : option N) : N := match t with Some v => v | None => 0%N end.

(** yw7_file.py 261-303: write the scene type *)
Definition build_scene_type (unused : bool) (y : option str) (k : list elem) : list elem :=
  let k := put_flag (s "Unused") unused k in
  match y with
  | None => upd (s "Fields") (on_kids (remove (s "Field_SceneType"))) k
  | Some _ =>
      if has (s "Fields") k then upd (s "Fields") (on_kids (put (s "Field_SceneType") y)) k
      else k ++ [Elem (s "Fields") None [leaf (s "Field_SceneType") y]]
  end.

(** yw7_file.py 305-317: export when RTF *)
Definition build_scene_export (d : option bool) (k : list elem) : list elem :=
  match d with
  | None => k
  | Some true =>
      let k := if has (s "ExportCondSpecific") k then k else sub (s "ExportCondSpecific") None k in
      remove (s "ExportWhenRTF") k
  | Some false =>
      if has (s "ExportCondSpecific") k && negb (has (s "ExportWhenRTF") k)
      then sub (s "ExportWhenRTF") (Some (s "-1")) k else k
  end.

(** yw7_file.py 389-441: write the scene start *)
Definition build_scene_start (date time day : option str) (k : list elem) : res (list elem) :=
  match date, time with
  | Some d, Some t =>
      let dateTime := d ++ s " " ++ t in
      if str_eqb dateTime (s " ") then Ok (remove_date_time k)
      else if has (s "SpecificDateTime") k then
        let dateTime := if Nat.ltb (countc 58 dateTime) 2 then dateTime ++ s ":00" else dateTime in
        Ok (set_text (s "SpecificDateTime") (Some dateTime) k)
      else
        let k := sub (s "SpecificDateTime") (Some dateTime) k in
        let k := sub (s "SpecificDateMode") (Some (s "-1")) k in
        Ok (remove (s "Minute") (remove (s "Hour") (remove (s "Day") k)))
  | _, _ =>
      match day, time with
      | None, None => Ok k
      | _, _ =>
          if negb (otruthy day) && negb (otruthy time) then Ok (remove_date_time k)
          else
            let k := remove (s "SpecificDateMode") (remove (s "SpecificDateTime") k) in
            let k := match day with None => k | Some _ => put (s "Day") day k end in
            match time with
            | None => Ok k
            | Some t =>
                match split (s ":") t with
                | [hours; minutes; _] =>
                    Ok (put (s "Minute") (Some minutes) (put (s "Hour") (Some hours) k))
                | _ => Err ValueError
                end
            end
      end
  end.

(** yw7_file.py 507-532: a list of references below <Characters>, <Locations>, <Items> *)
Definition build_refs (t idTag : str) (ids : option (list str)) (k : list elem) : list elem :=
  let k := remove t k in
  match ids with
  | Some ((_ :: _) as l) => k ++ [Elem t None (map (fun i => leaf idTag (Some i)) l)]
  | _ => k
  end.

(** yw7_file.py 348-353: the tags of a scene *)
Definition put_tags (tags : option (list str)) (k : list elem) : list elem :=
  match tags with
  | None => k
  | Some l => if has (s "Tags") k then set_text (s "Tags") (Some (list_to_string tags semicolon)) k
              else match l with [] => k | _ => sub (s "Tags") (Some (list_to_string tags semicolon)) k end
  end.

(** yw7_file.py 252-259: if xmlScene.find(tag) is None: ET.SubElement(xmlScene, tag).text = x *)
Definition sub_new (t : str) (x : option str) (k : list elem) : list elem := if has t k then k else sub t x k.

(** yw7_file.py 667-668, 723-724, 763-764: the tags of a world element or a character *)
Definition sub_tags (tags : option (list str)) (k : list elem) : list elem :=
  match tags with None => k | Some _ => sub (s "Tags") (Some (list_to_string tags semicolon)) k end.

(** yw7_file.py 223-532 build_scene_subtree; [k] are the sub-elements of xmlScene *)
Definition build_scene (x : scene) (k : list elem) : res (list elem) :=
  let k := fst (set_element (s "Title") (sc_title x) (k, 1)) in
  let k := put_opt (s "Desc") (sc_desc x) k in
  let k := sub_new (s "SceneContent") (sc_content x) k in
  let k := sub_new (s "WordCount") (Some (str_of_N (N.of_nat (sc_wordCount x)))) k in
  let k := sub_new (s "LetterCount") (Some (str_of_N (N.of_nat (sc_letterCount x)))) k in
  do p <- scene_type_code (type_or_0 (sc_type x));
  let k := build_scene_type (fst p) (snd p) k in
  let k := build_scene_export (sc_doNotExport x) k in
  let k := put_kws mk_fields SCN_KWVAR (sc_kw x) k in
  let k := put_some (s "Status") (option_map str_of_Z (sc_status x)) k in
  let k := put_opt (s "Notes") (sc_notes x) k in
  let k := put_tags (sc_tags x) k in
  let k := put_opt (s "Field1") (sc_field1 x) k in
  let k := put_opt (s "Field2") (sc_field2 x) k in
  let k := put_opt (s "Field3") (sc_field3 x) k in
  let k := put_opt (s "Field4") (sc_field4 x) k in
  let k := put_flag (s "AppendToPrev") (is_true (sc_appendToPrev x)) k in
  do k <- build_scene_start (sc_date x) (sc_time x) (sc_day x) k;
  let k := put_opt (s "LastsDays") (sc_lastsDays x) k in
  let k := put_opt (s "LastsHours") (sc_lastsHours x) k in
  let k := put_opt (s "LastsMinutes") (sc_lastsMinutes x) k in
  let k := put_flag (s "ReactionScene") (is_true (sc_isReactionScene x)) k in
  let k := put_flag (s "SubPlot") (is_true (sc_isSubPlot x)) k in
  let k := put_opt (s "Goal") (sc_goal x) k in
  let k := put_opt (s "Conflict") (sc_conflict x) k in
  let k := put_opt (s "Outcome") (sc_outcome x) k in
  let k := put_opt (s "ImageFile") (sc_image x) k in
  let k := build_refs (s "Characters") (s "CharID") (sc_characters x) k in
  let k := build_refs (s "Locations") (s "LocID") (sc_locations x) k in
  let k := build_refs (s "Items") (s "ItmID") (sc_items x) k in
  Ok k.

(** yw7_file.py 544-549 chTypeEncoding: (Unused, Type, ChapterType) *)
Definition chapter_type_code (t : N) : res (bool * (str * str)) :=
  if N.eqb t 0 then Ok (false, (s "0", s "0"))
  else if N.eqb t 1 then Ok (true, (s "1", s "1"))
  else if N.eqb t 2 then Ok (true, (s "1", s "2"))
  else if N.eqb t 3 then Ok (true, (s "1", s "0"))
  else Err IndexError.

(** yw7_file.py 574-584 and 586-596: a field that is '1', or '0' if it exists already *)
Definition put_chapter_field (i : nat) (field : str) (b : bool) (k : list elem) : list elem :=
  if b then
    let k := if has (s "Fields") k then k else insert_at i (Elem (s "Fields") None []) k in
    upd (s "Fields") (on_kids (put field (Some (s "1")))) k
  else upd (s "Fields") (on_kids (set_text field (Some (s "0")))) k.

(** yw7_file.py 598-609: Field_IsTrash is removed if not set *)
Definition put_trash (i : nat) (b : bool) (k : list elem) : list elem :=
  if b then put_chapter_field i (s "Field_IsTrash") true k
  else upd (s "Fields") (on_kids (remove (s "Field_IsTrash"))) k.

(** i is increased if the element exists: yw7_file.py 565-566, 627-628, 637-638 *)
Definition bump (t : str) (k : list elem) (i : nat) : nat := if has t k then S i else i.

(** yw7_file.py 558-564 *)
Definition insert_flag (i : nat) (t : str) (b : bool) (k : list elem) : list elem :=
  if b then (if has t k then k else insert_at i (leaf t (Some (s "-1"))) k) else remove t k.

(** yw7_file.py 630-636 *)
Definition put_section_start (i : nat) (level : option N) (k : list elem) : list elem :=
  if has (s "SectionStart") k then
    match level with Some 0%N => remove (s "SectionStart") k | _ => k end
  else match level with
       | Some 1%N => insert_at i (leaf (s "SectionStart") (Some (s "-1"))) k | _ => k end.

(** yw7_file.py 534-652 build_chapter_subtree *)
Definition build_chapter (c : chapter) (k : list elem) : res (list elem) :=
  do p <- chapter_type_code (type_or_0 (ch_type c));
  let '(unused, (yType, yChapterType)) := p in
  let (k, i) := set_element (s "Desc") (ch_desc c) (set_element (s "Title") (ch_title c) (k, 1)) in
  let k := insert_flag i (s "Unused") unused k in
  let i := bump (s "Unused") k i in
  let k := remove (s "SortOrder") k in
  let k := put_chapter_field i (s "Field_SuppressChapterTitle") (is_true (ch_suppressTitle c)) k in
  let k := put_chapter_field i (s "Field_SuppressChapterBreak") (is_true (ch_suppressBreak c)) k in
  let k := put_trash i (is_true (ch_isTrash c)) k in
  let k := put_kws (fun k => insert_at i (Elem (s "Fields") None []) k) CHP_KWVAR (ch_kw c) k in
  let i := bump (s "Fields") k i in
  let k := put_section_start i (ch_level c) k in
  let i := bump (s "SectionStart") k i in
  let (k, i) := set_element (s "ChapterType") (Some yChapterType) (set_element (s "Type") (Some yType) (k, i)) in
  Ok (build_refs (s "Scenes") (s "ScID") (Some (ch_srtScenes c)) k).

(** yw7_file.py 654-689 build_location_subtree and 710-745 build_item_subtree (the same statements);
    the new sub-elements have no <SortOrder> to remove *)
Definition build_world (names : list str) (w : world) (k : list elem) : list elem :=
  let k := sub_opt (s "Title") (we_title w) k in
  let k := sub_opt (s "ImageFile") (we_image w) k in
  let k := sub_opt (s "Desc") (we_desc w) k in
  let k := sub_opt (s "AKA") (we_aka w) k in
  let k := sub_tags (we_tags w) k in
  let k := put_kws mk_fields names (we_kw w) k in
  remove (s "SortOrder") k.

(** yw7_file.py 691-696 build_prjNote_subtree *)
Definition build_note (x : note) (k : list elem) : list elem :=
  sub_opt (s "Desc") (pn_desc x) (sub_opt (s "Title") (pn_title x) k).

(** yw7_file.py 747-797 build_character_subtree *)
Definition build_character (c : character) (k : list elem) : list elem :=
  let k := sub_opt (s "Title") (cr_title c) k in
  let k := sub_opt (s "Desc") (cr_desc c) k in
  let k := sub_opt (s "ImageFile") (cr_image c) k in
  let k := sub_opt (s "Notes") (cr_notes c) k in
  let k := sub_opt (s "AKA") (cr_aka c) k in
  let k := sub_tags (cr_tags c) k in
  let k := sub_opt (s "Bio") (cr_bio c) k in
  let k := sub_opt (s "Goals") (cr_goals c) k in
  let k := sub_opt (s "FullName") (cr_fullName c) k in
  let k := sub_opt (s "Major") (if is_true (cr_isMajor c) then Some (s "-1") else None) k in
  let k := put_kws mk_fields CRT_KWVAR (cr_kw c) k in
  remove (s "SortOrder") k.

(** yw7_file.py 799-896 build_project_subtree.  The keyword variables Field_LanguageCode and
    Field_CountryCode have been reset before (870-871), see [prepare_project]. *)
Definition build_project (n : novel) (k : list elem) : list elem :=
  let k := put (s "Ver") (Some (s "7")) k in
  let k := put_some (s "Title") (nv_title n) k in
  let k := put_some (s "Desc") (nv_desc n) k in
  let k := put_some (s "AuthorName") (nv_authorName n) k in
  let k := put_some (s "Bio") (nv_authorBio n) k in
  let k := put_some (s "FieldTitle1") (nv_fieldTitle1 n) k in
  let k := put_some (s "FieldTitle2") (nv_fieldTitle2 n) k in
  let k := put_some (s "FieldTitle3") (nv_fieldTitle3 n) k in
  let k := put_some (s "FieldTitle4") (nv_fieldTitle4 n) k in
  let k := put_some (s "WordCountStart") (option_map str_of_Z (nv_wordCountStart n)) k in
  let k := put_some (s "WordTarget") (option_map str_of_Z (nv_wordTarget n)) k in
  let k := put_kws mk_fields PRJ_KWVAR (nv_kw n) k in
  remove (s "SavedOn") (remove (s "SavedWith") k).

(** yw7_file.py 193-202: the custom instance variables of one scene *)
Definition prepare_scene (x : scene) : scene :=
  let kw := sc_kw x in
  let kw := match sc_scnArcs x with Some a => dset (s "Field_SceneArcs") (Some a) kw | None => kw end in
  let kw := match sc_scnMode x with
            | Some m => dset (s "Field_SceneMode") (if Z.eqb m 0 then None else Some (str_of_Z m)) kw
            | None => kw end in
  set_sc_kw (dset (s "Field_SceneStyle") None kw) x.

(** yw7_file.py 190-202 and 869-871: the changes write() makes to the novel before it builds the tree.
    Not modelled: scene and chapter types None become 0 in the novel, too (278-279, 550-551). *)
Definition prepare (n : novel) : novel :=
  let n := match nv_languages n with None => get_languages n | Some _ => n end in
  let n := set_nv_scenes (map (fun p => (fst p, prepare_scene (snd p))) (nv_scenes n)) n in
  set_nv_kw (dset (s "Field_CountryCode") None (dset (s "Field_LanguageCode") None (nv_kw n))) n.

(** xml element of a world element, a character, a note with its ID (935-937, 948-950, 961-963, 979-981) *)
Definition element_with_id (t id : str) (f : list elem -> list elem) : elem :=
  Elem t None (f [leaf (s "ID") (Some id)]).

(** e.g. yw7_file.py 926-937: all LOCATION elements are removed and rebuilt *)
Definition rebuild {A} (t : str) (f : A -> list elem -> list elem) (ids : list str) (d : dict A)
  (k : list elem) : res (list elem) :=
  do new <- mapM (fun i => do a <- dindex i d; Ok (element_with_id t i (f a))) ids;
  Ok (filter (fun e => negb (str_eqb (e_tag e) t)) k ++ new).

(** Apply f to the sub-elements of the section; [e] is raised if the section is missing *)
Definition in_section (t : str) (e : exn) (f : list elem -> res (list elem)) (r : list elem)
  : res (list elem) :=
  match find t r with
  | None => Err e
  | Some x => do k <- f (e_kids x); Ok (upd t (with_kids k) r)
  end.

(** yw7_file.py 969-981 *)
Definition build_notes (n : novel) (r : list elem) : res (list elem) :=
  let f := rebuild (s "PROJECTNOTE") build_note (nv_srtPrjNotes n) (nv_projectNotes n) in
  match nv_srtPrjNotes n with
  | [] => Ok (remove (s "PROJECTNOTES") r)
  | _ => let r := if has (s "PROJECTNOTES") r then r else sub (s "PROJECTNOTES") None r in
         in_section (s "PROJECTNOTES") AttributeError f r
  end.

(** languages.remove(langCode), the ValueError being caught *)
Fixpoint remove_str (x : str) (l : list str) : list str :=
  match l with [] => [] | y :: l' => if str_eqb y x then l' else y :: remove_str x l' end.

(** yw7_file.py 698-708 add_projectvariable; the state is (IDs in use, PROJECTVAR elements) *)
Definition add_projectvar (title : str) (desc : option str) (st : list str * list elem)
  : list str * list elem :=
  let pvId := new_id (fst st) in
  (fst st ++ [pvId],
   snd st ++ [Elem (s "PROJECTVAR") None
     [leaf (s "ID") (Some pvId); leaf (s "Title") (Some title); leaf (s "Desc") desc; leaf (s "Tags") (Some (s "0"))]]).

(** state of the loop over the existing project variables *)
Record pvscan := mkPvscan { ps_ids : list str; ps_langs : list str; ps_hasLang : bool; ps_hasCountry : bool }.

(** yw7_file.py 994-1013, for one child of PROJECTVARS (findall skips other tags) *)
Definition scan_projectvar (n : novel) (st : pvscan) (e : elem) : res (pvscan * elem) :=
  if negb (str_eqb (e_tag e) (s "PROJECTVAR")) then Ok (st, e) else
  match find (s "ID") (e_kids e), find (s "Title") (e_kids e) with
  | Some i, Some ti =>
      let st := mkPvscan (ps_ids st ++ match e_text i with Some v => [v] | None => [] end)
                         (ps_langs st) (ps_hasLang st) (ps_hasCountry st) in
      match e_text ti with
      | None => Err AttributeError
      | Some title =>
          if prefixb (s "lang=") title then
            match split (s "=") title with
            | [_; code] => Ok (mkPvscan (ps_ids st) (remove_str code (ps_langs st)) (ps_hasLang st) (ps_hasCountry st), e)
            | _ => Ok (st, e)
            end
          else if str_eqb title (s "Language") then
            (if has (s "Desc") (e_kids e) then
               Ok (mkPvscan (ps_ids st) (ps_langs st) true (ps_hasCountry st),
                   on_kids (set_text (s "Desc") (nv_languageCode n)) e)
             else Err AttributeError)
          else if str_eqb title (s "Country") then
            (if has (s "Desc") (e_kids e) then
               Ok (mkPvscan (ps_ids st) (ps_langs st) (ps_hasLang st) true,
                   on_kids (set_text (s "Desc") (nv_countryCode n)) e)
             else Err AttributeError)
          else Ok (st, e)
      end
  | _, _ => Err AttributeError
  end.
Fixpoint scan_projectvars (n : novel) (st : pvscan) (k : list elem) : res (pvscan * list elem) :=
  match k with
  | [] => Ok (st, [])
  | e :: k' => do p <- scan_projectvar n st e; do q <- scan_projectvars n (fst p) k'; Ok (fst q, snd p :: snd q)
  end.

(** yw7_file.py 1027-1033: the two variables for one language *)
Definition add_langvars (st : list str * list elem) (code : str) : list str * list elem :=
  add_projectvar (s "/lang=" ++ code) (Some (s "<HTM </SPAN> /HTM>"))
   (add_projectvar (s "lang=" ++ code) (Some (s "<HTM <SPAN LANG=""" ++ code ++ s """> /HTM>")) st).

(** yw7_file.py 989-1034 *)
Definition build_projectvars (n : novel) (languages : list str) (k : list elem) : res (list elem) :=
  do p <- scan_projectvars n (mkPvscan [] languages false false) k;
  let (ps, k) := p in
  let st := (ps_ids ps, k) in
  let st := if ps_hasLang ps then st else add_projectvar (s "Language") (nv_languageCode n) st in
  let st := if ps_hasCountry ps then st else add_projectvar (s "Country") (nv_countryCode n) st in
  Ok (snd (fold_left add_langvars (ps_langs ps) st)).

Definition has_language (n : novel) : bool :=
  match nv_languages n with Some (_ :: _) => true | _ => false end
  || otruthy (nv_languageCode n) || otruthy (nv_countryCode n).

(** yw7_file.py 1038-1043 and 1055-1060: save the original elements by their ID; an <ID> without text
    (key None) can never be looked up again and is dropped here *)
Definition save_elems (t : str) (k : list elem) : res (dict elem) :=
  foldM (fun d e => match find (s "ID") (e_kids e) with
                    | None => Err AttributeError
                    | Some i => match e_text i with Some v => Ok (dset v e d) | None => Ok d end
                    end) (findall t k) [].

(** yw7_file.py 1046-1051 and 1063-1068, for one ID *)
Definition renew {A} (t : str) (build : A -> list elem -> res (list elem)) (saved : dict elem) (id : str) (a : A)
  : res elem :=
  let e := match dget id saved with Some e => e | None => Elem t None [leaf (s "ID") (Some id)] end in
  do k <- build a (e_kids e); Ok (with_kids k e).

(** yw7_file.py 1036-1051 *)
Definition build_scenes (n : novel) (k : list elem) : res (list elem) :=
  do saved <- save_elems (s "SCENE") k;
  do new <- mapM (fun p => renew (s "SCENE") build_scene saved (fst p) (snd p)) (nv_scenes n);
  Ok (filter (fun e => negb (str_eqb (e_tag e) (s "SCENE"))) k ++ new).

(** yw7_file.py 1053-1068.  An ID listed twice in srtChapters would append one and the same element twice;
    here the second copy is built from the original element. *)
Definition build_chapters (n : novel) (k : list elem) : res (list elem) :=
  do saved <- save_elems (s "CHAPTER") k;
  do new <- mapM (fun i => do c <- dindex i (nv_chapters n); renew (s "CHAPTER") build_chapter saved i c)
                 (nv_srtChapters n);
  Ok (filter (fun e => negb (str_eqb (e_tag e) (s "CHAPTER"))) k ++ new).

(** yw7_file.py 1070-1090, for one child of SCENES *)
Definition finish_scene (n : novel) (e : elem) : res elem :=
  match find (s "ID") (e_kids e) with
  | None => Err AttributeError
  | Some i =>
      match e_text i with
      | None => Err KeyError
      | Some scId =>
          do x <- dindex scId (nv_scenes n);
          do k <- (match sc_content x with
                   | None => Ok (e_kids e)
                   | Some c => if has (s "SceneContent") (e_kids e)
                               then Ok (set_text (s "SceneContent") (Some c) (e_kids e)) else Err AttributeError
                   end);
          Ok (with_kids (remove (s "BelongsToChID") (remove (s "RTFFile")
                (remove (s "LetterCount") (remove (s "WordCount") k)))) e)
      end
  end.

(** yw7_file.py 911-920: a new tree *)
Definition new_root : list elem :=
  map (fun t => leaf t None)
    [s "PROJECT"; s "LOCATIONS"; s "ITEMS"; s "CHARACTERS"; s "PROJECTNOTES"; s "SCENES"; s "CHAPTERS"].

(** yw7_file.py 207-1093 _build_element_tree.  [old] are the sub-elements of the existing root, if any;
    the novel has been prepared.  [loc], [dloc]: the system locales, see NovelOps.check_locale.
    Result: the novel with the checked locale, and the sub-elements of the root. *)
Definition build_tree (loc dloc : option str) (n : novel) (old : option (list elem)) : res (novel * list elem) :=
  let r := match old with Some r => r | None => new_root end in
  do r <- in_section (s "PROJECT") TypeError (fun k => Ok (build_project n k)) r;
  do r <- in_section (s "LOCATIONS") AttributeError
            (rebuild (s "LOCATION") (build_world LOC_KWVAR) (nv_srtLocations n) (nv_locations n)) r;
  do r <- in_section (s "ITEMS") AttributeError
            (rebuild (s "ITEM") (build_world ITM_KWVAR) (nv_srtItems n) (nv_items n)) r;
  do r <- in_section (s "CHARACTERS") AttributeError
            (rebuild (s "CHARACTER") build_character (nv_srtCharacters n) (nv_characters n)) r;
  do r <- build_notes n r;
  do p <- (if has_language n then
             do n <- check_locale loc dloc n;
             let r := if has (s "PROJECTVARS") r then r else sub (s "PROJECTVARS") None r in
             match nv_languages n with
             | None => Err AttributeError
             | Some ls => do r <- in_section (s "PROJECTVARS") TypeError (build_projectvars n ls) r; Ok (n, r)
             end
           else Ok (n, r));
  let (n, r) := p in
  do r <- in_section (s "SCENES") AttributeError (build_scenes n) r;
  do r <- in_section (s "CHAPTERS") AttributeError (build_chapters n) r;
  do r <- in_section (s "SCENES") TypeError (mapM (finish_scene n)) r;
  Ok (n, r).

(** yw7_file.py 188-203: write() up to the finished tree (without lock check and indentation) *)
Definition write_tree (loc dloc : option str) (n : novel) (old : option (list elem)) : res (novel * list elem) :=
  build_tree loc dloc (prepare n) old.
