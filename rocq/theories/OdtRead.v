(** Model of src/pywriter/odt_r: the document parser (odt_parser.py) and the readers (odt_reader.py, odt_r_*.py).

    The parser is driven by the events of content.xml (any sequence of them); what it finds in styles.xml and meta.xml (72-100) is a
    parameter. An exception ends the run (Err). Texts of the user interface go through tr. *)
From Coq Require Import String List NArith ZArith Bool Lia Arith.
From Verif Require Import PyStr PyDict WordCount NovelModel NovelOps Splitter OdfXml.
Import ListNotations.

(** the tuples in the attribute lists passed to the readers: () or (name, value); a value may be None *)
Definition attr := option (str * option str).
(** calls of handle_starttag, handle_endtag, handle_data, handle_comment; the tag may be None (144-146) *)
Inductive call := CStart (tag : str) (a : list attr) | CEnd (tag : option str) | CData (t : str) | CComment (t : str).

(** * odt_parser.py *)

(** 26-40 __init__: the attributes of the parser; span is a stack, its top first. An entry for the style None is left out of the lists: it is never looked up *)
Record ps := mkPs { p_em : list str; p_strong : list str; p_quote : list str; p_lang : dict str; p_head : dict str; p_heading : option str; p_paragraph : bool; p_count : option nat; p_comment : str; p_blockquote : bool; p_list : bool; p_span : list str; p_style : option str }.
Definition set_p_em (v : list str) (x : ps) : ps := mkPs v (p_strong x) (p_quote x) (p_lang x) (p_head x) (p_heading x) (p_paragraph x) (p_count x) (p_comment x) (p_blockquote x) (p_list x) (p_span x) (p_style x).
Definition set_p_strong (v : list str) (x : ps) : ps := mkPs (p_em x) v (p_quote x) (p_lang x) (p_head x) (p_heading x) (p_paragraph x) (p_count x) (p_comment x) (p_blockquote x) (p_list x) (p_span x) (p_style x).
Definition set_p_quote (v : list str) (x : ps) : ps := mkPs (p_em x) (p_strong x) v (p_lang x) (p_head x) (p_heading x) (p_paragraph x) (p_count x) (p_comment x) (p_blockquote x) (p_list x) (p_span x) (p_style x).
Definition set_p_lang (v : dict str) (x : ps) : ps := mkPs (p_em x) (p_strong x) (p_quote x) v (p_head x) (p_heading x) (p_paragraph x) (p_count x) (p_comment x) (p_blockquote x) (p_list x) (p_span x) (p_style x).
Definition set_p_head (v : dict str) (x : ps) : ps := mkPs (p_em x) (p_strong x) (p_quote x) (p_lang x) v (p_heading x) (p_paragraph x) (p_count x) (p_comment x) (p_blockquote x) (p_list x) (p_span x) (p_style x).
Definition set_p_heading (v : option str) (x : ps) : ps := mkPs (p_em x) (p_strong x) (p_quote x) (p_lang x) (p_head x) v (p_paragraph x) (p_count x) (p_comment x) (p_blockquote x) (p_list x) (p_span x) (p_style x).
Definition set_p_paragraph (v : bool) (x : ps) : ps := mkPs (p_em x) (p_strong x) (p_quote x) (p_lang x) (p_head x) (p_heading x) v (p_count x) (p_comment x) (p_blockquote x) (p_list x) (p_span x) (p_style x).
Definition set_p_count (v : option nat) (x : ps) : ps := mkPs (p_em x) (p_strong x) (p_quote x) (p_lang x) (p_head x) (p_heading x) (p_paragraph x) v (p_comment x) (p_blockquote x) (p_list x) (p_span x) (p_style x).
Definition set_p_comment (v : str) (x : ps) : ps := mkPs (p_em x) (p_strong x) (p_quote x) (p_lang x) (p_head x) (p_heading x) (p_paragraph x) (p_count x) v (p_blockquote x) (p_list x) (p_span x) (p_style x).
Definition set_p_blockquote (v : bool) (x : ps) : ps := mkPs (p_em x) (p_strong x) (p_quote x) (p_lang x) (p_head x) (p_heading x) (p_paragraph x) (p_count x) (p_comment x) v (p_list x) (p_span x) (p_style x).
Definition set_p_list (v : bool) (x : ps) : ps := mkPs (p_em x) (p_strong x) (p_quote x) (p_lang x) (p_head x) (p_heading x) (p_paragraph x) (p_count x) (p_comment x) (p_blockquote x) v (p_span x) (p_style x).
Definition set_p_span (v : list str) (x : ps) : ps := mkPs (p_em x) (p_strong x) (p_quote x) (p_lang x) (p_head x) (p_heading x) (p_paragraph x) (p_count x) (p_comment x) (p_blockquote x) (p_list x) v (p_style x).
Definition set_p_style (v : option str) (x : ps) : ps := mkPs (p_em x) (p_strong x) (p_quote x) (p_lang x) (p_head x) (p_heading x) (p_paragraph x) (p_count x) (p_comment x) (p_blockquote x) (p_list x) (p_span x) v.

Definition new_ps : ps := mkPs [s "Emphasis"] [s "Strong_20_Emphasis"] [s "Quotations"] [] [] None false None [] false false [] None.
(** 105-116 characters *)
Definition characters (content : str) (p : ps) : ps * list call :=
  match p_count p with
  | Some 1 => (set_p_comment (p_comment p ++ content) p, [])
  | Some _ => (p, [])
  | None => if p_paragraph p then (p, [CData content]) else match p_heading p with Some _ => (p, [CData content]) | None => (p, []) end
  end.
(** 118-150 endElement *)
Definition end_element (name : str) (p : ps) : ps * list call :=
  if str_eqb name (s "text:p") then
    match p_count p with
    | Some _ => (p, [])
    | None =>
        let spans := map (fun t => CEnd (Some t)) (p_span p) in
        let p := set_p_span [] p in
        if p_blockquote p then (set_p_paragraph false (set_p_blockquote false p), spans ++ [CEnd (Some (s "blockquote"))])
        else if otruthy (p_heading p) then (set_p_paragraph false (set_p_heading None p), spans ++ [CEnd (p_heading p)])
        else (set_p_paragraph false p, spans ++ [CEnd (Some (s "p"))])
    end
  else if str_eqb name (s "text:span") then
    match p_span p with t :: r => (set_p_span r p, [CEnd (Some t)]) | [] => (p, []) end
  else if str_eqb name (s "text:section") then (p, [CEnd (Some (s "div"))])
  else if str_eqb name (s "office:annotation") then (set_p_count None p, [CComment (p_comment p)])
  else if str_eqb name (s "text:h") then (set_p_heading None p, [CEnd (p_heading p)])
  else if str_eqb name (s "text:list-item") then (set_p_list false p, [])
  else if str_eqb name (s "style:style") then (set_p_style None p, [])
  else (p, []).
(** x[-1:] for a text that is not empty *)
Definition last_char (t : str) : str := match rev t with c :: _ => [c] | [] => [] end.
(** appending self._style to a list, entering it in a dictionary *)
Definition add_style (style : option str) (l : list str) : list str := match style with Some x => l ++ [x] | None => l end.
Definition enter_style {A} (style : option str) (v : A) (d : dict A) : dict A := match style with Some x => dset x v d | None => d end.
(** 184-189, 191-196 *)
Definition emphasis (style : str) (p : ps) : ps * list call :=
  let '(p, c1) := if smem style (p_em p) then (set_p_span (s "em" :: p_span p) p, [CStart (s "em") [None]]) else (p, []) in
  let '(p, c2) := if smem style (p_strong p) then (set_p_span (s "strong" :: p_span p) p, [CStart (s "strong") [None]]) else (p, []) in
  (p, c1 ++ c2).
(** 152-235 startElement; attribute values are never None here *)
Definition start_element (name : str) (a : attrs) (p : ps) : res (ps * list call) :=
  let style := match dget (s "text:style-name") a with Some x => x | None => [] end in
  if str_eqb name (s "text:p") then
    let param := match dget style (p_lang p) with Some l => [Some (s "lang", Some l)] | None => [None] end in
    let '(p, c1) :=
      match p_count p with
      | Some k => (set_p_count (Some (S k)) p, [])
      | None =>
          if smem style (p_quote p) then (set_p_blockquote true (set_p_paragraph true p), [CStart (s "blockquote") param])
          else if prefixb (s "Heading") style then let h := s "h" ++ last_char style in (set_p_heading (Some h) p, [CStart h [None]])
          else match dget style (p_head p) with
               | Some h => (set_p_heading (Some h) p, [CStart h [None]])
               | None => if p_list p then (set_p_paragraph true p, [CStart (s "li") [None]])
                         else (set_p_paragraph true p, [CStart (s "p") param])
               end
      end in
    let '(p, c2) := emphasis style p in
    Ok (p, c1 ++ c2)
  else if str_eqb name (s "text:span") then
    let '(p, c1) := emphasis style p in
    match dget style (p_lang p) with
    | Some l => Ok (set_p_span (s "lang" :: p_span p) p, c1 ++ [CStart (s "lang") [Some (s "lang", Some l)]])
    | None => Ok (p, c1)
    end
  else if str_eqb name (s "text:section") then
    do sectionId <- dindex (s "text:name") a;
    Ok (p, [CStart (s "div") [Some (s "id", Some sectionId)]])
  else if str_eqb name (s "office:annotation") then Ok (set_p_comment [] (set_p_count (Some 0) p), [])
  else if str_eqb name (s "text:h") then
    do h <- match dget (s "text:outline-level") a with
            | Some l => Ok (s "h" ++ l)
            | None => match style with [] => Err IndexError | _ => Ok (s "h" ++ last_char style) end
            end;
    Ok (set_p_heading (Some h) p, [CStart h [None]])
  else if str_eqb name (s "text:list-item") then Ok (set_p_list true p, [])
  else if str_eqb name (s "style:style") then
    let p := set_p_style (dget (s "style:name") a) p in
    let styleName := match dget (s "style:parent-style-name") a with Some x => x | None => [] end in
    if prefixb (s "Heading") styleName then Ok (set_p_head (enter_style (p_style p) (s "h" ++ last_char styleName) (p_head p)) p, [])
    else if str_eqb styleName (s "Quotations") then Ok (set_p_quote (add_style (p_style p) (p_quote p)) p, [])
    else Ok (p, [])
  else if str_eqb name (s "style:text-properties") then
    let p := match dget (s "fo:font-style") a with Some x => if str_eqb x (s "italic") then set_p_em (add_style (p_style p) (p_em p)) p else p | None => p end in
    let p := match dget (s "fo:font-weight") a with Some x => if str_eqb x (s "bold") then set_p_strong (add_style (p_style p) (p_strong p)) p else p | None => p end in
    if otruthy (dget (s "fo:language") a) then
      do lngCode <- dindex (s "fo:language") a;
      do ctrCode <- dindex (s "fo:country") a;
      let locale := if str_eqb ctrCode (s "none") then lngCode else lngCode ++ s "-" ++ ctrCode in
      Ok (set_p_lang (enter_style (p_style p) locale (p_lang p)) p, [])
    else Ok (p, [])
  else if str_eqb name (s "text:s") then Ok (p, [CStart (s "s") [None]])
  else Ok (p, []).
Definition parser_event (e : event) (p : ps) : res (ps * list call) :=
  match e with
  | Start name a => start_element name a p
  | End name => Ok (end_element name p)
  | Data t => Ok (characters t p)
  end.
(** 72-100: the calls before content.xml is parsed. styles: language and country of the default paragraph style, if there is one *)
Definition opening_calls (styles : option (option str * option str)) (title author desc : option str) : list call :=
  match styles with Some (l, c) => [CStart (s "body") [Some (s "language", l); Some (s "country", c)]] | None => [] end ++
  match title with Some (x :: t) => [CStart (s "title") [None]; CData (x :: t); CEnd (Some (s "title"))] | _ => [] end ++
  match author with Some (x :: t) => [CStart (s "meta") [Some ([], Some (s "author")); Some ([], Some (x :: t))]] | _ => [] end ++
  match desc with Some (x :: t) => [CStart (s "meta") [Some ([], Some (s "description")); Some ([], Some (x :: t))]] | _ => [] end.

(** * Readers *)

(** odt_reader.py 40-59 __init__, odt_r_import.py 39-52, odt_r_outline.py 34-46, odt_r_characters.py 36-38, odt_r_items.py 36-37, odt_r_locations.py 36-37: the attributes used for parsing; self._newline is never used *)
Record rs := mkRs { r_novel : novel; r_lines : list str; r_scId : option str; r_chId : option str; r_language : str; r_skip : bool; r_heading : bool; r_chCount : N; r_scCount : N; r_crId : option str; r_section : option str; r_itId : option str; r_lcId : option str }.
Definition set_r_novel (v : novel) (x : rs) : rs := mkRs v (r_lines x) (r_scId x) (r_chId x) (r_language x) (r_skip x) (r_heading x) (r_chCount x) (r_scCount x) (r_crId x) (r_section x) (r_itId x) (r_lcId x).
Definition set_r_lines (v : list str) (x : rs) : rs := mkRs (r_novel x) v (r_scId x) (r_chId x) (r_language x) (r_skip x) (r_heading x) (r_chCount x) (r_scCount x) (r_crId x) (r_section x) (r_itId x) (r_lcId x).
Definition set_r_scId (v : option str) (x : rs) : rs := mkRs (r_novel x) (r_lines x) v (r_chId x) (r_language x) (r_skip x) (r_heading x) (r_chCount x) (r_scCount x) (r_crId x) (r_section x) (r_itId x) (r_lcId x).
Definition set_r_chId (v : option str) (x : rs) : rs := mkRs (r_novel x) (r_lines x) (r_scId x) v (r_language x) (r_skip x) (r_heading x) (r_chCount x) (r_scCount x) (r_crId x) (r_section x) (r_itId x) (r_lcId x).
Definition set_r_language (v : str) (x : rs) : rs := mkRs (r_novel x) (r_lines x) (r_scId x) (r_chId x) v (r_skip x) (r_heading x) (r_chCount x) (r_scCount x) (r_crId x) (r_section x) (r_itId x) (r_lcId x).
Definition set_r_skip (v : bool) (x : rs) : rs := mkRs (r_novel x) (r_lines x) (r_scId x) (r_chId x) (r_language x) v (r_heading x) (r_chCount x) (r_scCount x) (r_crId x) (r_section x) (r_itId x) (r_lcId x).
Definition set_r_heading (v : bool) (x : rs) : rs := mkRs (r_novel x) (r_lines x) (r_scId x) (r_chId x) (r_language x) (r_skip x) v (r_chCount x) (r_scCount x) (r_crId x) (r_section x) (r_itId x) (r_lcId x).
Definition set_r_chCount (v : N) (x : rs) : rs := mkRs (r_novel x) (r_lines x) (r_scId x) (r_chId x) (r_language x) (r_skip x) (r_heading x) v (r_scCount x) (r_crId x) (r_section x) (r_itId x) (r_lcId x).
Definition set_r_scCount (v : N) (x : rs) : rs := mkRs (r_novel x) (r_lines x) (r_scId x) (r_chId x) (r_language x) (r_skip x) (r_heading x) (r_chCount x) v (r_crId x) (r_section x) (r_itId x) (r_lcId x).
Definition set_r_crId (v : option str) (x : rs) : rs := mkRs (r_novel x) (r_lines x) (r_scId x) (r_chId x) (r_language x) (r_skip x) (r_heading x) (r_chCount x) (r_scCount x) v (r_section x) (r_itId x) (r_lcId x).
Definition set_r_section (v : option str) (x : rs) : rs := mkRs (r_novel x) (r_lines x) (r_scId x) (r_chId x) (r_language x) (r_skip x) (r_heading x) (r_chCount x) (r_scCount x) (r_crId x) v (r_itId x) (r_lcId x).
Definition set_r_itId (v : option str) (x : rs) : rs := mkRs (r_novel x) (r_lines x) (r_scId x) (r_chId x) (r_language x) (r_skip x) (r_heading x) (r_chCount x) (r_scCount x) (r_crId x) (r_section x) v (r_lcId x).
Definition set_r_lcId (v : option str) (x : rs) : rs := mkRs (r_novel x) (r_lines x) (r_scId x) (r_chId x) (r_language x) (r_skip x) (r_heading x) (r_chCount x) (r_scCount x) (r_crId x) (r_section x) (r_itId x) v.

Definition new_rs (n : novel) : rs := mkRs n [] None None [] false false 0 0 None None None None.
Record reader := mkReader { h_start : str -> list attr -> rs -> res rs; h_end : option str -> rs -> res rs; h_data : str -> rs -> res rs; h_comment : str -> rs -> res rs }.
Definition handle (h : reader) (st : rs) (c : call) : res rs :=
  match c with CStart tag a => h_start h tag a st | CEnd tag => h_end h tag st | CData t => h_data h t st | CComment t => h_comment h t st end.
(** the parser with its client *)
Definition feed_event (h : reader) (st : ps * rs) (e : event) : res (ps * rs) :=
  do '(p, calls) <- parser_event e (fst st);
  do r <- foldM (handle h) calls (snd st);
  Ok (p, r).
Definition feed (h : reader) (opening : list call) (es : list event) (n : novel) : res novel :=
  do r <- foldM (handle h) opening (new_rs n);
  do st <- foldM (feed_event h) es (new_ps, r);
  Ok (r_novel (snd st)).

(** helpers for self._lines, self.novel.scenes[...] and self.novel.chapters[...]; the key None is in no dictionary *)
Definition put_line (t : str) (st : rs) : rs := set_r_lines (r_lines st ++ [t]) st.
Definition key (k : option str) : res str := match k with Some x => Ok x | None => Err KeyError end.
Definition on_scene (id : option str) (f : scene -> scene) (st : rs) : res rs :=
  do id <- key id;
  do x <- dindex id (nv_scenes (r_novel st));
  Ok (set_r_novel (set_nv_scenes (dset id (f x) (nv_scenes (r_novel st))) (r_novel st)) st).
Definition on_chapter (id : option str) (f : chapter -> chapter) (st : rs) : res rs :=
  do id <- key id;
  do x <- dindex id (nv_chapters (r_novel st));
  Ok (set_r_novel (set_nv_chapters (dset id (f x) (nv_chapters (r_novel st))) (r_novel st)) st).
Definition add_scene (id : str) (st : rs) : rs := set_r_novel (set_nv_scenes (dset id new_scene (nv_scenes (r_novel st))) (r_novel st)) st.
(** chapters[id] = Chapter(); chapters[id].srtScenes = []; srtChapters.append(id) *)
Definition add_chapter (id : str) (st : rs) : rs :=
  set_r_novel (set_nv_srtChapters (nv_srtChapters (r_novel st) ++ [id]) (set_nv_chapters (dset id new_chapter (nv_chapters (r_novel st))) (r_novel st))) st.
Definition list_scene (id : str) (c : chapter) : chapter := set_ch_srtScenes (ch_srtScenes c ++ [id]) c.
(** re.search(r'[0-9]+', t).group() *)
Fixpoint digits (t : str) : str := match t with c :: t' => if is_digit c then c :: digits t' else [] | [] => [] end.
Fixpoint first_number (t : str) : option str := match t with [] => None | c :: t' => if is_digit c then Some (digits t) else first_number t' end.
Definition number_in (t : str) : res str := match first_number t with Some x => Ok x | None => Err AttributeError end.
Definition COMMENT_START := s "/*". Definition COMMENT_END := s "*/". Definition SC_TITLE_BRACKET := s "~".
Definition BULLET := s "-". Definition INDENT := s ">".
(** attrs[0][0], attrs[0][1] *)
Definition first_attr (a : list attr) : res (str * option str) := match a with Some x :: _ => Ok x | _ => Err IndexError end.
(** odt_r_manuscript.py 117-124: with the exceptions ignored; the value of a language attribute is a text *)
Definition open_language (a : list attr) (st : rs) : rs :=
  match a with
  | Some (k, Some l) :: _ =>
      if str_eqb k (s "lang") then
        match nv_languages (r_novel st) with
        | Some ls => put_line (s "[lang=" ++ l ++ s "]") (set_r_novel (set_nv_languages (Some (add_language ls l)) (r_novel st)) (set_r_language l st))
        | None => set_r_language l st
        end
      else st
  | _ => st
  end.
(** odt_r_manuscript.py 76-78 *)
Definition close_language (st : rs) : rs :=
  if truthy (r_language st) then set_r_language [] (put_line (s "[/lang=" ++ r_language st ++ s "]") st) else st.
(** odt_r_manuscript.py 146-152 *)
Definition body_attr (st : rs) (x : attr) : res rs :=
  match x with
  | None => Err IndexError
  | Some (k, v) =>
      Ok (if otruthy v then
            if str_eqb k (s "language") then set_r_novel (set_nv_languageCode v (r_novel st)) st
            else if str_eqb k (s "country") then set_r_novel (set_nv_countryCode v (r_novel st)) st else st
          else st)
  end.
Definition body_tag (a : list attr) (st : rs) : res rs := foldM body_attr a st.
(** odt_r_import.py 179-183 *)
Definition second_value (a : list attr) : res (option str) := match a with _ :: Some (_, v) :: _ => Ok v | _ => Err IndexError end.
Definition meta_tag (a : list attr) (st : rs) : res rs :=
  do '(_, v) <- first_attr a;
  let is x := match v with Some y => str_eqb y x | None => false end in
  do st <- (if is (s "author") then do w <- second_value a; Ok (set_r_novel (set_nv_authorName w (r_novel st)) st) else Ok st);
  if is (s "description") then do w <- second_value a; Ok (set_r_novel (set_nv_desc w (r_novel st)) st) else Ok st.
Definition tag_in (tag : option str) (l : list str) : bool := match tag with Some t => smem t l | None => false end.
Definition tag_is (tag : option str) (x : str) : bool := match tag with Some t => str_eqb t x | None => false end.

(** odt_reader.py 61-70 *)
Definition base_comment (data : str) (st : rs) : res rs :=
  Ok (match r_scId st with Some _ => put_line (COMMENT_START ++ data ++ COMMENT_END) st | None => st end).
(** odt_reader.py 88-115 *)
Definition base_start (TYPE : N) (tag : str) (a : list attr) (st : rs) : res rs :=
  if str_eqb tag (s "div") then
    do '(k, v) <- first_attr a;
    if str_eqb k (s "id") then
      match v with
      | None => Err AttributeError
      | Some v =>
          if prefixb (s "ScID") v then
            do id <- number_in v;
            let st := set_r_scId (Some id) st in
            do st <- (if dmem id (nv_scenes (r_novel st)) then Ok st else on_chapter (r_chId st) (list_scene id) (add_scene id st));
            on_scene (Some id) (set_sc_type (Some TYPE)) st
          else if prefixb (s "ChID") v then
            do id <- number_in v;
            let st := set_r_chId (Some id) st in
            let st := if dmem id (nv_chapters (r_novel st)) then st else add_chapter id st in
            on_chapter (Some id) (set_ch_type (Some TYPE)) st
          else Ok st
      end
    else Ok st
  else if str_eqb tag (s "s") then Ok (put_line (s " ") st)
  else Ok st.

(** odt_r_formatted.py 37-57 _cleanup_scene *)
Definition cleanup_tag (text tag : str) : str :=
  let o := s "[" ++ tag ++ s "]" in let c := s "[/" ++ tag ++ s "]" in
  replace (c ++ [10%N] ++ s "> " ++ o) ([10%N] ++ s "> ") (replace (c ++ [10%N] ++ o) [10%N] (replace (c ++ o) [] text)).
Definition cleanup_scene (languages : list str) (text : str) : str :=
  fold_left cleanup_tag ([s "i"; s "b"] ++ map (fun l => s "lang=" ++ l) languages) text.
(** for language in self.novel.languages: None cannot be iterated over *)
Definition languages (st : rs) : res (list str) := match nv_languages (r_novel st) with Some l => Ok l | None => Err TypeError end.

(** ** odt_r_manuscript.py; odt_r_notes.py and odt_r_todo.py with the types 1 and 2 *)
(** data.split('~')[1] where '~' is in data *)
Definition bracketed (data : str) : option str := if containsb SC_TITLE_BRACKET data then match split SC_TITLE_BRACKET data with _ :: x :: _ => Some x | _ => None end else None.
(** 26-47; in the try block: a scene that does not exist is ignored *)
Definition ms_comment (data : str) (st : rs) : res rs :=
  match r_scId st with
  | None => Ok st
  | Some id =>
      match bracketed data with
      | Some t => Ok (match on_scene (Some id) (set_sc_title (Some (strip t))) st with Ok st => st | Err _ => st end)
      | None => Ok (put_line (COMMENT_START ++ strip data ++ COMMENT_END) st)
      end
  end.
(** str.isspace() *)
Definition isspace (t : str) : bool := match t with [] => false | _ => forallb is_space t end.
(** 49-64 *)
Definition ms_data (data : str) (st : rs) : res rs :=
  if r_skip st then Ok (set_r_skip false st)
  else match r_scId st with
       | Some _ => Ok (if isspace data then st else put_line data st)
       | None =>
           match r_chId st with
           | Some _ => on_chapter (r_chId st) (fun c => match ch_title c with None => set_ch_title (Some (strip data)) c | Some _ => c end) st
           | None => Ok st
           end
       end.
(** 66-99 *)
Definition ms_end (tag : option str) (st : rs) : res rs :=
  match r_scId st with
  | Some id =>
      if tag_in tag [s "p"; s "blockquote"] then Ok (put_line [10%N] (close_language st))
      else if tag_is tag (s "em") then Ok (put_line (s "[/i]") st)
      else if tag_is tag (s "strong") then Ok (put_line (s "[/b]") st)
      else if tag_is tag (s "lang") then Ok (close_language st)
      else if tag_is tag (s "div") then
        do ls <- languages st;
        do st <- on_scene (Some id) (set_sceneContent (rstrip (cleanup_scene ls (concat (r_lines st))))) st;
        Ok (set_r_scId None (set_r_lines [] st))
      else if tag_in tag [s "h1"; s "h2"] then Ok (put_line [10%N] st)
      else Ok st
  | None => Ok (match r_chId st with Some _ => if tag_is tag (s "div") then set_r_chId None st else st | None => st end)
  end.
(** 101-154 *)
Definition ms_start (TYPE : N) (tag : str) (a : list attr) (st : rs) : res rs :=
  do st <- base_start TYPE tag a st;
  match r_scId st with
  | Some _ =>
      Ok (if str_eqb tag (s "em") then put_line (s "[i]") st
          else if str_eqb tag (s "strong") then put_line (s "[b]") st
          else if smem tag [s "lang"; s "p"] then open_language a st
          else if str_eqb tag (s "h3") then set_r_skip true st
          else if str_eqb tag (s "h2") then put_line (CHAPTER_SEPARATOR ++ s " ") st
          else if str_eqb tag (s "h1") then put_line (PART_SEPARATOR ++ s " ") st
          else if str_eqb tag (s "li") then put_line (BULLET ++ s " ") st
          else if str_eqb tag (s "blockquote") then open_language a (put_line (INDENT ++ s " ") st)
          else st)
  | None =>
      if str_eqb tag (s "body") then body_tag a st
      else if str_eqb tag (s "s") then Ok (put_line (s " ") st)
      else Ok st
  end.
Definition manuscript_reader (TYPE : N) : reader := mkReader (ms_start TYPE) ms_end ms_data ms_comment.

(** ** odt_r_proof.py *)
Section Proofing.
Variable tr : str -> str.
(** 26-49; any exception becomes an Error *)
Definition pf_data (data : str) (st : rs) : res rs :=
  let r :=
    if r_skip st then Ok (set_r_skip false st)
    else if containsb (s "[ScID") data then do id <- number_in data; Ok (set_r_lines [] (set_r_scId (Some id) st))
    else if containsb (s "[/ScID") data then
      do st <- match r_scId st with
               | Some id => if dmem id (nv_scenes (r_novel st)) then
                              do ls <- languages st;
                              do st <- on_scene (Some id) (set_sceneContent (strip (cleanup_scene ls (concat (r_lines st))))) st;
                              Ok (set_r_lines [] st)
                            else Ok st
               | None => Ok st
               end;
      Ok (set_r_scId None st)
    else Ok (match r_scId st with Some _ => put_line data st | None => st end) in
  match r with Ok st => Ok st | Err _ => Err (UserError (tr (s "Corrupt marker") ++ s ": """ ++ data ++ s """")) end.
End Proofing.
(** 51-71 *)
Definition pf_end (tag : option str) (st : rs) : res rs :=
  Ok (if tag_in tag [s "p"; s "h2"; s "h1"; s "blockquote"] then close_language (put_line [10%N] st)
      else if tag_is tag (s "em") then put_line (s "[/i]") st
      else if tag_is tag (s "strong") then put_line (s "[/b]") st
      else if tag_is tag (s "lang") then close_language st
      else st).
(** 73-123 *)
Definition pf_start (tag : str) (a : list attr) (st : rs) : res rs :=
  if str_eqb tag (s "em") then Ok (put_line (s "[i]") st)
  else if str_eqb tag (s "strong") then Ok (put_line (s "[b]") st)
  else if smem tag [s "lang"; s "p"] then Ok (open_language a st)
  else if str_eqb tag (s "h2") then Ok (put_line (CHAPTER_SEPARATOR ++ s " ") st)
  else if str_eqb tag (s "h1") then Ok (put_line (PART_SEPARATOR ++ s " ") st)
  else if str_eqb tag (s "li") then Ok (put_line (BULLET ++ s " ") st)
  else if str_eqb tag (s "blockquote") then Ok (open_language a (put_line (INDENT ++ s " ") st))
  else if str_eqb tag (s "body") then body_tag a st
  else if smem tag [s "br"; s "ul"] then Ok (set_r_skip true st)
  else if str_eqb tag (s "s") then Ok (put_line (s " ") st)
  else Ok st.
Definition proof_reader (tr : str -> str) : reader := mkReader pf_start pf_end (pf_data tr) base_comment.

(** ** odt_r_scenedesc.py *)
(** 23-35 *)
Definition sd_data (data : str) (st : rs) : res rs :=
  match r_scId st with
  | Some _ => Ok (put_line data st)
  | None =>
      match r_chId st with
      | Some _ => on_chapter (r_chId st) (fun c => if otruthy (ch_title c) then c else set_ch_title (Some (strip data)) c) st
      | None => Ok st
      end
  end.
(** text.split(sep='*/', maxsplit=1) in two parts *)
Fixpoint cut (sep t : str) : option (str * str) :=
  if prefixb sep t then Some ([], skipn (length sep) t)
  else match t with [] => None | c :: t' => match cut sep t' with Some (a, b) => Some (c :: a, b) | None => None end end.
(** 37-65 *)
Definition sd_end (tag : option str) (st : rs) : res rs :=
  match r_scId st with
  | Some id =>
      if tag_is tag (s "div") then
        let text := concat (r_lines st) in
        let '(title, text) :=
          if prefixb COMMENT_START text then
            match cut COMMENT_END text with Some (scTitle, scContent) => (bracketed scTitle, scContent) | None => (None, text) end
          else (None, text) in
        do st <- on_scene (Some id) (fun x => set_sc_desc (Some (rstrip text)) (match title with Some t => set_sc_title (Some (strip t)) x | None => x end)) st;
        Ok (set_r_scId None (set_r_lines [] st))
      else if tag_is tag (s "p") then Ok (put_line [10%N] st)
      else Ok st
  | None => Ok (match r_chId st with Some _ => if tag_is tag (s "div") then set_r_chId None st else st | None => st end)
  end.
Definition scenedesc_reader : reader := mkReader (base_start 0) sd_end sd_data base_comment.

(** ** odt_r_chapterdesc.py, odt_r_partdesc.py *)
(** 43-52 *)
Definition cd_data (data : str) (st : rs) : res rs := Ok (match r_chId st with Some _ => put_line (strip data) st | None => st end).
(** 23-41 *)
Definition cd_end (tag : option str) (st : rs) : res rs :=
  match r_chId st with
  | Some id =>
      if tag_is tag (s "div") then
        do st <- on_chapter (Some id) (set_ch_desc (Some (rstrip (concat (r_lines st))))) st;
        Ok (set_r_chId None (set_r_lines [] st))
      else if tag_is tag (s "p") then Ok (put_line [10%N] st)
      else if tag_in tag [s "h1"; s "h2"] then
        do st <- on_chapter (Some id) (fun c => if otruthy (ch_title c) then c else set_ch_title (Some (concat (r_lines st))) c) st;
        Ok (set_r_lines [] st)
      else Ok st
  | None => Ok st
  end.
Definition chapterdesc_reader : reader := mkReader (base_start 0) cd_end cd_data base_comment.

(** ** odt_r_characters.py *)
Definition on_character (id : str) (f : character -> character) (st : rs) : res rs :=
  do x <- dindex id (nv_characters (r_novel st));
  Ok (set_r_novel (set_nv_characters (dset id (f x) (nv_characters (r_novel st))) (r_novel st)) st).
(** 40-49 *)
Definition cr_data (data : str) (st : rs) : res rs := Ok (match r_section st with Some _ => put_line (strip data) st | None => st end).
(** 51-78 *)
Definition cr_end (tag : option str) (st : rs) : res rs :=
  match r_crId st with
  | Some id =>
      if tag_is tag (s "div") then
        let text := rstrip (concat (r_lines st)) in
        let store f := do st <- on_character id f st; Ok (set_r_section None (set_r_lines [] st)) in
        if tag_is (r_section st) (s "desc") then store (set_cr_desc (Some text))
        else if tag_is (r_section st) (s "bio") then store (set_cr_bio (Some text))
        else if tag_is (r_section st) (s "goals") then store (set_cr_goals (Some text))
        else if tag_is (r_section st) (s "notes") then store (set_cr_notes (Some text))
        else Ok st
      else if tag_is tag (s "p") then Ok (put_line [10%N] st)
      else Ok st
  | None => Ok st
  end.
(** 80-104 *)
Definition cr_start (tag : str) (a : list attr) (st : rs) : res rs :=
  if str_eqb tag (s "div") then
    do '(k, v) <- first_attr a;
    if str_eqb k (s "id") then
      match v with
      | None => Err AttributeError
      | Some v =>
          if prefixb (s "CrID_desc") v then
            do id <- number_in v;
            let st := set_r_crId (Some id) st in
            let n := r_novel st in
            let st := if dmem id (nv_characters n) then st
                      else set_r_novel (set_nv_characters (dset id new_character (nv_characters n)) (set_nv_srtCharacters (nv_srtCharacters n ++ [id]) n)) st in
            Ok (set_r_section (Some (s "desc")) st)
          else if prefixb (s "CrID_bio") v then Ok (set_r_section (Some (s "bio")) st)
          else if prefixb (s "CrID_goals") v then Ok (set_r_section (Some (s "goals")) st)
          else if prefixb (s "CrID_notes") v then Ok (set_r_section (Some (s "notes")) st)
          else Ok st
      end
    else Ok st
  else if str_eqb tag (s "s") then Ok (put_line (s " ") st)
  else Ok st.
Definition characters_reader : reader := mkReader cr_start cr_end cr_data base_comment.

(** ** odt_r_items.py, odt_r_locations.py *)
(** odt_r_items.py 39-48 *)
Definition it_data (data : str) (st : rs) : res rs := Ok (match r_itId st with Some _ => put_line (strip data) st | None => st end).
(** odt_r_items.py 50-64 *)
Definition it_end (tag : option str) (st : rs) : res rs :=
  match r_itId st with
  | Some id =>
      if tag_is tag (s "div") then
        do x <- dindex id (nv_items (r_novel st));
        let n := r_novel st in
        Ok (set_r_itId None (set_r_lines [] (set_r_novel (set_nv_items (dset id (set_we_desc (Some (rstrip (concat (r_lines st)))) x) (nv_items n)) n) st)))
      else if tag_is tag (s "p") then Ok (put_line [10%N] st)
      else Ok st
  | None => Ok st
  end.
(** odt_r_items.py 66-83 *)
Definition it_start (tag : str) (a : list attr) (st : rs) : res rs :=
  if str_eqb tag (s "div") then
    do '(k, v) <- first_attr a;
    if str_eqb k (s "id") then
      match v with
      | None => Err AttributeError
      | Some v =>
          if prefixb (s "ItID") v then
            do id <- number_in v;
            let st := set_r_itId (Some id) st in
            let n := r_novel st in
            Ok (if dmem id (nv_items n) then st else set_r_novel (set_nv_items (dset id new_world (nv_items n)) (set_nv_srtItems (nv_srtItems n ++ [id]) n)) st)
          else Ok st
      end
    else Ok st
  else if str_eqb tag (s "s") then Ok (put_line (s " ") st)
  else Ok st.
Definition items_reader : reader := mkReader it_start it_end it_data base_comment.
(** odt_r_locations.py 39-48 *)
Definition lc_data (data : str) (st : rs) : res rs := Ok (match r_lcId st with Some _ => put_line (strip data) st | None => st end).
(** odt_r_locations.py 50-64 *)
Definition lc_end (tag : option str) (st : rs) : res rs :=
  match r_lcId st with
  | Some id =>
      if tag_is tag (s "div") then
        do x <- dindex id (nv_locations (r_novel st));
        let n := r_novel st in
        Ok (set_r_lcId None (set_r_lines [] (set_r_novel (set_nv_locations (dset id (set_we_desc (Some (rstrip (concat (r_lines st)))) x) (nv_locations n)) n) st)))
      else if tag_is tag (s "p") then Ok (put_line [10%N] st)
      else Ok st
  | None => Ok st
  end.
(** odt_r_locations.py 66-83 *)
Definition lc_start (tag : str) (a : list attr) (st : rs) : res rs :=
  if str_eqb tag (s "div") then
    do '(k, v) <- first_attr a;
    if str_eqb k (s "id") then
      match v with
      | None => Err AttributeError
      | Some v =>
          if prefixb (s "LcID") v then
            do id <- number_in v;
            let st := set_r_lcId (Some id) st in
            let n := r_novel st in
            Ok (if dmem id (nv_locations n) then st else set_r_novel (set_nv_locations (dset id new_world (nv_locations n)) (set_nv_srtLocations (nv_srtLocations n ++ [id]) n)) st)
          else Ok st
      end
    else Ok st
  else if str_eqb tag (s "s") then Ok (put_line (s " ") st)
  else Ok st.
Definition locations_reader : reader := mkReader lc_start lc_end lc_data base_comment.

(** ** odt_r_import.py *)
Section Import.
Variable tr : str -> str.
Definition SCENE_DIVIDER := s "* * *". Definition LOW_WORDCOUNT := 10.
(** 54-72 *)
Definition im_comment (data : str) (st : rs) : res rs :=
  match r_scId st with
  | None => Ok st
  | Some id =>
      match r_lines st with
      | [] => Ok (match on_scene (Some id) (set_sc_title (Some (strip data))) st with Ok st => st | Err _ => st end)
      | _ => Ok (put_line (COMMENT_START ++ strip data ++ COMMENT_END) st)
      end
  end.
(** 74-85 *)
Definition im_data (data : str) (st : rs) : res rs :=
  Ok (match r_scId st with
      | Some _ => if containsb SCENE_DIVIDER data then set_r_scId None st else put_line data st
      | None => put_line data st
      end).
(** 99-109 *)
Definition im_store (st : rs) : res rs :=
  match r_scId st with
  | Some id =>
      do ls <- languages st;
      let text := cleanup_scene ls (rstrip (concat (r_lines st))) in
      on_scene (Some id) (fun x => let x := set_sceneContent text x in set_sc_status (Some (if (sc_wordCount x <? LOW_WORDCOUNT)%nat then 1%Z else 2%Z)) x) st
  | None => Ok st
  end.
(** 87-123 *)
Definition im_end (tag : option str) (st : rs) : res rs :=
  if tag_in tag [s "p"; s "blockquote"] then im_store (put_line [10%N] (close_language st))
  else if tag_is tag (s "em") && negb (r_heading st) then Ok (put_line (s "[/i]") st)
  else if tag_is tag (s "strong") && negb (r_heading st) then Ok (put_line (s "[/b]") st)
  else if tag_is tag (s "lang") && negb (r_heading st) then Ok (close_language st)
  else if tag_in tag [s "h1"; s "h2"] then
    do st <- on_chapter (r_chId st) (set_ch_title (Some (concat (r_lines st)))) st;
    Ok (set_r_heading false (set_r_lines [] st))
  else if tag_is tag (s "title") then Ok (set_r_novel (set_nv_title (Some (concat (r_lines st))) (r_novel st)) st)
  else Ok st.
(** 162-174 of odt_r_import.py, 92-104 of odt_r_outline.py: a new chapter *)
Definition new_heading (tag : str) (st : rs) : res rs :=
  let k := N.succ (r_chCount st) in
  let id := str_of_N k in
  let st := set_r_chId (Some id) (set_r_chCount k (set_r_lines [] (set_r_scId None st))) in
  on_chapter (Some id) (fun c => set_ch_level (Some (if str_eqb tag (s "h1") then 1%N else 0%N)) (set_ch_type (Some 0%N) c)) (add_chapter id st).
(** 125-207 *)
Definition im_start (tag : str) (a : list attr) (st : rs) : res rs :=
  if str_eqb tag (s "p") then
    do st <- match r_scId st, r_chId st with
             | None, Some ch =>
                 let k := N.succ (r_scCount st) in
                 let id := str_of_N k in
                 let st := set_r_scId (Some id) (set_r_scCount k (set_r_lines [] st)) in
                 do st <- on_chapter (Some ch) (list_scene id) (add_scene id st);
                 on_scene (Some id) (fun x => set_sc_title (Some (tr (s "Scene") ++ s " " ++ str_of_N k)) (set_sc_type (Some 0%N) (set_sc_status (Some 1%Z) x))) st
             | _, _ => Ok st
             end;
    Ok (open_language a st)
  else if str_eqb tag (s "em") && negb (r_heading st) then Ok (put_line (s "[i]") st)
  else if str_eqb tag (s "strong") && negb (r_heading st) then Ok (put_line (s "[b]") st)
  else if str_eqb tag (s "lang") && negb (r_heading st) then
    do '(k, v) <- first_attr a;
    if str_eqb k (s "lang") then do _ <- languages st; Ok (open_language a st) else Ok st
  else if smem tag [s "h1"; s "h2"] then do st <- new_heading tag st; Ok (set_r_heading true st)
  else if str_eqb tag (s "div") then Ok (set_r_chId None (set_r_scId None st))
  else if str_eqb tag (s "meta") then meta_tag a st
  else if str_eqb tag (s "title") then Ok (set_r_lines [] st)
  else if str_eqb tag (s "body") then body_tag a st
  else if str_eqb tag (s "li") then Ok (put_line (BULLET ++ s " ") st)
  else if str_eqb tag (s "blockquote") then Ok (open_language a (put_line (INDENT ++ s " ") st))
  else if str_eqb tag (s "s") then Ok (put_line (s " ") st)
  else Ok st.
Definition import_reader : reader := mkReader im_start im_end im_data im_comment.
End Import.

(** ** odt_r_outline.py *)
(** 48-56 *)
Definition ol_data (data : str) (st : rs) : res rs := Ok (put_line data st).
(** 58-81 *)
Definition ol_end (tag : option str) (st : rs) : res rs :=
  let text := concat (r_lines st) in
  if tag_is tag (s "p") then
    let text := strip text ++ [10%N] in
    let st := set_r_lines [text] st in
    match r_scId st, r_chId st with
    | Some id, _ => on_scene (Some id) (set_sc_desc (Some text)) st
    | None, Some id => on_chapter (Some id) (set_ch_desc (Some text)) st
    | None, None => Ok st
    end
  else if tag_in tag [s "h1"; s "h2"] then
    do st <- on_chapter (r_chId st) (set_ch_title (Some (strip text))) st; Ok (set_r_lines [] st)
  else if tag_is tag (s "h3") then
    do st <- on_scene (r_scId st) (set_sc_title (Some (strip text))) st; Ok (set_r_lines [] st)
  else if tag_is tag (s "title") then Ok (set_r_novel (set_nv_title (Some (strip text)) (r_novel st)) st)
  else Ok st.
(** 83-133 *)
Definition ol_start (tag : str) (a : list attr) (st : rs) : res rs :=
  if smem tag [s "h1"; s "h2"] then new_heading tag st
  else if str_eqb tag (s "h3") then
    let k := N.succ (r_scCount st) in
    let id := str_of_N k in
    let st := set_r_scId (Some id) (set_r_scCount k (set_r_lines [] st)) in
    do st <- on_chapter (r_chId st) (list_scene id) (add_scene id st);
    on_scene (Some id) (fun x => set_sc_type (Some 0%N) (set_sc_status (Some 1%Z) (set_sceneContent [] x))) st
  else if str_eqb tag (s "div") then Ok (set_r_chId None (set_r_scId None st))
  else if str_eqb tag (s "meta") then meta_tag a st
  else if str_eqb tag (s "title") then Ok (set_r_lines [] st)
  else if str_eqb tag (s "body") then body_tag a st
  else if str_eqb tag (s "s") then Ok (put_line (s " ") st)
  else Ok st.
Definition outline_reader : reader := mkReader ol_start ol_end ol_data base_comment.

(** * read(): odt_reader.py 117-119; odt_r_formatted.py 25-35 for manuscript, notes, todo, proof and import *)
Definition read_plain (h : reader) (opening : list call) (es : list event) (n : novel) : res novel := feed h opening es n.
Definition read_formatted (tr : str -> str) (h : reader) (opening : list call) (es : list event) (n : novel) : res (novel * bool) :=
  do n <- feed h opening es (set_nv_languages (Some []) n);
  split_scenes tr n.

