(** Model of the text of a yWriter 7 project file: src/pywriter/yw/xml_indent.py, the serialisation by
    xml.etree.ElementTree, yw7_file.py 1121-1154 (_postprocess_xml_file) and 139-161 (reading the file).

    Not modelled: the encoding to bytes (text that cannot be encoded, UTF-16 files) and the translation of
    line ends on output. *)
From Coq Require Import String List NArith ZArith Bool Lia Arith.
From Verif Require Import PyStr PyDict NovelModel YwTree Yw7Build Yw7Read.
Import ListNotations.

(** ** ElementTree: writing *)
(** ElementTree._escape_cdata: & becomes &amp; then < becomes &lt; and > becomes &gt; *)
Definition esc_char (c : N) : str :=
  if N.eqb c 38 then s "&amp;" else if N.eqb c 60 then s "&lt;" else if N.eqb c 62 then s "&gt;" else [c].
Definition escape (t : str) : str := flat_map esc_char t.

Definition open_tag (t : str) : str := s "<" ++ t ++ s ">".
Definition close_tag (t : str) : str := s "</" ++ t ++ s ">".
Definition empty_tag (t : str) : str := s "<" ++ t ++ s " />".

(** xml_indent.py 16: a line break and the indentation *)
Definition nl (level : nat) : str := 10%N :: flat_map (fun _ => s "  ") (repeat tt level).

(** not text or not text.strip() *)
Definition blank (x : option str) : bool :=
  match x with None => true | Some t => match strip t with [] => true | _ => false end end.
Definition or_empty (x : option str) : str := match x with Some t => t | None => [] end.

(** ElementTree._serialize_xml after xml_indent.py 10-27 (indent).  The sub-elements are followed by a line
    break with their own indentation, the last one by that of the parent (27). *)
Fixpoint ser (level : nat) (e : elem) : str :=
  match e with
  | Elem t x [] =>
      match x with
      | Some ((_ :: _) as v) => open_tag t ++ escape v ++ close_tag t
      | _ => empty_tag t
      end
  | Elem t x k =>
      open_tag t ++ escape (if blank x then nl (S level) else or_empty x) ++
      join (nl (S level)) (map (ser (S level)) k) ++ nl level ++ close_tag t
  end.

(** yw7_file.py 905, 1092-1093 and tree.write in 1699 (the tail of the root is a line break) *)
Definition tree_text (r : list elem) : str := ser 0 (Elem (s "YWRITER7") None r) ++ [10%N].

(** ** Post-processing *)
(** open(filePath, 'r').read(): universal newlines *)
Fixpoint unl (t : str) : str :=
  match t with
  | [] => []
  | c :: t' =>
      if N.eqb c 13 then
        match t' with
        | c2 :: t2 => if N.eqb c2 10 then 10%N :: unl t2 else 10%N :: unl t'
        | [] => [10%N]
        end
      else c :: unl t'
  end.

(** yw7_file.py 1139-1141, for one tag.  The patterns contain no special characters: re.sub is replace. *)
Definition cdata_tag (line t : str) : str :=
  replace (close_tag t) (s "]]>" ++ close_tag t) (replace (open_tag t) (open_tag t ++ s "<![CDATA[") line).
Definition cdata_line (line : str) : str := fold_left cdata_tag CDATA_TAGS line.

(** [^\t\n\f <&#;] *)
Definition ref_char (c : N) : bool := negb (existsb (N.eqb c) [9; 10; 12; 32; 60; 38; 35; 59]%N).
(** length of the longest prefix of at most [max] characters satisfying f *)
Fixpoint span_len (f : N -> bool) (max : nat) (t : str) : nat :=
  match max, t with
  | S m, c :: t' => if f c then S (span_len f m t') else 0
  | _, _ => 0
  end.
(** the optional ; *)
Definition semi_len (t : str) : nat := match t with c :: _ => if N.eqb c 59 then 1 else 0 | [] => 0 end.
Definition hex_char (c : N) : bool := is_digit c || ((65 <=? c) && (c <=? 70))%N || ((97 <=? c) && (c <=? 102))%N.
(** html.unescape: &(#[0-9]+;?|#[xX][0-9a-fA-F]+;?|[^\t\n\f <&#;]{1,32};?), length of the match behind the & *)
Definition ref_len (t : str) : nat :=
  match t with
  | [] => 0
  | c :: r =>
      if N.eqb c 35 then
        let d := span_len is_digit (length r) r in
        if 0 <? d then S d + semi_len (skipn d r)
        else match r with
             | x :: r' => if (N.eqb x 120 || N.eqb x 88)%bool then
                            let h := span_len hex_char (length r') r' in
                            if 0 <? h then S (S h) + semi_len (skipn h r') else 0
                          else 0
             | [] => 0
             end
      else let n := span_len ref_char 32 t in if 0 <? n then n + semi_len (skipn n t) else 0
  end.
(** html._replace_charref; [ent] stands for the table of the other HTML 5 names and for the numbers *)
Definition ref_value (ent : str -> str) (name : str) : str :=
  if str_eqb name (s "amp;") then s "&"
  else if str_eqb name (s "lt;") then s "<"
  else if str_eqb name (s "gt;") then s ">"
  else ent name.
Fixpoint unescape_go (ent : str -> str) (skip : nat) (t : str) : str :=
  match t with
  | [] => []
  | c :: t' =>
      match skip with
      | S k => unescape_go ent k t'
      | 0 => if N.eqb c 38 then
               let n := ref_len t' in
               if 0 <? n then ref_value ent (firstn n t') ++ unescape_go ent n t' else c :: unescape_go ent 0 t'
             else c :: unescape_go ent 0 t'
      end
  end.
Definition unescape (ent : str -> str) (t : str) : str := unescape_go ent 0 t.

Definition xml_header : str := s "<?xml version=""1.0"" encoding=""utf-8""?>".

(** yw7_file.py 1121-1149 _postprocess_xml_file: from the text ElementTree wrote to the final text;
    [nochapters]: novel.chapters is empty *)
Definition postprocess (ent : str -> str) (nochapters : bool) (text : str) : str :=
  let lines := split [10%N] (unl text) in
  let text := join [10%N] (xml_header :: map cdata_line lines) in
  let text := replace (s "[CDATA[ " ++ [10%N]) (s "[CDATA[") text in
  let text := replace (10%N :: s "]]") (s "]]") text in
  let text := if nochapters then replace (s "<CHAPTERS />") (s "<CHAPTERS></CHAPTERS>") text else text in
  unescape ent text.

(** the file written for a finished tree *)
Definition file_text (ent : str -> str) (nochapters : bool) (r : list elem) : str :=
  postprocess ent nochapters (tree_text r).

(** ** Reading *)
(** yw7_file.py 155: re.sub('[\x00-\x08|\x0b-\x0c|\x0e-\x1f]', '', xmlText); the class contains the | *)
Definition kept (c : N) : bool :=
  negb ((c <=? 8)%N || N.eqb c 124 || ((11 <=? c) && (c <=? 12))%N || ((14 <=? c) && (c <=? 31))%N).

(** ** ET.fromstring: a parser for XML without attributes, comments, processing instructions and numeric
    references.  None: not well-formed, or outside this language. *)
Definition xml_char (c : N) : bool :=
  (N.eqb c 9 || N.eqb c 10 || N.eqb c 13 || ((32 <=? c) && (c <=? 55295))%N
   || ((57344 <=? c) && (c <=? 65533))%N || ((65536 <=? c) && (c <=? 1114111))%N)%bool.
Definition name_start (c : N) : bool := ((65 <=? c) && (c <=? 90))%N || ((97 <=? c) && (c <=? 122))%N || N.eqb c 95.
Definition name_char (c : N) : bool := name_start c || is_digit c || N.eqb c 45 || N.eqb c 46.
Definition name_ok (t : str) : bool := match t with c :: _ => name_start c | [] => false end && forallb name_char t.

Inductive tok := TOpen (t : str) | TClose (t : str) | TEmpty (t : str) | TText (x : str).

(** text before the first occurrence of p *)
Fixpoint before (p t : str) : option str :=
  if prefixb p t then Some [] else
  match t with [] => None | c :: t' => option_map (cons c) (before p t') end.

Definition xml_space (c : N) : bool := existsb (N.eqb c) [9; 10; 13; 32]%N.

(** a tag: name, white space, end *)
Definition look_name (t : str) : option (str * nat * str) :=
  let n := span_len name_char (length t) t in
  let name := firstn n t in
  let r := skipn n t in
  let w := span_len xml_space (length r) r in
  if name_ok name then Some (name, n + w, skipn w r) else None.

Definition entities : list (str * str) :=
  [(s "&amp;", s "&"); (s "&lt;", s "<"); (s "&gt;", s ">"); (s "&quot;", s """"); (s "&apos;", s "'")].
Fixpoint look_entity (l : list (str * str)) (t : str) : option (tok * nat) :=
  match l with
  | [] => None
  | (p, v) :: l' => if prefixb p t then Some (TText v, length p) else look_entity l' t
  end.

(** the token at the beginning of t, and its length *)
Definition look (t : str) : option (tok * nat) :=
  match t with
  | [] => None
  | c :: r =>
      if N.eqb c 60 then
        if prefixb (s "![CDATA[") r then
          match before (s "]]>") (skipn 8 r) with
          | Some x => if forallb xml_char x then Some (TText x, 9 + length x + 3) else None
          | None => None
          end
        else match r with
        | 47%N :: r' =>
            match look_name r' with
            | Some (name, n, 62%N :: _) => Some (TClose name, 2 + n + 1)
            | _ => None
            end
        | _ =>
            match look_name r with
            | Some (name, n, 62%N :: _) => Some (TOpen name, 1 + n + 1)
            | Some (name, n, 47%N :: 62%N :: _) => Some (TEmpty name, 1 + n + 2)
            | _ => None
            end
        end
      else if N.eqb c 38 then look_entity entities t
      else if prefixb (s "]]>") t then None
      else if xml_char c then Some (TText [c], 1) else None
  end.

Fixpoint lex_go (skip : nat) (t : str) : option (list tok) :=
  match t with
  | [] => Some []
  | c :: t' =>
      match skip with
      | S k => lex_go k t'
      | 0 => match look t with
             | Some (k, n) => option_map (cons k) (lex_go (pred n) t')
             | None => None
             end
      end
  end.
Definition lex (t : str) : option (list tok) := lex_go 0 t.

(** an open element: tag, text, sub-elements (in reverse order) *)
Definition frame := (str * option str * list elem)%type.
Definition frame_elem (f : frame) : elem := let '(t, x, k) := f in Elem t x (rev k).
(** text before the first sub-element; later text would be a tail *)
Definition add_text (y : str) (f : frame) : frame :=
  let '(t, x, k) := f in
  match k, y with
  | [], _ :: _ => (t, Some (or_empty x ++ y), [])
  | _, _ => f
  end.
Definition add_kid (e : elem) (f : frame) : frame := let '(t, x, k) := f in (t, x, e :: k).

Fixpoint make (ts : list tok) (st : list frame) (root : option elem) : option elem :=
  match ts with
  | [] => match st with [] => root | _ => None end
  | TText y :: ts' =>
      match st with
      | f :: st' => make ts' (add_text y f :: st') root
      | [] => if forallb xml_space y then make ts' [] root else None
      end
  | TOpen t :: ts' =>
      match st, root with
      | [], Some _ => None
      | _, _ => make ts' ((t, None, []) :: st) root
      end
  | TEmpty t :: ts' =>
      match st, root with
      | f :: st', _ => make ts' (add_kid (Elem t None []) f :: st') root
      | [], None => make ts' [] (Some (Elem t None []))
      | [], Some _ => None
      end
  | TClose t :: ts' =>
      match st with
      | f :: st' =>
          if str_eqb t (fst (fst f)) then
            match st' with
            | g :: st'' => make ts' (add_kid (frame_elem f) g :: st'') root
            | [] => make ts' [] (Some (frame_elem f))
            end
          else None
      | [] => None
      end
  end.

(** the XML declaration, if there is one *)
Definition skip_declaration (t : str) : option str :=
  if prefixb (s "<?xml") t then
    match before (s "?>") t with Some d => Some (skipn (length d + 2) t) | None => None end
  else Some t.

Definition parse_xml (t : str) : option elem :=
  match skip_declaration t with
  | Some u => match lex u with Some ts => make ts [] None | None => None end
  | None => None
  end.

(** yw7_file.py 139-177 on the text of a project file *)
Definition read_text (ext : str -> option (str * str)) (t : str) (n : novel) : res novel :=
  match parse_xml (filter kept (unl t)) with
  | None => Err ParseError
  | Some root => read_tree ext (e_kids root) n
  end.

(** yw7_file.py 188-205, without the file operations: the novel after write() and the new text of the file *)
Definition write_text (ent : str -> str) (loc dloc : option str) (n : novel) (old : option (list elem))
  : res (novel * list elem * str) :=
  do p <- write_tree loc dloc n old;
  Ok (fst p, snd p, file_text ent (match nv_chapters n with [] => true | _ => false end) (snd p)).
