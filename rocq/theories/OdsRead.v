(** Reading OpenDocument spreadsheets: src/pywriter/ods_r.

    Not modelled: unpacking the zip archive (ods_parser.py 43-47). Namespaces: see OdfXml.v; the names below stand for the
    qualified names with the office, table and text namespaces (ods_parser.py 38-42). *)
From Coq Require Import String List NArith ZArith Bool Lia Arith.
From Verif Require Import PyStr PyDict Globals NovelModel YwText OdfXml OdtText Export.
Import ListNotations.

(** * ElementTree *)
Definition named (name : str) (x : node) : bool := match x with Elt n _ _ => str_eqb n name | Txt _ => false end.
Definition kids_of (x : node) : list node := match x with Elt _ _ k => k | Txt _ => [] end.
(** element.findall(name), element.find(name): children only *)
Definition findall (name : str) (x : node) : list node := filter (named name) (kids_of x).
Definition find (name : str) (x : node) : option node := match findall name x with y :: _ => Some y | [] => None end.
(** ''.join(element.itertext()) *)
Fixpoint itertext (x : node) : str :=
  match x with
  | Txt t => t
  | Elt _ _ k => (fix go (l : list node) : str := match l with [] => [] | y :: l' => itertext y ++ go l' end) k
  end.
(** element.get(name) *)
Definition attribute (name : str) (x : node) : option str := match x with Elt _ a _ => dget name a | Txt _ => None end.
(** None has no method find *)
Definition need {A} (x : option A) : res A := match x with Some a => Ok a | None => Err AttributeError end.

(** * src/pywriter/ods_r/ods_parser.py OdsParser.get_rows *)

(** 60-66 the text of a cell, None if it has no paragraph *)
Definition cell_text (cell : node) : option str :=
  match findall (s "text:p") cell with
  | [] => None
  | pars => Some (join [10%N] (map itertext pars))
  end.
Definition REPEATED : str := s "table:number-columns-repeated".
(** 57-89 the cells of a row; k: cellsPerRow, i: the number of cells so far *)
Fixpoint row_cells (k : nat) (cells : list str) (i : nat) (l : list node) : res (list str) :=
  match l with
  | [] => Ok cells
  | cell :: l' =>
      let go content :=
        let cells := cells ++ [content] in
        let i := S i in
        if k <=? i then Ok cells                                             (* 75-77 *)
        else match attribute REPEATED cell with                              (* 80-89 *)
             | Some ((_ :: _) as a) =>
                 match parse_int a with
                 | Some z => let m := Nat.min (Z.to_nat (z - 1)) (k - i) in row_cells k (cells ++ repeat content m) (i + m) l'
                 | None => Err ValueError
                 end
             | _ => row_cells k cells i l'
             end in
      match cell_text cell with
      | Some content => go content
      | None => if 0 <? i then go [] else Ok cells                           (* 68-72 *)
      end
  end.
(** 51-93 *)
Definition get_rows (root : node) (k : nat) : res (list (list str)) :=
  do body <- need (find (s "office:body") root);
  do spreadsheet <- need (find (s "office:spreadsheet") body);
  do table <- need (find (s "table:table") spreadsheet);
  do rows <- mapM (fun row => row_cells k [] 0 (findall (s "table:table-cell") row)) (findall (s "table:table-row") table);
  Ok (filter (fun r => match r with [] => false | _ => true end) rows).

(** * src/pywriter/ods_r/ods_reader.py 45-61 OdsReader.read: the rows, all of them with k cells.
    content: content.xml as text; a document the parser rejects raises ParseError (49) *)
Definition wrong_structure : exn := UserError (s "Wrong table structure.").
Definition check_rows (k : nat) (rows : list (list str)) : res (list (list str)) :=
  if forallb (fun r => Nat.eqb (length r) k) rows then Ok rows else Err wrong_structure.
Definition read_table (content : str) (k : nat) : res (list (list str)) :=
  match tree_of content with
  | Some root => do rows <- get_rows root k; check_rows k rows
  | None => Err ParseError
  end.

(** * The lists *)

(** re.search(r'XxID\:([0-9]+)', t).group(1): the digits behind the first occurrence of the mark that has some;
    None has no method group *)
Fixpoint search_id (mark t : str) : option str :=
  match t with
  | [] => None
  | _ :: t' =>
      if prefixb mark t && (0 <? span is_digit (skipn (length mark) t))
      then Some (firstn (span is_digit (skipn (length mark) t)) (skipn (length mark) t))
      else search_id mark t'
  end.
Definition cell (j : nat) (cells : list str) : str := nth j cells [].
(** if old or cell: the new value, else the old one *)
Definition renew (old : option str) (cell new : str) : option str := if otruthy old || truthy cell then Some new else old.
Definition renew_tags (old : option (list str)) (cell : str) : option (list str) :=
  if match old with Some (_ :: _) => true | _ => false end || truthy cell then Some (string_to_list (Some cell) DIVIDER) else old.

(** src/pywriter/ods_r/ods_r_charlist.py 23-57 OdsRCharList.read; title, fullName and aka are taken as they are, the others
    with _convert_to_yw (src/pywriter/file/file.py 136-144: rstrip) *)
Definition char_cells (cells : list str) (c : character) : character :=
  mkCharacter (renew (cr_title c) (cell 1 cells) (cell 1 cells)) (renew (cr_desc c) (cell 4 cells) (rstrip (cell 4 cells))) (cr_kw c) (cr_image c)
    (renew_tags (cr_tags c) (cell 8 cells)) (renew (cr_aka c) (cell 3 cells) (cell 3 cells)) (renew (cr_notes c) (cell 9 cells) (rstrip (cell 9 cells)))
    (renew (cr_bio c) (cell 5 cells) (rstrip (cell 5 cells))) (renew (cr_goals c) (cell 6 cells) (rstrip (cell 6 cells)))
    (renew (cr_fullName c) (cell 2 cells) (cell 2 cells)) (Some (containsb (s "Major") (cell 7 cells))).
Definition char_row (st : dict character * list str) (cells : list str) : res (dict character * list str) :=
  if containsb (s "CrID:") (cell 0 cells) then
    do i <- need (search_id (s "CrID:") (cell 0 cells));
    let c := match dget i (fst st) with Some c => c | None => new_character end in
    Ok (dset i (char_cells cells c) (fst st), snd st ++ [i])
  else Ok st.
Definition read_charlist (content : str) (n : novel) : res novel :=
  do rows <- read_table content 10;
  do st <- foldM char_row rows (nv_characters n, []);
  Ok (set_nv_srtCharacters (snd st) (set_nv_characters (fst st) n)).

(** src/pywriter/ods_r/ods_r_loclist.py 23-45, ods_r_itemlist.py 23-45 *)
Definition world_cells (cells : list str) (w : world) : world :=
  mkWorld (renew (we_title w) (cell 1 cells) (rstrip (cell 1 cells))) (renew (we_desc w) (cell 2 cells) (rstrip (cell 2 cells))) (we_kw w) (we_image w)
    (renew_tags (we_tags w) (cell 4 cells)) (renew (we_aka w) (cell 3 cells) (rstrip (cell 3 cells))).
Definition world_row (mark : str) (st : dict world * list str) (cells : list str) : res (dict world * list str) :=
  if containsb mark (cell 0 cells) then
    do i <- need (search_id mark (cell 0 cells));
    let w := match dget i (fst st) with Some w => w | None => new_world end in
    Ok (dset i (world_cells cells w) (fst st), snd st ++ [i])
  else Ok st.
Definition read_loclist (content : str) (n : novel) : res novel :=
  do rows <- read_table content 5;
  do st <- foldM (world_row (s "LcID:")) rows (nv_locations n, []);
  Ok (set_nv_srtLocations (snd st) (set_nv_locations (fst st) n)).
Definition read_itemlist (content : str) (n : novel) : res novel :=
  do rows <- read_table content 5;
  do st <- foldM (world_row (s "ItID:")) rows (nv_items n, []);
  Ok (set_nv_srtItems (snd st) (set_nv_items (fst st) n)).

(** src/pywriter/ods_r/ods_r_scenelist.py 20-107 *)
Definition SCENE_RATINGS : list str := [s "2"; s "3"; s "4"; s "5"; s "6"; s "7"; s "8"; s "9"; s "10"].
Definition rating (c : str) : str := if smem c SCENE_RATINGS then rstrip c else s "1".
(** Scene.STATUS.index(cell) *)
Fixpoint index_of (t : str) (k : Z) (l : list (option str)) : option Z :=
  match l with
  | [] => None
  | Some x :: l' => if str_eqb x t then Some k else index_of t (k + 1) l'
  | None :: l' => index_of t (k + 1) l'
  end.
Definition scene_cells (cells : list str) (x : scene) : scene :=
  let x := set_sc_title (Some (rstrip (cell 1 cells))) x in
  let x := set_sc_desc (Some (rstrip (cell 2 cells))) x in
  let x := set_sc_tags (renew_tags (sc_tags x) (cell 3 cells)) x in
  let x := set_sc_notes (renew (sc_notes x) (cell 4 cells) (rstrip (cell 4 cells))) x in
  let x := set_sc_isReactionScene (Some (containsb (lower (s "R")) (lower (cell 5 cells)))) x in
  let x := set_sc_goal (renew (sc_goal x) (cell 6 cells) (rstrip (cell 6 cells))) x in
  let x := set_sc_conflict (renew (sc_conflict x) (cell 7 cells) (rstrip (cell 7 cells))) x in
  let x := set_sc_outcome (renew (sc_outcome x) (cell 8 cells) (rstrip (cell 8 cells))) x in
  let x := set_sc_field1 (Some (rating (cell 11 cells))) x in
  let x := set_sc_field2 (Some (rating (cell 12 cells))) x in
  let x := set_sc_field3 (Some (rating (cell 13 cells))) x in
  let x := set_sc_field4 (Some (rating (cell 14 cells))) x in
  match index_of (cell 17 cells) 0 STATUS with Some k => set_sc_status (Some k) x | None => x end.
Definition scene_row (d : dict scene) (cells : list str) : res (dict scene) :=
  if containsb (s "ScID:") (cell 0 cells) then
    do i <- need (search_id (s "ScID:") (cell 0 cells));
    let x := match dget i d with Some x => x | None => new_scene end in
    Ok (dset i (scene_cells cells x) d)
  else Ok d.
Definition read_scenelist (content : str) (n : novel) : res novel :=
  do rows <- read_table content 21;
  do d <- foldM scene_row rows (nv_scenes n);
  Ok (set_nv_scenes d n).
