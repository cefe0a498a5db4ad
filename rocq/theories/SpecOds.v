(** Tables as a user of a spreadsheet sees them. *)
From Coq Require Import String List NArith ZArith Bool.
From Verif Require Import PyStr PyDict NovelModel YwText OdfXml OdsRead.
From Verif Require Spec.
Notation first_occ := Spec.first_occ (only parsing).
Import ListNotations.

(** ** A row of table:table-cell elements *)
(** the text of a cell: its paragraphs, one per line *)
Definition shown_text (c : node) : str := join [10%N] (map itertext (filter (named (s "text:p")) (kids_of c))).
Definition blank_cell (c : node) : Prop := filter (named (s "text:p")) (kids_of c) = [].
(** how many columns it stands for: the attribute, if any, must be a number *)
Definition columns (c : node) : option nat :=
  match attribute (s "table:number-columns-repeated") c with
  | None | Some [] => Some 1
  | Some a => match parse_int a with Some z => Some (Nat.max 1 (Z.to_nat z)) | None => None end
  end.
Definition width (c : node) : nat := match columns c with Some k => k | None => 1 end.
(** the row, column by column *)
Definition expanded (cells : list node) : list str := flat_map (fun c => repeat (shown_text c) (width c)) cells.
Definition well_formed (cells : list node) : Prop := Forall (fun c => columns c <> None) cells.
(** no repeated cell reaches the last of the k columns unless it is the last cell *)
Definition fits (k : nat) (cells : list node) : Prop :=
  forall l1 c l2, cells = l1 ++ c :: l2 -> S (length (expanded l1)) < k -> k <= length (expanded (l1 ++ [c])) -> l2 = [].

(** ** What a cell does to a field: an empty cell does not turn "no value" into an empty text *)
Definition field_from (old : option str) (cell value : str) (new : option str) : Prop :=
  ((cell = [] /\ (old = None \/ old = Some [])) -> new = old) /\ (~ (cell = [] /\ (old = None \/ old = Some [])) -> new = Some value).

(** ** The rows of a list that stand for elements: those with a mark such as CrID: and digits in the first column *)
Definition digits (t : str) : Prop := t <> [] /\ Forall (fun c => (48 <= c <= 57)%N) t.
(** the first column is, or begins with, mark and number *)
Definition marks (mark i first : str) : Prop :=
  exists a b, first = a ++ mark ++ i ++ b /\ digits i /\ (forall c r, b = c :: r -> ~ (48 <= c <= 57)%N) /\
  (* and this is the first such place *)
  forall a' i' b', first = a' ++ mark ++ i' ++ b' -> digits i' -> length a <= length a'.
Definition unmarked (mark first : str) : Prop := forall a b, first <> a ++ mark ++ b.

(** the rows that stand for elements, with the elements' ids *)
Inductive listed (mark : str) : list (list str) -> list (str * list str) -> Prop :=
| li_nil : listed mark [] []
| li_skip : forall r rows ps, unmarked mark (nth 0 r []) -> listed mark rows ps -> listed mark (r :: rows) ps
| li_row : forall r rows i ps, marks mark i (nth 0 r []) -> listed mark rows ps -> listed mark (r :: rows) ((i, r) :: ps).
(** a row with the mark, but no number behind it *)
Definition broken (mark : str) (r : list str) : Prop := ~ unmarked mark (nth 0 r []) /\ forall i, ~ marks mark i (nth 0 r []).

(** the table of a document: the first table of the first spreadsheet of the first body *)
Definition first_kid (name : str) (x y : node) : Prop := exists l, filter (named name) (kids_of x) = y :: l.
Definition table_of (root table : node) : Prop :=
  exists body sheet, first_kid (s "office:body") root body /\ first_kid (s "office:spreadsheet") body sheet /\ first_kid (s "table:table") sheet table.
Definition rows_of (table : node) : list (list node) := map (fun r => filter (named (s "table:table-cell")) (kids_of r)) (filter (named (s "table:table-row")) (kids_of table)).
(** rows that begin with an empty cell do not count *)
Definition counts (cells : list node) : bool := match cells with c :: _ => match filter (named (s "text:p")) (kids_of c) with [] => false | _ => true end | [] => false end.

(** the list of elements after reading: d, ids before; the updates are made by the rows ps in order *)
Definition updated {A} (new : A) (upd : list str -> A -> A -> Prop) (ps : list (str * list str)) (d d' : dict A) : Prop :=
  (forall i, ~ In i (map fst ps) -> dget i d' = dget i d) /\
  (NoDup (map fst ps) -> forall i r, In (i, r) ps -> exists x, dget i d' = Some x /\ upd r (match dget i d with Some y => y | None => new end) x).

(** ** What the cells of a row do to an element *)
(** the words of a cell: between ", ", without surrounding blanks, each once *)
Definition words (cell : str) (l : list str) : Prop :=
  exists ps, cell = join (s ", ") ps /\ (forall p a b, In p ps -> p <> a ++ s ", " ++ b) /\ l = first_occ [] (filter truthy (map strip ps)).
Definition tags_from (old : option (list str)) (cell : str) (new : option (list str)) : Prop :=
  ((cell = [] /\ (old = None \/ old = Some [])) -> new = old) /\ (~ (cell = [] /\ (old = None \/ old = Some [])) -> exists l, new = Some l /\ words cell l).
(** columns: ID, name, full name, aka, description, bio, goals, importance, tags, notes *)
Definition character_from (r : list str) (x y : character) : Prop :=
  field_from (cr_title x) (nth 1 r []) (nth 1 r []) (cr_title y) /\ field_from (cr_fullName x) (nth 2 r []) (nth 2 r []) (cr_fullName y) /\
  field_from (cr_aka x) (nth 3 r []) (nth 3 r []) (cr_aka y) /\ field_from (cr_desc x) (nth 4 r []) (rstrip (nth 4 r [])) (cr_desc y) /\
  field_from (cr_bio x) (nth 5 r []) (rstrip (nth 5 r [])) (cr_bio y) /\ field_from (cr_goals x) (nth 6 r []) (rstrip (nth 6 r [])) (cr_goals y) /\
  (exists b : bool, cr_isMajor y = Some b /\ (b = true <-> exists u v, nth 7 r [] = u ++ s "Major" ++ v)) /\
  tags_from (cr_tags x) (nth 8 r []) (cr_tags y) /\ field_from (cr_notes x) (nth 9 r []) (rstrip (nth 9 r [])) (cr_notes y) /\
  cr_kw y = cr_kw x /\ cr_image y = cr_image x.
(** columns: ID, name, description, aka, tags *)
Definition world_from (r : list str) (x y : world) : Prop :=
  field_from (we_title x) (nth 1 r []) (rstrip (nth 1 r [])) (we_title y) /\ field_from (we_desc x) (nth 2 r []) (rstrip (nth 2 r [])) (we_desc y) /\
  field_from (we_aka x) (nth 3 r []) (rstrip (nth 3 r [])) (we_aka y) /\ tags_from (we_tags x) (nth 4 r []) (we_tags y) /\
  we_kw y = we_kw x /\ we_image y = we_image x.
(** a rating is a number from 2 to 10, everything else stands for 1 *)
Definition rating_from (cell : str) (new : option str) : Prop :=
  exists k, new = Some (str_of_N k) /\ ((2 <= k <= 10)%N /\ cell = str_of_N k \/ k = 1%N /\ forall j, (2 <= j <= 10)%N -> cell <> str_of_N j).
(** columns: ID, title, description, tags, notes, A/R, goal, conflict, outcome, (2 columns ignored), 4 ratings, (2 ignored), status, (3 ignored);
    the fields that have no column are those of x *)
Definition scene_from (r : list str) (x y : scene) : Prop :=
  sc_title y = Some (rstrip (nth 1 r [])) /\ sc_desc y = Some (rstrip (nth 2 r [])) /\ tags_from (sc_tags x) (nth 3 r []) (sc_tags y) /\
  field_from (sc_notes x) (nth 4 r []) (rstrip (nth 4 r [])) (sc_notes y) /\
  (exists b : bool, sc_isReactionScene y = Some b /\ (b = true <-> In 114%N (lower (nth 5 r [])))) /\
  field_from (sc_goal x) (nth 6 r []) (rstrip (nth 6 r [])) (sc_goal y) /\ field_from (sc_conflict x) (nth 7 r []) (rstrip (nth 7 r [])) (sc_conflict y) /\
  field_from (sc_outcome x) (nth 8 r []) (rstrip (nth 8 r [])) (sc_outcome y) /\
  rating_from (nth 11 r []) (sc_field1 y) /\ rating_from (nth 12 r []) (sc_field2 y) /\ rating_from (nth 13 r []) (sc_field3 y) /\ rating_from (nth 14 r []) (sc_field4 y) /\
  (forall k name, In (k, name) [(1%Z, s "Outline"); (2%Z, s "Draft"); (3%Z, s "1st Edit"); (4%Z, s "2nd Edit"); (5%Z, s "Done")] -> nth 17 r [] = name -> sc_status y = Some k) /\
  (~ In (nth 17 r []) [s "Outline"; s "Draft"; s "1st Edit"; s "2nd Edit"; s "Done"] -> sc_status y = sc_status x) /\
  set_sc_title (sc_title x) (set_sc_desc (sc_desc x) (set_sc_tags (sc_tags x) (set_sc_notes (sc_notes x) (set_sc_isReactionScene (sc_isReactionScene x)
    (set_sc_goal (sc_goal x) (set_sc_conflict (sc_conflict x) (set_sc_outcome (sc_outcome x) (set_sc_field1 (sc_field1 x) (set_sc_field2 (sc_field2 x)
    (set_sc_field3 (sc_field3 x) (set_sc_field4 (sc_field4 x) (set_sc_status (sc_status x) y)))))))))))) = x.

(** the row read from the cells: no column is lost, and none is added if no repeated cell in front of others fills the row *)
Definition row_result (k : nat) (cells : list node) (r : list str) : Prop :=
  firstn k r = firstn k (expanded cells) /\ length r <= S k /\ (fits k cells -> r = firstn k (expanded cells)).

(** all the readers *)
Inductive list_reader : (str -> novel -> res novel) -> nat -> str -> Prop :=
| lr_char : list_reader read_charlist 10 (s "CrID:")
| lr_loc : list_reader read_loclist 5 (s "LcID:")
| lr_item : list_reader read_itemlist 5 (s "ItID:")
| lr_scene : list_reader read_scenelist 21 (s "ScID:").

(** ** Fields that a table keeps *)
(** XML characters, no carriage return, no white space at the end *)
Definition cell_field (t : option str) : Prop := forall x, t = Some x -> Forall (fun c => xml_char c = true) x /\ ~ In 13%N x /\ rstrip x = x.
Definition tag_fits (x : str) : Prop := Forall (fun c => xml_char c = true) x /\ ~ In 13%N x /\ x <> [] /\ strip x = x /\ forall a b, x <> a ++ s ", " ++ b.
Definition tags_fit (t : option (list str)) : Prop := forall l, t = Some l -> NoDup l /\ Forall tag_fits l.
Definition character_fits (c : character) : Prop :=
  cell_field (cr_title c) /\ cell_field (cr_fullName c) /\ cell_field (cr_aka c) /\ cell_field (cr_desc c) /\ cell_field (cr_bio c) /\ cell_field (cr_goals c) /\
  cell_field (cr_notes c) /\ tags_fit (cr_tags c) /\ cr_isMajor c <> None.
Definition world_fits (w : world) : Prop := cell_field (we_title w) /\ cell_field (we_desc w) /\ cell_field (we_aka w) /\ tags_fit (we_tags w).
