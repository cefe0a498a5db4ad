(** When a manuscript can be exported and read back: what the parser may deliver, and the range of novels. *)
From Coq Require Import String List NArith ZArith Bool Lia Arith.
From Verif Require Import PyStr PyDict YwText OdfXml NovelModel NovelOps SpecOdf SpecFormat.
Import ListNotations.

(** ** What a streaming XML parser delivers *)
(** a text of white space only *)
Definition white (t : str) : bool := match t with [] => false | _ => forallb is_space t end.
(** the same tags; each piece of text in one piece, or in several pieces none of which is white space only *)
Inductive deliver : list event -> list event -> Prop :=
| deliver_end : deliver [] []
| deliver_open : forall n a es es', deliver es es' -> deliver (Start n a :: es) (Start n a :: es')
| deliver_close : forall n es es', deliver es es' -> deliver (End n :: es) (End n :: es')
| deliver_whole : forall t es es', deliver es es' -> deliver (Data t :: es) (Data t :: es')
| deliver_parts : forall ts es es', Forall (fun u => white u = false) ts -> deliver es es' -> deliver (Data (concat ts) :: es) (map Data ts ++ es').

(** ** Texts *)
Definition is_language (t : str) : bool := prefixb (s "lang=") t.
(** after the end tag of t, in the same line or in the next one, perhaps after the mark of a quotation, t begins again *)
Definition reopened (t : str) (r : list token) : bool :=
  match r with
  | Opn v :: _ | Brk :: Opn v :: _ => str_eqb v t
  | Brk :: Chr c :: Chr d :: Opn v :: _ => N.eqb c 62 && N.eqb d 32 && str_eqb v t
  | _ => false
  end.
(** open: the tags that are open at the beginning of ks, the innermost first.  Tags are nested, not empty, not closed and opened again at once; a comment has one line without
    white space around it and no '~'; at a line break one tag is open at most, and it is not closed at once *)
Fixpoint well_tagged (open : list str) (ks : list token) : bool :=
  match ks with
  | [] => match open with [] => true | _ => false end
  | Chr _ :: r => well_tagged open r
  | Box w :: r => negb (invisible w) && well_tagged open r
  | Com t :: r => negb (containsb [10%N] t) && str_eqb (strip t) t && negb (containsb (s "~") t) && well_tagged open r
  | Opn t :: r =>
      negb (smem t open) && negb (is_language t && existsb is_language open) &&
      match r with Cls _ :: _ | Brk :: _ => false | _ => true end && well_tagged (t :: open) r
  | Cls t :: r =>
      match open with
      | u :: open' => str_eqb u t && negb (reopened t r) && well_tagged open' r
      | [] => false
      end
  | Brk :: r =>
      match open with
      | [] => well_tagged open r
      | [_] => match r with Cls _ :: _ | Brk :: _ => false | _ => true end && well_tagged open r
      | _ => false
      end
  end.
(** no text between tags, comments and line breaks is white space only; u: the text so far *)
Fixpoint solid (u : str) (ks : list token) : bool :=
  match ks with
  | [] => negb (white u)
  | Chr c :: r => solid (u ++ [c]) r
  | Box w :: r => solid (u ++ typed1 (Box w)) r
  | _ :: r => negb (white u) && solid [] r
  end.
(** a quotation is a line that begins with "> "; nor is the text that follows this mark white space only; start: at the beginning of a line *)
Definition unmarked (ks : list token) : option (list token) := match ks with Chr c :: Chr d :: r => if (N.eqb c 62 && N.eqb d 32)%bool then Some r else None | _ => None end.
Fixpoint solid_quotes (start : bool) (ks : list token) : bool :=
  match ks with
  | [] => true
  | k :: r => (negb start || match unmarked ks with Some r' => solid [] r' | None => true end) && solid_quotes (match k with Brk => true | _ => false end) r
  end.
(** a text that survives: markup as above, no white space at the end, the mark of a quotation not after a comment *)
Definition restorable (languages : list str) (t : str) : Prop :=
  exists ks, t = typed ks /\ marked_up languages ks /\ well_tagged [] ks = true /\ solid [] ks = true /\ solid_quotes true ks = true /\ rstrip t = t /\
    containsb (s "*/> ") t = false.
(** no line looks like a chapter or scene heading *)
Definition no_headings (t : str) : Prop := Forall (fun l => prefixb (s "#") l = false) (lines t).
(** titles: one piece of XML text *)
Definition title_ok (t : str) : bool := forallb xml_char t && negb (existsb (fun c => N.eqb c 91 || N.eqb c 13) t).
Definition otitle_ok (t : option str) : bool := match t with Some x => title_ok x | None => true end.
(** languages: code and country *)
Definition locale_ok (l : str) : Prop :=
  exists a b, l = a ++ s "-" ++ b /\ a <> [] /\ b <> s "none" /\ ~ In 45%N (a ++ b) /\ Forall (fun c => xml_space c = false) l.

(** ** Novels *)
Definition number_id (i : str) : bool := match i with [] => false | _ => forallb is_digit i end.
Definition known_type (t : option N) : bool := match t with Some k => N.leb k 3 | None => false end.
Definition known_status (st : option Z) : bool := match st with Some z => Z.leb 0 z && Z.leb z 5 | None => false end.
(** what is required of each scene in a chapter: *)
Record scene_ok (languages : list str) (n : novel) (x : scene) : Prop := mkSceneOk {
  so_type : known_type (sc_type x) = true;
  (* if it has a text, this is not split, and its counts are up to date *)
  so_text : forall t, sc_content x = Some t -> no_headings t /\ set_sceneContent t x = x;
  (* if it is a normal scene, it can be exported and has a text that survives *)
  so_normal : sc_type x = Some 0%N -> known_status (sc_status x) = true /\ otitle_ok (sc_title x) = true /\
    (forall l i, sc_locations x = Some l -> In i l -> dmem i (nv_locations n) = true) /\ (forall l i, sc_items x = Some l -> In i l -> dmem i (nv_items n) = true) /\
    exists t, sc_content x = Some t /\ restorable languages t }.
Record chapter_ok (languages : list str) (n : novel) (c : chapter) : Prop := mkChapterOk {
  co_type : known_type (ch_type c) = true;
  co_title : exists t, ch_title c = Some t /\ title_ok t = true;
  co_scenes : forall i, In i (ch_srtScenes c) -> number_id i = true /\ exists x, dget i (nv_scenes n) = Some x /\ scene_ok languages n x }.
(** the range: languages are those of the exporter *)
Record manuscript_ok (author : str) (languages : list str) (n : novel) : Prop := mkManuscriptOk {
  mo_names : names_ok author languages;
  mo_locales : Forall locale_ok languages;
  mo_title : otitle_ok (nv_title n) = true;
  mo_author : otitle_ok (nv_authorName n) = true;
  mo_chapters : forall i, In i (nv_srtChapters n) -> number_id i = true /\ exists c, dget i (nv_chapters n) = Some c /\ chapter_ok languages n c }.
