(** What the placeholders of an export template stand for. *)
From Coq Require Import List NArith ZArith Bool.
From Verif Require Import PyStr PyDict NovelModel Template SpecTemplate Export SpecExport.
Import ListNotations.

(** A table gives, for every placeholder, the texts it may be replaced with. *)
Definition table := list (str * (str -> Prop)).

(** t is the template tpl, every placeholder of the table replaced with a text the table allows (the same one everywhere in this text);
    other placeholders and dollar signs stay. *)
Definition rendered (tb : table) (tpl t : str) : Prop :=
  exists values : dict str,
    (forall key allowed, In (key, allowed) tb -> exists v, dget key values = Some v /\ allowed v) /\
    (forall key v, dget key values = Some v -> In key (map fst tb)) /\
    (forall segments, template_text segments = tpl -> unambiguous segments -> t = flat_map (seg_value values) segments).

Section Tables.
(** how the file type writes texts (the second argument: without paragraph markup), the project's name and path *)
Variable conv : option str -> bool -> res str.
Variables projectName projectPath : option str.
Variable n : novel.

(** a text in the file type's markup, without and with paragraphs; a text as it is; the word None for a missing one *)
Definition short (t : option str) (v : str) : Prop := conv t true = Ok v.
Definition long (t : option str) (v : str) : Prop := conv t false = Ok v.
Definition verbatim (t : option str) (v : str) : Prop := t = Some v \/ t = None /\ v = s "None".
Definition exactly (t v : str) : Prop := v = t.
Definition number (k : nat) (v : str) : Prop := v = str_of_N (N.of_nat k).
(** no number for what is not counted *)
Definition counter (k : nat) (v : str) : Prop := match k with 0 => v = [] | _ => number k v end.
Definition comma_list (l : list str) : str := join (s ", ") l.
Definition tags (shape : option str -> str -> Prop) (t : option (list str)) (v : str) : Prop :=
  match t with Some l => shape (Some (comma_list l)) v | None => shape (Some []) v end.

Definition header_table : table :=
  [(s "Title", short (nv_title n)); (s "Desc", long (nv_desc n)); (s "AuthorName", short (nv_authorName n)); (s "AuthorBio", short (nv_authorBio n));
   (s "FieldTitle1", short (nv_fieldTitle1 n)); (s "FieldTitle2", short (nv_fieldTitle2 n)); (s "FieldTitle3", short (nv_fieldTitle3 n)); (s "FieldTitle4", short (nv_fieldTitle4 n));
   (s "Language", verbatim (nv_languageCode n)); (s "Country", verbatim (nv_countryCode n))].

Definition chapter_table (id : str) (k : nat) : table :=
  let c := chapter_of n id in
  [(s "ID", exactly id); (s "ChapterNumber", counter k); (s "Title", short (ch_title c)); (s "Desc", long (ch_desc c));
   (s "ProjectName", short projectName); (s "ProjectPath", verbatim projectPath); (s "Language", verbatim (nv_languageCode n)); (s "Country", verbatim (nv_countryCode n))].

Definition character_table (id : str) (c : character) : table :=
  [(s "ID", exactly id); (s "Title", short (cr_title c)); (s "FullName", short (cr_fullName c)); (s "AKA", short (cr_aka c));
   (s "Desc", long (cr_desc c)); (s "Bio", long (cr_bio c)); (s "Goals", long (cr_goals c)); (s "Notes", long (cr_notes c)); (s "Tags", tags long (cr_tags c));
   (s "Image", verbatim (cr_image c)); (s "Status", fun v => (cr_isMajor c = Some true /\ v = s "Major") \/ (cr_isMajor c <> Some true /\ v = s "Minor"));
   (s "ProjectName", long projectName); (s "ProjectPath", verbatim projectPath)].

(** locations and items *)
Definition world_table (id : str) (w : world) : table :=
  [(s "ID", exactly id); (s "Title", short (we_title w)); (s "AKA", short (we_aka w)); (s "Desc", long (we_desc w)); (s "Tags", tags short (we_tags w));
   (s "Image", verbatim (we_image w)); (s "ProjectName", short projectName); (s "ProjectPath", verbatim projectPath)].

Definition note_table (id : str) (p : note) : table :=
  [(s "ID", exactly id); (s "Title", short (pn_title p)); (s "Desc", short (pn_desc p)); (s "ProjectName", short projectName); (s "ProjectPath", verbatim projectPath)].

(** ** Scenes *)

(** the titles of elements, in order; titled: all of them exist and have one *)
Definition titled {A} (title : A -> option str) (d : dict A) (ids : list str) (titles : list str) : Prop :=
  Forall2 (fun i t => exists a, dget i d = Some a /\ title a = Some t) ids titles.
Definition known {A} (d : dict A) (ids : list str) : Prop := forall i, In i ids -> exists a, dget i d = Some a.
(** the names of the elements; nothing if there is no list or one of the elements has no title *)
Definition names {A} (title : A -> option str) (d : dict A) (ids : option (list str)) (v : str) : Prop :=
  (exists l ts, ids = Some l /\ titled title d l ts /\ v = comma_list ts) \/
  (v = [] /\ forall l ts, ids = Some l -> ~ titled title d l ts).
(** the first character's title; nothing if there is none, or if one of the characters does not exist *)
Definition viewpoint (ids : option (list str)) (v : str) : Prop :=
  (exists i l c, ids = Some (i :: l) /\ known (nv_characters n) (i :: l) /\ dget i (nv_characters n) = Some c /\ verbatim (cr_title c) v) \/
  (v = [] /\ forall i l, ids = Some (i :: l) -> ~ known (nv_characters n) (i :: l)).

(** the completion status *)
Definition status (z : option Z) (v : str) : Prop :=
  (z = Some 0%Z /\ v = s "None") \/ (z = Some 1%Z /\ v = s "Outline") \/ (z = Some 2%Z /\ v = s "Draft") \/
  (z = Some 3%Z /\ v = s "1st Edit") \/ (z = Some 4%Z /\ v = s "2nd Edit") \/ (z = Some 5%Z /\ v = s "Done").
(** the time without the seconds: what precedes the last colon *)
Definition time (t : option str) (v : str) : Prop :=
  (t = None /\ v = []) \/ (exists sec, t = Some (v ++ s ":" ++ sec) /\ ~ In 58%N sec) \/ (t = Some v /\ ~ In 58%N v).
(** a scene has a date (unless it is the null date), or a day, or none of them *)
Definition has_date (x : scene) : Prop := exists d, sc_date x = Some d /\ d <> s "0001-01-01".
Definition date (x : scene) (v : str) : Prop := (has_date x /\ sc_date x = Some v) \/ (~ has_date x /\ v = []).
Definition day (x : scene) (v : str) : Prop :=
  (has_date x /\ v = []) \/ (~ has_date x /\ sc_day x = Some v) \/ (~ has_date x /\ sc_day x = None /\ v = []).
Definition date_or_day (x : scene) (v : str) : Prop :=
  (has_date x /\ sc_date x = Some v) \/ (~ has_date x /\ exists d, sc_day x = Some d /\ v = s "Day " ++ d) \/ (~ has_date x /\ sc_day x = None /\ v = []).
(** a duration, nothing for 0 *)
Definition amount (t : option str) (unit v : str) : Prop :=
  (exists a, t = Some a /\ a <> s "0" /\ v = a ++ unit) \/ ((t = None \/ t = Some (s "0")) /\ v = []).
Definition duration (x : scene) (v : str) : Prop :=
  exists d h m, amount (sc_lastsDays x) (s "d ") d /\ amount (sc_lastsHours x) (s "h ") h /\ amount (sc_lastsMinutes x) (s "min") m /\ v = d ++ h ++ m.

Definition scene_table (id : str) (k words letters : nat) : table :=
  let x := scene_of n id in
  [(s "ID", exactly id); (s "SceneNumber", counter k); (s "Title", short (sc_title x)); (s "Desc", long (sc_desc x)); (s "SceneContent", long (sc_content x));
   (s "Notes", long (sc_notes x)); (s "Tags", tags short (sc_tags x)); (s "Goal", long (sc_goal x)); (s "Conflict", long (sc_conflict x)); (s "Outcome", long (sc_outcome x));
   (s "WordCount", number (sc_wordCount x)); (s "WordsTotal", number words); (s "LetterCount", number (sc_letterCount x)); (s "LettersTotal", number letters);
   (s "Status", status (sc_status x));
   (s "ReactionScene", fun v => (sc_isReactionScene x = Some true /\ v = s "R") \/ (sc_isReactionScene x <> Some true /\ v = s "A"));
   (s "FieldTitle1", short (nv_fieldTitle1 n)); (s "FieldTitle2", short (nv_fieldTitle2 n)); (s "FieldTitle3", short (nv_fieldTitle3 n)); (s "FieldTitle4", short (nv_fieldTitle4 n));
   (s "Field1", verbatim (sc_field1 x)); (s "Field2", verbatim (sc_field2 x)); (s "Field3", verbatim (sc_field3 x)); (s "Field4", verbatim (sc_field4 x));
   (s "Date", date x); (s "Day", day x); (s "ScDate", date_or_day x); (s "Time", time (sc_time x));
   (s "LastsDays", amount (sc_lastsDays x) []); (s "LastsHours", amount (sc_lastsHours x) []); (s "LastsMinutes", amount (sc_lastsMinutes x) []); (s "Duration", duration x);
   (s "Characters", names cr_title (nv_characters n) (sc_characters x)); (s "Viewpoint", viewpoint (sc_characters x));
   (s "Locations", names we_title (nv_locations n) (sc_locations x)); (s "Items", names we_title (nv_items n) (sc_items x));
   (s "Image", verbatim (sc_image x)); (s "ProjectName", short projectName); (s "ProjectPath", verbatim projectPath);
   (s "Language", verbatim (nv_languageCode n)); (s "Country", verbatim (nv_countryCode n))].

(** ** Documents *)
Definition block_shown (e : exporter) (b : block) (t : str) : Prop :=
  match b with
  | BHeading ch k => rendered (chapter_table ch k) (heading e (chapter_kind n ch)) t
  | BDivider => t = t_divider e
  | BScene ch i first k w l => rendered (scene_table i k w l) (scene_form e n ch i first) t
  | BEnding ch k => rendered (chapter_table ch k) (ending e (chapter_kind n ch)) t
  end.
(** a list of elements: the heading, if any, then one text for each element of the list that the export accepts, in order *)
Definition elements_shown {A} (tb : str -> A -> table) (d : dict A) (tpl : str) (ids : list str) (texts : list str) : Prop :=
  Forall2 (fun i t => exists a, dget i d = Some a /\ rendered (tb i a) tpl t) ids texts.
End Tables.
