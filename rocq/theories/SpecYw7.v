(** Vocabulary for the statements about yWriter project files: which texts and novels can be represented,
    and what "the same" means.  Nothing here refers to the functions that write or read files. *)
From Coq Require Import List NArith ZArith Bool Lia Arith.
From Verif Require Import PyStr PyDict NovelModel IsoDate.
Import ListNotations.

(** ** Texts *)
(** the characters XML 1.0 allows, without the carriage return and the vertical bar *)
Definition file_char (c : N) : Prop :=
  (c = 9 \/ c = 10 \/ (32 <= c <= 55295 /\ c <> 124) \/ 57344 <= c <= 65533 \/ 65536 <= c <= 1114111)%N.
Definition occurs (p t : str) : Prop := exists a b, t = a ++ p ++ b.
(** the two patterns the post-processing deletes *)
Definition cdata_blank : str := s "[CDATA[ " ++ [10%N].
Definition newline_close : str := 10%N :: s "]]".

(** texts of fields stored as CDATA: any text that does not contain ]]>, does not end with a line break
    and does not begin with blank and line break (apart from those rare patterns inside) *)
Definition long_text (v : str) : Prop :=
  Forall file_char v /\ ~ occurs (s "]]>") v /\ ~ occurs cdata_blank (s "[CDATA[" ++ v) /\ ~ occurs newline_close (v ++ s "]]").
(** texts of the other fields: no markup *)
Definition plain_text (v : str) : Prop :=
  Forall file_char v /\ ~ In 60%N v /\ ~ In 38%N v /\ ~ occurs (s "]]>") v /\ ~ occurs cdata_blank v /\ ~ occurs newline_close v.
(** one line of text *)
Definition line_text (v : str) : Prop := Forall file_char v /\ ~ In 10%N v.
Definition no_markup_char (v : str) : Prop := forall c, In c v -> ~ In c [34; 38; 39; 60; 62]%N.

Definition opt_ok (P : str -> Prop) (x : option str) : Prop := match x with None => True | Some v => P v end.
Definition text_of (x : option str) : str := match x with Some v => v | None => [] end.
(** a missing text and the empty text are the same *)
Definition same_text (a b : option str) : Prop := text_of a = text_of b.
Definition list_of {A} (x : option (list A)) : list A := match x with Some l => l | None => [] end.
Definition same_list {A} (a b : option (list A)) : Prop := list_of a = list_of b.
Definition flag (b : option bool) : bool := match b with Some true => true | _ => false end.
Definition number (t : option N) : N := match t with Some v => v | None => 0%N end.

Definition id_text (i : str) : Prop := i <> [] /\ plain_text i.
(** a tag: not empty, no white space around it, no semicolon, one line, no bracket *)
Definition tag_text (t : str) : Prop := t <> [] /\ strip t = t /\ ~ In 59%N t /\ ~ In 93%N t /\ line_text t.
Definition tags_ok (x : option (list str)) : Prop := NoDup (list_of x) /\ forall t, In t (list_of x) -> tag_text t.

(** ** The start of a scene *)
(** hh:mm:00 *)
Definition hour_minute (t : str) : Prop := exists h m, t = h ++ s ":" ++ m ++ s ":00" /\ length h = 2 /\ length m = 2 /\
  all_digits h = true /\ all_digits m = true.
Definition day_number (y : str) : Prop := y <> [] /\ all_digits y = true.
(** a calendar date with a time; or a day number and/or a time; or nothing *)
Inductive start_text : option str -> option str -> option str -> Prop :=
| st_date : forall d t, valid_date d = true -> valid_time t = true -> start_text (Some d) (Some t) None
| st_day_time : forall y t, day_number y -> hour_minute t -> start_text None (Some t) (Some y)
| st_day : forall y, day_number y -> start_text None None (Some y)
| st_time : forall t, hour_minute t -> start_text None (Some t) None
| st_none : start_text None None None.

(** ** Novels that can be represented in a project file *)
(** the arcs and the mode of a scene are attributes which hide the keyword variables of the same name *)
Definition kw_value (f : str) (kw : dict (option str)) : option str := match dget f kw with Some v => v | None => None end.
Definition arcs_of (x : scene) : option str :=
  match sc_scnArcs x with Some a => Some a | None => kw_value (s "Field_SceneArcs") (sc_kw x) end.
Definition mode_of (x : scene) : Z := match sc_scnMode x with Some m => m | None => 0%Z end.

Record scene_ok (cs ls : list str) (x : scene) : Prop := {
  so_title : opt_ok long_text (sc_title x);
  so_desc : opt_ok long_text (sc_desc x);
  so_content : opt_ok long_text (sc_content x);
  so_notes : opt_ok long_text (sc_notes x);
  so_goal : opt_ok long_text (sc_goal x);
  so_outcome : opt_ok long_text (sc_outcome x);
  so_image : opt_ok long_text (sc_image x);
  so_conflict : opt_ok plain_text (sc_conflict x);
  so_field1 : opt_ok plain_text (sc_field1 x);
  so_field2 : opt_ok plain_text (sc_field2 x);
  so_field3 : opt_ok plain_text (sc_field3 x);
  so_field4 : opt_ok plain_text (sc_field4 x);
  so_days : opt_ok plain_text (sc_lastsDays x);
  so_hours : opt_ok plain_text (sc_lastsHours x);
  so_minutes : opt_ok plain_text (sc_lastsMinutes x);
  so_type : (number (sc_type x) <= 3)%N;
  so_tags : tags_ok (sc_tags x);
  so_start : start_text (sc_date x) (sc_time x) (sc_day x);
  so_characters : forall a, In a (list_of (sc_characters x)) -> id_text a /\ In a cs;
  so_locations : forall a, In a (list_of (sc_locations x)) -> id_text a /\ In a ls;
  so_items : forall a, In a (list_of (sc_items x)) -> id_text a;
  so_arcs : opt_ok (fun v => long_text v /\ no_markup_char v) (arcs_of x);
  so_mode : sc_scnMode x = None -> kw_value (s "Field_SceneMode") (sc_kw x) = None
}.

Record chapter_ok (scs : list str) (c : chapter) : Prop := {
  co_title : opt_ok long_text (ch_title c);
  co_desc : opt_ok long_text (ch_desc c);
  co_type : (number (ch_type c) <= 3)%N;
  co_level : ch_level c = None \/ ch_level c = Some 0%N \/ ch_level c = Some 1%N;
  co_scenes : forall a, In a (ch_srtScenes c) -> id_text a /\ In a scs
}.

Record world_ok (fields : list str) (w : world) : Prop := {
  wo_title : opt_ok long_text (we_title w);
  wo_desc : opt_ok long_text (we_desc w);
  wo_image : opt_ok long_text (we_image w);
  wo_aka : opt_ok long_text (we_aka w);
  wo_tags : tags_ok (we_tags w);
  wo_fields : forall f, In f fields -> opt_ok line_text (kw_value f (we_kw w))
}.

Record character_ok (fields : list str) (c : character) : Prop := {
  ro_title : opt_ok long_text (cr_title c);
  ro_desc : opt_ok long_text (cr_desc c);
  ro_image : opt_ok long_text (cr_image c);
  ro_aka : opt_ok long_text (cr_aka c);
  ro_notes : opt_ok long_text (cr_notes c);
  ro_bio : opt_ok long_text (cr_bio c);
  ro_goals : opt_ok long_text (cr_goals c);
  ro_fullName : opt_ok long_text (cr_fullName c);
  ro_tags : tags_ok (cr_tags c);
  ro_fields : forall f, In f fields -> opt_ok line_text (kw_value f (cr_kw c))
}.

Record note_ok (x : note) : Prop := { no_title : opt_ok long_text (pn_title x); no_desc : opt_ok long_text (pn_desc x) }.

(** a language code *)
Definition code_text (c : str) : Prop := line_text c /\ ~ In 61%N c /\ ~ In 93%N c.

(** the name of the system locale, if there is one *)
Definition locale_text (x : option str) : Prop := opt_ok (fun v => line_text v /\ ~ In 93%N v) x.

Definition ids_text (ids : list str) : Prop := NoDup ids /\ forall i, In i ids -> id_text i.
(** every listed ID has an element, and all these elements can be stored *)
Definition listed {A} (P : A -> Prop) (ids : list str) (d : dict A) : Prop :=
  ids_text ids /\ forall i, In i ids -> exists a, dget i d = Some a /\ P a.

Definition link : list str := [s "Field_Link"].
Definition character_fields : list str := [s "Field_Link"; s "Field_BirthDate"; s "Field_DeathDate"].

(** no language tag in a scene has an equal sign in its language code *)
Definition plain_tags (n : novel) : Prop := forall i x t c, dget i (nv_scenes n) = Some x -> sc_content x = Some t -> ~ In 93%N c ->
  occurs (s "[lang=" ++ c ++ s "]") t -> ~ In 61%N c.

Record representable (n : novel) : Prop := {
  re_title : opt_ok long_text (nv_title n);
  re_desc : opt_ok long_text (nv_desc n);
  re_author : opt_ok long_text (nv_authorName n);
  re_bio : opt_ok long_text (nv_authorBio n);
  re_f1 : opt_ok long_text (nv_fieldTitle1 n);
  re_f2 : opt_ok long_text (nv_fieldTitle2 n);
  re_f3 : opt_ok long_text (nv_fieldTitle3 n);
  re_f4 : opt_ok long_text (nv_fieldTitle4 n);
  re_locations : listed (world_ok link) (nv_srtLocations n) (nv_locations n);
  re_items : listed (world_ok link) (nv_srtItems n) (nv_items n);
  re_characters : listed (character_ok character_fields) (nv_srtCharacters n) (nv_characters n);
  re_notes : listed note_ok (nv_srtPrjNotes n) (nv_projectNotes n);
  re_scenes : ids_text (dkeys (nv_scenes n)) /\
              forall i x, dget i (nv_scenes n) = Some x -> scene_ok (nv_srtCharacters n) (nv_srtLocations n) x;
  re_chapters : ids_text (nv_srtChapters n) /\ dkeys (nv_chapters n) = nv_srtChapters n /\
                forall i c, dget i (nv_chapters n) = Some c -> chapter_ok (dkeys (nv_scenes n)) c;
  (** the scenes of a Notes, Todo or Unused chapter have the type of the chapter *)
  re_types : forall i c, dget i (nv_chapters n) = Some c -> number (ch_type c) <> 0%N ->
     forall j x, In j (ch_srtScenes c) -> dget j (nv_scenes n) = Some x -> number (sc_type x) = number (ch_type c);
  re_code : opt_ok long_text (nv_languageCode n);
  re_country : opt_ok long_text (nv_countryCode n);
  (** the languages, collected from the language tags in the scenes if not given *)
  re_languages : match nv_languages n with
     | Some ls => NoDup ls /\ forall c, In c ls -> code_text c
     | None => plain_tags n
     end
}.

(** ** What is the same after reading *)
Record same_scene (x y : scene) : Prop := {
  ss_title : same_text (sc_title x) (sc_title y);
  ss_desc : same_text (sc_desc x) (sc_desc y);
  ss_content : same_text (sc_content x) (sc_content y);
  ss_notes : same_text (sc_notes x) (sc_notes y);
  ss_goal : same_text (sc_goal x) (sc_goal y);
  ss_conflict : same_text (sc_conflict x) (sc_conflict y);
  ss_outcome : same_text (sc_outcome x) (sc_outcome y);
  ss_image : same_text (sc_image x) (sc_image y);
  ss_fields : same_text (sc_field1 x) (sc_field1 y) /\ same_text (sc_field2 x) (sc_field2 y) /\
              same_text (sc_field3 x) (sc_field3 y) /\ same_text (sc_field4 x) (sc_field4 y);
  ss_lasts : same_text (sc_lastsDays x) (sc_lastsDays y) /\ same_text (sc_lastsHours x) (sc_lastsHours y) /\
             same_text (sc_lastsMinutes x) (sc_lastsMinutes y);
  ss_type : sc_type y = Some (number (sc_type x));
  ss_status : sc_status y = sc_status x;
  ss_tags : same_list (sc_tags x) (sc_tags y);
  ss_flags : flag (sc_appendToPrev y) = flag (sc_appendToPrev x) /\ flag (sc_isReactionScene y) = flag (sc_isReactionScene x) /\
             flag (sc_isSubPlot y) = flag (sc_isSubPlot x) /\ flag (sc_doNotExport y) = flag (sc_doNotExport x);
  ss_start : (sc_date y, sc_time y, sc_day y) = (sc_date x, sc_time x, sc_day x);
  ss_characters : same_list (sc_characters x) (sc_characters y);
  ss_locations : same_list (sc_locations x) (sc_locations y);
  ss_arcs : same_text (arcs_of x) (sc_scnArcs y);
  ss_mode : mode_of y = mode_of x
}.

Record same_chapter (c d : chapter) : Prop := {
  sh_title : same_text (ch_title c) (ch_title d);
  sh_desc : same_text (ch_desc c) (ch_desc d);
  sh_type : ch_type d = Some (number (ch_type c));
  sh_level : number (ch_level d) = number (ch_level c);
  sh_trash : flag (ch_isTrash d) = flag (ch_isTrash c);
  sh_break : flag (ch_suppressBreak d) = flag (ch_suppressBreak c);
  (** a title beginning with @ is suppressed *)
  sh_suppress : flag (ch_suppressTitle d) = (flag (ch_suppressTitle c) || prefixb (s "@") (text_of (ch_title c)))%bool;
  sh_scenes : ch_srtScenes d = ch_srtScenes c
}.

Record same_world (fields : list str) (v w : world) : Prop := {
  sw_title : same_text (we_title v) (we_title w);
  sw_desc : same_text (we_desc v) (we_desc w);
  sw_image : same_text (we_image v) (we_image w);
  sw_aka : same_text (we_aka v) (we_aka w);
  sw_tags : same_list (we_tags v) (we_tags w);
  sw_fields : forall f, In f fields -> same_text (kw_value f (we_kw v)) (kw_value f (we_kw w))
}.

Record same_character (fields : list str) (v w : character) : Prop := {
  sr_title : same_text (cr_title v) (cr_title w);
  sr_desc : same_text (cr_desc v) (cr_desc w);
  sr_image : same_text (cr_image v) (cr_image w);
  sr_aka : same_text (cr_aka v) (cr_aka w);
  sr_notes : same_text (cr_notes v) (cr_notes w);
  sr_bio : same_text (cr_bio v) (cr_bio w);
  sr_goals : same_text (cr_goals v) (cr_goals w);
  sr_fullName : same_text (cr_fullName v) (cr_fullName w);
  sr_major : flag (cr_isMajor w) = flag (cr_isMajor v);
  sr_tags : same_list (cr_tags v) (cr_tags w);
  sr_fields : forall f, In f fields -> same_text (kw_value f (cr_kw v)) (kw_value f (cr_kw w))
}.

Definition same_note (v w : note) : Prop := same_text (pn_title v) (pn_title w) /\ same_text (pn_desc v) (pn_desc w).

(** the same IDs in the same order, and related elements *)
Definition same_listing {A} (P : A -> A -> Prop) (ids : list str) (d : dict A) (ids' : list str) (d' : dict A) : Prop :=
  ids' = ids /\ dkeys d' = ids /\ forall i, In i ids -> exists a b, dget i d = Some a /\ dget i d' = Some b /\ P a b.

(** chapters and scenes *)
Record same_story (n n' : novel) : Prop := {
  sn_scene_ids : dkeys (nv_scenes n') = dkeys (nv_scenes n);
  sn_scenes : forall i x, dget i (nv_scenes n) = Some x -> exists y, dget i (nv_scenes n') = Some y /\ same_scene x y;
  sn_chapters : same_listing same_chapter (nv_srtChapters n) (nv_chapters n) (nv_srtChapters n') (nv_chapters n')
}.

(** everything else; [lang], [country]: the language settings after the check of the locale *)
Record same_world_data (n n' : novel) : Prop := {
  sd_title : same_text (nv_title n) (nv_title n');
  sd_desc : same_text (nv_desc n) (nv_desc n');
  sd_author : same_text (nv_authorName n) (nv_authorName n');
  sd_bio : same_text (nv_authorBio n) (nv_authorBio n');
  sd_fields : same_text (nv_fieldTitle1 n) (nv_fieldTitle1 n') /\ same_text (nv_fieldTitle2 n) (nv_fieldTitle2 n') /\
              same_text (nv_fieldTitle3 n) (nv_fieldTitle3 n') /\ same_text (nv_fieldTitle4 n) (nv_fieldTitle4 n');
  sd_target : nv_wordTarget n' = nv_wordTarget n;
  sd_start : nv_wordCountStart n' = nv_wordCountStart n;
  sd_locations : same_listing (same_world link) (nv_srtLocations n) (nv_locations n) (nv_srtLocations n') (nv_locations n');
  sd_items : same_listing (same_world link) (nv_srtItems n) (nv_items n) (nv_srtItems n') (nv_items n');
  sd_characters : same_listing (same_character character_fields) (nv_srtCharacters n) (nv_characters n) (nv_srtCharacters n') (nv_characters n');
  sd_notes : same_listing same_note (nv_srtPrjNotes n) (nv_projectNotes n) (nv_srtPrjNotes n') (nv_projectNotes n')
}.
