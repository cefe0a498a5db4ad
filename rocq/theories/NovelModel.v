(** GENERATED by tools/gen_novel.py.  The data model: src/pywriter/model/*.py.
    Attributes are the instance variables of the Python classes, [None] being Python's None.
    Simplifications: the types 0..3 of chapters and scenes and the level 0/1 are natural numbers;
    word and letter count are natural numbers. *)
From Coq Require Import List NArith ZArith Bool.
From Verif Require Import PyStr PyDict.
Import ListNotations.

(** src/pywriter/model/basic_element.py 17-27 BasicElement *)
Record note := mkNote {
  pn_title : option str;
  pn_desc : option str;
  pn_kw : dict (option str) }.
(** BasicElement() with all attributes at their initial values (src/pywriter/model/basic_element.py 17-27 BasicElement) *)
Definition new_note : note :=
  mkNote None None [].
Definition set_pn_title (v : option str) (x : note) : note :=
  mkNote v (pn_desc x) (pn_kw x).
Definition set_pn_desc (v : option str) (x : note) : note :=
  mkNote (pn_title x) v (pn_kw x).
Definition set_pn_kw (v : dict (option str)) (x : note) : note :=
  mkNote (pn_title x) (pn_desc x) v.

(** src/pywriter/model/world_element.py 19-33 WorldElement *)
Record world := mkWorld {
  we_title : option str;
  we_desc : option str;
  we_kw : dict (option str);
  we_image : option str;
  we_tags : option (list str);
  we_aka : option str }.
(** WorldElement() with all attributes at their initial values (src/pywriter/model/world_element.py 19-33 WorldElement) *)
Definition new_world : world :=
  mkWorld None None [] None None None.
Definition set_we_title (v : option str) (x : world) : world :=
  mkWorld v (we_desc x) (we_kw x) (we_image x) (we_tags x) (we_aka x).
Definition set_we_desc (v : option str) (x : world) : world :=
  mkWorld (we_title x) v (we_kw x) (we_image x) (we_tags x) (we_aka x).
Definition set_we_kw (v : dict (option str)) (x : world) : world :=
  mkWorld (we_title x) (we_desc x) v (we_image x) (we_tags x) (we_aka x).
Definition set_we_image (v : option str) (x : world) : world :=
  mkWorld (we_title x) (we_desc x) (we_kw x) v (we_tags x) (we_aka x).
Definition set_we_tags (v : option (list str)) (x : world) : world :=
  mkWorld (we_title x) (we_desc x) (we_kw x) (we_image x) v (we_aka x).
Definition set_we_aka (v : option str) (x : world) : world :=
  mkWorld (we_title x) (we_desc x) (we_kw x) (we_image x) (we_tags x) v.

(** src/pywriter/model/character.py 23-40 Character *)
Record character := mkCharacter {
  cr_title : option str;
  cr_desc : option str;
  cr_kw : dict (option str);
  cr_image : option str;
  cr_tags : option (list str);
  cr_aka : option str;
  cr_notes : option str;
  cr_bio : option str;
  cr_goals : option str;
  cr_fullName : option str;
  cr_isMajor : option bool }.
(** Character() with all attributes at their initial values (src/pywriter/model/character.py 23-40 Character) *)
Definition new_character : character :=
  mkCharacter None None [] None None None None None None None None.
Definition set_cr_title (v : option str) (x : character) : character :=
  mkCharacter v (cr_desc x) (cr_kw x) (cr_image x) (cr_tags x) (cr_aka x) (cr_notes x) (cr_bio x) (cr_goals x) (cr_fullName x) (cr_isMajor x).
Definition set_cr_desc (v : option str) (x : character) : character :=
  mkCharacter (cr_title x) v (cr_kw x) (cr_image x) (cr_tags x) (cr_aka x) (cr_notes x) (cr_bio x) (cr_goals x) (cr_fullName x) (cr_isMajor x).
Definition set_cr_kw (v : dict (option str)) (x : character) : character :=
  mkCharacter (cr_title x) (cr_desc x) v (cr_image x) (cr_tags x) (cr_aka x) (cr_notes x) (cr_bio x) (cr_goals x) (cr_fullName x) (cr_isMajor x).
Definition set_cr_image (v : option str) (x : character) : character :=
  mkCharacter (cr_title x) (cr_desc x) (cr_kw x) v (cr_tags x) (cr_aka x) (cr_notes x) (cr_bio x) (cr_goals x) (cr_fullName x) (cr_isMajor x).
Definition set_cr_tags (v : option (list str)) (x : character) : character :=
  mkCharacter (cr_title x) (cr_desc x) (cr_kw x) (cr_image x) v (cr_aka x) (cr_notes x) (cr_bio x) (cr_goals x) (cr_fullName x) (cr_isMajor x).
Definition set_cr_aka (v : option str) (x : character) : character :=
  mkCharacter (cr_title x) (cr_desc x) (cr_kw x) (cr_image x) (cr_tags x) v (cr_notes x) (cr_bio x) (cr_goals x) (cr_fullName x) (cr_isMajor x).
Definition set_cr_notes (v : option str) (x : character) : character :=
  mkCharacter (cr_title x) (cr_desc x) (cr_kw x) (cr_image x) (cr_tags x) (cr_aka x) v (cr_bio x) (cr_goals x) (cr_fullName x) (cr_isMajor x).
Definition set_cr_bio (v : option str) (x : character) : character :=
  mkCharacter (cr_title x) (cr_desc x) (cr_kw x) (cr_image x) (cr_tags x) (cr_aka x) (cr_notes x) v (cr_goals x) (cr_fullName x) (cr_isMajor x).
Definition set_cr_goals (v : option str) (x : character) : character :=
  mkCharacter (cr_title x) (cr_desc x) (cr_kw x) (cr_image x) (cr_tags x) (cr_aka x) (cr_notes x) (cr_bio x) v (cr_fullName x) (cr_isMajor x).
Definition set_cr_fullName (v : option str) (x : character) : character :=
  mkCharacter (cr_title x) (cr_desc x) (cr_kw x) (cr_image x) (cr_tags x) (cr_aka x) (cr_notes x) (cr_bio x) (cr_goals x) v (cr_isMajor x).
Definition set_cr_isMajor (v : option bool) (x : character) : character :=
  mkCharacter (cr_title x) (cr_desc x) (cr_kw x) (cr_image x) (cr_tags x) (cr_aka x) (cr_notes x) (cr_bio x) (cr_goals x) (cr_fullName x) v.

(** src/pywriter/model/scene.py 79-215 Scene.__init__ *)
Record scene := mkScene {
  sc_title : option str;
  sc_desc : option str;
  sc_kw : dict (option str);
  sc_content : option str;
  sc_wordCount : nat;
  sc_letterCount : nat;
  sc_type : option N;
  sc_doNotExport : option bool;
  sc_status : option Z;
  sc_notes : option str;
  sc_tags : option (list str);
  sc_field1 : option str;
  sc_field2 : option str;
  sc_field3 : option str;
  sc_field4 : option str;
  sc_appendToPrev : option bool;
  sc_isReactionScene : option bool;
  sc_isSubPlot : option bool;
  sc_goal : option str;
  sc_conflict : option str;
  sc_outcome : option str;
  sc_characters : option (list str);
  sc_locations : option (list str);
  sc_items : option (list str);
  sc_date : option str;
  sc_time : option str;
  sc_day : option str;
  sc_lastsMinutes : option str;
  sc_lastsHours : option str;
  sc_lastsDays : option str;
  sc_image : option str;
  sc_scnArcs : option str;
  sc_scnMode : option Z }.
(** Scene() with all attributes at their initial values (src/pywriter/model/scene.py 79-215 Scene.__init__) *)
Definition new_scene : scene :=
  mkScene None None [] None 0 0 None None None None None None None None None None None None None None None None None None None None None None None None None None None.
Definition set_sc_title (v : option str) (x : scene) : scene :=
  mkScene v (sc_desc x) (sc_kw x) (sc_content x) (sc_wordCount x) (sc_letterCount x) (sc_type x) (sc_doNotExport x) (sc_status x) (sc_notes x) (sc_tags x) (sc_field1 x) (sc_field2 x) (sc_field3 x) (sc_field4 x) (sc_appendToPrev x) (sc_isReactionScene x) (sc_isSubPlot x) (sc_goal x) (sc_conflict x) (sc_outcome x) (sc_characters x) (sc_locations x) (sc_items x) (sc_date x) (sc_time x) (sc_day x) (sc_lastsMinutes x) (sc_lastsHours x) (sc_lastsDays x) (sc_image x) (sc_scnArcs x) (sc_scnMode x).
Definition set_sc_desc (v : option str) (x : scene) : scene :=
  mkScene (sc_title x) v (sc_kw x) (sc_content x) (sc_wordCount x) (sc_letterCount x) (sc_type x) (sc_doNotExport x) (sc_status x) (sc_notes x) (sc_tags x) (sc_field1 x) (sc_field2 x) (sc_field3 x) (sc_field4 x) (sc_appendToPrev x) (sc_isReactionScene x) (sc_isSubPlot x) (sc_goal x) (sc_conflict x) (sc_outcome x) (sc_characters x) (sc_locations x) (sc_items x) (sc_date x) (sc_time x) (sc_day x) (sc_lastsMinutes x) (sc_lastsHours x) (sc_lastsDays x) (sc_image x) (sc_scnArcs x) (sc_scnMode x).
Definition set_sc_kw (v : dict (option str)) (x : scene) : scene :=
  mkScene (sc_title x) (sc_desc x) v (sc_content x) (sc_wordCount x) (sc_letterCount x) (sc_type x) (sc_doNotExport x) (sc_status x) (sc_notes x) (sc_tags x) (sc_field1 x) (sc_field2 x) (sc_field3 x) (sc_field4 x) (sc_appendToPrev x) (sc_isReactionScene x) (sc_isSubPlot x) (sc_goal x) (sc_conflict x) (sc_outcome x) (sc_characters x) (sc_locations x) (sc_items x) (sc_date x) (sc_time x) (sc_day x) (sc_lastsMinutes x) (sc_lastsHours x) (sc_lastsDays x) (sc_image x) (sc_scnArcs x) (sc_scnMode x).
Definition set_sc_content (v : option str) (x : scene) : scene :=
  mkScene (sc_title x) (sc_desc x) (sc_kw x) v (sc_wordCount x) (sc_letterCount x) (sc_type x) (sc_doNotExport x) (sc_status x) (sc_notes x) (sc_tags x) (sc_field1 x) (sc_field2 x) (sc_field3 x) (sc_field4 x) (sc_appendToPrev x) (sc_isReactionScene x) (sc_isSubPlot x) (sc_goal x) (sc_conflict x) (sc_outcome x) (sc_characters x) (sc_locations x) (sc_items x) (sc_date x) (sc_time x) (sc_day x) (sc_lastsMinutes x) (sc_lastsHours x) (sc_lastsDays x) (sc_image x) (sc_scnArcs x) (sc_scnMode x).
Definition set_sc_wordCount (v : nat) (x : scene) : scene :=
  mkScene (sc_title x) (sc_desc x) (sc_kw x) (sc_content x) v (sc_letterCount x) (sc_type x) (sc_doNotExport x) (sc_status x) (sc_notes x) (sc_tags x) (sc_field1 x) (sc_field2 x) (sc_field3 x) (sc_field4 x) (sc_appendToPrev x) (sc_isReactionScene x) (sc_isSubPlot x) (sc_goal x) (sc_conflict x) (sc_outcome x) (sc_characters x) (sc_locations x) (sc_items x) (sc_date x) (sc_time x) (sc_day x) (sc_lastsMinutes x) (sc_lastsHours x) (sc_lastsDays x) (sc_image x) (sc_scnArcs x) (sc_scnMode x).
Definition set_sc_letterCount (v : nat) (x : scene) : scene :=
  mkScene (sc_title x) (sc_desc x) (sc_kw x) (sc_content x) (sc_wordCount x) v (sc_type x) (sc_doNotExport x) (sc_status x) (sc_notes x) (sc_tags x) (sc_field1 x) (sc_field2 x) (sc_field3 x) (sc_field4 x) (sc_appendToPrev x) (sc_isReactionScene x) (sc_isSubPlot x) (sc_goal x) (sc_conflict x) (sc_outcome x) (sc_characters x) (sc_locations x) (sc_items x) (sc_date x) (sc_time x) (sc_day x) (sc_lastsMinutes x) (sc_lastsHours x) (sc_lastsDays x) (sc_image x) (sc_scnArcs x) (sc_scnMode x).
Definition set_sc_type (v : option N) (x : scene) : scene :=
  mkScene (sc_title x) (sc_desc x) (sc_kw x) (sc_content x) (sc_wordCount x) (sc_letterCount x) v (sc_doNotExport x) (sc_status x) (sc_notes x) (sc_tags x) (sc_field1 x) (sc_field2 x) (sc_field3 x) (sc_field4 x) (sc_appendToPrev x) (sc_isReactionScene x) (sc_isSubPlot x) (sc_goal x) (sc_conflict x) (sc_outcome x) (sc_characters x) (sc_locations x) (sc_items x) (sc_date x) (sc_time x) (sc_day x) (sc_lastsMinutes x) (sc_lastsHours x) (sc_lastsDays x) (sc_image x) (sc_scnArcs x) (sc_scnMode x).
Definition set_sc_doNotExport (v : option bool) (x : scene) : scene :=
  mkScene (sc_title x) (sc_desc x) (sc_kw x) (sc_content x) (sc_wordCount x) (sc_letterCount x) (sc_type x) v (sc_status x) (sc_notes x) (sc_tags x) (sc_field1 x) (sc_field2 x) (sc_field3 x) (sc_field4 x) (sc_appendToPrev x) (sc_isReactionScene x) (sc_isSubPlot x) (sc_goal x) (sc_conflict x) (sc_outcome x) (sc_characters x) (sc_locations x) (sc_items x) (sc_date x) (sc_time x) (sc_day x) (sc_lastsMinutes x) (sc_lastsHours x) (sc_lastsDays x) (sc_image x) (sc_scnArcs x) (sc_scnMode x).
Definition set_sc_status (v : option Z) (x : scene) : scene :=
  mkScene (sc_title x) (sc_desc x) (sc_kw x) (sc_content x) (sc_wordCount x) (sc_letterCount x) (sc_type x) (sc_doNotExport x) v (sc_notes x) (sc_tags x) (sc_field1 x) (sc_field2 x) (sc_field3 x) (sc_field4 x) (sc_appendToPrev x) (sc_isReactionScene x) (sc_isSubPlot x) (sc_goal x) (sc_conflict x) (sc_outcome x) (sc_characters x) (sc_locations x) (sc_items x) (sc_date x) (sc_time x) (sc_day x) (sc_lastsMinutes x) (sc_lastsHours x) (sc_lastsDays x) (sc_image x) (sc_scnArcs x) (sc_scnMode x).
Definition set_sc_notes (v : option str) (x : scene) : scene :=
  mkScene (sc_title x) (sc_desc x) (sc_kw x) (sc_content x) (sc_wordCount x) (sc_letterCount x) (sc_type x) (sc_doNotExport x) (sc_status x) v (sc_tags x) (sc_field1 x) (sc_field2 x) (sc_field3 x) (sc_field4 x) (sc_appendToPrev x) (sc_isReactionScene x) (sc_isSubPlot x) (sc_goal x) (sc_conflict x) (sc_outcome x) (sc_characters x) (sc_locations x) (sc_items x) (sc_date x) (sc_time x) (sc_day x) (sc_lastsMinutes x) (sc_lastsHours x) (sc_lastsDays x) (sc_image x) (sc_scnArcs x) (sc_scnMode x).
Definition set_sc_tags (v : option (list str)) (x : scene) : scene :=
  mkScene (sc_title x) (sc_desc x) (sc_kw x) (sc_content x) (sc_wordCount x) (sc_letterCount x) (sc_type x) (sc_doNotExport x) (sc_status x) (sc_notes x) v (sc_field1 x) (sc_field2 x) (sc_field3 x) (sc_field4 x) (sc_appendToPrev x) (sc_isReactionScene x) (sc_isSubPlot x) (sc_goal x) (sc_conflict x) (sc_outcome x) (sc_characters x) (sc_locations x) (sc_items x) (sc_date x) (sc_time x) (sc_day x) (sc_lastsMinutes x) (sc_lastsHours x) (sc_lastsDays x) (sc_image x) (sc_scnArcs x) (sc_scnMode x).
Definition set_sc_field1 (v : option str) (x : scene) : scene :=
  mkScene (sc_title x) (sc_desc x) (sc_kw x) (sc_content x) (sc_wordCount x) (sc_letterCount x) (sc_type x) (sc_doNotExport x) (sc_status x) (sc_notes x) (sc_tags x) v (sc_field2 x) (sc_field3 x) (sc_field4 x) (sc_appendToPrev x) (sc_isReactionScene x) (sc_isSubPlot x) (sc_goal x) (sc_conflict x) (sc_outcome x) (sc_characters x) (sc_locations x) (sc_items x) (sc_date x) (sc_time x) (sc_day x) (sc_lastsMinutes x) (sc_lastsHours x) (sc_lastsDays x) (sc_image x) (sc_scnArcs x) (sc_scnMode x).
Definition set_sc_field2 (v : option str) (x : scene) : scene :=
  mkScene (sc_title x) (sc_desc x) (sc_kw x) (sc_content x) (sc_wordCount x) (sc_letterCount x) (sc_type x) (sc_doNotExport x) (sc_status x) (sc_notes x) (sc_tags x) (sc_field1 x) v (sc_field3 x) (sc_field4 x) (sc_appendToPrev x) (sc_isReactionScene x) (sc_isSubPlot x) (sc_goal x) (sc_conflict x) (sc_outcome x) (sc_characters x) (sc_locations x) (sc_items x) (sc_date x) (sc_time x) (sc_day x) (sc_lastsMinutes x) (sc_lastsHours x) (sc_lastsDays x) (sc_image x) (sc_scnArcs x) (sc_scnMode x).
Definition set_sc_field3 (v : option str) (x : scene) : scene :=
  mkScene (sc_title x) (sc_desc x) (sc_kw x) (sc_content x) (sc_wordCount x) (sc_letterCount x) (sc_type x) (sc_doNotExport x) (sc_status x) (sc_notes x) (sc_tags x) (sc_field1 x) (sc_field2 x) v (sc_field4 x) (sc_appendToPrev x) (sc_isReactionScene x) (sc_isSubPlot x) (sc_goal x) (sc_conflict x) (sc_outcome x) (sc_characters x) (sc_locations x) (sc_items x) (sc_date x) (sc_time x) (sc_day x) (sc_lastsMinutes x) (sc_lastsHours x) (sc_lastsDays x) (sc_image x) (sc_scnArcs x) (sc_scnMode x).
Definition set_sc_field4 (v : option str) (x : scene) : scene :=
  mkScene (sc_title x) (sc_desc x) (sc_kw x) (sc_content x) (sc_wordCount x) (sc_letterCount x) (sc_type x) (sc_doNotExport x) (sc_status x) (sc_notes x) (sc_tags x) (sc_field1 x) (sc_field2 x) (sc_field3 x) v (sc_appendToPrev x) (sc_isReactionScene x) (sc_isSubPlot x) (sc_goal x) (sc_conflict x) (sc_outcome x) (sc_characters x) (sc_locations x) (sc_items x) (sc_date x) (sc_time x) (sc_day x) (sc_lastsMinutes x) (sc_lastsHours x) (sc_lastsDays x) (sc_image x) (sc_scnArcs x) (sc_scnMode x).
Definition set_sc_appendToPrev (v : option bool) (x : scene) : scene :=
  mkScene (sc_title x) (sc_desc x) (sc_kw x) (sc_content x) (sc_wordCount x) (sc_letterCount x) (sc_type x) (sc_doNotExport x) (sc_status x) (sc_notes x) (sc_tags x) (sc_field1 x) (sc_field2 x) (sc_field3 x) (sc_field4 x) v (sc_isReactionScene x) (sc_isSubPlot x) (sc_goal x) (sc_conflict x) (sc_outcome x) (sc_characters x) (sc_locations x) (sc_items x) (sc_date x) (sc_time x) (sc_day x) (sc_lastsMinutes x) (sc_lastsHours x) (sc_lastsDays x) (sc_image x) (sc_scnArcs x) (sc_scnMode x).
Definition set_sc_isReactionScene (v : option bool) (x : scene) : scene :=
  mkScene (sc_title x) (sc_desc x) (sc_kw x) (sc_content x) (sc_wordCount x) (sc_letterCount x) (sc_type x) (sc_doNotExport x) (sc_status x) (sc_notes x) (sc_tags x) (sc_field1 x) (sc_field2 x) (sc_field3 x) (sc_field4 x) (sc_appendToPrev x) v (sc_isSubPlot x) (sc_goal x) (sc_conflict x) (sc_outcome x) (sc_characters x) (sc_locations x) (sc_items x) (sc_date x) (sc_time x) (sc_day x) (sc_lastsMinutes x) (sc_lastsHours x) (sc_lastsDays x) (sc_image x) (sc_scnArcs x) (sc_scnMode x).
Definition set_sc_isSubPlot (v : option bool) (x : scene) : scene :=
  mkScene (sc_title x) (sc_desc x) (sc_kw x) (sc_content x) (sc_wordCount x) (sc_letterCount x) (sc_type x) (sc_doNotExport x) (sc_status x) (sc_notes x) (sc_tags x) (sc_field1 x) (sc_field2 x) (sc_field3 x) (sc_field4 x) (sc_appendToPrev x) (sc_isReactionScene x) v (sc_goal x) (sc_conflict x) (sc_outcome x) (sc_characters x) (sc_locations x) (sc_items x) (sc_date x) (sc_time x) (sc_day x) (sc_lastsMinutes x) (sc_lastsHours x) (sc_lastsDays x) (sc_image x) (sc_scnArcs x) (sc_scnMode x).
Definition set_sc_goal (v : option str) (x : scene) : scene :=
  mkScene (sc_title x) (sc_desc x) (sc_kw x) (sc_content x) (sc_wordCount x) (sc_letterCount x) (sc_type x) (sc_doNotExport x) (sc_status x) (sc_notes x) (sc_tags x) (sc_field1 x) (sc_field2 x) (sc_field3 x) (sc_field4 x) (sc_appendToPrev x) (sc_isReactionScene x) (sc_isSubPlot x) v (sc_conflict x) (sc_outcome x) (sc_characters x) (sc_locations x) (sc_items x) (sc_date x) (sc_time x) (sc_day x) (sc_lastsMinutes x) (sc_lastsHours x) (sc_lastsDays x) (sc_image x) (sc_scnArcs x) (sc_scnMode x).
Definition set_sc_conflict (v : option str) (x : scene) : scene :=
  mkScene (sc_title x) (sc_desc x) (sc_kw x) (sc_content x) (sc_wordCount x) (sc_letterCount x) (sc_type x) (sc_doNotExport x) (sc_status x) (sc_notes x) (sc_tags x) (sc_field1 x) (sc_field2 x) (sc_field3 x) (sc_field4 x) (sc_appendToPrev x) (sc_isReactionScene x) (sc_isSubPlot x) (sc_goal x) v (sc_outcome x) (sc_characters x) (sc_locations x) (sc_items x) (sc_date x) (sc_time x) (sc_day x) (sc_lastsMinutes x) (sc_lastsHours x) (sc_lastsDays x) (sc_image x) (sc_scnArcs x) (sc_scnMode x).
Definition set_sc_outcome (v : option str) (x : scene) : scene :=
  mkScene (sc_title x) (sc_desc x) (sc_kw x) (sc_content x) (sc_wordCount x) (sc_letterCount x) (sc_type x) (sc_doNotExport x) (sc_status x) (sc_notes x) (sc_tags x) (sc_field1 x) (sc_field2 x) (sc_field3 x) (sc_field4 x) (sc_appendToPrev x) (sc_isReactionScene x) (sc_isSubPlot x) (sc_goal x) (sc_conflict x) v (sc_characters x) (sc_locations x) (sc_items x) (sc_date x) (sc_time x) (sc_day x) (sc_lastsMinutes x) (sc_lastsHours x) (sc_lastsDays x) (sc_image x) (sc_scnArcs x) (sc_scnMode x).
Definition set_sc_characters (v : option (list str)) (x : scene) : scene :=
  mkScene (sc_title x) (sc_desc x) (sc_kw x) (sc_content x) (sc_wordCount x) (sc_letterCount x) (sc_type x) (sc_doNotExport x) (sc_status x) (sc_notes x) (sc_tags x) (sc_field1 x) (sc_field2 x) (sc_field3 x) (sc_field4 x) (sc_appendToPrev x) (sc_isReactionScene x) (sc_isSubPlot x) (sc_goal x) (sc_conflict x) (sc_outcome x) v (sc_locations x) (sc_items x) (sc_date x) (sc_time x) (sc_day x) (sc_lastsMinutes x) (sc_lastsHours x) (sc_lastsDays x) (sc_image x) (sc_scnArcs x) (sc_scnMode x).
Definition set_sc_locations (v : option (list str)) (x : scene) : scene :=
  mkScene (sc_title x) (sc_desc x) (sc_kw x) (sc_content x) (sc_wordCount x) (sc_letterCount x) (sc_type x) (sc_doNotExport x) (sc_status x) (sc_notes x) (sc_tags x) (sc_field1 x) (sc_field2 x) (sc_field3 x) (sc_field4 x) (sc_appendToPrev x) (sc_isReactionScene x) (sc_isSubPlot x) (sc_goal x) (sc_conflict x) (sc_outcome x) (sc_characters x) v (sc_items x) (sc_date x) (sc_time x) (sc_day x) (sc_lastsMinutes x) (sc_lastsHours x) (sc_lastsDays x) (sc_image x) (sc_scnArcs x) (sc_scnMode x).
Definition set_sc_items (v : option (list str)) (x : scene) : scene :=
  mkScene (sc_title x) (sc_desc x) (sc_kw x) (sc_content x) (sc_wordCount x) (sc_letterCount x) (sc_type x) (sc_doNotExport x) (sc_status x) (sc_notes x) (sc_tags x) (sc_field1 x) (sc_field2 x) (sc_field3 x) (sc_field4 x) (sc_appendToPrev x) (sc_isReactionScene x) (sc_isSubPlot x) (sc_goal x) (sc_conflict x) (sc_outcome x) (sc_characters x) (sc_locations x) v (sc_date x) (sc_time x) (sc_day x) (sc_lastsMinutes x) (sc_lastsHours x) (sc_lastsDays x) (sc_image x) (sc_scnArcs x) (sc_scnMode x).
Definition set_sc_date (v : option str) (x : scene) : scene :=
  mkScene (sc_title x) (sc_desc x) (sc_kw x) (sc_content x) (sc_wordCount x) (sc_letterCount x) (sc_type x) (sc_doNotExport x) (sc_status x) (sc_notes x) (sc_tags x) (sc_field1 x) (sc_field2 x) (sc_field3 x) (sc_field4 x) (sc_appendToPrev x) (sc_isReactionScene x) (sc_isSubPlot x) (sc_goal x) (sc_conflict x) (sc_outcome x) (sc_characters x) (sc_locations x) (sc_items x) v (sc_time x) (sc_day x) (sc_lastsMinutes x) (sc_lastsHours x) (sc_lastsDays x) (sc_image x) (sc_scnArcs x) (sc_scnMode x).
Definition set_sc_time (v : option str) (x : scene) : scene :=
  mkScene (sc_title x) (sc_desc x) (sc_kw x) (sc_content x) (sc_wordCount x) (sc_letterCount x) (sc_type x) (sc_doNotExport x) (sc_status x) (sc_notes x) (sc_tags x) (sc_field1 x) (sc_field2 x) (sc_field3 x) (sc_field4 x) (sc_appendToPrev x) (sc_isReactionScene x) (sc_isSubPlot x) (sc_goal x) (sc_conflict x) (sc_outcome x) (sc_characters x) (sc_locations x) (sc_items x) (sc_date x) v (sc_day x) (sc_lastsMinutes x) (sc_lastsHours x) (sc_lastsDays x) (sc_image x) (sc_scnArcs x) (sc_scnMode x).
Definition set_sc_day (v : option str) (x : scene) : scene :=
  mkScene (sc_title x) (sc_desc x) (sc_kw x) (sc_content x) (sc_wordCount x) (sc_letterCount x) (sc_type x) (sc_doNotExport x) (sc_status x) (sc_notes x) (sc_tags x) (sc_field1 x) (sc_field2 x) (sc_field3 x) (sc_field4 x) (sc_appendToPrev x) (sc_isReactionScene x) (sc_isSubPlot x) (sc_goal x) (sc_conflict x) (sc_outcome x) (sc_characters x) (sc_locations x) (sc_items x) (sc_date x) (sc_time x) v (sc_lastsMinutes x) (sc_lastsHours x) (sc_lastsDays x) (sc_image x) (sc_scnArcs x) (sc_scnMode x).
Definition set_sc_lastsMinutes (v : option str) (x : scene) : scene :=
  mkScene (sc_title x) (sc_desc x) (sc_kw x) (sc_content x) (sc_wordCount x) (sc_letterCount x) (sc_type x) (sc_doNotExport x) (sc_status x) (sc_notes x) (sc_tags x) (sc_field1 x) (sc_field2 x) (sc_field3 x) (sc_field4 x) (sc_appendToPrev x) (sc_isReactionScene x) (sc_isSubPlot x) (sc_goal x) (sc_conflict x) (sc_outcome x) (sc_characters x) (sc_locations x) (sc_items x) (sc_date x) (sc_time x) (sc_day x) v (sc_lastsHours x) (sc_lastsDays x) (sc_image x) (sc_scnArcs x) (sc_scnMode x).
Definition set_sc_lastsHours (v : option str) (x : scene) : scene :=
  mkScene (sc_title x) (sc_desc x) (sc_kw x) (sc_content x) (sc_wordCount x) (sc_letterCount x) (sc_type x) (sc_doNotExport x) (sc_status x) (sc_notes x) (sc_tags x) (sc_field1 x) (sc_field2 x) (sc_field3 x) (sc_field4 x) (sc_appendToPrev x) (sc_isReactionScene x) (sc_isSubPlot x) (sc_goal x) (sc_conflict x) (sc_outcome x) (sc_characters x) (sc_locations x) (sc_items x) (sc_date x) (sc_time x) (sc_day x) (sc_lastsMinutes x) v (sc_lastsDays x) (sc_image x) (sc_scnArcs x) (sc_scnMode x).
Definition set_sc_lastsDays (v : option str) (x : scene) : scene :=
  mkScene (sc_title x) (sc_desc x) (sc_kw x) (sc_content x) (sc_wordCount x) (sc_letterCount x) (sc_type x) (sc_doNotExport x) (sc_status x) (sc_notes x) (sc_tags x) (sc_field1 x) (sc_field2 x) (sc_field3 x) (sc_field4 x) (sc_appendToPrev x) (sc_isReactionScene x) (sc_isSubPlot x) (sc_goal x) (sc_conflict x) (sc_outcome x) (sc_characters x) (sc_locations x) (sc_items x) (sc_date x) (sc_time x) (sc_day x) (sc_lastsMinutes x) (sc_lastsHours x) v (sc_image x) (sc_scnArcs x) (sc_scnMode x).
Definition set_sc_image (v : option str) (x : scene) : scene :=
  mkScene (sc_title x) (sc_desc x) (sc_kw x) (sc_content x) (sc_wordCount x) (sc_letterCount x) (sc_type x) (sc_doNotExport x) (sc_status x) (sc_notes x) (sc_tags x) (sc_field1 x) (sc_field2 x) (sc_field3 x) (sc_field4 x) (sc_appendToPrev x) (sc_isReactionScene x) (sc_isSubPlot x) (sc_goal x) (sc_conflict x) (sc_outcome x) (sc_characters x) (sc_locations x) (sc_items x) (sc_date x) (sc_time x) (sc_day x) (sc_lastsMinutes x) (sc_lastsHours x) (sc_lastsDays x) v (sc_scnArcs x) (sc_scnMode x).
Definition set_sc_scnArcs (v : option str) (x : scene) : scene :=
  mkScene (sc_title x) (sc_desc x) (sc_kw x) (sc_content x) (sc_wordCount x) (sc_letterCount x) (sc_type x) (sc_doNotExport x) (sc_status x) (sc_notes x) (sc_tags x) (sc_field1 x) (sc_field2 x) (sc_field3 x) (sc_field4 x) (sc_appendToPrev x) (sc_isReactionScene x) (sc_isSubPlot x) (sc_goal x) (sc_conflict x) (sc_outcome x) (sc_characters x) (sc_locations x) (sc_items x) (sc_date x) (sc_time x) (sc_day x) (sc_lastsMinutes x) (sc_lastsHours x) (sc_lastsDays x) (sc_image x) v (sc_scnMode x).
Definition set_sc_scnMode (v : option Z) (x : scene) : scene :=
  mkScene (sc_title x) (sc_desc x) (sc_kw x) (sc_content x) (sc_wordCount x) (sc_letterCount x) (sc_type x) (sc_doNotExport x) (sc_status x) (sc_notes x) (sc_tags x) (sc_field1 x) (sc_field2 x) (sc_field3 x) (sc_field4 x) (sc_appendToPrev x) (sc_isReactionScene x) (sc_isSubPlot x) (sc_goal x) (sc_conflict x) (sc_outcome x) (sc_characters x) (sc_locations x) (sc_items x) (sc_date x) (sc_time x) (sc_day x) (sc_lastsMinutes x) (sc_lastsHours x) (sc_lastsDays x) (sc_image x) (sc_scnArcs x) v.

(** src/pywriter/model/chapter.py 22-83 Chapter.__init__ *)
Record chapter := mkChapter {
  ch_title : option str;
  ch_desc : option str;
  ch_kw : dict (option str);
  ch_level : option N;
  ch_type : option N;
  ch_suppressTitle : option bool;
  ch_isTrash : option bool;
  ch_suppressBreak : option bool;
  ch_srtScenes : list str }.
(** Chapter() with all attributes at their initial values (src/pywriter/model/chapter.py 22-83 Chapter.__init__) *)
Definition new_chapter : chapter :=
  mkChapter None None [] None None None None None [].
Definition set_ch_title (v : option str) (x : chapter) : chapter :=
  mkChapter v (ch_desc x) (ch_kw x) (ch_level x) (ch_type x) (ch_suppressTitle x) (ch_isTrash x) (ch_suppressBreak x) (ch_srtScenes x).
Definition set_ch_desc (v : option str) (x : chapter) : chapter :=
  mkChapter (ch_title x) v (ch_kw x) (ch_level x) (ch_type x) (ch_suppressTitle x) (ch_isTrash x) (ch_suppressBreak x) (ch_srtScenes x).
Definition set_ch_kw (v : dict (option str)) (x : chapter) : chapter :=
  mkChapter (ch_title x) (ch_desc x) v (ch_level x) (ch_type x) (ch_suppressTitle x) (ch_isTrash x) (ch_suppressBreak x) (ch_srtScenes x).
Definition set_ch_level (v : option N) (x : chapter) : chapter :=
  mkChapter (ch_title x) (ch_desc x) (ch_kw x) v (ch_type x) (ch_suppressTitle x) (ch_isTrash x) (ch_suppressBreak x) (ch_srtScenes x).
Definition set_ch_type (v : option N) (x : chapter) : chapter :=
  mkChapter (ch_title x) (ch_desc x) (ch_kw x) (ch_level x) v (ch_suppressTitle x) (ch_isTrash x) (ch_suppressBreak x) (ch_srtScenes x).
Definition set_ch_suppressTitle (v : option bool) (x : chapter) : chapter :=
  mkChapter (ch_title x) (ch_desc x) (ch_kw x) (ch_level x) (ch_type x) v (ch_isTrash x) (ch_suppressBreak x) (ch_srtScenes x).
Definition set_ch_isTrash (v : option bool) (x : chapter) : chapter :=
  mkChapter (ch_title x) (ch_desc x) (ch_kw x) (ch_level x) (ch_type x) (ch_suppressTitle x) v (ch_suppressBreak x) (ch_srtScenes x).
Definition set_ch_suppressBreak (v : option bool) (x : chapter) : chapter :=
  mkChapter (ch_title x) (ch_desc x) (ch_kw x) (ch_level x) (ch_type x) (ch_suppressTitle x) (ch_isTrash x) v (ch_srtScenes x).
Definition set_ch_srtScenes (v : list str) (x : chapter) : chapter :=
  mkChapter (ch_title x) (ch_desc x) (ch_kw x) (ch_level x) (ch_type x) (ch_suppressTitle x) (ch_isTrash x) (ch_suppressBreak x) v.

(** src/pywriter/model/novel.py 46-136 Novel.__init__ *)
Record novel := mkNovel {
  nv_title : option str;
  nv_desc : option str;
  nv_kw : dict (option str);
  nv_authorName : option str;
  nv_authorBio : option str;
  nv_fieldTitle1 : option str;
  nv_fieldTitle2 : option str;
  nv_fieldTitle3 : option str;
  nv_fieldTitle4 : option str;
  nv_wordTarget : option Z;
  nv_wordCountStart : option Z;
  nv_chapters : dict chapter;
  nv_scenes : dict scene;
  nv_languages : option (list str);
  nv_srtChapters : list str;
  nv_locations : dict world;
  nv_srtLocations : list str;
  nv_items : dict world;
  nv_srtItems : list str;
  nv_characters : dict character;
  nv_srtCharacters : list str;
  nv_projectNotes : dict note;
  nv_srtPrjNotes : list str;
  nv_languageCode : option str;
  nv_countryCode : option str }.
(** Novel() with all attributes at their initial values (src/pywriter/model/novel.py 46-136 Novel.__init__) *)
Definition new_novel : novel :=
  mkNovel None None [] None None None None None None None None [] [] None [] [] [] [] [] [] [] [] [] None None.
Definition set_nv_title (v : option str) (x : novel) : novel :=
  mkNovel v (nv_desc x) (nv_kw x) (nv_authorName x) (nv_authorBio x) (nv_fieldTitle1 x) (nv_fieldTitle2 x) (nv_fieldTitle3 x) (nv_fieldTitle4 x) (nv_wordTarget x) (nv_wordCountStart x) (nv_chapters x) (nv_scenes x) (nv_languages x) (nv_srtChapters x) (nv_locations x) (nv_srtLocations x) (nv_items x) (nv_srtItems x) (nv_characters x) (nv_srtCharacters x) (nv_projectNotes x) (nv_srtPrjNotes x) (nv_languageCode x) (nv_countryCode x).
Definition set_nv_desc (v : option str) (x : novel) : novel :=
  mkNovel (nv_title x) v (nv_kw x) (nv_authorName x) (nv_authorBio x) (nv_fieldTitle1 x) (nv_fieldTitle2 x) (nv_fieldTitle3 x) (nv_fieldTitle4 x) (nv_wordTarget x) (nv_wordCountStart x) (nv_chapters x) (nv_scenes x) (nv_languages x) (nv_srtChapters x) (nv_locations x) (nv_srtLocations x) (nv_items x) (nv_srtItems x) (nv_characters x) (nv_srtCharacters x) (nv_projectNotes x) (nv_srtPrjNotes x) (nv_languageCode x) (nv_countryCode x).
Definition set_nv_kw (v : dict (option str)) (x : novel) : novel :=
  mkNovel (nv_title x) (nv_desc x) v (nv_authorName x) (nv_authorBio x) (nv_fieldTitle1 x) (nv_fieldTitle2 x) (nv_fieldTitle3 x) (nv_fieldTitle4 x) (nv_wordTarget x) (nv_wordCountStart x) (nv_chapters x) (nv_scenes x) (nv_languages x) (nv_srtChapters x) (nv_locations x) (nv_srtLocations x) (nv_items x) (nv_srtItems x) (nv_characters x) (nv_srtCharacters x) (nv_projectNotes x) (nv_srtPrjNotes x) (nv_languageCode x) (nv_countryCode x).
Definition set_nv_authorName (v : option str) (x : novel) : novel :=
  mkNovel (nv_title x) (nv_desc x) (nv_kw x) v (nv_authorBio x) (nv_fieldTitle1 x) (nv_fieldTitle2 x) (nv_fieldTitle3 x) (nv_fieldTitle4 x) (nv_wordTarget x) (nv_wordCountStart x) (nv_chapters x) (nv_scenes x) (nv_languages x) (nv_srtChapters x) (nv_locations x) (nv_srtLocations x) (nv_items x) (nv_srtItems x) (nv_characters x) (nv_srtCharacters x) (nv_projectNotes x) (nv_srtPrjNotes x) (nv_languageCode x) (nv_countryCode x).
Definition set_nv_authorBio (v : option str) (x : novel) : novel :=
  mkNovel (nv_title x) (nv_desc x) (nv_kw x) (nv_authorName x) v (nv_fieldTitle1 x) (nv_fieldTitle2 x) (nv_fieldTitle3 x) (nv_fieldTitle4 x) (nv_wordTarget x) (nv_wordCountStart x) (nv_chapters x) (nv_scenes x) (nv_languages x) (nv_srtChapters x) (nv_locations x) (nv_srtLocations x) (nv_items x) (nv_srtItems x) (nv_characters x) (nv_srtCharacters x) (nv_projectNotes x) (nv_srtPrjNotes x) (nv_languageCode x) (nv_countryCode x).
Definition set_nv_fieldTitle1 (v : option str) (x : novel) : novel :=
  mkNovel (nv_title x) (nv_desc x) (nv_kw x) (nv_authorName x) (nv_authorBio x) v (nv_fieldTitle2 x) (nv_fieldTitle3 x) (nv_fieldTitle4 x) (nv_wordTarget x) (nv_wordCountStart x) (nv_chapters x) (nv_scenes x) (nv_languages x) (nv_srtChapters x) (nv_locations x) (nv_srtLocations x) (nv_items x) (nv_srtItems x) (nv_characters x) (nv_srtCharacters x) (nv_projectNotes x) (nv_srtPrjNotes x) (nv_languageCode x) (nv_countryCode x).
Definition set_nv_fieldTitle2 (v : option str) (x : novel) : novel :=
  mkNovel (nv_title x) (nv_desc x) (nv_kw x) (nv_authorName x) (nv_authorBio x) (nv_fieldTitle1 x) v (nv_fieldTitle3 x) (nv_fieldTitle4 x) (nv_wordTarget x) (nv_wordCountStart x) (nv_chapters x) (nv_scenes x) (nv_languages x) (nv_srtChapters x) (nv_locations x) (nv_srtLocations x) (nv_items x) (nv_srtItems x) (nv_characters x) (nv_srtCharacters x) (nv_projectNotes x) (nv_srtPrjNotes x) (nv_languageCode x) (nv_countryCode x).
Definition set_nv_fieldTitle3 (v : option str) (x : novel) : novel :=
  mkNovel (nv_title x) (nv_desc x) (nv_kw x) (nv_authorName x) (nv_authorBio x) (nv_fieldTitle1 x) (nv_fieldTitle2 x) v (nv_fieldTitle4 x) (nv_wordTarget x) (nv_wordCountStart x) (nv_chapters x) (nv_scenes x) (nv_languages x) (nv_srtChapters x) (nv_locations x) (nv_srtLocations x) (nv_items x) (nv_srtItems x) (nv_characters x) (nv_srtCharacters x) (nv_projectNotes x) (nv_srtPrjNotes x) (nv_languageCode x) (nv_countryCode x).
Definition set_nv_fieldTitle4 (v : option str) (x : novel) : novel :=
  mkNovel (nv_title x) (nv_desc x) (nv_kw x) (nv_authorName x) (nv_authorBio x) (nv_fieldTitle1 x) (nv_fieldTitle2 x) (nv_fieldTitle3 x) v (nv_wordTarget x) (nv_wordCountStart x) (nv_chapters x) (nv_scenes x) (nv_languages x) (nv_srtChapters x) (nv_locations x) (nv_srtLocations x) (nv_items x) (nv_srtItems x) (nv_characters x) (nv_srtCharacters x) (nv_projectNotes x) (nv_srtPrjNotes x) (nv_languageCode x) (nv_countryCode x).
Definition set_nv_wordTarget (v : option Z) (x : novel) : novel :=
  mkNovel (nv_title x) (nv_desc x) (nv_kw x) (nv_authorName x) (nv_authorBio x) (nv_fieldTitle1 x) (nv_fieldTitle2 x) (nv_fieldTitle3 x) (nv_fieldTitle4 x) v (nv_wordCountStart x) (nv_chapters x) (nv_scenes x) (nv_languages x) (nv_srtChapters x) (nv_locations x) (nv_srtLocations x) (nv_items x) (nv_srtItems x) (nv_characters x) (nv_srtCharacters x) (nv_projectNotes x) (nv_srtPrjNotes x) (nv_languageCode x) (nv_countryCode x).
Definition set_nv_wordCountStart (v : option Z) (x : novel) : novel :=
  mkNovel (nv_title x) (nv_desc x) (nv_kw x) (nv_authorName x) (nv_authorBio x) (nv_fieldTitle1 x) (nv_fieldTitle2 x) (nv_fieldTitle3 x) (nv_fieldTitle4 x) (nv_wordTarget x) v (nv_chapters x) (nv_scenes x) (nv_languages x) (nv_srtChapters x) (nv_locations x) (nv_srtLocations x) (nv_items x) (nv_srtItems x) (nv_characters x) (nv_srtCharacters x) (nv_projectNotes x) (nv_srtPrjNotes x) (nv_languageCode x) (nv_countryCode x).
Definition set_nv_chapters (v : dict chapter) (x : novel) : novel :=
  mkNovel (nv_title x) (nv_desc x) (nv_kw x) (nv_authorName x) (nv_authorBio x) (nv_fieldTitle1 x) (nv_fieldTitle2 x) (nv_fieldTitle3 x) (nv_fieldTitle4 x) (nv_wordTarget x) (nv_wordCountStart x) v (nv_scenes x) (nv_languages x) (nv_srtChapters x) (nv_locations x) (nv_srtLocations x) (nv_items x) (nv_srtItems x) (nv_characters x) (nv_srtCharacters x) (nv_projectNotes x) (nv_srtPrjNotes x) (nv_languageCode x) (nv_countryCode x).
Definition set_nv_scenes (v : dict scene) (x : novel) : novel :=
  mkNovel (nv_title x) (nv_desc x) (nv_kw x) (nv_authorName x) (nv_authorBio x) (nv_fieldTitle1 x) (nv_fieldTitle2 x) (nv_fieldTitle3 x) (nv_fieldTitle4 x) (nv_wordTarget x) (nv_wordCountStart x) (nv_chapters x) v (nv_languages x) (nv_srtChapters x) (nv_locations x) (nv_srtLocations x) (nv_items x) (nv_srtItems x) (nv_characters x) (nv_srtCharacters x) (nv_projectNotes x) (nv_srtPrjNotes x) (nv_languageCode x) (nv_countryCode x).
Definition set_nv_languages (v : option (list str)) (x : novel) : novel :=
  mkNovel (nv_title x) (nv_desc x) (nv_kw x) (nv_authorName x) (nv_authorBio x) (nv_fieldTitle1 x) (nv_fieldTitle2 x) (nv_fieldTitle3 x) (nv_fieldTitle4 x) (nv_wordTarget x) (nv_wordCountStart x) (nv_chapters x) (nv_scenes x) v (nv_srtChapters x) (nv_locations x) (nv_srtLocations x) (nv_items x) (nv_srtItems x) (nv_characters x) (nv_srtCharacters x) (nv_projectNotes x) (nv_srtPrjNotes x) (nv_languageCode x) (nv_countryCode x).
Definition set_nv_srtChapters (v : list str) (x : novel) : novel :=
  mkNovel (nv_title x) (nv_desc x) (nv_kw x) (nv_authorName x) (nv_authorBio x) (nv_fieldTitle1 x) (nv_fieldTitle2 x) (nv_fieldTitle3 x) (nv_fieldTitle4 x) (nv_wordTarget x) (nv_wordCountStart x) (nv_chapters x) (nv_scenes x) (nv_languages x) v (nv_locations x) (nv_srtLocations x) (nv_items x) (nv_srtItems x) (nv_characters x) (nv_srtCharacters x) (nv_projectNotes x) (nv_srtPrjNotes x) (nv_languageCode x) (nv_countryCode x).
Definition set_nv_locations (v : dict world) (x : novel) : novel :=
  mkNovel (nv_title x) (nv_desc x) (nv_kw x) (nv_authorName x) (nv_authorBio x) (nv_fieldTitle1 x) (nv_fieldTitle2 x) (nv_fieldTitle3 x) (nv_fieldTitle4 x) (nv_wordTarget x) (nv_wordCountStart x) (nv_chapters x) (nv_scenes x) (nv_languages x) (nv_srtChapters x) v (nv_srtLocations x) (nv_items x) (nv_srtItems x) (nv_characters x) (nv_srtCharacters x) (nv_projectNotes x) (nv_srtPrjNotes x) (nv_languageCode x) (nv_countryCode x).
Definition set_nv_srtLocations (v : list str) (x : novel) : novel :=
  mkNovel (nv_title x) (nv_desc x) (nv_kw x) (nv_authorName x) (nv_authorBio x) (nv_fieldTitle1 x) (nv_fieldTitle2 x) (nv_fieldTitle3 x) (nv_fieldTitle4 x) (nv_wordTarget x) (nv_wordCountStart x) (nv_chapters x) (nv_scenes x) (nv_languages x) (nv_srtChapters x) (nv_locations x) v (nv_items x) (nv_srtItems x) (nv_characters x) (nv_srtCharacters x) (nv_projectNotes x) (nv_srtPrjNotes x) (nv_languageCode x) (nv_countryCode x).
Definition set_nv_items (v : dict world) (x : novel) : novel :=
  mkNovel (nv_title x) (nv_desc x) (nv_kw x) (nv_authorName x) (nv_authorBio x) (nv_fieldTitle1 x) (nv_fieldTitle2 x) (nv_fieldTitle3 x) (nv_fieldTitle4 x) (nv_wordTarget x) (nv_wordCountStart x) (nv_chapters x) (nv_scenes x) (nv_languages x) (nv_srtChapters x) (nv_locations x) (nv_srtLocations x) v (nv_srtItems x) (nv_characters x) (nv_srtCharacters x) (nv_projectNotes x) (nv_srtPrjNotes x) (nv_languageCode x) (nv_countryCode x).
Definition set_nv_srtItems (v : list str) (x : novel) : novel :=
  mkNovel (nv_title x) (nv_desc x) (nv_kw x) (nv_authorName x) (nv_authorBio x) (nv_fieldTitle1 x) (nv_fieldTitle2 x) (nv_fieldTitle3 x) (nv_fieldTitle4 x) (nv_wordTarget x) (nv_wordCountStart x) (nv_chapters x) (nv_scenes x) (nv_languages x) (nv_srtChapters x) (nv_locations x) (nv_srtLocations x) (nv_items x) v (nv_characters x) (nv_srtCharacters x) (nv_projectNotes x) (nv_srtPrjNotes x) (nv_languageCode x) (nv_countryCode x).
Definition set_nv_characters (v : dict character) (x : novel) : novel :=
  mkNovel (nv_title x) (nv_desc x) (nv_kw x) (nv_authorName x) (nv_authorBio x) (nv_fieldTitle1 x) (nv_fieldTitle2 x) (nv_fieldTitle3 x) (nv_fieldTitle4 x) (nv_wordTarget x) (nv_wordCountStart x) (nv_chapters x) (nv_scenes x) (nv_languages x) (nv_srtChapters x) (nv_locations x) (nv_srtLocations x) (nv_items x) (nv_srtItems x) v (nv_srtCharacters x) (nv_projectNotes x) (nv_srtPrjNotes x) (nv_languageCode x) (nv_countryCode x).
Definition set_nv_srtCharacters (v : list str) (x : novel) : novel :=
  mkNovel (nv_title x) (nv_desc x) (nv_kw x) (nv_authorName x) (nv_authorBio x) (nv_fieldTitle1 x) (nv_fieldTitle2 x) (nv_fieldTitle3 x) (nv_fieldTitle4 x) (nv_wordTarget x) (nv_wordCountStart x) (nv_chapters x) (nv_scenes x) (nv_languages x) (nv_srtChapters x) (nv_locations x) (nv_srtLocations x) (nv_items x) (nv_srtItems x) (nv_characters x) v (nv_projectNotes x) (nv_srtPrjNotes x) (nv_languageCode x) (nv_countryCode x).
Definition set_nv_projectNotes (v : dict note) (x : novel) : novel :=
  mkNovel (nv_title x) (nv_desc x) (nv_kw x) (nv_authorName x) (nv_authorBio x) (nv_fieldTitle1 x) (nv_fieldTitle2 x) (nv_fieldTitle3 x) (nv_fieldTitle4 x) (nv_wordTarget x) (nv_wordCountStart x) (nv_chapters x) (nv_scenes x) (nv_languages x) (nv_srtChapters x) (nv_locations x) (nv_srtLocations x) (nv_items x) (nv_srtItems x) (nv_characters x) (nv_srtCharacters x) v (nv_srtPrjNotes x) (nv_languageCode x) (nv_countryCode x).
Definition set_nv_srtPrjNotes (v : list str) (x : novel) : novel :=
  mkNovel (nv_title x) (nv_desc x) (nv_kw x) (nv_authorName x) (nv_authorBio x) (nv_fieldTitle1 x) (nv_fieldTitle2 x) (nv_fieldTitle3 x) (nv_fieldTitle4 x) (nv_wordTarget x) (nv_wordCountStart x) (nv_chapters x) (nv_scenes x) (nv_languages x) (nv_srtChapters x) (nv_locations x) (nv_srtLocations x) (nv_items x) (nv_srtItems x) (nv_characters x) (nv_srtCharacters x) (nv_projectNotes x) v (nv_languageCode x) (nv_countryCode x).
Definition set_nv_languageCode (v : option str) (x : novel) : novel :=
  mkNovel (nv_title x) (nv_desc x) (nv_kw x) (nv_authorName x) (nv_authorBio x) (nv_fieldTitle1 x) (nv_fieldTitle2 x) (nv_fieldTitle3 x) (nv_fieldTitle4 x) (nv_wordTarget x) (nv_wordCountStart x) (nv_chapters x) (nv_scenes x) (nv_languages x) (nv_srtChapters x) (nv_locations x) (nv_srtLocations x) (nv_items x) (nv_srtItems x) (nv_characters x) (nv_srtCharacters x) (nv_projectNotes x) (nv_srtPrjNotes x) v (nv_countryCode x).
Definition set_nv_countryCode (v : option str) (x : novel) : novel :=
  mkNovel (nv_title x) (nv_desc x) (nv_kw x) (nv_authorName x) (nv_authorBio x) (nv_fieldTitle1 x) (nv_fieldTitle2 x) (nv_fieldTitle3 x) (nv_fieldTitle4 x) (nv_wordTarget x) (nv_wordCountStart x) (nv_chapters x) (nv_scenes x) (nv_languages x) (nv_srtChapters x) (nv_locations x) (nv_srtLocations x) (nv_items x) (nv_srtItems x) (nv_characters x) (nv_srtCharacters x) (nv_projectNotes x) (nv_srtPrjNotes x) (nv_languageCode x) v.
