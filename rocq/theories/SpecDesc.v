(** When descriptions survive being exported and read back: what the parser may deliver, and the range of novels. *)
From Coq Require Import String List NArith ZArith Bool Lia Arith.
From Verif Require Import PyStr PyDict YwText OdfXml NovelModel SpecOdf SpecManuscript.
Import ListNotations.

(** the same tags; each piece of text in one piece, or in several pieces that have the property P *)
Inductive deliver_by (P : str -> Prop) : list event -> list event -> Prop :=
| dby_end : deliver_by P [] []
| dby_open : forall n a es es', deliver_by P es es' -> deliver_by P (Start n a :: es) (Start n a :: es')
| dby_close : forall n es es', deliver_by P es es' -> deliver_by P (End n :: es) (End n :: es')
| dby_whole : forall t es es', deliver_by P es es' -> deliver_by P (Data t :: es) (Data t :: es')
| dby_parts : forall ts es es', Forall P ts -> deliver_by P es es' -> deliver_by P (Data (concat ts) :: es) (map Data ts ++ es').
Definition anyhow (t : str) : Prop := True.
(** no piece begins or ends with white space *)
Definition trimmed (t : str) : Prop := strip t = t.

(** ** Texts *)
Definition given (ok : str -> Prop) (t : option str) : Prop := exists x, t = Some x /\ ok x.
(** XML characters, no carriage returns *)
Definition writable (t : str) : Prop := xml_text t /\ ~ In 13%N t.
(** no white space at the end *)
Definition describable (t : str) : Prop := writable t /\ rstrip t = t.
(** in addition, no line begins or ends with white space *)
Definition listable (t : str) : Prop := describable t /\ Forall trimmed (lines t).
(** titles: any writable text, or none *)
Definition headline (t : option str) : Prop := match t with Some x => writable x | None => True end.
(** names that are inserted as they are: no markup *)
Definition bare (t : option str) : Prop := match t with Some x => writable x /\ Forall (fun c => c <> 38%N /\ c <> 60%N /\ c <> 62%N) x | None => True end.

(** ** Novels; name: the name of the project *)
Definition header_ok (name : option str) (n : novel) : Prop := headline (nv_title n) /\ headline (nv_authorName n) /\ headline name.
Definition not_empty (t : str) : Prop := t <> [].
(** scene descriptions: chapters have a title, scenes of the normal type a description that does not begin like a comment *)
Record scene_describable (n : novel) (x : scene) : Prop := mkSceneDescribable {
  sd_type : known_type (sc_type x) = true;
  sd_title : headline (sc_title x);
  sd_desc : sc_type x = Some 0%N -> given (fun t => describable t /\ prefixb (s "/*") t = false) (sc_desc x) }.
Record scenes_ok (name : option str) (n : novel) : Prop := mkScenesOk {
  dso_header : header_ok name n;
  dso_chapters : forall i c, In i (nv_srtChapters n) -> dget i (nv_chapters n) = Some c ->
    number_id i = true /\ known_type (ch_type c) = true /\ given (fun t => writable t /\ not_empty t) (ch_title c) /\
    forall j x, In j (ch_srtScenes c) -> dget j (nv_scenes n) = Some x -> number_id j = true /\ scene_describable n x }.
(** chapter and part descriptions: chapters of the normal type on that level have a title and a description *)
Definition of_kind (part : bool) (c : chapter) : Prop := ch_type c = Some 0%N /\ (part = true <-> ch_level c = Some 1%N).
Record chapters_ok (part : bool) (name : option str) (n : novel) : Prop := mkChaptersOk {
  dco_header : header_ok name n;
  dco_chapters : forall i c, In i (nv_srtChapters n) -> dget i (nv_chapters n) = Some c ->
    number_id i = true /\ known_type (ch_type c) = true /\ headline (ch_title c) /\ (of_kind part c -> given (fun t => writable t /\ not_empty t) (ch_title c) /\ given listable (ch_desc c)) }.
(** locations and items *)
Definition world_ok (x : world) : Prop := headline (we_title x) /\ bare (we_aka x) /\ given listable (we_desc x).
Record worlds_ok (name : option str) (n : novel) (ids : list str) (d : dict world) : Prop := mkWorldsOk {
  dwo_header : header_ok name n;
  dwo_elements : forall i x, In i ids -> dget i d = Some x -> number_id i = true /\ world_ok x }.
(** characters *)
Record character_ok (x : character) : Prop := mkCharacterOk {
  dro_title : headline (cr_title x); dro_aka : bare (cr_aka x); dro_full : bare (cr_fullName x);
  dro_desc : given listable (cr_desc x); dro_bio : given listable (cr_bio x); dro_goals : given listable (cr_goals x); dro_notes : given listable (cr_notes x) }.
Record characters_ok (name : option str) (n : novel) : Prop := mkCharactersOk {
  dho_header : header_ok name n;
  dho_elements : forall i x, In i (nv_srtCharacters n) -> dget i (nv_characters n) = Some x -> number_id i = true /\ character_ok x }.
