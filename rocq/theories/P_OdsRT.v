(** Property theorems about lists written as spreadsheets and read back: C27. *)
From Coq Require Import String List NArith ZArith Bool Lia Arith.
From Verif Require Import PyStr PyDict NovelModel YwText OdfXml Export SpecExport OdsRead SpecOds SpecSceneList SpecRedesc SpecRelist OdsWrite OdsWriteScenes OdsRoundTrip3 SceneListRT.
Import ListNotations.

(** Whatever the novel n: if the list can be written, the ids are numbers and the fields fit into cells, reading the list into any novel m that differs
    from n in what the list shows (and in which elements are listed, in whatever order) gives n. *)
Theorem C27_characters : forall pn pp n m doc, get_text (OdsWCharList pn pp) n = Ok doc -> Forall digits (nv_srtCharacters n) ->
  (forall i c, In i (nv_srtCharacters n) -> dget i (nv_characters n) = Some c -> character_fits c) -> NoDup (map fst (nv_characters n)) ->
  other_character_list n m -> read_charlist doc m = Ok n.
Proof. exact characters_back. Qed.
Print Assumptions C27_characters.
Theorem C27_locations : forall pn pp n m doc, get_text (OdsWLocList pn pp) n = Ok doc -> Forall digits (nv_srtLocations n) ->
  (forall i c, In i (nv_srtLocations n) -> dget i (nv_locations n) = Some c -> world_fits c) -> NoDup (map fst (nv_locations n)) ->
  other_location_list n m -> read_loclist doc m = Ok n.
Proof. exact locations_back. Qed.
Print Assumptions C27_locations.
Theorem C27_items : forall pn pp n m doc, get_text (OdsWItemList pn pp) n = Ok doc -> Forall digits (nv_srtItems n) ->
  (forall i c, In i (nv_srtItems n) -> dget i (nv_items n) = Some c -> world_fits c) -> NoDup (map fst (nv_items n)) ->
  other_item_list n m -> read_itemlist doc m = Ok n.
Proof. exact items_back. Qed.
Print Assumptions C27_items.
(** The scene list: the project's name and path are URL-coded, the normal scenes of all chapters fit. *)
Theorem C27_scenes : forall pn pp n m doc, get_text (OdsWSceneList pn pp) n = Ok doc -> url_text pn -> url_text pp -> all_listed n -> titles_fit n ->
  (forall ch i, In ch (nv_srtChapters n) -> In i (ch_srtScenes (chapter_of n ch)) -> scene_kind n ch i = Normal -> digits i /\ scene_fits n (scene_of n i)) ->
  NoDup (map fst (nv_scenes n)) -> other_scene_list n m -> read_scenelist doc m = Ok n.
Proof. exact scenes_back. Qed.
Print Assumptions C27_scenes.

(** Novels with one or two elements *)
Definition with_character (i : str) (c : character) : novel := set_nv_srtCharacters [i] (set_nv_characters [(i, c)] new_novel).
Definition with_locations (l : list (str * world)) : novel := set_nv_srtLocations (map fst l) (set_nv_locations l new_novel).
Definition character_of (title : option str) (tags : option (list str)) (major : option bool) : character :=
  mkCharacter title None [] None tags None None None None None major.
Definition world_of (title desc : option str) (tags : option (list str)) : world := mkWorld title desc [] None tags None.
(** the round trip of a list of characters or locations *)
Definition there_and_back_char (n : novel) : res novel := do doc <- get_text (OdsWCharList (Some (s "x")) None) n; read_charlist doc n.
Definition there_and_back_loc (n : novel) : res novel := do doc <- get_text (OdsWLocList (Some (s "x")) None) n; read_loclist doc n.

(** A character not yet classified becomes a minor one. *)
Theorem C27_importance_refuted : there_and_back_char (with_character (s "1") (character_of (Some (s "Ann")) None None)) =
  Ok (with_character (s "1") (character_of (Some (s "Ann")) None (Some false))).
Proof. vm_compute. reflexivity. Qed.
Print Assumptions C27_importance_refuted.
(** White space at the end of a text is lost, carriage returns become line feeds, a tag with ", " becomes two tags. *)
Theorem C27_text_refuted : there_and_back_loc (with_locations [(s "1", world_of (Some (s "Inn")) (Some (s "old" ++ [32%N; 10%N])) None)]) =
  Ok (with_locations [(s "1", world_of (Some (s "Inn")) (Some (s "old")) None)]).
Proof. vm_compute. reflexivity. Qed.
Print Assumptions C27_text_refuted.
Theorem C27_return_refuted : there_and_back_loc (with_locations [(s "1", world_of (Some (s "Inn")) (Some (s "a" ++ [13%N] ++ s "b")) None)]) =
  Ok (with_locations [(s "1", world_of (Some (s "Inn")) (Some (s "a" ++ [10%N] ++ s "b")) None)]).
Proof. vm_compute. reflexivity. Qed.
Print Assumptions C27_return_refuted.
Theorem C27_tag_refuted : there_and_back_loc (with_locations [(s "1", world_of (Some (s "Inn")) None (Some [s "red, blue"]))]) =
  Ok (with_locations [(s "1", world_of (Some (s "Inn")) None (Some [s "red"; s "blue"]))]).
Proof. vm_compute. reflexivity. Qed.
Print Assumptions C27_tag_refuted.
(** An id that is no number is cut off: element 1a disappears from the list, element 1 is listed twice. *)
Theorem C27_id_refuted : there_and_back_loc (with_locations [(s "1a", world_of (Some (s "Inn")) None None); (s "1", world_of (Some (s "Bar")) None None)]) =
  Ok (set_nv_srtLocations [s "1"; s "1"] (with_locations [(s "1a", world_of (Some (s "Inn")) None None); (s "1", world_of (Some (s "Bar")) None None)])).
Proof. vm_compute. reflexivity. Qed.
Print Assumptions C27_id_refuted.

(** An instance of the guarded statement: markup characters, several lines, no value and the empty text *)
Definition C27_novel : novel := with_locations [(s "2", world_of (Some (s "<A & B>")) (Some (s "x" ++ [10%N; 10%N] ++ s " y ""z""")) (Some [s "t"; s "u v"]));
  (s "10", world_of (Some []) None (Some []))].
Example C27_instance : there_and_back_loc C27_novel = Ok C27_novel /\ (exists doc, get_text (OdsWLocList (Some (s "x")) None) C27_novel = Ok doc) /\
  Forall digits (nv_srtLocations C27_novel) /\
  (forall i c, In i (nv_srtLocations C27_novel) -> dget i (nv_locations C27_novel) = Some c -> world_fits c).
Proof.
  split; [vm_compute; reflexivity|]. split; [eexists; vm_compute; reflexivity|]. split.
  - change (Forall digits [s "2"; s "10"]). repeat constructor; try discriminate; vm_compute; discriminate.
  - intros i c Hi. change (In i [s "2"; s "10"]) in Hi.
    assert (F : forall t : str, forallb (fun c => xml_char c && negb (N.eqb c 13)) t = true -> rstrip t = t -> cell_field (Some t)).
    { intros t A B x E. injection E as <-. destruct (clean_const t A). now repeat split. }
    destruct Hi as [<-|[<-|[]]]; intro E; vm_compute in E; injection E as <-.
    + split; [|split; [|split]]; cbn.
      * apply F; reflexivity.
      * apply F; reflexivity.
      * intros x E. discriminate.
      * intros l E. injection E as <-. split; [repeat constructor; cbn; intuition discriminate|].
        repeat constructor; try discriminate; try (intro I; repeat (destruct I as [I|I]; [discriminate|]); exact I).
        -- intros a b. apply (OdsProofs.unmarked_iff (s ", ")). reflexivity.
        -- intros a b. apply (OdsProofs.unmarked_iff (s ", ")). reflexivity.
    + split; [|split; [|split]]; cbn.
      * apply F; reflexivity.
      * intros x E. discriminate.
      * intros x E. discriminate.
      * intros l E. injection E as <-. split; constructor.
Qed.

(** The scene list of a novel with one chapter *)
Definition with_scenes (cs : list (str * str)) (l : list (str * scene)) : novel :=
  set_nv_srtChapters [s "1"] (set_nv_chapters [(s "1", set_ch_srtScenes (map fst l) new_chapter)] (set_nv_scenes l
    (set_nv_characters (map (fun p => (fst p, character_of (Some (snd p)) None None)) cs) new_novel))).
Definition scene_with (title desc : option str) (tags : option (list str)) (ar : option bool) (f1 f2 : option str) (st : Z) (chars : option (list str)) : scene :=
  set_sc_title title (set_sc_desc desc (set_sc_tags tags (set_sc_isReactionScene ar (set_sc_field1 f1 (set_sc_field2 f2 (set_sc_field3 (Some (s "1")) (set_sc_field4 (Some (s "10"))
    (set_sc_status (Some st) (set_sc_characters chars new_scene))))))))).
Definition there_and_back_scene (n : novel) : res novel := do doc <- get_text (OdsWSceneList (Some (s "my%20novel")) (Some (s "file:///home/me"))) n; read_scenelist doc n.
Definition C27_scene (title desc : option str) (ar : option bool) (f1 : option str) (st : Z) : scene := scene_with title desc None ar f1 (Some (s "2")) st None.
(** No title or description becomes an empty one; a scene that is neither action nor reaction becomes an action scene; a missing rating becomes 1. *)
Theorem C27_scene_missing_refuted : there_and_back_scene (with_scenes [] [(s "7", C27_scene None None None None 1)]) =
  Ok (with_scenes [] [(s "7", C27_scene (Some []) (Some []) (Some false) (Some (s "1")) 1)]).
Proof. vm_compute. reflexivity. Qed.
Print Assumptions C27_scene_missing_refuted.
(** A status that counts from the end of the list comes back as the number it stands for. *)
Theorem C27_scene_status_refuted : there_and_back_scene (with_scenes [] [(s "7", C27_scene (Some []) (Some []) (Some false) (Some (s "1")) (-1))]) =
  Ok (with_scenes [] [(s "7", C27_scene (Some []) (Some []) (Some false) (Some (s "1")) 5)]).
Proof. vm_compute. reflexivity. Qed.
Print Assumptions C27_scene_status_refuted.
(** A character whose name contains markup makes the list unreadable. *)
Theorem C27_scene_markup_refuted : there_and_back_scene (with_scenes [(s "1", s "Tom & Jerry")] [(s "7", scene_with (Some []) (Some []) None (Some true) (Some (s "1")) (Some (s "1")) 1 (Some [s "1"]))]) = Err ParseError.
Proof. vm_compute. reflexivity. Qed.
Print Assumptions C27_scene_markup_refuted.

Definition C27_scenes_novel : novel := with_scenes [(s "4", s "D'Artagnan"); (s "5", s "Milady")]
  [(s "7", scene_with (Some (s "<A & B>")) (Some (s "x" ++ [10%N; 10%N] ++ s "y")) (Some [s "t"; s "u v"]) (Some true) (Some (s "1")) (Some (s "5")) 2 (Some [s "4"; s "5"]));
   (s "12", scene_with (Some []) (Some []) None (Some false) (Some (s "9")) (Some (s "1")) 0 None)].
Example C27_scenes_instance : there_and_back_scene C27_scenes_novel = Ok C27_scenes_novel /\
  (exists doc, get_text (OdsWSceneList (Some (s "my%20novel")) (Some (s "file:///home/me"))) C27_scenes_novel = Ok doc) /\
  url_text (Some (s "my%20novel")) /\ url_text (Some (s "file:///home/me")) /\ all_listed C27_scenes_novel /\ titles_fit C27_scenes_novel /\
  (forall ch i, In ch (nv_srtChapters C27_scenes_novel) -> In i (ch_srtScenes (chapter_of C27_scenes_novel ch)) -> scene_kind C27_scenes_novel ch i = Normal ->
    digits i /\ scene_fits C27_scenes_novel (scene_of C27_scenes_novel i)).
Proof.
  split; [vm_compute; reflexivity|]. split; [eexists; vm_compute; reflexivity|]. split; [intros x E; injection E as <-; reflexivity|]. split; [intros x E; injection E as <-; reflexivity|]. split; [|split].
  - intros ch H. change (In ch [s "1"]) in H. destruct H as [<-|[]]. eexists. split; [vm_compute; reflexivity|]. intros i Hi. change (In i [s "7"; s "12"]) in Hi.
    destruct Hi as [<-|[<-|[]]]; (eexists; vm_compute; reflexivity).
  - split; [|split; [|split]]; intros x E; vm_compute in E; try discriminate E; injection E as <-; (split; [|split]); try reflexivity; try (apply OdsRoundTrip.no_cr; reflexivity); apply (clean_const _ eq_refl).
  - intros ch i H. change (In ch [s "1"]) in H. destruct H as [<-|[]]. intro Hi. change (In i [s "7"; s "12"]) in Hi. intros _.
    assert (F : forall t : str, forallb (fun c => xml_char c && negb (N.eqb c 13)) t = true -> rstrip t = t -> cell_field (Some t)).
    { intros t A B x E. injection E as <-. destruct (clean_const t A). now repeat split. }
    assert (F0 : cell_field None) by (intros x E; discriminate).
    assert (R : forall k, (1 <= k <= 10)%N -> rating_fits (Some (str_of_N k))) by (intros k Hk; now exists k).
    assert (P : forall t : str, forallb (fun c => xml_char c && negb (smem [c] [[13%N]; s "<"; s ">"; s "&"])) t = true -> plain_title (Some t)).
    { intros t A x E. injection E as <-. rewrite forallb_forall in A. apply Forall_forall. intros c Hc. apply A in Hc. apply andb_true_iff in Hc as [Hc1 Hc2]. split; [exact Hc1|]. intro J.
      change (In c [13; 60; 62; 38]%N) in J. destruct J as [<-|[<-|[<-|[<-|[]]]]]; discriminate Hc2. }
    destruct Hi as [<-|[<-|[]]]; split; try (split; [discriminate | repeat constructor; vm_compute; discriminate]).
    + change (scene_of C27_scenes_novel (s "7")) with (scene_with (Some (s "<A & B>")) (Some (s "x" ++ [10%N; 10%N] ++ s "y")) (Some [s "t"; s "u v"]) (Some true) (Some (s "1")) (Some (s "5")) 2 (Some [s "4"; s "5"])).
      unfold scene_fits. repeat apply conj; try discriminate; try (exact F0); try (apply F; reflexivity); try (exact (R 1%N ltac:(lia))); try (exact (R 5%N ltac:(lia))); try (exact (R 10%N ltac:(lia))).
      * intros l E. injection E as <-. split; [repeat constructor; cbn; intuition discriminate|].
        repeat constructor; try discriminate; try (intro I; repeat (destruct I as [I|I]; [discriminate|]); exact I).
        -- intros a b. apply (OdsProofs.unmarked_iff (s ", ")). reflexivity.
        -- intros a b. apply (OdsProofs.unmarked_iff (s ", ")). reflexivity.
      * exists 2%Z. split; [lia | reflexivity].
      * intros l i c E. injection E as <-. intro Hi. change (In i [s "4"; s "5"]) in Hi. destruct Hi as [<-|[<-|[]]]; intro E; vm_compute in E; injection E as <-; apply P; reflexivity.
    + change (scene_of C27_scenes_novel (s "12")) with (scene_with (Some []) (Some []) None (Some false) (Some (s "9")) (Some (s "1")) 0 None).
      unfold scene_fits. repeat apply conj; try discriminate; try (exact F0); try (apply F; reflexivity); try (exact (R 1%N ltac:(lia))); try (exact (R 9%N ltac:(lia))); try (exact (R 10%N ltac:(lia))).
      exists 0%Z. split; [lia | reflexivity].
Qed.

(** Instances with a different novel m: the list of locations brings back the title, the texts, the tags and the order *)
Definition C27_other_novel : novel := set_nv_srtLocations [s "10"] (set_nv_locations
  [(s "2", world_of None (Some (s "other")) None); (s "10", world_of (Some (s "gone")) None (Some [s "a"; s "b"]))] new_novel).
Example C27_other : other_location_list C27_novel C27_other_novel /\ NoDup (map fst (nv_locations C27_novel)) /\ C27_other_novel <> C27_novel /\
  (do doc <- get_text (OdsWLocList (Some (s "x")) None) C27_novel; read_loclist doc C27_other_novel) = Ok C27_novel.
Proof.
  split; [|split; [|split; [intro H; apply (f_equal nv_srtLocations) in H; vm_compute in H; discriminate H | vm_compute; reflexivity]]].
  - exists [s "10"], (nv_locations C27_other_novel). split; [reflexivity|]. change (nv_locations C27_other_novel) with [(s "2", world_of None (Some (s "other")) None); (s "10", world_of (Some (s "gone")) None (Some [s "a"; s "b"]))].
    constructor; [|constructor; [|constructor]]; (split; [reflexivity|]; right; split; [cbn; tauto|]); repeat split; cbn; try discriminate; exact I.
  - change (NoDup [s "2"; s "10"]). constructor; [cbn; intros [H|[]]; discriminate H|]. constructor; [intros [] | constructor].
Qed.
Definition C27_other_scenes_novel : novel := set_nv_scenes
  [(s "7", scene_with None (Some (s "other")) (Some [s "z"]) None None (Some (s "junk")) 5 (Some [s "4"; s "5"])); (s "12", scene_with (Some (s "old")) None None (Some true) (Some (s "3")) None 0 None)]
  C27_scenes_novel.
Ltac scene_fields y := exists (sc_title y), (sc_desc y), (sc_tags y), (sc_notes y), (sc_isReactionScene y), (sc_goal y), (sc_conflict y), (sc_outcome y),
  (sc_field1 y), (sc_field2 y), (sc_field3 y), (sc_field4 y), (sc_status y).
Example C27_scenes_other : other_scene_list C27_scenes_novel C27_other_scenes_novel /\ NoDup (map fst (nv_scenes C27_scenes_novel)) /\ C27_other_scenes_novel <> C27_scenes_novel /\
  (do doc <- get_text (OdsWSceneList (Some (s "my%20novel")) (Some (s "file:///home/me"))) C27_scenes_novel; read_scenelist doc C27_other_scenes_novel) = Ok C27_scenes_novel.
Proof.
  split; [|split; [|split; [intro H; apply (f_equal (fun n => map (fun p => sc_title (snd p)) (nv_scenes n))) in H; vm_compute in H; discriminate H | vm_compute; reflexivity]]].
  - eexists. split; [reflexivity|]. constructor; [|constructor; [|constructor]]; (split; [reflexivity|]; right; split).
    + exists (s "1"). vm_compute. repeat split; now left.
    + scene_fields (scene_with None (Some (s "other")) (Some [s "z"]) None None (Some (s "junk")) 5 (Some [s "4"; s "5"])). split; [vm_compute; reflexivity|]. repeat split; cbn; try discriminate; exact I.
    + exists (s "1"). vm_compute. repeat split; [now left | right; now left].
    + scene_fields (scene_with (Some (s "old")) None None (Some true) (Some (s "3")) None 0 None). split; [vm_compute; reflexivity|]. repeat split; cbn; try discriminate; exact I.
  - change (NoDup [s "7"; s "12"]). constructor; [cbn; intros [H|[]]; discriminate H|]. constructor; [intros [] | constructor].
Qed.
