(** Property theorems C29, C30 (reading text documents).  Only statements, [exact], assumptions and instances.
    A document is any sequence of parser events (es), with any title, author, description and default language;
    n is the novel the document is read into. *)
From Coq Require Import String List NArith ZArith Bool Sorting.Permutation.
From Verif Require Import PyStr PyDict NovelModel NovelOps Splitter SpecNovel SpecSplit OdfXml OdtRead SpecRead ReadFrame4 ReadFrame5 ReadFrame6 SpecImport ImportProofs2 ImportProofs4 ImportProofs5.
Import ListNotations.

(** * C29 *)
(** manuscript (type 0), notes (1) and todo (2) documents: parsing *)
Theorem C29_manuscript_parsed : forall TYPE styles title author desc es n n', NoDup (dkeys (nv_chapters n)) ->
  feed (manuscript_reader TYPE) (opening_calls styles title author desc) es n = Ok n' ->
  framed (marked (s "ScID") es) (marked (s "ChID") es) ms_scene ms_chapter titled n n'.
Proof. exact manuscript_frame. Qed.
Print Assumptions C29_manuscript_parsed.
(** scene descriptions *)
Theorem C29_scene_descriptions : forall styles title author desc es n n', NoDup (dkeys (nv_chapters n)) ->
  read_plain scenedesc_reader (opening_calls styles title author desc) es n = Ok n' ->
  framed (marked (s "ScID") es) (marked (s "ChID") es) sd_scene ms_chapter has_text n n'.
Proof. exact scenedesc_frame. Qed.
Print Assumptions C29_scene_descriptions.
(** chapter and part descriptions *)
Theorem C29_chapter_descriptions : forall styles title author desc es n n', NoDup (dkeys (nv_chapters n)) ->
  read_plain chapterdesc_reader (opening_calls styles title author desc) es n = Ok n' ->
  framed (marked (s "ScID") es) (marked (s "ChID") es) cd_scene cd_chapter has_text n n'.
Proof. exact chapterdesc_frame. Qed.
Print Assumptions C29_chapter_descriptions.
(** character, item and location descriptions *)
Theorem C29_characters : forall styles title author desc es n n', read_plain characters_reader (opening_calls styles title author desc) es n = Ok n' ->
  set_nv_srtCharacters [] (set_nv_characters [] n') = set_nv_srtCharacters [] (set_nv_characters [] n) /\
  list_framed (marked (s "CrID_desc") es) character_core new_character (nv_characters n) (nv_characters n') (nv_srtCharacters n) (nv_srtCharacters n').
Proof. exact characters_frame. Qed.
Print Assumptions C29_characters.
Theorem C29_items : forall styles title author desc es n n', read_plain items_reader (opening_calls styles title author desc) es n = Ok n' ->
  set_nv_srtItems [] (set_nv_items [] n') = set_nv_srtItems [] (set_nv_items [] n) /\
  list_framed (marked (s "ItID") es) element_core new_world (nv_items n) (nv_items n') (nv_srtItems n) (nv_srtItems n').
Proof. exact items_frame. Qed.
Print Assumptions C29_items.
Theorem C29_locations : forall styles title author desc es n n', read_plain locations_reader (opening_calls styles title author desc) es n = Ok n' ->
  set_nv_srtLocations [] (set_nv_locations [] n') = set_nv_srtLocations [] (set_nv_locations [] n) /\
  list_framed (marked (s "LcID") es) element_core new_world (nv_locations n) (nv_locations n') (nv_srtLocations n) (nv_srtLocations n').
Proof. exact locations_frame. Qed.
Print Assumptions C29_locations.
(** proof reading documents, with marks in the text: no scene or chapter is created, no chapter changed *)
Theorem C29_proof_parsed : forall tr styles title author desc es n n', feed (proof_reader tr) (opening_calls styles title author desc) es n = Ok n' ->
  set_nv_languageCode None (set_nv_countryCode None (set_nv_languages None (set_nv_scenes [] n'))) =
  set_nv_languageCode None (set_nv_countryCode None (set_nv_languages None (set_nv_scenes [] n))) /\
  dkeys (nv_scenes n') = dkeys (nv_scenes n) /\
  (forall i, ~ tagged (texts_of title es) i -> dget i (nv_scenes n') = dget i (nv_scenes n)) /\
  (forall i x, dget i (nv_scenes n') = Some x -> exists x0, dget i (nv_scenes n) = Some x0 /\ pf_scene x = pf_scene x0).
Proof. exact proof_frame. Qed.
Print Assumptions C29_proof_parsed.

(** read() as a whole: after parsing, all scenes with separator lines are split, also those not marked; hence the guard *)
Theorem C29_manuscript_read : forall tr TYPE styles title author desc es n n' flag,
  structure_ok n -> NoDup (dkeys (nv_chapters n)) -> NoDup (dkeys (nv_scenes n)) ->
  read_formatted tr (manuscript_reader TYPE) (opening_calls styles title author desc) es n = Ok (n', flag) ->
  doc_rest n' = doc_rest n /\ structure_ok n' /\
  (forall id x, dget id (nv_scenes n) = Some x -> ~ marked (s "ScID") es id -> no_separator x -> exists y, dget id (nv_scenes n') = Some y /\ no_counts y = no_counts x) /\
  (forall id x, dget id (nv_scenes n) = Some x -> exists y, dget id (nv_scenes n') = Some y /\ scene_core (ms_scene y) = scene_core (ms_scene x)) /\
  (forall id c, dget id (nv_chapters n) = Some c -> exists d, dget id (nv_chapters n') = Some d /\
     (if titled c then ch_title d = ch_title c else True) /\ chapter_core (ms_chapter d) = chapter_core (ms_chapter c) /\ (~ marked (s "ChID") es id -> chapter_core d = chapter_core c)).
Proof. exact manuscript_read. Qed.
Print Assumptions C29_manuscript_read.
Theorem C29_proof_read : forall tr styles title author desc es n n' flag, structure_ok n ->
  read_formatted tr (proof_reader tr) (opening_calls styles title author desc) es n = Ok (n', flag) ->
  doc_rest n' = doc_rest n /\ structure_ok n' /\
  (forall id x, dget id (nv_scenes n) = Some x -> ~ tagged (texts_of title es) id -> no_separator x -> exists y, dget id (nv_scenes n') = Some y /\ no_counts y = no_counts x) /\
  (forall id x, dget id (nv_scenes n) = Some x -> exists y, dget id (nv_scenes n') = Some y /\ scene_core y = scene_core x) /\
  (forall id c, dget id (nv_chapters n) = Some c -> exists d, dget id (nv_chapters n') = Some d /\ chapter_core d = chapter_core c).
Proof. exact proof_read. Qed.
Print Assumptions C29_proof_read.

(** a novel with two scenes, and documents for it *)
Definition C29_novel : novel :=
  set_nv_srtChapters [s "1"] (set_nv_chapters [(s "1", set_ch_srtScenes [s "1"; s "2"] new_chapter)]
   (set_nv_scenes [(s "1", set_sc_status (Some 1%Z) (set_sceneContent (s "old one") new_scene)); (s "2", set_sc_status (Some 1%Z) (set_sceneContent (s "two" ++ [10%N] ++ s "## Chapter" ++ [10%N] ++ s "three") new_scene))] new_novel)).
Definition C29_section (name : str) (es : list event) : list event := Start (s "text:section") [(s "text:name", name)] :: es ++ [End (s "text:section")].
Definition C29_p (t : str) : list event := [Start (s "text:p") []; Data t; End (s "text:p")].
Definition C29_document : list event := C29_section (s "ChID:1") (C29_section (s "ScID:1") (C29_p (s "new one")) ++ C29_section (s "ScID:7") (C29_p (s "seven"))).
Lemma C29_novel_ok : structure_ok C29_novel /\ NoDup (dkeys (nv_chapters C29_novel)) /\ NoDup (dkeys (nv_scenes C29_novel)).
Proof. unfold structure_ok. vm_compute. repeat split; try (intros ? H; exact H); repeat constructor; cbn; intuition discriminate. Qed.
Example C29_instance : exists n', feed (manuscript_reader 0) (opening_calls (Some (Some (s "en"), Some (s "US"))) None None None) C29_document (set_nv_languages (Some []) C29_novel) = Ok n' /\
  map (content_at n') [s "1"; s "2"; s "7"] = [Some (s "new one"); content_at C29_novel (s "2"); Some (s "seven")] /\ all_scenes n' = [s "1"; s "2"; s "7"].
Proof. eexists. split; [vm_compute; reflexivity|]. split; vm_compute; reflexivity. Qed.
(** the second scene is not in this document, but reading it splits the scene all the same *)
Theorem C29_unmarked_split_refuted : exists es n n' flag, structure_ok n /\ NoDup (dkeys (nv_chapters n)) /\ NoDup (dkeys (nv_scenes n)) /\
  read_formatted (fun x => x) (manuscript_reader 0) (opening_calls None None None None) es n = Ok (n', flag) /\
  ~ marked (s "ScID") es (s "2") /\ dget (s "2") (nv_scenes n) <> None /\ content_at n' (s "2") = Some (s "two") /\ content_at n (s "2") = Some (s "two" ++ [10%N] ++ s "## Chapter" ++ [10%N] ++ s "three").
Proof.
  exists C29_document, C29_novel. do 2 eexists. destruct C29_novel_ok as (A & B & C). split; [exact A|]. split; [exact B|]. split; [exact C|]. split; [vm_compute; reflexivity|]. split.
  - intros (v & I & P & F). vm_compute in I. destruct I as [<-|[<-|[<-|[]]]]; vm_compute in F; discriminate.
  - split; [vm_compute; discriminate|]. split; vm_compute; reflexivity.
Qed.
Print Assumptions C29_unmarked_split_refuted.
Example C29_instance_proof : exists n', feed (proof_reader (fun x => x)) (opening_calls None None None None) (C29_p (s "[ScID:1]") ++ C29_p (s "new") ++ C29_p (s "[/ScID]")) (set_nv_languages (Some []) C29_novel) = Ok n' /\
  map (content_at n') [s "1"; s "2"] = [Some (s "new"); content_at C29_novel (s "2")].
Proof. eexists. split; [vm_compute; reflexivity|]. vm_compute; reflexivity. Qed.
Example C29_instance_descriptions : exists n' n'', read_plain scenedesc_reader (opening_calls None None None None) C29_document C29_novel = Ok n' /\
  read_plain chapterdesc_reader (opening_calls None None None None) (C29_section (s "ChID:1") (C29_p (s "about"))) C29_novel = Ok n'' /\
  option_map sc_desc (dget (s "1") (nv_scenes n')) = Some (Some (s "new one")) /\ option_map ch_desc (dget (s "1") (nv_chapters n'')) = Some (Some (s "about")).
Proof. do 2 eexists. split; [vm_compute; reflexivity|]. split; [vm_compute; reflexivity|]. split; vm_compute; reflexivity. Qed.
Example C29_instance_lists : exists n1 n2 n3,
  read_plain characters_reader (opening_calls None None None None) (C29_section (s "CrID_desc:3") (C29_p (s "tall")) ++ C29_section (s "CrID_bio:3") (C29_p (s "born"))) C29_novel = Ok n1 /\
  read_plain items_reader (opening_calls None None None None) (C29_section (s "ItID:4") (C29_p (s "sharp"))) C29_novel = Ok n2 /\
  read_plain locations_reader (opening_calls None None None None) (C29_section (s "LcID:5") (C29_p (s "dark"))) C29_novel = Ok n3 /\
  option_map cr_bio (dget (s "3") (nv_characters n1)) = Some (Some (s "born")) /\ option_map we_desc (dget (s "4") (nv_items n2)) = Some (Some (s "sharp")) /\ nv_srtLocations n3 = [s "5"].
Proof. do 3 eexists. split; [vm_compute; reflexivity|]. split; [vm_compute; reflexivity|]. split; [vm_compute; reflexivity|]. repeat split; vm_compute; reflexivity. Qed.

(** * C30 *)
(** every document, with whatever contents: one chapter per heading of the first two levels, scenes listed once, consecutive IDs; apart from chapters, scenes and the document's own title, author, description and language the novel stays *)
Theorem C30_import_structure : forall tr styles title author desc es n0 n', nv_srtChapters n0 = [] -> nv_chapters n0 = [] -> nv_scenes n0 = [] ->
  feed (import_reader tr) (opening_calls styles title author desc) es n0 = Ok n' ->
  exists calls b, report new_ps es = Ok calls /\ is_book b n' /\ chapters_match (heading_levels calls) b /\ scenes_ok b /\ import_rest n' = import_rest n0 /\ described (fun x => x) styles title author desc n0 n'.
Proof. exact (fun tr styles title author desc es n0 n' A B C H => structure_meta _ _ n0 (op_import tr) (import_step tr n0) (import_meta_step tr) A B C styles title author desc es n' H). Qed.
Print Assumptions C30_import_structure.
Theorem C30_outline_structure : forall styles title author desc es n0 n', nv_srtChapters n0 = [] -> nv_chapters n0 = [] -> nv_scenes n0 = [] ->
  read_plain outline_reader (opening_calls styles title author desc) es n0 = Ok n' ->
  exists calls b, report new_ps es = Ok calls /\ is_book b n' /\ chapters_match (heading_levels calls) b /\ scenes_ok b /\ import_rest n' = import_rest n0 /\ described strip styles title author desc n0 n'.
Proof. exact (fun styles title author desc es n0 n' A B C H => structure_meta _ _ n0 op_outline (outline_step n0) outline_meta_step A B C styles title author desc es n' H). Qed.
Print Assumptions C30_outline_structure.
(** so each scene belongs to exactly one chapter *)
Theorem C30_book_lists : forall b n, is_book b n -> all_scenes n = dkeys (nv_scenes n) /\ NoDup (all_scenes n) /\ NoDup (nv_srtChapters n) /\ nv_srtChapters n = dkeys (nv_chapters n).
Proof. exact book_scenes. Qed.
Print Assumptions C30_book_lists.
(** documents made of headings, paragraphs and scene dividers: all paragraphs are in the scenes, in order *)
Theorem C30_import_text : forall tr styles title author desc doc n0, nv_srtChapters n0 = [] -> nv_chapters n0 = [] -> nv_scenes n0 = [] -> document_ok doc ->
  exists n', feed (import_reader tr) (opening_calls styles title author desc) (document doc) (set_nv_languages (Some []) n0) = Ok n' /\ is_book (import_book tr 0 doc) n' /\ import_rest n' = import_rest n0 /\
    described (fun x => x) styles title author desc n0 n'.
Proof. exact import_document. Qed.
Print Assumptions C30_import_text.
Theorem C30_scenes_have_all_paragraphs : forall bs, concat (scenes_of None bs) = paragraphs bs.
Proof. exact (fun bs => scenes_paragraphs bs None). Qed.
Print Assumptions C30_scenes_have_all_paragraphs.
(** and the text of a scene is that of its paragraphs, unless formatted runs are joined *)
Theorem C30_text_kept : forall t, Forall (fun p => containsb p t = false) [s "[/i][i]"; s "[/i]" ++ [10%N] ++ s "[i]"; s "[/i]" ++ [10%N] ++ s "> [i]"; s "[/b][b]"; s "[/b]" ++ [10%N] ++ s "[b]"; s "[/b]" ++ [10%N] ++ s "> [b]"] ->
  merge_runs t = t.
Proof. exact merge_plain. Qed.
Print Assumptions C30_text_kept.
(** read() as a whole: reading goes on with splitting at separator lines, never fails there, and keeps the structure; the texts are those read, cut at the separators *)
Theorem C30_import_read : forall tr styles title author desc es n0 n', nv_srtChapters n0 = [] -> nv_chapters n0 = [] -> nv_scenes n0 = [] ->
  feed (import_reader tr) (opening_calls styles title author desc) es (set_nv_languages (Some []) n0) = Ok n' ->
  exists n2 flag, read_formatted tr (import_reader tr) (opening_calls styles title author desc) es n0 = Ok (n2, flag) /\ structure_ok n2 /\ novel_rest n2 = novel_rest n' /\
    (splittable n' -> map (content_at n2) (all_scenes n2) = flat_map (fun k => parts_of (content_at n' k)) (all_scenes n')).
Proof. exact import_read. Qed.
Print Assumptions C30_import_read.
Theorem C30_contents : forall b n, is_book b n -> map (content_at n) (all_scenes n) = map sc_content (flat_map snd b).
Proof. exact book_contents. Qed.
Print Assumptions C30_contents.
(** outlines: all paragraphs are in the descriptions *)
Theorem C30_outline_text : forall styles title author desc doc n0, nv_srtChapters n0 = [] -> nv_chapters n0 = [] -> nv_scenes n0 = [] ->
  exists n', read_plain outline_reader (opening_calls styles title author desc) (outline_document doc) n0 = Ok n' /\ is_book (map outline_chapter doc) n' /\ import_rest n' = import_rest n0 /\ described strip styles title author desc n0 n'.
Proof. exact outline_read. Qed.
Print Assumptions C30_outline_text.

Definition C30_doc : list section :=
  [(true, [s "Part "; s "One"], []); (false, [s "Chapter 1"], [Para [Note (s "me") (s " Begin "); Word (s "It was"); Blank; Styled true (s "dark")]; Para [Word (s "So what"); Note (s "me") (s "check")]; Divider (s "* * *"); Para [Word (s "second")]])].
Example C30_instance : document_ok C30_doc /\ exists n', feed (import_reader (fun x => x)) (opening_calls None (Some (s "T")) None None) (document C30_doc) (set_nv_languages (Some []) new_novel) = Ok n' /\
  map (content_at n') (all_scenes n') = [Some (s "It was [b]dark[/b]" ++ [10%N] ++ s "So what/*check*/"); Some (s "second")] /\ nv_srtChapters n' = [s "1"; s "2"] /\ map (chapter_scenes n') (nv_srtChapters n') = [[]; [s "1"; s "2"]] /\
  map (fun k => option_map sc_title (dget k (nv_scenes n'))) [s "1"; s "2"] = [Some (Some (s "Begin")); Some (Some (s "Scene 2"))].
Proof. split; [repeat constructor|]. eexists. split; [vm_compute; reflexivity|]. repeat split; vm_compute; reflexivity. Qed.
Definition C30_outline : list ochapter := [(false, [s "Chapter 1 "], [[Word (s " It begins")]; [Blank]; [Word (s "and ends ")]], [([s "Meeting"], [[Word (s "they meet"); Note (s "me") (s "where")]]); ([s "Parting"], [])])].
Example C30_instance_outline : exists n', read_plain outline_reader (opening_calls None None None None) (outline_document C30_outline) new_novel = Ok n' /\
  option_map ch_desc (dget (s "1") (nv_chapters n')) = Some (Some (s "It begins" ++ [10%N] ++ s "and ends" ++ [10%N])) /\
  map (fun k => option_map sc_desc (dget k (nv_scenes n'))) [s "1"; s "2"] = [Some (Some (s "they meet/*where*/" ++ [10%N])); Some None].
Proof. eexists. split; [vm_compute; reflexivity|]. repeat split; vm_compute; reflexivity. Qed.

(** ** text that is lost *)
Definition C30_imported (es : list event) : res (list (option str)) := do n <- feed (import_reader (fun x => x)) (opening_calls None None None None) (wrapped es) (set_nv_languages (Some []) new_novel); Ok (map sc_content (map snd (nv_scenes n))).
(** before the first heading; a text that contains the divider; list items and quotations directly behind a heading, where no scene has begun *)
Theorem C30_before_heading_refuted : C30_imported (para_events [Word (s "prologue")] ++ heading_events (s "2") [s "One"] ++ para_events [Word (s "text")]) = Ok [Some (s "text")].
Proof. vm_compute. reflexivity. Qed.
Print Assumptions C30_before_heading_refuted.
Theorem C30_divider_text_refuted : C30_imported (heading_events (s "2") [s "One"] ++ para_events [Word (s "text")] ++ para_events [Word (s "the sign * * * was seen")] ++ para_events [Word (s "more")]) = Ok [Some (s "text"); Some (s "more")].
Proof. vm_compute. reflexivity. Qed.
Print Assumptions C30_divider_text_refuted.
Theorem C30_list_item_refuted : C30_imported (heading_events (s "2") [s "One"] ++ [Start (s "text:list-item") []] ++ para_events [Word (s "item")] ++ [End (s "text:list-item")] ++ para_events [Word (s "text")]) = Ok [Some (s "text")].
Proof. vm_compute. reflexivity. Qed.
Print Assumptions C30_list_item_refuted.
Theorem C30_quotation_refuted : C30_imported (heading_events (s "2") [s "One"] ++ [Start (s "text:p") [(s "text:style-name", s "Quotations")]; Data (s "motto"); End (s "text:p")] ++ para_events [Word (s "text")]) = Ok [Some (s "text")].
Proof. vm_compute. reflexivity. Qed.
Print Assumptions C30_quotation_refuted.
(** comments in the description of a chapter *)
Theorem C30_outline_comment_refuted : exists n', read_plain outline_reader (opening_calls None None None None) (outline_document [(false, [s "One"], [[Word (s "about"); Note (s "me") (s "note")]], [])]) new_novel = Ok n' /\
  option_map ch_desc (dget (s "1") (nv_chapters n')) = Some (Some (s "about" ++ [10%N])).
Proof. eexists. split; vm_compute; reflexivity. Qed.
Print Assumptions C30_outline_comment_refuted.
(** and an outline with a scene before the first chapter cannot be read *)
Theorem C30_outline_scene_refuted : exists e, read_plain outline_reader (opening_calls None None None None) (wrapped (heading_events (s "3") [s "Scene"])) new_novel = Err e.
Proof. eexists. vm_compute. reflexivity. Qed.
Print Assumptions C30_outline_scene_refuted.
