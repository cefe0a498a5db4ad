(** Property theorem C43 (exported descriptions read back unchanged).  Only statements, [exact], assumptions and instances. *)
From Coq Require Import String List NArith ZArith Bool Lia Arith.
From Verif Require Import SpecExport SpecRetext SpecRedesc Redesc.
From Verif Require Import PyStr PyDict YwText NovelModel NovelOps OdfXml SpecOdf SpecManuscript SpecDesc OdtRead Export Descriptions DescMore DescWorlds DescCharacters.
Import ListNotations.

(** * C43 *)
(** tr: the translation of messages; pn, pp: name and path of the project; doc: the content.xml that is written; es': how the XML parser delivers it;
    m: the novel the document is read into; its descriptions of the elements in the document may be any others;
    styles: language and country in styles.xml; title, author, desc: the contents of meta.xml.  Scene descriptions: the text in pieces of any kind *)
Theorem C43_scene_descriptions : forall tr pn pp n doc, NoDup (map fst (nv_scenes n)) -> scenes_ok pn n -> get_text (OdtWSceneDesc tr pn pp) n = Ok doc ->
  forall m, other_scenes (in_document n) n m ->
  exists es, sax doc = Some es /\ forall es' styles title author desc, deliver_by anyhow es es' ->
    read_plain scenedesc_reader (opening_calls styles title author desc) es' m = Ok n.
Proof. exact scenes_back. Qed.
Print Assumptions C43_scene_descriptions.
(** the others: each text in one piece, or in pieces that neither begin nor end with white space *)
Theorem C43_chapter_descriptions : forall tr pn pp n doc, NoDup (map fst (nv_chapters n)) -> chapters_ok false pn n -> get_text (OdtWChapterDesc tr pn pp) n = Ok doc ->
  forall m, other_chapters (chapters_of_kind Normal n) n m ->
  exists es, sax doc = Some es /\ forall es' styles title author desc, deliver_by trimmed es es' ->
    read_plain chapterdesc_reader (opening_calls styles title author desc) es' m = Ok n.
Proof. exact chapters_back. Qed.
Print Assumptions C43_chapter_descriptions.
Theorem C43_part_descriptions : forall tr pn pp n doc, NoDup (map fst (nv_chapters n)) -> chapters_ok true pn n -> get_text (OdtWPartDesc tr pn pp) n = Ok doc ->
  forall m, other_chapters (chapters_of_kind Part n) n m ->
  exists es, sax doc = Some es /\ forall es' styles title author desc, deliver_by trimmed es es' ->
    read_plain chapterdesc_reader (opening_calls styles title author desc) es' m = Ok n.
Proof. exact parts_back. Qed.
Print Assumptions C43_part_descriptions.
Theorem C43_characters : forall tr pn pp n doc, NoDup (map fst (nv_characters n)) -> characters_ok pn n -> get_text (OdtWCharacters tr pn pp) n = Ok doc ->
  forall m, other_characters (fun i => In i (nv_srtCharacters n)) n m ->
  exists es, sax doc = Some es /\ forall es' styles title author desc, deliver_by trimmed es es' ->
    read_plain characters_reader (opening_calls styles title author desc) es' m = Ok n.
Proof. exact characters_back. Qed.
Print Assumptions C43_characters.
Theorem C43_locations : forall tr pn pp n doc, NoDup (map fst (nv_locations n)) -> worlds_ok pn n (nv_srtLocations n) (nv_locations n) -> get_text (OdtWLocations tr pn pp) n = Ok doc ->
  forall m, other_locations (fun i => In i (nv_srtLocations n)) n m ->
  exists es, sax doc = Some es /\ forall es' styles title author desc, deliver_by trimmed es es' ->
    read_plain locations_reader (opening_calls styles title author desc) es' m = Ok n.
Proof. exact locations_back. Qed.
Print Assumptions C43_locations.
Theorem C43_items : forall tr pn pp n doc, NoDup (map fst (nv_items n)) -> worlds_ok pn n (nv_srtItems n) (nv_items n) -> get_text (OdtWItems tr pn pp) n = Ok doc ->
  forall m, other_items (fun i => In i (nv_srtItems n)) n m ->
  exists es, sax doc = Some es /\ forall es' styles title author desc, deliver_by trimmed es es' ->
    read_plain items_reader (opening_calls styles title author desc) es' m = Ok n.
Proof. exact items_back. Qed.
Print Assumptions C43_items.

(** ** Instances *)
Definition D_nl : str := [10%N].
Definition D_desc : str := s "He says ""no"" & goes:" ++ D_nl ++ D_nl ++ s "1 < 2".
Definition D_scene (d : option str) : scene := set_sc_status (Some 2%Z) (set_sc_type (Some 0%N) (set_sc_title (Some (s "A ""scene""")) (set_sc_desc d new_scene))).
Definition D_chapter (lvl : N) (t d : option str) (ids : list str) : chapter := set_ch_srtScenes ids (set_ch_desc d (set_ch_title t (set_ch_type (Some 0%N) (set_ch_level (Some lvl) new_chapter)))).
Definition D_world (d : option str) : world := set_we_desc d (set_we_aka (Some (s "alias")) (set_we_title (Some (s "Here & there")) new_world)).
Definition D_character (d : option str) : character := set_cr_notes (Some []) (set_cr_goals d (set_cr_bio (Some (s "born")) (set_cr_desc d (set_cr_fullName (Some (s "Bob Smith")) (set_cr_title (Some (s "Bob")) new_character))))).
Definition D_novel (d : option str) : novel :=
  set_nv_title (Some (s "The <Title>")) (set_nv_authorName (Some (s "A. Author"))
   (set_nv_srtChapters [s "1"; s "2"] (set_nv_chapters [(s "1", D_chapter 1 (Some (s "Part 'One'")) d []); (s "2", D_chapter 0 (Some (s "Chapter & one")) d [s "1"; s "2"])]
   (set_nv_scenes [(s "1", D_scene d); (s "2", D_scene d)] (set_nv_srtLocations [s "4"; s "12"] (set_nv_locations [(s "4", D_world d); (s "12", D_world d)]
   (set_nv_srtItems [s "3"] (set_nv_items [(s "3", D_world d)] (set_nv_srtCharacters [s "7"; s "8"] (set_nv_characters [(s "7", D_character d); (s "8", D_character d)] new_novel)))))))))).
Definition D_sample : novel := Eval vm_compute in D_novel (Some D_desc).
Ltac d_write := split; [repeat constructor | let K := fresh "K" in intro K; vm_compute in K; intuition discriminate].
Example C43_instance : scenes_ok (Some (s "My novel")) D_sample /\ chapters_ok false (Some (s "My novel")) D_sample /\ chapters_ok true (Some (s "My novel")) D_sample /\ characters_ok (Some (s "My novel")) D_sample /\
  worlds_ok (Some (s "My novel")) D_sample (nv_srtLocations D_sample) (nv_locations D_sample) /\ worlds_ok (Some (s "My novel")) D_sample (nv_srtItems D_sample) (nv_items D_sample).
Proof.
  assert (Wd : writable D_desc) by d_write. assert (Ds : describable D_desc) by (split; [exact Wd | vm_compute; reflexivity]).
  assert (Lt : given listable (Some D_desc)) by (exists D_desc; split; [reflexivity|]; split; [exact Ds | repeat constructor]).
  assert (Lb : given listable (Some (s "born"))) by (eexists; split; [reflexivity|]; split; [split; [d_write | vm_compute; reflexivity] | repeat constructor]).
  assert (Le : given listable (Some [])) by (eexists; split; [reflexivity|]; split; [split; [d_write | vm_compute; reflexivity] | repeat constructor]).
  assert (Hh : header_ok (Some (s "My novel")) D_sample) by (split; [d_write | split; d_write]).
  assert (Bn : SpecDesc.bare None) by exact I. assert (Ba : SpecDesc.bare (Some (s "alias"))) by (split; [d_write | repeat (constructor; [repeat split; discriminate|]); constructor]).
  assert (Bs : SpecDesc.bare (Some (s "Bob Smith"))) by (split; [d_write | repeat (constructor; [repeat split; discriminate|]); constructor]).
  assert (T1 : headline (Some (s "Here & there"))) by d_write. assert (T2 : headline (Some (s "Bob"))) by d_write. assert (T3 : headline (Some (s "A ""scene"""))) by d_write.
  assert (T4 : given (fun t => writable t /\ not_empty t) (Some (s "Part 'One'"))) by (eexists; split; [reflexivity|]; split; [d_write | discriminate]).
  assert (T5 : given (fun t => writable t /\ not_empty t) (Some (s "Chapter & one"))) by (eexists; split; [reflexivity|]; split; [d_write | discriminate]).
  assert (Th : forall t, given (fun t => writable t /\ not_empty t) t -> headline t) by (intros t [x [-> [H _]]]; exact H).
  assert (Sc : forall x, x = D_scene (Some D_desc) -> scene_describable D_sample x).
  { intros x ->. split; [reflexivity | exact T3|]. intros _. exists D_desc. split; [reflexivity | split; [exact Ds | vm_compute; reflexivity]]. }
  assert (Ch : forall b, chapters_ok b (Some (s "My novel")) D_sample).
  { intro b. split; [exact Hh|]. intros i c [<- | [<- | []]] E; injection E as <-; (split; [reflexivity|]); (split; [reflexivity|]); split; try (apply Th; assumption); intros _; split; try assumption. }
  split; [|split; [|split; [|split; [|split]]]].
  - split; [exact Hh|]. intros i c [<- | [<- | []]] E; injection E as <-; (split; [reflexivity|]); (split; [reflexivity|]); (split; [assumption|]); intros j x Hj Ex.
    + destruct Hj.
    + destruct Hj as [<- | [<- | []]]; injection Ex as <-; (split; [reflexivity|]); apply Sc; vm_compute; reflexivity.
  - apply Ch.
  - apply Ch.
  - split; [exact Hh|]. intros i x [<- | [<- | []]] E; injection E as <-; (split; [reflexivity|]); split; assumption.
  - split; [exact Hh|]. intros i x [<- | [<- | []]] E; injection E as <-; (split; [reflexivity|]); (split; [assumption|]); split; assumption.
  - split; [exact Hh|]. intros i x [<- | []] E; injection E as <-; (split; [reflexivity|]); (split; [assumption|]); split; assumption.
Qed.
Definition D_written (e : exporter) (n : novel) : bool := match get_text e n with Ok _ => true | Err _ => false end.
Example C43_instance_written : let pn := Some (s "My novel") in forallb (fun e => D_written e D_sample)
  [OdtWSceneDesc (fun x => x) pn None; OdtWChapterDesc (fun x => x) pn None; OdtWPartDesc (fun x => x) pn None; OdtWCharacters (fun x => x) pn None; OdtWLocations (fun x => x) pn None; OdtWItems (fun x => x) pn None] = true.
Proof. vm_compute. reflexivity. Qed.

(** the document is read into a novel with other descriptions *)
Definition D_other_scenes : novel := Eval vm_compute in set_nv_scenes [(s "1", D_scene None); (s "2", D_scene (Some (s "other")))] D_sample.
Definition D_other_chapters : novel := Eval vm_compute in set_nv_chapters [(s "1", D_chapter 1 (Some (s "Part 'One'")) (Some D_desc) []); (s "2", D_chapter 0 (Some (s "Chapter & one")) None [s "1"; s "2"])] D_sample.
Definition D_other_characters : novel := Eval vm_compute in set_nv_characters [(s "7", set_cr_bio None (D_character None)); (s "8", D_character (Some D_desc))] D_sample.
Example C43_other :
  (NoDup (map fst (nv_scenes D_sample)) /\ other_scenes (in_document D_sample) D_sample D_other_scenes) /\
  (NoDup (map fst (nv_chapters D_sample)) /\ other_chapters (chapters_of_kind Normal D_sample) D_sample D_other_chapters) /\
  (NoDup (map fst (nv_characters D_sample)) /\ other_characters (fun i => In i (nv_srtCharacters D_sample)) D_sample D_other_characters).
Proof.
  assert (N2 : forall a b : str, str_eqb a b = false -> NoDup [a; b]).
  { intros a b E. constructor; [intros [H | []]; subst; rewrite str_eqb_refl in E; discriminate|]. constructor; [intros [] | constructor]. }
  assert (Dc : forall i, In i [s "1"; s "2"] -> in_document D_sample i).
  { intros i Hi. exists (s "2"). split; [vm_compute; tauto|]. split; [exact Hi|]. destruct Hi as [<- | [<- | []]]; split; reflexivity. }
  split; [|split]; (split; [apply N2; reflexivity|]).
  - exists (nv_scenes D_other_scenes). split; [reflexivity|].
    constructor; [|constructor; [|constructor]]; (split; [reflexivity|]); right; (split; [apply Dc; vm_compute; tauto|]); [exists None | exists (Some (s "other"))]; reflexivity.
  - exists (nv_chapters D_other_chapters). split; [reflexivity|]. constructor; [split; [reflexivity | now left]|]. constructor; [|constructor]. split; [reflexivity|]. right. split; [split; [vm_compute; tauto | reflexivity]|]. exists None. reflexivity.
  - exists (nv_characters D_other_characters). split; [reflexivity|]. constructor; [|constructor; [split; [reflexivity | now left] | constructor]]. split; [reflexivity|]. right. split; [vm_compute; tauto|].
    exists None, None, None, (Some []). reflexivity.
Qed.

(** ** Not everything survives *)
(** write, change the delivery of the text, and read *)
Definition D_back (e : exporter) (h : reader) (deliver : list event -> list event) (n : novel) : res novel :=
  do doc <- get_text e n;
  match sax doc with Some es => read_plain h [] (deliver es) n | None => Err ParseError end.
Definition D_characters (deliver : list event -> list event) (n : novel) : res (list (option str)) :=
  do n' <- D_back (OdtWCharacters (fun x => x) None None) characters_reader deliver n; Ok (map (fun p => cr_desc (snd p)) (nv_characters n')).
Definition D_locations (deliver : list event -> list event) (n : novel) : res (list (option str)) :=
  do n' <- D_back (OdtWLocations (fun x => x) None None) locations_reader deliver n; Ok (map (fun p => we_desc (snd p)) (nv_locations n')).
Definition D_scenes (n : novel) : res (list (option str * option str)) :=
  do n' <- D_back (OdtWSceneDesc (fun x => x) None None) scenedesc_reader (fun es => es) n; Ok (map (fun p => (sc_title (snd p), sc_desc (snd p))) (nv_scenes n')).
(** Python's parser reports each quotation mark as a piece of its own, as it is written as an entity *)
Definition D_split_quotes (e : event) : list event :=
  match e with
  | Data t => map Data (filter (fun x => match x with [] => false | _ => true end) (flat_map (fun x => [x; [34%N]]) (splitc 34 t)))
  | e => [e]
  end.
Definition D_expat (es : list event) : list event :=
  flat_map (fun e => match e with Data t => match rev (D_split_quotes e) with Data _ :: r => rev r | r => rev r end | e => [e] end) es.
Theorem C43_quotes_refuted : let n := set_nv_srtLocations [s "4"] (set_nv_locations [(s "4", D_world (Some (s "He said ""no"" twice")))] new_novel) in
  D_locations (fun es => es) n = Ok [Some (s "He said ""no"" twice")] /\ D_locations D_expat n = Ok [Some (s "He said""no""twice")].
Proof. split; vm_compute; reflexivity. Qed.
Print Assumptions C43_quotes_refuted.
(** descriptions that are not given become empty; white space at the end, and at the ends of the lines, is lost *)
Theorem C43_missing_refuted : let n d := set_nv_srtLocations [s "4"] (set_nv_locations [(s "4", D_world d)] new_novel) in
  D_locations (fun es => es) (n None) = Ok [Some []] /\ D_locations (fun es => es) (n (Some (s "a " ++ D_nl ++ s "b "))) = Ok [Some (s "a" ++ D_nl ++ s "b")].
Proof. split; vm_compute; reflexivity. Qed.
Print Assumptions C43_missing_refuted.
(** a scene description that begins like a comment *)
Theorem C43_comment_refuted : let n := set_nv_srtChapters [s "1"] (set_nv_chapters [(s "1", D_chapter 0 (Some (s "One")) None [s "1"])] (set_nv_scenes [(s "1", D_scene (Some (s "/* ~New~ */ text")))] new_novel)) in
  D_scenes n = Ok [(Some (s "New"), Some (s " text"))].
Proof. vm_compute. reflexivity. Qed.
Print Assumptions C43_comment_refuted.
(** markup in an alias: the document is not XML, and cannot be read *)
Theorem C43_alias_refuted : let n := set_nv_srtLocations [s "4"] (set_nv_locations [(s "4", set_we_aka (Some (s "Smith & Sons")) (D_world (Some (s "x"))))] new_novel) in
  D_locations (fun es => es) n = Err ParseError.
Proof. vm_compute. reflexivity. Qed.
Print Assumptions C43_alias_refuted.
