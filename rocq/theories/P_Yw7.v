(** Property theorems about yWriter project files: C09, C10, C11, C12, C13, C34, C35, C37.
    Only statements, [exact], assumptions and instances.
    [ent]: the HTML entity table, [ext]: date-time formats beyond YYYY-MM-DD hh:mm:ss that some Python versions accept,
    [loc], [dloc]: the system locale.  All theorems hold for every choice. *)
From Coq Require Import List NArith ZArith Bool Lia Arith.
From Verif Require Import PyStr PyDict NovelModel NovelOps NovelOpsProofs YwTree IsoDate Yw7Build Yw7Read YwText SpecYw7 SpecText SpecFrame
  Yw7Repr3 Yw7Total Yw7Frame Yw7Facts Yw7Facts2 Yw7Facts3 Yw7Frame2 Yw7Notes.
Import ListNotations.

(** ** A novel for the instances *)
Definition Y_scene1 : scene := Eval vm_compute in
  set_sc_tags (Some [s "rain"; s "first meeting"]) (set_sc_characters (Some [s "2"; s "1"]) (set_sc_locations (Some [s "1"])
  (set_sc_items (Some [s "1"]) (set_sc_date (Some (s "1999-12-31")) (set_sc_time (Some (s "23:59:58")) (set_sc_status (Some 3%Z)
  (set_sc_scnMode (Some 2%Z) (set_sc_scnArcs (Some (s "A;B")) (set_sc_conflict (Some (s "man against sea"))
  (set_sc_title (Some (s "Rain & <snow>")) (set_sceneContent (s "He said: ""1 < 2"" & left." ++ [10%N] ++ s "[i]Really[/i]?") new_scene))))))))))).
Definition Y_scene2 : scene := Eval vm_compute in set_sc_type (Some 1%N) (set_sc_day (Some (s "12")) (set_sc_time (Some (s "07:30:00")) new_scene)).
Definition Y_novel : novel := Eval vm_compute in
  set_nv_title (Some (s "Tom & Jerry")) (set_nv_languageCode (Some (s "de")) (set_nv_countryCode (Some (s "AT")) (set_nv_languages (Some [s "en-GB"])
  (set_nv_srtCharacters [s "2"; s "1"] (set_nv_characters [(s "1", set_cr_isMajor (Some true) (set_cr_fullName (Some (s "Tom")) new_character)); (s "2", new_character)]
  (set_nv_srtLocations [s "1"] (set_nv_locations [(s "1", set_we_aka (Some (s "X")) new_world)]
  (set_nv_srtItems [s "1"] (set_nv_items [(s "1", set_we_tags (Some [s "heavy"]) new_world)]
  (set_nv_srtPrjNotes [s "4"] (set_nv_projectNotes [(s "4", set_pn_desc (Some (s "remember")) new_note)]
  (set_nv_srtChapters [s "9"; s "3"] (set_nv_chapters [(s "9", set_ch_type (Some 0%N) (set_ch_srtScenes [s "5"] new_chapter)); (s "3", set_ch_type (Some 1%N) (set_ch_srtScenes [s "6"] new_chapter))]
  (set_nv_scenes [(s "5", Y_scene1); (s "6", Y_scene2)] new_novel)))))))))))))).

Ltac text := first [exact I | apply long_textb_ok; vm_compute; reflexivity | apply plain_textb_ok; vm_compute; reflexivity | apply line_textb_ok; vm_compute; reflexivity].
Ltac idt := apply id_textb_ok; [discriminate | vm_compute; reflexivity].
Ltac mem H := repeat (destruct H as [H | H]; [subst|]); [..|destruct H].
Ltac nodup := repeat constructor; cbn; intuition discriminate.
Ltac tagt := split; [discriminate|]; split; [vm_compute; reflexivity|]; split; [apply not_In_b; vm_compute; reflexivity|]; split; [apply not_In_b; vm_compute; reflexivity | apply line_textb_ok; vm_compute; reflexivity].
Ltac tags := split; [cbn; nodup | let a := fresh in let H := fresh in intros a H; cbn in H; mem H; tagt].
Ltac refs := let a := fresh in let H := fresh in intros a H; cbn in H; mem H; first [idt | split; [idt | cbn; tauto]].
Ltac fields := let f := fresh in let H := fresh in intros f H; cbn in H; mem H; exact I.

Lemma Y_representable : representable Y_novel.
Proof.
  constructor; try text.
  - split; [split; [nodup | refs]|]. intros i H. mem H. eexists. split; [reflexivity|]. constructor; try text; [tags | fields].
  - split; [split; [nodup | refs]|]. intros i H. mem H. eexists. split; [reflexivity|]. constructor; try text; [tags | fields].
  - split; [split; [nodup | refs]|]. intros i H. mem H; (eexists; split; [reflexivity|]; constructor; try text; [tags | fields]).
  - split; [split; [nodup | refs]|]. intros i H. mem H. eexists. split; [reflexivity|]. constructor; text.
  - split; [split; [nodup | refs]|]. intros i x H. apply dget_In in H. cbn in H. mem H; match goal with E : (_, _) = (_, _) |- _ => injection E as <- <- end.
    + apply Build_scene_ok; [text|text|text|text|text|text|text|text|text|text|text|text|text|text|text|vm_compute; discriminate|tags| |refs|refs|refs| |intros Z; discriminate Z].
      * constructor; vm_compute; reflexivity.
      * split; [text|]. intros c Hc Hd. vm_compute in Hc, Hd. intuition (subst; discriminate).
    + apply Build_scene_ok; [text|text|text|text|text|text|text|text|text|text|text|text|text|text|text|vm_compute; discriminate|tags| |refs|refs|refs|text|intros _; reflexivity].
      apply st_day_time; [split; [discriminate | reflexivity] | exists (s "07"), (s "30"); repeat split].
  - split; [split; [nodup | refs]|]. split; [reflexivity|]. intros i c H. apply dget_In in H. cbn in H. mem H; match goal with E : (_, _) = (_, _) |- _ => injection E as <- <- end;
      (apply Build_chapter_ok; [text|text|vm_compute; discriminate|first [left; reflexivity | right; left; reflexivity]|refs]).
  - intros i c H Hne j x Hj Hx. apply dget_In in H. cbn in H. mem H; match goal with E : (_, _) = (_, _) |- _ => injection E as <- <- end.
    + exfalso. apply Hne. reflexivity.
    + cbn in Hj. mem Hj. vm_compute in Hx. injection Hx as <-. reflexivity.
  - split; [nodup|]. intros c H. mem H. split; [text|]. split; apply not_In_b; vm_compute; reflexivity.
Qed.

(** * C09 *)
(** Writing a representable novel to a new project and reading the file gives the same chapters and scenes *)
Theorem C09_write_read : forall ent ext loc dloc n n1 tree text,
  representable n -> locale_text loc -> locale_text dloc -> write_text ent loc dloc n None = Ok (n1, tree, text) ->
  exists n', read_text ext text new_novel = Ok n' /\ same_story n n'.
Proof. intros ent ext loc dloc n n1 tree text R L1 L2 Hw. destruct (representable_roundtrip ent ext loc dloc n n1 tree text R L1 L2 Hw) as (_ & n' & A & B & _). exists n'. exact (conj A B). Qed.
(** writing a representable novel never fails, provided that the language of the document can be found out if there is one *)
Theorem C09_write_succeeds : forall ent loc dloc n, representable n ->
  (otruthy (nv_languageCode n) = true \/ locale_pair loc <> None \/ locale_pair dloc <> None) ->
  exists n1 tree text, write_text ent loc dloc n None = Ok (n1, tree, text).
Proof. exact (fun ent loc dloc n R L => write_succeeds ent loc dloc n R (fun _ => L)). Qed.
Print Assumptions C09_write_succeeds.
Example C09_instance : forall ent ext, exists n1 tree text n', write_text ent None None Y_novel None = Ok (n1, tree, text) /\
  read_text ext text new_novel = Ok n' /\ same_story Y_novel n'.
Proof.
  intros ent ext. destruct (C09_write_succeeds ent None None Y_novel Y_representable (or_introl eq_refl)) as (n1 & tr & t & H).
  destruct (C09_write_read ent ext None None Y_novel n1 tr t Y_representable I I H) as (n' & A & B). exists n1, tr, t, n'. exact (conj H (conj A B)).
Qed.

(** * C10 *)
(** The claim is false of the code for every scene that has items: they are written as <ItmID> and read as <ItemID> *)
Theorem C10_items_always_lost : forall ent ext loc dloc n n1 tree text,
  representable n -> locale_text loc -> locale_text dloc -> write_text ent loc dloc n None = Ok (n1, tree, text) ->
  exists n', read_text ext text new_novel = Ok n' /\ forall i x, dget i (nv_scenes n') = Some x -> sc_items x = None.
Proof. intros ent ext loc dloc n n1 tree text R L1 L2 Hw. destruct (representable_roundtrip ent ext loc dloc n n1 tree text R L1 L2 Hw) as (_ & n' & A & _ & _ & _ & B). exists n'. exact (conj A B). Qed.
Theorem C10_items_kept_refuted : forall ent ext, exists n n1 tree text n' x y, representable n /\
  write_text ent None None n None = Ok (n1, tree, text) /\ read_text ext text new_novel = Ok n' /\
  dget (s "5") (nv_scenes n) = Some x /\ sc_items x = Some [s "1"] /\ In (s "1") (nv_srtItems n) /\
  dget (s "5") (nv_scenes n') = Some y /\ sc_items y = None.
Proof.
  intros ent ext. destruct (C09_write_succeeds ent None None Y_novel Y_representable (or_introl eq_refl)) as (n1 & tr & t & H).
  destruct (representable_roundtrip ent ext None None Y_novel n1 tr t Y_representable I I H) as (_ & n' & A & B & _ & _ & C).
  destruct (sn_scenes _ _ B (s "5") Y_scene1 eq_refl) as (y & Hy & _).
  exists Y_novel, n1, tr, t, n', Y_scene1, y. split; [exact Y_representable|]. split; [exact H|]. split; [exact A|]. split; [reflexivity|]. split; [reflexivity|]. split; [left; reflexivity|]. split; [exact Hy|]. exact (C _ _ Hy).
Qed.

(** What becomes of the references of a scene: characters and locations are kept, items are lost *)
Theorem C10_references : forall ent ext loc dloc n n1 tree text,
  representable n -> locale_text loc -> locale_text dloc -> write_text ent loc dloc n None = Ok (n1, tree, text) ->
  exists n', read_text ext text new_novel = Ok n' /\
    forall i x, dget i (nv_scenes n) = Some x -> exists y, dget i (nv_scenes n') = Some y /\
      list_of (sc_characters y) = list_of (sc_characters x) /\ list_of (sc_locations y) = list_of (sc_locations x) /\ sc_items y = None.
Proof.
  intros ent ext loc dloc n n1 tree text R L1 L2 Hw. destruct (representable_roundtrip ent ext loc dloc n n1 tree text R L1 L2 Hw) as (_ & n' & A & B & _ & _ & C). exists n'. split; [exact A|].
  intros i x Hx. destruct (sn_scenes _ _ B i x Hx) as (y & Hy & S). exists y. split; [exact Hy|]. split; [exact (eq_sym (ss_characters _ _ S))|]. split; [exact (eq_sym (ss_locations _ _ S)) | exact (C i y Hy)].
Qed.
Example C10_references_instance : dget (s "5") (nv_scenes Y_novel) = Some Y_scene1 /\ list_of (sc_characters Y_scene1) <> [] /\ list_of (sc_locations Y_scene1) <> [] /\ list_of (sc_items Y_scene1) <> [].
Proof. repeat split; discriminate. Qed.

(** * C11 *)
Theorem C11_write_read : forall ent ext loc dloc n n1 tree text,
  representable n -> locale_text loc -> locale_text dloc -> write_text ent loc dloc n None = Ok (n1, tree, text) ->
  exists n', read_text ext text new_novel = Ok n' /\ same_world_data n n'.
Proof. intros ent ext loc dloc n n1 tree text R L1 L2 Hw. destruct (representable_roundtrip ent ext loc dloc n n1 tree text R L1 L2 Hw) as (_ & n' & A & _ & B & _). exists n'. exact (conj A B). Qed.
(** the languages (those of the texts, if not given) and a plausible locale are kept *)
Theorem C11_languages : forall ent ext loc dloc n n1 tree text,
  representable n -> locale_text loc -> locale_text dloc -> write_text ent loc dloc n None = Ok (n1, tree, text) ->
  exists n', read_text ext text new_novel = Ok n' /\
    list_of (nv_languages n') = list_of (match nv_languages n with Some l => Some l | None => nv_languages (get_languages n) end) /\
    (two_two n -> nv_languageCode n' = nv_languageCode n /\ nv_countryCode n' = nv_countryCode n).
Proof. exact languages_kept. Qed.
Example C11_instance : forall ent ext, exists n1 tree text n', write_text ent None None Y_novel None = Ok (n1, tree, text) /\
  read_text ext text new_novel = Ok n' /\ same_world_data Y_novel n' /\ two_two Y_novel /\ nv_srtCharacters n' = [s "2"; s "1"].
Proof.
  intros ent ext. destruct (C09_write_succeeds ent None None Y_novel Y_representable (or_introl eq_refl)) as (n1 & tr & t & H).
  destruct (C11_write_read ent ext None None Y_novel n1 tr t Y_representable I I H) as (n' & A & B). exists n1, tr, t, n'. split; [exact H|]. split; [exact A|]. split; [exact B|].
  split; [exists (s "de"), (s "AT"); repeat split|]. exact (proj1 (sd_characters _ _ B)).
Qed.

(** * C12 *)
(** Saving over an existing tree: other sections stay; the file lists exactly the scenes and chapters of the novel, in order;
    an element that was there before keeps its unknown sub-elements and fields in place *)
Theorem C12_save_preserves : forall loc dloc n r0 n1 r1 kS kH lS lH,
  section (s "SCENES") r0 = Some kS -> numbered (s "SCENE") kS lS -> NoDup (map fst lS) ->
  section (s "CHAPTERS") r0 = Some kH -> numbered (s "CHAPTER") kH lH -> NoDup (map fst lH) ->
  (forall e, In e kS \/ In e kH -> one_fields e) -> NoDup (dkeys (nv_scenes n)) ->
  write_tree loc dloc n (Some r0) = Ok (n1, r1) ->
  unknown known_sections r1 = unknown known_sections r0 /\
  exists kS1 kH1 lS1 lH1,
    section (s "SCENES") r1 = Some kS1 /\ numbered (s "SCENE") kS1 lS1 /\ map fst lS1 = dkeys (nv_scenes n) /\
    section (s "CHAPTERS") r1 = Some kH1 /\ numbered (s "CHAPTER") kH1 lH1 /\ map fst lH1 = nv_srtChapters n /\
    (forall i e e', dget i lS = Some e -> In (i, e') lS1 -> preserved known_in_scene known_scene_fields e e') /\
    (forall i e e', dget i lH = Some e -> In (i, e') lH1 -> preserved known_in_chapter known_chapter_fields e e').
Proof. exact save_frame. Qed.
Print Assumptions C12_save_preserves.

Definition Y_old_scene (i : str) (more : list elem) : elem := Elem (s "SCENE") None (Elem (s "ID") (Some i) [] :: more).
Definition Y_old_extra : list elem :=
  [Elem (s "Snapshots") None [Elem (s "Shot") (Some (s "a & b")) []]; Elem (s "Fields") None [Elem (s "Field_Plugin") (Some (s "7")) []; Elem (s "Field_SceneType") (Some (s "2")) []]].
Definition Y_old : list elem :=
  [Elem (s "PROJECT") None []; Elem (s "MACROS") None [Elem (s "M") (Some (s "1")) []]; Elem (s "LOCATIONS") None []; Elem (s "ITEMS") None []; Elem (s "CHARACTERS") None [];
   Elem (s "SCENES") None [Y_old_scene (s "5") Y_old_extra; Y_old_scene (s "77") []];
   Elem (s "CHAPTERS") None [Elem (s "CHAPTER") None [Elem (s "ID") (Some (s "3")) []; Elem (s "Color") (Some (s "red")) []]]].
Example C12_instance : exists n1 r1 kS1 a b, write_tree None None Y_novel (Some Y_old) = Ok (n1, r1) /\ section (s "SCENES") r1 = Some kS1 /\
  kS1 = [a; b] /\ unknown known_in_scene (e_kids a) = [Elem (s "ID") (Some (s "5")) []; Elem (s "Snapshots") None [Elem (s "Shot") (Some (s "a & b")) []]] /\
  field_elems (s "Field_Plugin") (e_kids a) = [Elem (s "Field_Plugin") (Some (s "7")) []] /\ unknown known_sections r1 = [Elem (s "MACROS") None [Elem (s "M") (Some (s "1")) []]].
Proof. do 5 eexists. split; [vm_compute; reflexivity|]. split; [vm_compute; reflexivity|]. split; [reflexivity|]. repeat split. Qed.

(** The same for the file: it is well-formed, lists exactly the scenes and chapters of the novel, and everything unknown is there
    with its texts, if these contain no markup characters outside the text elements PyWriter knows *)
Theorem C12_file : forall ent loc dloc n r0 n1 r1 text kS kH lS lH, representable n -> locale_text loc -> locale_text dloc -> Forall text_tree r0 ->
  section (s "SCENES") r0 = Some kS -> numbered (s "SCENE") kS lS -> NoDup (map fst lS) ->
  section (s "CHAPTERS") r0 = Some kH -> numbered (s "CHAPTER") kH lH -> NoDup (map fst lH) ->
  (forall e, In e kS \/ In e kH -> one_fields e) ->
  write_text ent loc dloc n (Some r0) = Ok (n1, r1, text) ->
  exists root, parse_xml (filter kept (unl text)) = Some root /\
  Forall2 same_tree (unknown known_sections r0) (unknown known_sections (e_kids root)) /\
  exists kS1 kH1 lS1 lH1,
    section (s "SCENES") (e_kids root) = Some kS1 /\ numbered (s "SCENE") kS1 lS1 /\ map fst lS1 = dkeys (nv_scenes n) /\
    section (s "CHAPTERS") (e_kids root) = Some kH1 /\ numbered (s "CHAPTER") kH1 lH1 /\ map fst lH1 = nv_srtChapters n /\
    (forall i e e', dget i lS = Some e -> In (i, e') lS1 -> preserved_in_file known_in_scene known_scene_fields e e') /\
    (forall i e e', dget i lH = Some e -> In (i, e') lH1 -> preserved_in_file known_in_chapter known_chapter_fields e e').
Proof. exact file_frame. Qed.
Print Assumptions C12_file.
Definition Y_indent (k : nat) : option str := Some (10%N :: repeat 32%N k).
Definition Y_older : list elem :=
  [Elem (s "PROJECT") None []; Elem (s "MACROS") (Y_indent 2) [Elem (s "M") (Some (s "1")) []]; Elem (s "LOCATIONS") None []; Elem (s "ITEMS") None []; Elem (s "CHARACTERS") None [];
   Elem (s "SCENES") (Y_indent 4) [Elem (s "SCENE") (Y_indent 6) [Elem (s "ID") (Some (s "5")) []; Elem (s "Title") (Some (s "<&>")) []; Elem (s "Snapshots") (Y_indent 8) [Elem (s "Shot") (Some (s "a > b")) []]]];
   Elem (s "CHAPTERS") None [Elem (s "CHAPTER") None [Elem (s "ID") (Some (s "3")) []; Elem (s "Color") (Some (s "red")) []]]].
Example C12_file_instance : Forall text_tree Y_older /\ representable Y_novel /\ (exists n1 r1 text, write_text (fun x => s "&" ++ x) None None Y_novel (Some Y_older) = Ok (n1, r1, text)) /\
  exists kS lS, section (s "SCENES") Y_older = Some kS /\ numbered (s "SCENE") kS lS /\ NoDup (map fst lS) /\ (forall e, In e kS -> one_fields e).
Proof.
  assert (PT : forall v, forallb (fun c => (32 <=? c)%N && (c <=? 126)%N && negb (existsb (N.eqb c) [38; 60; 91; 93; 124]%N)) v = true -> plain_text v).
  { intros v H. rewrite forallb_forall in H.
    assert (M : forall c, In c v -> (32 <= c <= 126)%N /\ ~ In c [38; 60; 91; 93; 124]%N).
    { intros c Hc. specialize (H c Hc). rewrite !andb_true_iff, !N.leb_le, negb_true_iff in H. destruct H as [H1 H2]. split; [exact H1|]. intro Hi.
      assert (T : existsb (N.eqb c) [38; 60; 91; 93; 124]%N = true) by (apply existsb_exists; exists c; split; [exact Hi | apply N.eqb_refl]). congruence. }
    assert (O : forall c p, In c p -> In c [38; 60; 91; 93; 124]%N -> ~ occurs p v).
    { intros c p Hc Hb (a & b & ->). apply (proj2 (M c (in_or_app _ _ _ (or_intror (in_or_app _ _ _ (or_introl Hc)))))). exact Hb. }
    split; [apply Forall_forall; intros c Hc; destruct (M c Hc) as [A B]; unfold file_char; cbn [In] in B; lia|].
    split; [intro Hc; apply (proj2 (M _ Hc)); cbn; tauto|]. split; [intro Hc; apply (proj2 (M _ Hc)); cbn; tauto|].
    split; [apply (O 93%N); cbn; tauto|]. split; [apply (O 91%N); cbn; tauto|]. apply (O 93%N); cbn; tauto. }
  assert (TN : forall t, name_ok t = true -> forallb (fun c => (c <=? 126)%N) t = true -> str_eqb t (s "ConflictField_ChapterHeadingPrefix") = false -> tag_name t).
  { intros t H1 H2 H3. destruct t as [|c t]; [discriminate|]. unfold name_ok in H1. apply andb_true_iff in H1 as [A B]. rewrite forallb_forall in B, H2. split; [|split].
    - assert (Hc : (c <=? 126)%N = true) by (apply H2; left; reflexivity). unfold name_start in A. rewrite !orb_true_iff, !andb_true_iff, !N.leb_le, N.eqb_eq in *. lia.
    - apply Forall_forall. intros x Hx. specialize (B x Hx). specialize (H2 x Hx). unfold name_char, name_start, is_digit in B. rewrite !orb_true_iff, !andb_true_iff, !N.leb_le, !N.eqb_eq in *. lia.
    - intro E. rewrite E, str_eqb_refl in H3. discriminate. }
  split; [|split; [exact Y_representable|split]].
  - assert (BT : forall k, blank_text (Y_indent k)) by (intro k; constructor; [auto|]; apply Forall_forall; intros c Hc; apply repeat_spec in Hc; auto).
    Ltac ytree PT TN BT := first
      [ apply tt_text; [apply smem_In; vm_compute; reflexivity | text]
      | apply tt_plain; [apply TN; reflexivity | let Hq := fresh in intro Hq; apply smem_In in Hq; vm_compute in Hq; discriminate Hq | apply PT; reflexivity]
      | apply tt_empty; apply TN; reflexivity
      | apply tt_node; [apply TN; reflexivity | let Hq := fresh in intro Hq; apply smem_In in Hq; vm_compute in Hq; discriminate Hq | discriminate | first [exact I | apply BT] | repeat (constructor; [ytree PT TN BT|]); constructor]].
    unfold Y_older. repeat (constructor; [ytree PT TN BT|]). constructor.
  - assert (H : match write_text (fun x => s "&" ++ x) None None Y_novel (Some Y_older) with Ok _ => true | Err _ => false end = true) by (vm_compute; reflexivity).
    destruct (write_text (fun x => s "&" ++ x) None None Y_novel (Some Y_older)) as [[[n1 r1] t]|e]; [exists n1, r1, t; reflexivity | discriminate].
  - eexists. eexists [(s "5", _)]. split; [reflexivity|]. split; [split; [reflexivity|]; constructor; [split; reflexivity | constructor]|]. split; [constructor; [intros [] | constructor]|].
    intros e [<- | []]. apply le_S, le_n.
Qed.

(** At the level of the file this is not the whole truth: escaped characters in elements PyWriter does not know are
    un-escaped when the file is written, here "a &amp; b" becomes "a & b" and the file cannot be read any more *)
Definition Y_small : novel := set_nv_languages (Some []) (set_nv_scenes [(s "5", new_scene)] new_novel).
Theorem C12_unknown_markup_refuted : exists n1 r1 t, write_text (fun x => s "&" ++ x) None None Y_small (Some Y_old) = Ok (n1, r1, t) /\
  parse_xml (filter kept (unl t)) = None.
Proof.
  assert (H : match write_text (fun x => s "&" ++ x) None None Y_small (Some Y_old) with Ok (_, _, t) => parse_xml (filter kept (unl t)) = None | Err _ => False end) by (vm_compute; reflexivity).
  destruct (write_text (fun x => s "&" ++ x) None None Y_small (Some Y_old)) as [[[n1 r1] t]|e]; [exists n1, r1, t; exact (conj eq_refl H) | destruct H].
Qed.
Print Assumptions C12_unknown_markup_refuted.

(** * C13 *)
(** Whatever tree of elements is written: all its texts are found when the file is parsed - any text in the text elements,
    texts without < and & elsewhere *)
Theorem C13_texts_survive : forall ent nochapters r, Forall text_tree r ->
  exists root, parse_xml (filter kept (unl (file_text ent nochapters r))) = Some root /\ Forall2 same_tree r (e_kids root).
Proof. exact texts_survive. Qed.
Print Assumptions C13_texts_survive.
Example C13_instance : exists root, parse_xml (filter kept (unl (file_text (fun n => s "&" ++ n) false
    [Elem (s "PROJECT") None [Elem (s "Title") (Some (s "a < b && ""c"" > 'd' &lt; </Title> ]] >")) []]]))) = Some root /\
  e_kids root = [Elem (s "PROJECT") (Some (10%N :: s "    ")) [Elem (s "Title") (Some (s "a < b && ""c"" > 'd' &lt; </Title> ]] >")) []]].
Proof. eexists. split; vm_compute; reflexivity. Qed.
(** Not every text survives: ]]> in a text element makes the file unreadable *)
Theorem C13_end_mark_refuted : exists v, forall ent, parse_xml (filter kept (unl (file_text ent false [Elem (s "PROJECT") None [Elem (s "Title") (Some v) []]]))) = None.
Proof. exists (s "a]]>b"). intro ent. vm_compute. reflexivity. Qed.
Print Assumptions C13_end_mark_refuted.
(** a line break at the end is lost *)
Theorem C13_last_line_refuted : exists v root, forall ent, parse_xml (filter kept (unl (file_text ent false [Elem (s "Title") (Some v) []]))) = Some root /\
  v = s "a" ++ [10%N] /\ e_kids root = [Elem (s "Title") (Some (s "a")) []].
Proof. exists (s "a" ++ [10%N]). eexists. intro ent. repeat split; vm_compute; reflexivity. Qed.
Print Assumptions C13_last_line_refuted.
(** the scene conflict is listed among the CDATA elements, but a missing comma in the list disables this *)
Theorem C13_conflict_refuted : exists v, forall ent, parse_xml (filter kept (unl (file_text ent false [Elem (s "Conflict") (Some v) []]))) = None.
Proof. exists (s "1 < 2"). intro ent. vm_compute. reflexivity. Qed.
Print Assumptions C13_conflict_refuted.

(** * C34 *)
(** Reading follows the table for every combination of elements *)
Theorem C34_scene_table : forall ext cs ls is k x, read_scene ext cs ls is k = Ok x ->
  length (filter (fun e => str_eqb (e_tag e) (s "Fields")) k) <= 1 ->
  sc_type x = Some (scene_type_table (match field_elems (s "Field_SceneType") k with f :: _ => e_text f | [] => None end) (tag_present (s "Unused") k)).
Proof. exact scene_type_table_read. Qed.
Print Assumptions C34_scene_table.
Theorem C34_chapter_table : forall scs k,
  ch_type (read_chapter scs k) = Some (chapter_type_table (present_text (s "ChapterType") k) (present_text (s "Type") k) (tag_present (s "Unused") k)).
Proof. exact chapter_type_table_read. Qed.
Print Assumptions C34_chapter_table.
(** the types of all chapters and scenes are read as they were written *)
Theorem C34_types_kept : forall ent ext loc dloc n n1 tree text,
  representable n -> locale_text loc -> locale_text dloc -> write_text ent loc dloc n None = Ok (n1, tree, text) ->
  exists n', read_text ext text new_novel = Ok n' /\
  (forall i x, dget i (nv_scenes n) = Some x -> exists y, dget i (nv_scenes n') = Some y /\ sc_type y = Some (number (sc_type x))) /\
  (forall i c, In i (nv_srtChapters n) -> dget i (nv_chapters n) = Some c -> exists d, dget i (nv_chapters n') = Some d /\ ch_type d = Some (number (ch_type c))).
Proof.
  intros ent ext loc dloc n n1 tree text R L1 L2 Hw. destruct (C09_write_read ent ext loc dloc n n1 tree text R L1 L2 Hw) as (n' & A & B). exists n'. split; [exact A|]. split.
  - intros i x Hx. destruct (sn_scenes _ _ B i x Hx) as (y & Hy & S). exists y. exact (conj Hy (ss_type _ _ S)).
  - intros i c Hi Hc. destruct (proj2 (proj2 (sn_chapters _ _ B)) i Hi) as (a & b & Ha & Hb & S). rewrite Hc in Ha. injection Ha as <-. exists b. exact (conj Hb (sh_type _ _ S)).
Qed.
(** The table is not what a user expects for a chapter without type elements: <Unused> is ignored *)
Theorem C34_unused_chapter_refuted : ch_type (read_chapter [] [Elem (s "ID") (Some (s "1")) []; Elem (s "Unused") (Some (s "-1")) []]) = Some 0%N.
Proof. reflexivity. Qed.
Print Assumptions C34_unused_chapter_refuted.

(** * C35 *)
(** In every project that can be read, a scene has a date or a day or neither; a date is a calendar date or empty,
    a day is a number or empty *)
Theorem C35_start_exclusive : forall ext r n', (forall v d t, ext v = Some (d, t) -> valid_date d = true) -> read_tree ext r new_novel = Ok n' ->
  forall i x, dget i (nv_scenes n') = Some x -> (sc_date x = None \/ sc_day x = None) /\ date_or_nothing (sc_date x) /\ day_or_nothing (sc_day x).
Proof. exact read_starts. Qed.
Print Assumptions C35_start_exclusive.
Theorem C35_start_kept : forall ent ext loc dloc n n1 tree text,
  representable n -> locale_text loc -> locale_text dloc -> write_text ent loc dloc n None = Ok (n1, tree, text) ->
  exists n', read_text ext text new_novel = Ok n' /\ forall i x, dget i (nv_scenes n) = Some x ->
  exists y, dget i (nv_scenes n') = Some y /\ (sc_date y, sc_time y, sc_day y) = (sc_date x, sc_time x, sc_day x).
Proof.
  intros ent ext loc dloc n n1 tree text R L1 L2 Hw. destruct (C09_write_read ent ext loc dloc n n1 tree text R L1 L2 Hw) as (n' & A & B). exists n'. split; [exact A|].
  intros i x Hx. destruct (sn_scenes _ _ B i x Hx) as (y & Hy & S). exists y. exact (conj Hy (ss_start _ _ S)).
Qed.
(** the time is not checked: "25" hours and minute "x" are kept *)
Theorem C35_time_valid_refuted : forall ext, exists x,
  read_scene ext [] [] [] [Elem (s "Hour") (Some (s "25")) []; Elem (s "Minute") (Some (s "x")) []] = Ok x /\ sc_time x = Some (s "25:0x:00") /\ valid_time (s "25:0x:00") = false.
Proof. intro ext. eexists. repeat split. Qed.
Print Assumptions C35_time_valid_refuted.
(** a date with an empty <Day> element makes the project unreadable instead of being dropped *)
Theorem C35_empty_day_refuted : forall ext, read_scene ext [] [] [] [Elem (s "Day") None []] = Err TypeError.
Proof. intro ext. reflexivity. Qed.
Print Assumptions C35_empty_day_refuted.

(** * C37 *)
(** a file of ordinary characters is parsed as it is *)
Theorem C37_nothing_filtered : forall ext t n, Forall file_char t ->
  read_text ext t n = match parse_xml t with Some root => read_tree ext (e_kids root) n | None => Err ParseError end.
Proof. exact nothing_filtered. Qed.
Print Assumptions C37_nothing_filtered.
(** and all the texts of the project, its locations, items, characters, scenes and chapters are in the novel, unchanged *)
Theorem C37_texts_present : forall ext r n', read_tree ext r new_novel = Ok n' ->
  unique_ids (entries (s "LOCATIONS") r) -> unique_ids (entries (s "ITEMS") r) -> unique_ids (entries (s "CHARACTERS") r) ->
  unique_ids (entries (s "SCENES") r) -> unique_ids (entries (s "CHAPTERS") r) ->
  (forall t f, In (t, f) project_text_fields -> f n' = first_text t (entries (s "PROJECT") r)) /\
  texts_present world_text_fields (entries (s "LOCATIONS") r) (nv_locations n') /\ texts_present world_text_fields (entries (s "ITEMS") r) (nv_items n') /\
  texts_present character_text_fields (entries (s "CHARACTERS") r) (nv_characters n') /\
  texts_present scene_text_fields (entries (s "SCENES") r) (nv_scenes n') /\ texts_present chapter_text_fields (entries (s "CHAPTERS") r) (nv_chapters n').
Proof. exact read_texts. Qed.
Print Assumptions C37_texts_present.
(** and the project notes, if all have IDs and none has custom fields *)
Theorem C37_project_notes : forall ext r n', read_tree ext r new_novel = Ok n' -> unique_ids (entries (s "PROJECTNOTES") r) -> Forall simple_note (entries (s "PROJECTNOTES") r) ->
  texts_present note_text_fields (entries (s "PROJECTNOTES") r) (nv_projectNotes n') /\
  map Some (nv_srtPrjNotes n') = map (fun e => first_text (s "ID") (e_kids e)) (entries (s "PROJECTNOTES") r).
Proof. exact read_note_texts. Qed.
Print Assumptions C37_project_notes.
Definition Y_notes : list elem :=
  map (fun t => Elem t None []) [s "PROJECT"; s "LOCATIONS"; s "ITEMS"; s "CHARACTERS"; s "SCENES"; s "CHAPTERS"] ++
  [Elem (s "PROJECTNOTES") None [Elem (s "PROJECTNOTE") None [Elem (s "ID") (Some (s "2")) []; Elem (s "Title") (Some (s "b")) []]; Elem (s "PROJECTNOTE") None [Elem (s "ID") (Some (s "1")) []]]].
Example C37_notes_instance : forall ext, (exists n', read_tree ext Y_notes new_novel = Ok n' /\ nv_srtPrjNotes n' = [s "2"; s "1"]) /\
  unique_ids (entries (s "PROJECTNOTES") Y_notes) /\ Forall simple_note (entries (s "PROJECTNOTES") Y_notes).
Proof.
  intro ext. split; [eexists; split; vm_compute; reflexivity|]. split.
  - unfold unique_ids. apply (NoDup_cons (Some (s "2"))); [intros [E | []]; discriminate E|]. apply (NoDup_cons (Some (s "1"))); [intros [] | constructor].
  - repeat (constructor; [split; [discriminate | reflexivity]|]). constructor.
Qed.
Definition Y_file (title : str) : str :=
  s "<?xml version=""1.0"" encoding=""utf-8""?><YWRITER7><PROJECT><Title>" ++ title ++
  s "</Title></PROJECT><LOCATIONS /><ITEMS /><CHARACTERS /><PROJECTNOTES><PROJECTNOTE><ID>1</ID><Fields /></PROJECTNOTE><PROJECTNOTE><ID>2</ID></PROJECTNOTE></PROJECTNOTES><SCENES /><CHAPTERS></CHAPTERS></YWRITER7>".
(** the vertical bar is a character XML allows, but it is removed from all texts *)
Theorem C37_vertical_bar_refuted : forall ext, exists n', read_text ext (Y_file (s "either|or")) new_novel = Ok n' /\ nv_title n' = Some (s "eitheror").
Proof. intro ext. eexists. split; vm_compute; reflexivity. Qed.
Print Assumptions C37_vertical_bar_refuted.
(** a project note with custom fields hides all the following notes *)
Theorem C37_notes_refuted : forall ext, exists n', read_text ext (Y_file (s "a")) new_novel = Ok n' /\ nv_srtPrjNotes n' = [s "1"].
Proof. intro ext. eexists. split; vm_compute; reflexivity. Qed.
Print Assumptions C37_notes_refuted.

(** the assumptions of the theorems above that have none of their own *)
Definition Yw7_round_trip_theorems := (C09_write_read, C10_references, C10_items_always_lost, C10_items_kept_refuted, C11_write_read, C11_languages, C34_types_kept, C35_start_kept).
Print Assumptions Yw7_round_trip_theorems.
