(** Property theorems C01-C05, C08 (data model).  Only statements, [exact], assumptions and instances. *)
From Coq Require Import List NArith ZArith Bool Lia Arith.
From Verif Require Import PyStr PyDict Globals GlobalsProofs WordCount Spec WordCountProofs NovelModel NovelOps
  NovelOpsProofs XRef SpecNovel XRefProofs.
Import ListNotations.

(** * C01 *)
(** create_id never fails and returns the least positive number not in use, for every list of IDs *)
Theorem C01_create_id_fresh_minimal : forall elements, exists n,
  create_id elements = Some (str_of_N n) /\ (1 <= n)%N /\ ~ In (str_of_N n) elements /\
  forall k, (1 <= k < n)%N -> In (str_of_N k) elements.
Proof. exact create_id_spec. Qed.
Print Assumptions C01_create_id_fresh_minimal.

(** storing an element under the new ID adds an entry and keeps all others *)
Theorem C01_new_id_never_replaces : forall (A : Type) (d : dict A) (v : A),
  dset (new_id (dkeys d)) v d = d ++ [(new_id (dkeys d), v)].
Proof. exact @new_id_append. Qed.
Print Assumptions C01_new_id_never_replaces.
Example C01_instance : create_id [s "1"; s "x"; s "3"; s "2"] = Some (s "4").
Proof. reflexivity. Qed.

(** * C02 *)
(** the text is cut at the dividers; the stripped non-empty pieces are kept, each once, in order *)
Theorem C02_string_to_list_spec : forall t c, exists ps,
  ps <> [] /\ t = join [c] ps /\ (forall p, In p ps -> ~ In c p) /\
  string_to_list (Some t) [c] = first_occ [] (filter truthy (map strip ps)).
Proof. exact string_to_list_pieces. Qed.
Print Assumptions C02_string_to_list_spec.

(** what stripping means *)
Theorem C02_strip_spec : forall t, exists p q, t = p ++ strip t ++ q /\
  forallb is_space p = true /\ forallb is_space q = true /\ stripped (strip t).
Proof. exact strip_unique. Qed.
Print Assumptions C02_strip_spec.

(** membership, spelled out *)
Theorem C02_string_to_list_elements : forall t c x,
  In x (string_to_list (Some t) [c]) -> x <> [] /\ stripped x /\ ~ In c x.
Proof. exact string_to_list_elem. Qed.
Print Assumptions C02_string_to_list_elements.

Theorem C02_string_to_list_nodup : forall t d, NoDup (string_to_list t d).
Proof. exact string_to_list_nodup. Qed.
Print Assumptions C02_string_to_list_nodup.

Theorem C02_join_split_roundtrip : forall c l,
  NoDup l -> (forall x, In x l -> x <> [] /\ stripped x /\ ~ In c x) ->
  string_to_list (Some (list_to_string (Some l) [c])) [c] = l.
Proof. exact string_list_roundtrip. Qed.
Print Assumptions C02_join_split_roundtrip.
Example C02_roundtrip_instance : let l := [s "hero"; s "two words"; s "x"] in
  NoDup l /\ (forall x, In x l -> x <> [] /\ stripped x /\ ~ In 59%N x).
Proof.
  cbn zeta. split.
  - repeat constructor; cbn; intuition discriminate.
  - intros x [<- | [<- | [<- | []]]]; (split; [discriminate|]; split; [split; reflexivity|]; cbn; intuition discriminate).
Qed.

Theorem C02_string_to_list_idempotent : forall t c,
  string_to_list (Some (list_to_string (Some (string_to_list (Some t) [c])) [c])) [c] = string_to_list (Some t) [c].
Proof. exact string_to_list_idem. Qed.
Print Assumptions C02_string_to_list_idempotent.
Example C02_instance : string_to_list (Some (s " a b ;; a b;c ")) (s ";") = [s "a b"; s "c"].
Proof. reflexivity. Qed.

(** * C03 *)
Theorem C03_letter_count : forall l, pieces_ok true l ->
  letter_count (pieces_text l) = length (flat_map letters_of l).
Proof. exact letter_count_pieces. Qed.
Print Assumptions C03_letter_count.

Theorem C03_word_count : forall l, pieces_ok true l ->
  word_count (pieces_text l) = count_words true (flat_map wordtext_of l).
Proof. exact word_count_pieces. Qed.
Print Assumptions C03_word_count.
Definition C03_sample : list piece :=
  [Quote; Char 32; Tag (s "i"); Char 97; Char 98; Tag (s "/i"); EmDash; Char 99; Hyphen; Char 100;
   Comment (s " note "); Char 10; Quote; Char 101; DoubleHyphen; Char 102].
Example C03_instance : pieces_ok true C03_sample /\ word_count (pieces_text C03_sample) = 4 /\
  letter_count (pieces_text C03_sample) = 13.
Proof. split; [cbn; intuition (try discriminate) | split; reflexivity]. Qed.

(** tags and comments never count, wherever they stand *)
Theorem C03_markup_does_not_count : forall a p b, (exists w, p = Tag w \/ p = Comment w) ->
  pieces_ok true (a ++ p :: b) -> pieces_ok true (a ++ b) ->
  letter_count (pieces_text (a ++ p :: b)) = letter_count (pieces_text (a ++ b)) /\
  word_count (pieces_text (a ++ p :: b)) = word_count (pieces_text (a ++ b)).
Proof. exact markup_does_not_count. Qed.
Print Assumptions C03_markup_does_not_count.

(** the content setter stores the text and its counts and touches nothing else *)
Theorem C03_setter_stores : forall t x,
  set_sceneContent t x =
  set_sc_content (Some t) (set_sc_wordCount (word_count t) (set_sc_letterCount (letter_count t) x)).
Proof. intros t []. reflexivity. Qed.
Print Assumptions C03_setter_stores.

(** * C04 *)
(** languages = codes of the tags of all scenes in order, first occurrences only; nothing else changes *)
Theorem C04_languages : forall n, exists tagss,
  Forall2 (fun sc tags => match sc_content sc with Some t => lang_tags t tags | None => tags = [] end)
          (map snd (nv_scenes n)) tagss /\
  get_languages n = set_nv_languages (Some (first_occ [] (concat tagss))) n.
Proof. exact get_languages_spec. Qed.
Print Assumptions C04_languages.

Theorem C04_first_occurrences : forall l x, In x (first_occ [] l) <-> In x l.
Proof. exact first_occ_in0. Qed.
Print Assumptions C04_first_occurrences.
Theorem C04_no_duplicates : forall l, NoDup (first_occ [] l).
Proof. exact (fun l => first_occ_nodup l []). Qed.
Print Assumptions C04_no_duplicates.

(** every listed code has its tag in the text, and every tag is found (a code may swallow an
    unclosed [lang= in front of it) *)
Theorem C04_tags_sound : forall t l c, lang_tags t l -> In c l -> exists a b, t = a ++ s "[lang=" ++ c ++ s "]" ++ b.
Proof. exact lang_tags_sound. Qed.
Print Assumptions C04_tags_sound.
Theorem C04_tags_complete : forall t l, lang_tags t l -> forall a c b,
  t = a ++ s "[lang=" ++ c ++ s "]" ++ b -> ~ In 93%N c -> ~ In 10%N c ->
  exists x, In x l /\ (x = c \/ exists y, x = y ++ s "[lang=" ++ c).
Proof. exact lang_tags_complete. Qed.
Print Assumptions C04_tags_complete.
Example C04_instance :
  nv_languages (get_languages (set_nv_scenes
    [(s "1", set_sc_content (Some (s "[lang=en-US]a[/lang=en-US] [lang=de]b")) new_scene);
     (s "2", new_scene); (s "3", set_sc_content (Some (s "[lang=de]c[/lang=de][lang=fr-FR]")) new_scene)] new_novel))
  = Some [s "en-US"; s "de"; s "fr-FR"].
Proof. reflexivity. Qed.

(** * C05 *)
Theorem C05_plausible_locale_kept : forall loc dloc n, two_two n -> check_locale loc dloc n = Ok n.
Proof. exact check_locale_keep. Qed.
Print Assumptions C05_plausible_locale_kept.
Theorem C05_unset_locale_from_system : forall loc dloc n l c,
  nv_languageCode n = None \/ nv_languageCode n = Some [] ->
  locale_pair loc = Some (l, c) \/ (locale_pair loc = None /\ locale_pair dloc = Some (l, c)) ->
  check_locale loc dloc n = Ok (set_nv_countryCode (Some c) (set_nv_languageCode (Some l) n)).
Proof. exact check_locale_unset. Qed.
Print Assumptions C05_unset_locale_from_system.
Theorem C05_locale_pair : forall x l c, locale_pair x = Some (l, c) <->
  x = Some (l ++ s "_" ++ c) /\ ~ In 95%N l /\ ~ In 95%N c.
Proof. exact locale_pair_spec. Qed.
Print Assumptions C05_locale_pair.
Theorem C05_implausible_locale_reset : forall loc dloc n l0,
  nv_languageCode n = Some l0 -> l0 <> [] -> ~ two_two n ->
  check_locale loc dloc n =
  Ok (set_nv_countryCode (Some (s "none")) (set_nv_languageCode (Some (s "zxx")) n)).
Proof. exact check_locale_reset. Qed.
Print Assumptions C05_implausible_locale_reset.
(** idempotent as soon as the first call delivered a plausible locale or none *)
Theorem C05_again : forall loc dloc n n1,
  check_locale loc dloc n = Ok n1 -> two_two n1 \/ no_language n1 -> check_locale loc dloc n1 = Ok n1.
Proof. exact check_locale_again. Qed.
Print Assumptions C05_again.
(** the full claim "calling it again changes nothing" is false: a system locale that is not of the form
    ll_CC (as on Windows) is stored by the first call and thrown away by the second *)
Theorem C05_idempotent_refuted : exists loc dloc n n1 n2,
  check_locale loc dloc n = Ok n1 /\ check_locale loc dloc n1 = Ok n2 /\ nv_languageCode n1 <> nv_languageCode n2.
Proof.
  exists (Some (s "English_United States")), None, new_novel. eexists. eexists.
  split; [vm_compute; reflexivity|]. split; [vm_compute; reflexivity|]. discriminate.
Qed.
Print Assumptions C05_idempotent_refuted.
Example C05_instance : exists n1, check_locale (Some (s "de_AT")) None new_novel = Ok n1 /\ two_two n1.
Proof. eexists. split; [vm_compute; reflexivity|]. exists (s "de"), (s "AT"). repeat split. Qed.

(** * C08 *)
Theorem C08_xref_exact : forall n x, generate_xref n = Ok x ->
  xrSrtScenes x = all_scenes n /\
  (forall id, dget id (scnPerChr x) = if smem id (nv_srtCharacters n) then Some (references sc_characters n id (all_scenes n)) else None) /\
  (forall id, dget id (scnPerLoc x) = if smem id (nv_srtLocations n) then Some (references sc_locations n id (all_scenes n)) else None) /\
  (forall id, dget id (scnPerItm x) = if smem id (nv_srtItems n) then Some (references sc_items n id (all_scenes n)) else None) /\
  (forall t, dget t (scnPerTag x) = tag_entry (references sc_tags n t (all_scenes n))) /\
  (forall t, dget t (chrPerTag x) = tag_entry (tagged cr_tags (nv_characters n) t (nv_srtCharacters n))) /\
  (forall t, dget t (locPerTag x) = tag_entry (tagged we_tags (nv_locations n) t (nv_srtLocations n))) /\
  (forall t, dget t (itmPerTag x) = tag_entry (tagged we_tags (nv_items n) t (nv_srtItems n))) /\
  (forall chId scId, In chId (nv_srtChapters n) -> In scId (chapter_scenes n chId) ->
     (forall c, In c (nv_srtChapters n) -> In scId (chapter_scenes n c) -> c = chId) ->
     dget scId (chpPerScn x) = Some chId) /\
  refs_exist n.
Proof. exact generate_xref_ok. Qed.
Print Assumptions C08_xref_exact.
(** it succeeds exactly when nothing refers to a missing element *)
Theorem C08_xref_total : forall n, refs_exist n -> exists x, generate_xref n = Ok x.
Proof. exact generate_xref_total. Qed.
Print Assumptions C08_xref_total.
Definition C08_sample : novel :=
  set_nv_srtChapters [s "1"] (set_nv_chapters [(s "1", set_ch_srtScenes [s "7"; s "8"] new_chapter)]
  (set_nv_scenes [(s "7", set_sc_characters (Some [s "c"]) new_scene);
                  (s "8", set_sc_tags (Some [s "t"]) (set_sc_characters (Some [s "c"]) new_scene))]
  (set_nv_srtCharacters [s "c"; s "d"] (set_nv_characters [(s "c", new_character); (s "d", new_character)] new_novel)))).
Example C08_instance : exists x, generate_xref C08_sample = Ok x /\
  dget (s "c") (scnPerChr x) = Some [s "7"; s "8"] /\ dget (s "d") (scnPerChr x) = Some [] /\
  dget (s "t") (scnPerTag x) = Some [s "8"].
Proof. eexists. repeat split; vm_compute; reflexivity. Qed.
