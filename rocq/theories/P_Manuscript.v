(** Property theorem C28 (the exported manuscript reads back unchanged).  Only statements, [exact], assumptions and instances. *)
From Coq Require Import String List NArith ZArith Bool Lia Arith.
From Verif Require Import PyStr PyDict YwText NovelModel NovelOps OdfXml OdtText SpecOdf SpecFormat SpecManuscript SpecExport SpecRetext OdtRead Splitter Export Manuscript ManuProofs.
Import ListNotations.

(** * C28 *)
(** The document of a novel is written, it is well-formed, and reading it into the same novel, or into a novel in which the scenes of the document have any other texts,
    gives the novel the document was made from; only the list of languages is set anew.
    tr: the translation of messages; pn, pp: name and path of the project; m: the novel before reading; es': how the XML parser delivers the document; styles: language and country
    in styles.xml; title, name, desc: the contents of meta.xml.  What the range leaves out: see the refutations below *)
Theorem C28_manuscript_reads_back : forall tr pn pp n, let languages := languages_in (with_languages n) in
  manuscript_ok (py_str (nv_authorName n)) languages n -> NoDup (map fst (nv_scenes n)) ->
  exists doc es, manuscript_text tr pn pp n = Ok doc /\ sax doc = Some es /\
  forall m es' styles title name desc, other_texts (in_document n) n m -> deliver es es' -> styles = None \/ styles = Some (nv_languageCode n, nv_countryCode n) ->
  exists ls, incl ls languages /\ read_formatted tr (manuscript_reader 0) (opening_calls styles title name desc) es' m = Ok (set_nv_languages (Some ls) n, false).
Proof. exact round_trip. Qed.
Print Assumptions C28_manuscript_reads_back.

(** in particular, all scenes of the exported novel, its chapters and their order are there *)
Theorem C28_scenes_stay : forall tr pn pp n, let languages := languages_in (with_languages n) in
  manuscript_ok (py_str (nv_authorName n)) languages n -> NoDup (map fst (nv_scenes n)) ->
  exists doc es, manuscript_text tr pn pp n = Ok doc /\ sax doc = Some es /\
  forall m es', other_texts (in_document n) n m -> deliver es es' -> exists n', read_formatted tr (manuscript_reader 0) [] es' m = Ok (n', false) /\
    nv_scenes n' = nv_scenes n /\ nv_chapters n' = nv_chapters n /\ nv_srtChapters n' = nv_srtChapters n.
Proof.
  intros tr pn pp n languages H K. destruct (round_trip tr pn pp n H K) as [doc [es [A [B C]]]]. exists doc, es. split; [exact A|]. split; [exact B|]. intros m es' O D.
  destruct (C m es' None None None None O D (or_introl eq_refl)) as [ls [_ E]]. exists (set_nv_languages (Some ls) n). repeat split. exact E.
Qed.
Print Assumptions C28_scenes_stay.

Definition M_chars (t : string) : list token := map Chr (s t).
Definition M_scene (t : str) : scene := set_sc_status (Some 2%Z) (set_sc_type (Some 0%N) (set_sc_title (Some (s "A ""scene"" & more")) (set_sceneContent t new_scene))).
Definition M_chapter (t : option str) (ids : list str) : chapter := set_ch_srtScenes ids (set_ch_title t (set_ch_type (Some 0%N) (set_ch_level (Some 0%N) new_chapter))).
(** a novel with one chapter and these scenes *)
Definition M_novel (texts : list str) : novel :=
  let ids := map (fun i => str_of_N (N.of_nat i)) (seq 1 (length texts)) in
  set_nv_title (Some (s "The <Title>")) (set_nv_authorName (Some (s "A. Author"))
   (set_nv_srtChapters [s "1"] (set_nv_chapters [(s "1", M_chapter (Some (s "Chapter 'One'")) ids)] (set_nv_scenes (combine ids (map M_scene texts)) new_novel)))).
Definition M_text1 : list token :=
  M_chars "He said ""no"" & went " ++ [Opn (s "b")] ++ M_chars "far" ++ [Opn (s "i")] ++ M_chars " away" ++ [Cls (s "i"); Cls (s "b")] ++ M_chars "; 1 < 2." ++ [Brk; Brk] ++ M_chars "  Then " ++ [Com (s "check: was it him?")] ++
  M_chars "he " ++ [Opn (s "i")] ++ M_chars "came" ++ [Brk] ++ M_chars "back" ++ [Cls (s "i")] ++ M_chars " and " ++ [Opn (s "lang=de-DE")] ++ M_chars "sprach" ++ [Cls (s "lang=de-DE")] ++ M_chars " a " ++ [Box (s "word")] ++ M_chars ".".
Definition M_text2 : list token := M_chars "> Who " ++ [Opn (s "i")] ++ M_chars "knows" ++ [Cls (s "i")] ++ M_chars "?" ++ [Brk] ++ M_chars "> 1 > 0" ++ [Brk; Brk] ++ M_chars "> No > one." ++ [Brk] ++ M_chars "The end".
Definition M_sample : novel := Eval vm_compute in M_novel [typed M_text1; typed M_text2].

Example C28_instance : let languages := languages_in (with_languages M_sample) in
  languages = [s "de-DE"] /\ manuscript_ok (py_str (nv_authorName M_sample)) languages M_sample /\ NoDup (map fst (nv_scenes M_sample)).
Proof.
  cbv zeta. assert (L : languages_in (with_languages M_sample) = [s "de-DE"]) by (vm_compute; reflexivity). rewrite L. split; [reflexivity|]. split.
  2: { constructor; [intros [E | []]; discriminate | constructor; [intros [] | constructor]]. }
  assert (Nm : names_ok (s "A. Author") [s "de-DE"]).
  { split; [|split]; [repeat constructor | repeat constructor|]. constructor; [intros [] | constructor]. }
  assert (R1 : restorable [s "de-DE"] (typed M_text1)) by (exists M_text1; unfold marked_up; repeat split; vm_compute; reflexivity).
  assert (R2 : restorable [s "de-DE"] (typed M_text2)) by (exists M_text2; unfold marked_up; repeat split; vm_compute; reflexivity).
  assert (Sc : forall t x, x = M_scene t -> restorable [s "de-DE"] t -> Forall (fun l => prefixb (s "#") l = false) (lines t) -> scene_ok [s "de-DE"] M_sample x).
  { intros t x -> Hr Hn. constructor; [reflexivity | |]. { intros u E. cbn in E. injection E as <-. split; [exact Hn | reflexivity]. }
    intros _. repeat split; [discriminate | discriminate|]. exists t. split; [reflexivity | exact Hr]. }
  constructor; [exact Nm | | reflexivity | reflexivity|].
  - constructor; [|constructor]. exists (s "de"), (s "DE"). split; [reflexivity|]. repeat split; try discriminate; [intro I; vm_compute in I; intuition discriminate | repeat constructor].
  - intros i [<- | []]. split; [reflexivity|]. eexists. split; [reflexivity|]. constructor; [reflexivity | eexists; split; reflexivity|].
    intros j [<- | [<- | []]]; (split; [reflexivity|]); eexists; (split; [reflexivity|]).
    + apply (Sc (typed M_text1)); [vm_compute; reflexivity | exact R1 | vm_compute; repeat constructor].
    + apply (Sc (typed M_text2)); [vm_compute; reflexivity | exact R2 | vm_compute; repeat constructor].
Qed.

(** the novel before reading may have other texts *)
Definition M_other : novel := Eval vm_compute in set_nv_scenes [(s "1", set_sceneContent (s "other") (M_scene (typed M_text1))); (s "2", set_sceneContent [] (M_scene (typed M_text2)))] M_sample.
Example C28_other : other_texts (in_document M_sample) M_sample M_other /\ M_other <> M_sample.
Proof.
  split; [|discriminate]. eexists. split; [reflexivity|].
  assert (D : forall i, In i [s "1"; s "2"] -> in_document M_sample i).
  { intros i Hi. exists (s "1"). split; [now left|]. split; [destruct Hi as [<- | [<- | []]]; [now left | right; now left]|]. destruct Hi as [<- | [<- | []]]; split; vm_compute; reflexivity. }
  constructor; [|constructor; [|constructor]]; (split; [reflexivity|]); right; (split; [apply D; cbn; auto|]).
  - exists (s "other"). vm_compute. reflexivity.
  - exists []. vm_compute. reflexivity.
Qed.

(** Not everything survives.  Export and read back, each text delivered in one piece: the scene texts afterwards *)
Definition M_back (n : novel) : res (list (option str)) :=
  do doc <- manuscript_text (fun x => x) None None n;
  match sax doc with
  | Some es => do '(n', _) <- read_formatted (fun x => x) (manuscript_reader 0) [] es n; Ok (map (fun p => sc_content (snd p)) (nv_scenes n'))
  | None => Err ParseError
  end.
Definition M_nl : str := [10%N].

(** blanks between two formatted words are lost *)
Theorem C28_blank_refuted : M_back (M_novel [s "[i]a[/i] [b]b[/b]"]) = Ok [Some (s "[i]a[/i][b]b[/b]")].
Proof. vm_compute. reflexivity. Qed.
Print Assumptions C28_blank_refuted.
(** formatting that ends and begins at a line break, and formatting over empty lines *)
Theorem C28_lines_refuted : M_back (M_novel [s "[i]a[/i]" ++ M_nl ++ s "[i]b[/i]"]) = Ok [Some (s "[i]a" ++ M_nl ++ s "b[/i]")] /\
  M_back (M_novel [s "[i]a" ++ M_nl ++ M_nl ++ s "b[/i]"]) = Ok [Some (s "[i]a[/i]" ++ M_nl ++ M_nl ++ s "[i]b[/i]")] /\
  M_back (M_novel [s "[b][i]a" ++ M_nl ++ s "b[/i][/b]"]) = Ok [Some (s "[b][i]a[/i]" ++ M_nl ++ s "[i]b[/i][/b]")].
Proof. repeat split; vm_compute; reflexivity. Qed.
Print Assumptions C28_lines_refuted.
(** nested languages: the outer one is not closed *)
Theorem C28_languages_refuted : M_back (M_novel [s "[lang=de-DE]a[lang=fr-FR]b[/lang=fr-FR]c[/lang=de-DE]"]) = Ok [Some (s "[lang=de-DE]a[lang=fr-FR]b[/lang=fr-FR]c")].
Proof. vm_compute. reflexivity. Qed.
Print Assumptions C28_languages_refuted.
(** comments: of several lines, only the first one stays; a comment with tildes is lost *)
Theorem C28_comments_refuted : M_back (M_novel [s "a/*x" ++ M_nl ++ s "y*/b"]) = Ok [Some (s "a/*x*/b")] /\ M_back (M_novel [s "a/*x ~y~ z*/b"]) = Ok [Some (s "ab")].
Proof. split; vm_compute; reflexivity. Qed.
Print Assumptions C28_comments_refuted.
(** blanks at the end, other tags, and lines that begin with # *)
Theorem C28_text_refuted : M_back (M_novel [s "a "]) = Ok [Some (s "a")] /\ M_back (M_novel [s "[h1]a[/h1]"]) = Ok [Some (s "a")] /\ M_back (M_novel [s "a" ++ M_nl ++ s "# b"]) = Ok [Some (s "a")].
Proof. repeat split; vm_compute; reflexivity. Qed.
Print Assumptions C28_text_refuted.
(** quotations: the mark after a comment, the same formatting before and after the mark, more blanks after the mark *)
Theorem C28_quotations_refuted : M_back (M_novel [s "/*c*/> x"]) = Ok [Some (s "> /*c*/x")] /\ M_back (M_novel [s "[i]a[/i]" ++ M_nl ++ s "> [i]b[/i]"]) = Ok [Some (s "[i]a" ++ M_nl ++ s "> b[/i]")] /\
  M_back (M_novel [s ">  [i]x[/i]"]) = Ok [Some (s "> [i]x[/i]")].
Proof. repeat split; vm_compute; reflexivity. Qed.
Print Assumptions C28_quotations_refuted.
(** a chapter without a title gets that of its first scene; a scene without text gets an empty one *)
Definition M_bare : novel := set_nv_srtChapters [s "1"] (set_nv_chapters [(s "1", M_chapter None [s "1"])] (set_nv_scenes [(s "1", set_sc_content None (M_scene []))] (M_novel []))).
Theorem C28_missing_refuted : exists doc es n', manuscript_text (fun x => x) None None M_bare = Ok doc /\ sax doc = Some es /\ read_formatted (fun x => x) (manuscript_reader 0) [] es M_bare = Ok (n', false) /\
  map (fun p => ch_title (snd p)) (nv_chapters n') = [Some (s "A ""scene"" & more")] /\ map (fun p => sc_content (snd p)) (nv_scenes n') = [Some []].
Proof. do 3 eexists. split; [vm_compute; reflexivity|]. split; [vm_compute; reflexivity|]. split; [vm_compute; reflexivity|]. split; vm_compute; reflexivity. Qed.
Print Assumptions C28_missing_refuted.
(** the parser may deliver a text in pieces, and it does so at each entity; blanks between two entities are lost then *)
Definition M_quoted : novel := Eval vm_compute in M_novel [s "a < > b"].
Definition in_pieces (e : event) : list event := match e with Data t => map (fun c => Data [c]) t | e => [e] end.
Theorem C28_pieces_refuted : exists doc es n', manuscript_text (fun x => x) None None M_quoted = Ok doc /\ sax doc = Some es /\
  read_formatted (fun x => x) (manuscript_reader 0) [] (flat_map in_pieces es) M_quoted = Ok (n', false) /\ merge (flat_map in_pieces es) = es /\
  map (fun p => sc_content (snd p)) (nv_scenes n') = [Some (s "a<>b")].
Proof. do 3 eexists. split; [vm_compute; reflexivity|]. split; [vm_compute; reflexivity|]. split; [vm_compute; reflexivity|]. split; vm_compute; reflexivity. Qed.
Print Assumptions C28_pieces_refuted.
