(** Property theorem C47 (the manuscript for proof reading reads back).  Only statements, [exact], assumptions and instances. *)
From Coq Require Import String List NArith ZArith Bool Lia Arith.
From Verif Require Import PyStr PyDict YwText NovelModel NovelOps OdfXml OdtText SpecOdf SpecFormat SpecManuscript SpecExport SpecRetext OdtRead Splitter Export Manuscript SpecProof Proofing ProofRT.
From Verif Require Import P_Manuscript.
Import ListNotations.

(** * C47 *)
(** The document of a novel is written, it is well-formed, and reading it into the same novel, or into a novel in which the scenes of the document have any other texts,
    gives the novel the document was made from; only the list of languages is set anew.
    tr: the translation of messages; pn, pp: name and path of the project; m: the novel before reading; es': how the XML parser delivers the document;
    styles: language and country in styles.xml; title, name, desc: the contents of meta.xml.  What the range leaves out: see the refutations below *)
Theorem C47_proof_reads_back : forall tr pn pp n, let languages := languages_in (with_languages n) in
  proof_ok (py_str (nv_authorName n)) languages n -> NoDup (map fst (nv_scenes n)) ->
  exists doc es, proof_text tr pn pp n = Ok doc /\ sax doc = Some es /\
  forall m es' styles title name desc, other_texts (in_document n) n m -> deliver_text es es' -> unmarked title -> styles = None \/ styles = Some (nv_languageCode n, nv_countryCode n) ->
  exists ls, incl ls languages /\ read_formatted tr (proof_reader tr) (opening_calls styles title name desc) es' m = Ok (set_nv_languages (Some ls) n, false).
Proof. exact proof_round_trip. Qed.
Print Assumptions C47_proof_reads_back.

(** a text with everything in it: the novel of this text reads back *)
Example C47_instance : let languages := languages_in (with_languages M_sample) in
  languages = [s "de-DE"] /\ proof_ok (py_str (nv_authorName M_sample)) languages M_sample /\ NoDup (map fst (nv_scenes M_sample)).
Proof.
  cbv zeta. assert (L : languages_in (with_languages M_sample) = [s "de-DE"]) by (vm_compute; reflexivity). rewrite L. split; [reflexivity|]. split.
  2: { constructor; [intros [E | []]; discriminate | constructor; [intros [] | constructor]]. }
  assert (Nm : names_ok (s "A. Author") [s "de-DE"]).
  { split; [|split]; [repeat constructor | repeat constructor|]. constructor; [intros [] | constructor]. }
  assert (R1 : provable [s "de-DE"] (typed M_text1)) by (exists M_text1; unfold marked_up; repeat split; vm_compute; reflexivity).
  assert (R2 : provable [s "de-DE"] (typed M_text2)) by (exists M_text2; unfold marked_up; repeat split; vm_compute; reflexivity).
  assert (Sc : forall t x, x = M_scene t -> provable [s "de-DE"] t -> Forall (fun l => prefixb (s "#") l = false) (lines t) -> proof_scene_ok [s "de-DE"] M_sample x).
  { intros t x -> Hr Hn. constructor; [reflexivity | |]. { intros u E. cbn in E. injection E as <-. split; [exact Hn | reflexivity]. }
    intros _. split; [reflexivity|]. split; [reflexivity|]. split; [discriminate|]. split; [discriminate|]. exists t. split; [reflexivity | exact Hr]. }
  constructor; [exact Nm | | reflexivity | reflexivity|].
  - constructor; [|constructor]. exists (s "de"), (s "DE"). split; [reflexivity|]. repeat split; try discriminate; [intro I; vm_compute in I; intuition discriminate | repeat constructor].
  - intros i [<- | []]. eexists. split; [reflexivity|]. constructor; [reflexivity | reflexivity|].
    intros j [<- | [<- | []]]; (split; [reflexivity|]); eexists; (split; [reflexivity|]).
    + apply (Sc (typed M_text1)); [vm_compute; reflexivity | exact R1 | vm_compute; repeat constructor].
    + apply (Sc (typed M_text2)); [vm_compute; reflexivity | exact R2 | vm_compute; repeat constructor].
Qed.
(** what the novel may be like before reading: see C28_other in P_Manuscript.v *)
(** Not everything survives.  Export, and read back into a novel: the scene texts afterwards *)
Definition P_back (chop : event -> list event) (n m : novel) : res (list (option str)) :=
  do doc <- proof_text (fun x => x) None None n;
  match sax doc with
  | Some es => do '(n', _) <- read_formatted (fun x => x) (proof_reader (fun x => x)) [] (flat_map chop es) m; Ok (map (fun p => sc_content (snd p)) (nv_scenes n'))
  | None => Err ParseError
  end.
(** if the parser delivers the scene markers in pieces, the edited text is not read *)
Theorem C47_split_marker_refuted : P_back (fun e => [e]) (M_novel [s "new"]) (M_novel [s "old"]) = Ok [Some (s "new")] /\ P_back in_pieces (M_novel [s "new"]) (M_novel [s "old"]) = Ok [Some (s "old")].
Proof. split; vm_compute; reflexivity. Qed.
Print Assumptions C47_split_marker_refuted.
(** blanks at the beginning or at the end of a scene are lost, a text with a scene marker is lost; nested languages; formatting that ends and begins at a line break; a line that begins with a number sign splits the scene *)
Theorem C47_text_refuted : let back t := P_back (fun e => [e]) (M_novel [t]) (M_novel [t]) in
  back (s " x") = Ok [Some (s "x")] /\ back (s "a [/ScID] b") = Ok [Some []] /\
  back (s "[lang=de-DE]a[lang=fr-FR]b[/lang=fr-FR]c[/lang=de-DE]") = Ok [Some (s "[lang=de-DE]a[lang=fr-FR]b[/lang=fr-FR]c")] /\
  back (s "[i]a[/i]" ++ M_nl ++ s "[i]b[/i]") = Ok [Some (s "[i]a" ++ M_nl ++ s "b[/i]")] /\ back (s "a" ++ M_nl ++ s "# b") = Ok [Some (s "a")].
Proof. cbv zeta. repeat split; vm_compute; reflexivity. Qed.
Print Assumptions C47_text_refuted.
