(** Reading a document without marks (C30): the chapters and scenes it is made of. *)
From Coq Require Import String List NArith ZArith Bool.
From Verif Require Import PyStr PyDict NovelModel WordCount SpecNovel OdfXml OdtRead.
Import ListNotations.

(** a book: chapters, each with its scenes *)
Definition book := list (chapter * list scene).
(** the IDs "1", "2", ... *)
Definition id_of (i : nat) : str := str_of_N (N.of_nat i).
Definition ids (k : nat) : list str := map id_of (seq 1 k).
Definition numbered {A} (l : list A) : dict A := combine (ids (length l)) l.
(** the scenes are numbered through the book; each chapter lists the numbers of its own *)
Fixpoint placed (j : nat) (b : book) : list chapter :=
  match b with [] => [] | (c, scs) :: b' => set_ch_srtScenes (map id_of (seq (S j) (length scs))) c :: placed (j + length scs) b' end.
(** the chapters and scenes of the novel are those of the book, in order, consecutively numbered *)
Definition is_book (b : book) (n : novel) : Prop :=
  nv_srtChapters n = ids (length b) /\ nv_chapters n = numbered (placed 0 b) /\ nv_scenes n = numbered (flat_map snd b).
(** the novel apart from that, from its title, author, description and languages *)
Definition import_rest (n : novel) : novel :=
  set_nv_title None (set_nv_authorName None (set_nv_desc None (set_nv_languageCode None (set_nv_countryCode None (set_nv_languages None
  (set_nv_srtChapters [] (set_nv_chapters [] (set_nv_scenes [] n)))))))).
(** title, author, description and language: as given in the document, otherwise as before *)
Definition given (new old : option str) : option str := match new with Some (_ :: _) => new | _ => old end.
Definition described (f : str -> str) (styles : option (option str * option str)) (title author desc : option str) (n n' : novel) : Prop :=
  nv_title n' = match title with Some (x :: t) => Some (f (x :: t)) | _ => nv_title n end /\ nv_authorName n' = given author (nv_authorName n) /\ nv_desc n' = given desc (nv_desc n) /\
  nv_languageCode n' = match styles with Some (l, _) => given l (nv_languageCode n) | None => nv_languageCode n end /\
  nv_countryCode n' = match styles with Some (_, c) => given c (nv_countryCode n) | None => nv_countryCode n end.
(** what the parser reports of a document *)
Fixpoint report (p : ps) (es : list event) : res (list call) :=
  match es with [] => Ok [] | e :: es' => do '(p, c) <- parser_event e p; do r <- report p es'; Ok (c ++ r) end.
(** the headings of the first two levels in it: 1 for a part, 0 for a chapter *)
Definition heading_levels (calls : list call) : list N :=
  flat_map (fun c => match c with CStart tag _ => if str_eqb tag (s "h1") then [1%N] else if str_eqb tag (s "h2") then [0%N] else [] | _ => [] end) calls.
(** the chapters as created *)
Definition chapters_match (levels : list N) (b : book) : Prop := map (fun cs => ch_level (fst cs)) b = map Some levels /\ Forall (fun cs => ch_type (fst cs) = Some 0%N) b.
Definition scenes_ok (b : book) : Prop := Forall (fun cs => Forall (fun x => sc_type x = Some 0%N /\ (sc_status x = Some 1%Z \/ sc_status x = Some 2%Z)) (snd cs)) b.

(** * Documents made of headings and paragraphs *)
(** parts of a paragraph: text, a blank (text:s), italic or bold text, a comment with its author *)
Inductive inline := Word (t : str) | Blank | Styled (bold : bool) (t : str) | Note (author t : str).
(** between the headings: paragraphs, and scene dividers (a paragraph with a text containing "* * *") *)
Inductive body := Para (p : list inline) | Divider (t : str).
(** a chapter in the document: part or chapter heading, its text in pieces, and what follows *)
Definition section := (bool * list str * list body)%type.

Definition inline_events (x : inline) : list event :=
  match x with
  | Word t => [Data t]
  | Blank => [Start (s "text:s") []; End (s "text:s")]
  | Styled bold t => [Start (s "text:span") [(s "text:style-name", if bold then s "Strong_20_Emphasis" else s "Emphasis")]; Data t; End (s "text:span")]
  | Note author t => [Start (s "office:annotation") []; Start (s "dc:creator") []; Data author; End (s "dc:creator"); Start (s "text:p") []; Data t; End (s "text:p"); End (s "office:annotation")]
  end.
Definition para_events (p : list inline) : list event := Start (s "text:p") [] :: flat_map inline_events p ++ [End (s "text:p")].
Definition body_events (x : body) : list event := match x with Para p => para_events p | Divider t => para_events [Word t] end.
Definition heading_events (level : str) (ts : list str) : list event := Start (s "text:h") [(s "text:outline-level", level)] :: map Data ts ++ [End (s "text:h")].
Definition section_events (x : section) : list event := let '(part, ts, bs) := x in heading_events (if part then s "1" else s "2") ts ++ flat_map body_events bs.
(** content.xml *)
Definition wrapped (es : list event) : list event :=
  [Start (s "office:document-content") []; Start (s "office:body") []; Start (s "office:text") []] ++ es ++ [End (s "office:text"); End (s "office:body"); End (s "office:document-content")].
Definition document (doc : list section) : list event := wrapped (flat_map section_events doc).

(** the markup of a paragraph *)
Definition inline_text (x : inline) : str :=
  match x with
  | Word t => t
  | Blank => s " "
  | Styled false t => s "[i]" ++ t ++ s "[/i]"
  | Styled true t => s "[b]" ++ t ++ s "[/b]"
  | Note _ t => s "/*" ++ strip t ++ s "*/"
  end.
Definition para_text (p : list inline) : str := concat (map inline_text p).
(** the scenes of a chapter: paragraphs between dividers; a divider that ends no scene makes an empty one *)
Fixpoint scenes_of (cur : option (list (list inline))) (bs : list body) : list (list (list inline)) :=
  match bs with
  | [] => match cur with Some ps => [ps] | None => [] end
  | Para p :: bs' => scenes_of (Some (match cur with Some ps => ps ++ [p] | None => [p] end)) bs'
  | Divider _ :: bs' => match cur with Some ps => ps | None => [] end :: scenes_of None bs'
  end.
(** comments at the beginning of a scene: the last one is its title *)
Fixpoint leading (title : str) (p : list inline) : str * list inline := match p with Note _ t :: p' => leading (strip t) p' | _ => (title, p) end.
(** italic or bold text that ends and begins again, perhaps in the next line, is joined *)
Definition merge_runs (t : str) : str :=
  fold_left (fun t p => replace (fst p) (snd p) t)
    [(s "[/i][i]", []); (s "[/i]" ++ [10%N] ++ s "[i]", [10%N]); (s "[/i]" ++ [10%N] ++ s "> [i]", [10%N] ++ s "> ");
     (s "[/b][b]", []); (s "[/b]" ++ [10%N] ++ s "[b]", [10%N]); (s "[/b]" ++ [10%N] ++ s "> [b]", [10%N] ++ s "> ")] t.
Definition import_scene (tr : str -> str) (number : nat) (ps : list (list inline)) : scene :=
  let default := tr (s "Scene") ++ s " " ++ id_of number in
  match ps with
  | [] => set_sc_title (Some default) (set_sc_type (Some 0%N) (set_sc_status (Some 1%Z) new_scene))
  | p :: r =>
      let '(title, p') := leading default p in
      let text := merge_runs (rstrip (join [10%N] (map para_text (p' :: r)))) in
      set_sc_content (Some text) (set_sc_wordCount (word_count text) (set_sc_letterCount (letter_count text)
        (set_sc_title (Some title) (set_sc_type (Some 0%N) (set_sc_status (Some (if Nat.ltb (word_count text) 10 then 1%Z else 2%Z)) new_scene)))))
  end.
Definition import_chapter (part : bool) (title : str) : chapter := set_ch_title (Some title) (set_ch_level (Some (if part then 1%N else 0%N)) (set_ch_type (Some 0%N) new_chapter)).
(** the book: scenes are numbered through *)
Fixpoint import_book (tr : str -> str) (j : nat) (doc : list section) : book :=
  match doc with
  | [] => []
  | (part, ts, bs) :: doc' =>
      let groups := scenes_of None bs in
      (import_chapter part (concat ts), map (fun kp => import_scene tr (fst kp) (snd kp)) (combine (seq (S j) (length groups)) groups)) :: import_book tr (j + length groups) doc'
  end.
(** the paragraphs of a document *)
Definition paragraphs (bs : list body) : list (list inline) := flat_map (fun x => match x with Para p => [p] | Divider _ => [] end) bs.
(** no scene divider within other texts *)
Definition inline_ok (x : inline) : Prop := match x with Word t | Styled _ t => containsb (s "* * *") t = false | _ => True end.
Definition body_ok (x : body) : Prop := match x with Para p => Forall inline_ok p | Divider t => containsb (s "* * *") t = true end.
Definition document_ok (doc : list section) : Prop := Forall (fun x => Forall body_ok (snd x)) doc.

(** * Outlines *)
(** scenes with the pieces of their heading and paragraphs; chapters with the pieces of their heading, paragraphs, and scenes *)
Definition oscene := (list str * list (list inline))%type.
Definition ochapter := (bool * list str * list (list inline) * list oscene)%type.
Definition oscene_events (x : oscene) : list event := heading_events (s "3") (fst x) ++ flat_map para_events (snd x).
Definition ochapter_events (x : ochapter) : list event :=
  let '(part, ts, ps, scs) := x in heading_events (if part then s "1" else s "2") ts ++ flat_map para_events ps ++ flat_map oscene_events scs.
Definition outline_document (doc : list ochapter) : list event := wrapped (flat_map ochapter_events doc).
(** text without its formatting; comments are kept in scenes only *)
Definition outline_text (in_scene : bool) (x : inline) : str :=
  match x with Word t | Styled _ t => t | Blank => s " " | Note _ t => if in_scene then s "/*" ++ t ++ s "*/" else [] end.
Definition outline_para (in_scene : bool) (p : list inline) : str := concat (map (outline_text in_scene) p).
Definition blank (t : str) : bool := forallb is_space t.
(** the description: the paragraphs that are not blank, one per line *)
Definition outline_desc (in_scene : bool) (ps : list (list inline)) : option str :=
  match ps with [] => None | _ => Some (strip (join [10%N] (map rstrip (filter (fun t => negb (blank t)) (map (outline_para in_scene) ps)))) ++ [10%N]) end.
Definition outline_scene (x : oscene) : scene :=
  set_sc_title (Some (strip (concat (fst x)))) (set_sc_desc (outline_desc true (snd x)) (set_sc_type (Some 0%N) (set_sc_status (Some 1%Z) (set_sc_content (Some []) new_scene)))).
Definition outline_chapter (x : ochapter) : chapter * list scene :=
  let '(part, ts, ps, scs) := x in (set_ch_desc (outline_desc false ps) (import_chapter part (strip (concat ts))), map outline_scene scs).
