(** The scene list: the rows written. *)
From Coq Require Import String List NArith ZArith Bool Lia Arith.
From Verif Require Import PyStr PyDict Globals GlobalsProofs NovelModel YwText YwTextProofs OdfXml OdfXmlProofs OdtText OdtTextProofs OdtTextProofs2 Template TemplateProofs Export ExportProofs Templates OdsRead SpecOdf SpecOds SpecSceneList OdsProofs OdsTree OdfLex OdsWrite OdsWriteScenes OdsRoundTrip OdsRoundTrip2 OdsRoundTrip3 FormatXml4 XmlTags XmlTags2 SceneTable.
Import ListNotations.

Definition gcell_raw (a : attrs) (w : str) : str := SP 5 ++ (tag_text CELL a false ++ ([10%N] ++ SP 6 ++ PARA w ++ [10%N] ++ SP 5) ++ s "</table:table-cell>") ++ [10%N].
Definition grow_raw (pre : nat) (st : str) (cs : list (attrs * str)) (rest : str) : str :=
  SP pre ++ (tag_text (s "table:table-row") [(s "table:style-name", st)] false ++ ([10%N] ++ flat_map (fun p => gcell_raw (fst p) (snd p)) cs ++ rest ++ SP 4) ++ s "</table:table-row>") ++ [10%N; 10%N].
Definition esc_attrs (p : attrs * str) : attrs * str := (map esc_value (fst p), snd p).
Lemma grow_esc : forall pre st cs rest, grow pre st cs rest = grow_raw pre st (map esc_attrs cs) rest.
Proof.
  intros pre st cs rest. unfold grow, grow_raw. assert (E : flat_map (fun p => gcell (fst p) (snd p)) cs = flat_map (fun p => gcell_raw (fst p) (snd p)) (map esc_attrs cs)); [|now rewrite E].
  induction cs as [|c cs IH]; [reflexivity|]. cbn [flat_map map]. now rewrite IH.
Qed.
(** the same written from left to right *)
Definition pieces (ps : list str) (k : str) : str := fold_right (fun p k => p ++ k) k ps.
Lemma pieces_concat : forall ps k, concat ps ++ k = pieces ps k.
Proof. induction ps as [|p ps IH]; intro k; [reflexivity|]. cbn [concat pieces fold_right]. rewrite <- app_assoc. f_equal. exact (IH k). Qed.
Definition pcell : Type := (list (str * list str) * list str)%type.
Definition flat_attr (p : str * list str) : str * str := (fst p, concat (snd p)).
Definition flat_cell (c : pcell) : attrs * str := (map flat_attr (fst c), concat (snd c)).
Definition attr_k (a : list (str * list str)) (k : str) : str := fold_right (fun p k => s " " ++ fst p ++ s "=""" ++ pieces (snd p) (s """" ++ k)) k a.
Definition cell_k (c : pcell) (k : str) : str :=
  SP 5 ++ s "<" ++ CELL ++ attr_k (fst c) (s ">" ++ [10%N] ++ SP 6 ++ s "<text:p>" ++ pieces (snd c) (s "</text:p>" ++ [10%N] ++ SP 5 ++ s "</table:table-cell>" ++ [10%N] ++ k)).
Definition row_k (pre : nat) (st : str) (cs : list pcell) (rest : str) : str :=
  SP pre ++ tag_text (s "table:table-row") [(s "table:style-name", st)] false ++ [10%N] ++ fold_right cell_k (rest ++ SP 4 ++ s "</table:table-row>" ++ [10%N; 10%N]) cs.
Lemma attr_k_text : forall a k, attr_text (map flat_attr a) ++ k = attr_k a k.
Proof.
  intros a k. unfold attr_text. induction a as [|p a IH]; [reflexivity|]. cbn [map flat_map attr_k fold_right]. rewrite <- !app_assoc. rewrite IH. unfold flat_attr. cbn [fst snd].
  rewrite pieces_concat. reflexivity.
Qed.
Lemma cell_k_raw : forall c k, gcell_raw (fst (flat_cell c)) (snd (flat_cell c)) ++ k = cell_k c k.
Proof.
  intros c k. unfold gcell_raw, cell_k, tag_text, PARA, flat_cell, closing_text. cbn [fst snd]. rewrite <- !app_assoc. rewrite attr_k_text. rewrite pieces_concat. reflexivity.
Qed.
Lemma row_k_raw : forall pre st cs rest, row_k pre st cs rest = grow_raw pre st (map flat_cell cs) rest.
Proof.
  intros pre st cs rest. unfold row_k, grow_raw. rewrite <- !app_assoc. f_equal. f_equal. f_equal. set (k := rest ++ SP 4 ++ s "</table:table-row>" ++ [10%N; 10%N]). clearbody k.
  induction cs as [|c cs IH]; [reflexivity|]. cbn [fold_right map flat_map]. rewrite <- app_assoc, <- IH. symmetry. apply cell_k_raw.
Qed.
Definition HEADING : attrs := [(s "table:style-name", s "Heading"); (s "office:value-type", s "string")].
Definition STRING : attrs := [(s "office:value-type", s "string")].
Definition FLOAT (v : str) : attrs := [(s "office:value-type", s "float"); (s "office:value", v)].
Definition LINKp (pp pn i : str) : list (str * list str) :=
  [(s "table:formula", [s "of:=HYPERLINK(&quot;file:///"; pp; s "/"; pn; s "_manuscript.odt#ScID:"; i; s "%7Cregion&quot;;&quot;ScID:"; i; s "&quot;)"]);
   (s "office:value-type", [s "string"]); (s "office:string-value", [s "ScID:"; i])].
Definition LINKr (pp pn i : str) : attrs :=
  [(s "table:formula", s "of:=HYPERLINK(&quot;file:///" ++ pp ++ s "/" ++ pn ++ s "_manuscript.odt#ScID:" ++ i ++ s "%7Cregion&quot;;&quot;ScID:" ++ i ++ s "&quot;)");
   (s "office:value-type", s "string"); (s "office:string-value", s "ScID:" ++ i)].
Lemma LINKp_flat : forall pp pn i, map flat_attr (LINKp pp pn i) = LINKr pp pn i.
Proof. intros pp pn i. unfold LINKp, LINKr, flat_attr. cbn [map fst snd concat]. rewrite !app_nil_r. reflexivity. Qed.
Definition HEADINGp : list (str * list str) := [(s "table:style-name", [s "Heading"]); (s "office:value-type", [s "string"])].
Definition STRINGp : list (str * list str) := [(s "office:value-type", [s "string"])].
Definition FLOATp (v : str) : list (str * list str) := [(s "office:value-type", [s "float"]); (s "office:value", [v])].
Lemma FLOATp_flat : forall v, map flat_attr (FLOATp v) = FLOAT v.
Proof. intros v. unfold FLOATp, FLOAT, flat_attr. cbn [map fst snd concat]. rewrite !app_nil_r. reflexivity. Qed.
Definition LINK (pp pn i : str) : attrs :=
  [(s "table:formula", s "of:=HYPERLINK(""file:///" ++ pp ++ s "/" ++ pn ++ s "_manuscript.odt#ScID:" ++ i ++ s "%7Cregion"";""ScID:" ++ i ++ s """)");
   (s "office:value-type", s "string"); (s "office:string-value", s "ScID:" ++ i)].
Lemma scene_template_cells : forall vID vSceneNumber vTitle vDesc vWordCount vWordsTotal vLetterCount vLettersTotal vStatus vSceneContent vFieldTitle1 vFieldTitle2 vFieldTitle3 vFieldTitle4 vField1 vField2 vField3 vField4 vDate vTime vDay vScDate vLastsDays vLastsHours vLastsMinutes vDuration vReactionScene vGoal vConflict vOutcome vTags vImage vCharacters vViewpoint vLocations vItems vNotes vProjectName vProjectPath vLanguage vCountry : str,
  safe_substitute OdsWSceneList_scene [(s "ID", vID); (s "SceneNumber", vSceneNumber); (s "Title", vTitle); (s "Desc", vDesc); (s "WordCount", vWordCount); (s "WordsTotal", vWordsTotal); (s "LetterCount", vLetterCount); (s "LettersTotal", vLettersTotal); (s "Status", vStatus); (s "SceneContent", vSceneContent); (s "FieldTitle1", vFieldTitle1); (s "FieldTitle2", vFieldTitle2); (s "FieldTitle3", vFieldTitle3); (s "FieldTitle4", vFieldTitle4); (s "Field1", vField1); (s "Field2", vField2); (s "Field3", vField3); (s "Field4", vField4); (s "Date", vDate); (s "Time", vTime); (s "Day", vDay); (s "ScDate", vScDate); (s "LastsDays", vLastsDays); (s "LastsHours", vLastsHours); (s "LastsMinutes", vLastsMinutes); (s "Duration", vDuration); (s "ReactionScene", vReactionScene); (s "Goal", vGoal); (s "Conflict", vConflict); (s "Outcome", vOutcome); (s "Tags", vTags); (s "Image", vImage); (s "Characters", vCharacters); (s "Viewpoint", vViewpoint); (s "Locations", vLocations); (s "Items", vItems); (s "Notes", vNotes); (s "ProjectName", vProjectName); (s "ProjectPath", vProjectPath); (s "Language", vLanguage); (s "Country", vCountry)]
  = grow_raw 3 (s "ro2") [(LINKr vProjectPath vProjectName vID, s "ScID:" ++ vID); (STRING, vTitle); (STRING, vDesc); (STRING, vTags); (STRING, vNotes); (STRING, vReactionScene); (STRING, vGoal); (STRING, vConflict); (STRING, vOutcome); (FLOAT vSceneNumber, vSceneNumber); (FLOAT vWordsTotal, vWordsTotal); (FLOAT vField1, vField1); (FLOAT vField2, vField2); (FLOAT vField3, vField3); (FLOAT vField4, vField4); (FLOAT vWordCount, vWordCount); (FLOAT vLetterCount, vLetterCount); (STRING, vStatus); (STRING, vCharacters); (STRING, vLocations); ([], vItems)] [].
Proof.
  intros. transitivity (row_k 3 (s "ro2") [(LINKp vProjectPath vProjectName vID, [s "ScID:"; vID]); (STRINGp, [vTitle]); (STRINGp, [vDesc]); (STRINGp, [vTags]); (STRINGp, [vNotes]); (STRINGp, [vReactionScene]); (STRINGp, [vGoal]); (STRINGp, [vConflict]); (STRINGp, [vOutcome]); (FLOATp vSceneNumber, [vSceneNumber]); (FLOATp vWordsTotal, [vWordsTotal]); (FLOATp vField1, [vField1]); (FLOATp vField2, [vField2]); (FLOATp vField3, [vField3]); (FLOATp vField4, [vField4]); (FLOATp vWordCount, [vWordCount]); (FLOATp vLetterCount, [vLetterCount]); (STRINGp, [vStatus]); (STRINGp, [vCharacters]); (STRINGp, [vLocations]); ([], [vItems])] []); [vm_compute; reflexivity|]. rewrite row_k_raw. f_equal. unfold flat_cell. cbn [map fst snd concat]. rewrite LINKp_flat, !FLOATp_flat, !app_nil_r. reflexivity.
Qed.

Definition SCENE_head0 : str := Eval vm_compute in skipn (length DECL) OdsWSceneList_fileHeader.
Fixpoint find_at (p t : str) (k : nat) : nat := match t with [] => k | _ :: t' => if prefixb p t then k else find_at p t' (S k) end.
Definition SCENE_head : str := Eval vm_compute in firstn (find_at (s "    <table:table-row") SCENE_head0 0) SCENE_head0.
Definition SCENE_toks : list xtok := Eval vm_compute in match xlex SCENE_head with Some t => t | None => [] end.
Definition SCENE_frames : list frame * list node := Eval vm_compute in frames (match nest_run [] false SCENE_toks with Some (es, _, _) => es | None => [] end).
Definition SCENE_rest : str := SP 5 ++ s "<table:table-cell table:style-name=""Heading"" table:number-columns-repeated=""1003""/>" ++ [10%N].
Definition head_cells (t1 t2 t3 t4 : str) : list (attrs * str) := [(HEADING, s "Scene link"); (HEADING, s "Scene title"); (HEADING, s "Scene description"); (HEADING, s "Tags"); (HEADING, s "Scene notes"); (HEADING, s "A/R"); (HEADING, s "Goal"); (HEADING, s "Conflict"); (HEADING, s "Outcome"); (HEADING, s "Scene"); (HEADING, s "Words total"); (HEADING, t1); (HEADING, t2); (HEADING, t3); (HEADING, t4); (HEADING, s "Word count"); (HEADING, s "Letter count"); (HEADING, s "Status"); (HEADING, s "Characters"); (HEADING, s "Locations"); (HEADING, s "Items")].
Definition head_texts (t1 t2 t3 t4 : str) : list str := [s "Scene link"; s "Scene title"; s "Scene description"; s "Tags"; s "Scene notes"; s "A/R"; s "Goal"; s "Conflict"; s "Outcome"; s "Scene"; s "Words total"; t1; t2; t3; t4; s "Word count"; s "Letter count"; s "Status"; s "Characters"; s "Locations"; s "Items"].
Lemma head_template : forall vTitle vDesc vAuthorName vAuthorBio vFieldTitle1 vFieldTitle2 vFieldTitle3 vFieldTitle4 vLanguage vCountry : str,
  safe_substitute OdsWSceneList_fileHeader [(s "Title", vTitle); (s "Desc", vDesc); (s "AuthorName", vAuthorName); (s "AuthorBio", vAuthorBio); (s "FieldTitle1", vFieldTitle1); (s "FieldTitle2", vFieldTitle2); (s "FieldTitle3", vFieldTitle3); (s "FieldTitle4", vFieldTitle4); (s "Language", vLanguage); (s "Country", vCountry)]
  = DECL ++ SCENE_head ++ grow_raw 4 (s "ro1") (head_cells vFieldTitle1 vFieldTitle2 vFieldTitle3 vFieldTitle4) SCENE_rest.
Proof.
  intros. transitivity (DECL ++ SCENE_head ++ row_k 4 (s "ro1") [(HEADINGp, [s "Scene link"]); (HEADINGp, [s "Scene title"]); (HEADINGp, [s "Scene description"]); (HEADINGp, [s "Tags"]); (HEADINGp, [s "Scene notes"]); (HEADINGp, [s "A/R"]); (HEADINGp, [s "Goal"]); (HEADINGp, [s "Conflict"]); (HEADINGp, [s "Outcome"]); (HEADINGp, [s "Scene"]); (HEADINGp, [s "Words total"]); (HEADINGp, [vFieldTitle1]); (HEADINGp, [vFieldTitle2]); (HEADINGp, [vFieldTitle3]); (HEADINGp, [vFieldTitle4]); (HEADINGp, [s "Word count"]); (HEADINGp, [s "Letter count"]); (HEADINGp, [s "Status"]); (HEADINGp, [s "Characters"]); (HEADINGp, [s "Locations"]); (HEADINGp, [s "Items"])] SCENE_rest); [vm_compute; reflexivity|]. rewrite row_k_raw. unfold flat_cell, head_cells. cbn [map fst snd concat]. rewrite !app_nil_r. reflexivity.
Qed.
Lemma SCENE_written : forall xs tss, Forall2 row_text xs tss -> Forall (fun r => length r = 21) tss -> read_table (DECL ++ SCENE_head ++ concat xs ++ FOOT) 21 = Ok tss.
Proof.
  intros xs tss H1 H2.
  apply (rows_written _ SCENE_toks (fr (fst SCENE_frames) 0) (fr (fst SCENE_frames) 1) (fr (fst SCENE_frames) 2) (fr (fst SCENE_frames) 3) (snd SCENE_frames)); [apply xlex_lexes; vm_compute; reflexivity |
    vm_compute; reflexivity | apply no_cr; vm_compute; reflexivity | vm_compute; reflexivity | vm_compute; reflexivity | vm_compute; reflexivity | vm_compute; reflexivity |
    vm_compute; reflexivity | vm_compute; reflexivity | vm_compute; reflexivity | vm_compute; reflexivity | lia | assumption | assumption].
Qed.
