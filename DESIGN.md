# DESIGN

Formal model of peter88213/PyWriter (pinned commit in /repo, Python) in Coq 8.16.1.
The theories live in `rocq/theories`, logical prefix `Verif`.

## Approach

* Shallow functional model, one Gallina function per Python function, branch by branch. Every definition
  cites file and lines. Mutated objects become returned values; exceptions become values of `res`.
* `str` = list of Unicode code points (`list N`). Python dictionaries = association lists in insertion order.
* Regular expressions are modelled by hand-written scanners with the leftmost, (non-)greedy semantics of `re`.
* The property theorems are collected in `P_*.v`; they are stated with the small vocabulary of
  `Spec*.v` (or plain list functions) and are closed by `exact lemma`, followed by `Print Assumptions`
  and preceded or followed by an `Example` meeting the hypotheses.
* If the code violates a property in the form first written down: `*_refuted` with a concrete witness, and a theorem with the guard
  that makes it true. `properties.jsonl` then gives the statement with its conditions under `statement`; the form without them stays
  in view under `unguarded_statement`, and the `_refuted` theorems prove that form false of the code. A claim is `proved` if the
  statement with its conditions is proved in full, `partial` if part of it is neither proved nor refuted.

## Plan per property
* **C01** A generated ID is always fresh and minimal. Model create_id as a search over 1,2,3,.. with fuel = number of IDs + 1; prove fuel is never exhausted (pigeonhole on injective decimal printing), freshness and minimality.
* **C02** Tag/list strings: splitting normalises, and join followed by split is the identity on normal lists. Model str.split/strip exactly (Unicode white space list of CPython); prove soundness/completeness/no-dup/order against a declarative spec, and the round trip.
* **C03** Word and letter counts ignore markup, comments and line breaks. Model the three regular expressions as a left-to-right scanner that mirrors re.sub; specify tag/comment deletion by an inductive relation; prove counts.
* **C04** All languages used in the text are found, once each, in order of first use. Model search loop; spec by an inductive 'has tag' predicate; induction over scenes.
* **C05** The document locale is always plausible afterwards. Direct case analysis on modelled attribute values.
* **C06** Splitting a scene at inserted separators keeps all text, in order. Model split_scenes as nested folds; full claim refuted by witness (### directly after ##), proved when every heading is followed by a text line.
* **C07** Splitting leaves the project structure consistent. Invariant proof over the folds of C06's model.
* **C08** Cross references are complete and exact. Model generate_xref as folds on insertion-ordered dictionaries; compare with filter/flat_map specification.
* **C09** Project write followed by read restores every chapter and scene. Model XML trees, _build_element_tree and read; prove read-after-build equals the normalised scene/chapter for all records; then the file-text level (serialise, postprocess, parse).
* **C10** Scene references after saving: characters and locations kept (from C09), items lost (model writes ItmID, reads ItemID).
* **C11** Project write followed by read restores characters, locations, items, project notes and project variables. As C09 for world elements, characters, notes, project data.
* **C12** Saving preserves what PyWriter does not understand. Prove frame theorem: findall t (build e) = findall t e for every tag t outside the written set; ID lists of SCENES/CHAPTERS equal the novel's. Then the same for the file parsed again, through the text level of C13.
* **C13** Text fields survive the XML file format. Model of ElementTree escape, postprocess line loop, html.unescape (with an arbitrary oracle for other entities) and an XML parser for the sub-language; prove round trip; refute Conflict and ]]>.
* **C14** A crash while saving never destroys the previous version. File system as a finite map; each write is a list of atomic steps incl. truncation and partial writes; invariant at every prefix.
* **C15** A failed write reports an error and leaves the old file in place. Same model with a failure injected at any step; proved for export; refuted for the post-processing stage of the project file.
* **C16** A project that yWriter has open is never touched. Same model: locked => no step emitted.
* **C17** No file is overwritten without consent. Model converter with a UI oracle and file system; theorem over all oracles.
* **C18** Every conversion reports its outcome, and a new file is announced only on success. Same model.
* **C19** An edited document updates the project it came from. Model of make_file_objects; refuted in general (suffix text inside the path); proved when the suffix occurs once.
* **C20** File type recognition. Model filePath setter and factory loops; new projects: NewProject.v.
* **C21** Exported plain text is always valid XML text. Model replacement tables; prove output avoids raw <,>,& and decodes back.
* **C22** Formatting markup produces balanced XML. Model line/tag rewriting; prove balance.
* **C23** Placeholders in the author's text are not expanded. Model string.Template.safe_substitute as a scanner; prove single-pass substitution law on token lists.
* **C24** Exported chapters and scenes appear in order, filtered by type, with consecutive numbers. Model _get_chapters/_get_scenes template selection and numbering; prove against a declarative listing.
* **C25** ODS tables are read cell by cell with repetitions expanded. Model OdsParser as event fold.
* **C26** A table with a wrong structure is rejected, and only listed elements are updated. Model OdsReader.read/readers.
* **C27** Exported tables read back unchanged. Compose ODS writer row model with reader; the scene list (cells with attributes, unescaped names) on its own: SceneTable.v, SceneListRows.v, SceneListRT.v. The lists are read into any novel that differs in what they show (SpecRelist.v), so that a reader that ignores the list does not satisfy the theorems.
* **C28** Exported manuscript reads back unchanged. Compose ODT manuscript writer text events with reader. Quotations included: the export's two text replacements and its pattern for annotations are followed through the whole document (ManuQuote.v, ManuBlocks.v). The document is read into a novel with arbitrary texts in the scenes of the document (SpecRetext.other_texts; Retext.differ is the invariant: the set of scenes that still differ), so a reader that does nothing does not satisfy the theorem; C46 and C47 likewise.
* **C29** Importing a document with section marks changes only the marked elements. Frame proofs for event folds.
* **C30** Importing a work in progress or an outline loses no paragraph and creates consistent structure. Model OdtRImport/OdtROutline as event folds.
* **C31** Configuration survives saving, and missing entries keep defaults. Model ConfigParser-level set/get on dictionaries.
* **C32** Message catalogues are encoded correctly. Model generate() byte layout and a reader of the GNU layout.
* **C33** Inlining includes every needed module once and terminates. Model inline_module as fuel recursion over a module map; fuel bound = number of modules.
* **C34** Chapter and scene types are encoded unambiguously. Finite tables, read(write)=id; read table for all combinations.
* **C35** A scene's start is either a specific date or an unspecific day, never both. Model date/time part of the scene reader/writer.
* **C36** Purging removes exactly the plugin fields. Model reset_custom_variables.
* **C37** Reading a project never silently drops or alters text. The filter is the identity on files of ordinary characters; each section of the tree is read with its texts (notes included). Refuted in general: the control character filter also removes '|'.
* **C38** Translations survive the JSON/PO round trip. Model PO reader/writer line format.
* **C39** Saving keeps project variables and adds exactly the missing ones. Specify the variable list of the new file as the old list followed by the missing ones; induction over the language lists in the tree model of C09.
* **C40** The main window always shows what is open. State machine whose transitions are the methods of MainTk; invariant over all histories of actions with oracle outcomes for dialog and reading.
* **C41** The XML data files hold exactly the characters, locations and items. Program logic of C14 (all failures, all crash points) plus the text-level XML model of C13.
* **C42** A project can be opened, edited and saved any number of times. Model the tree kept in memory (with indentation) and the file as the state of a session; specify the contents after a history of saves as an overlay of novels; invariant: the file parses to a settled copy of a clean, well-formed tree which reads as the contents, and both the copy in memory and the parsed copy can be saved again.
* **C43** Exported descriptions read back unchanged. Read into any novel that has other descriptions (SpecRedesc). Template engine, text conversion, XML parser (with arbitrary splitting of character data) and readers composed, as in C28.
* **C44** The compiled catalogue translates what the program looks up. Model the PO parser of `msgfmt.make` line by line (state: section, context, id, text, fuzzy mark, current codec) over bytes with UTF-8 and latin-1 codecs; compose with C38 (the PO file of a run) and C32 (reading the .mo file). `ast.literal_eval` beyond one double-quoted text with simple escapes and charsets other than the one PyWriter writes are oracles (universally quantified).
* **C45** An exported document shows the data its templates name. SpecShow gives, for each kind of element, the table of placeholders and the texts they stand for, as relations to the element's fields; proved: the document is the concatenation of the templates so filled (with C23's reading of templates and C24's blocks), and the tables leave no choice.
* **C46** Exported notes and "todo" chapters read back unchanged. Model: Notes.v (both writers with the templates of Templates.v) and the reader of C28 with the types 1 and 2; range: SpecNotes.v. The proof is that of C28, whose machine of normal forms (ManuRead, ManuMachine, ManuWalk, ManuBlocks) has the kind of chapters as a parameter; NotesExport.v shows that both documents consist of such blocks, including notes in normal chapters. A normal scene with a dangling reference prevents the export (C46_dangling_refuted).
* **C47** The manuscript for proof reading reads back into the novel. Model: Proofing.v (the writer), OdtRead.v (parser and `OdtRProof`), Splitter.v; range: SpecProof.v; the novel being updated: SpecRetext.v (`other_texts`: the same novel with any texts in the scenes of the document). ProofXml/ProofEvents: the chain of replacements writes, for every marked-up text, XML whose events are those of a run of words; ProofRead/ProofMachine/ProofWalk: normal forms of the reader that do not depend on how text is chopped up outside the markers; ProofBlocks/ProofExport: the document is a sequence of blocks, each restores the texts of its scenes (Retext.differ: the set of scenes that still differ shrinks until nothing differs); ProofRT: the whole way. A parser that chops up markers leaves texts unread (C47_split_marker_refuted).
* **C48** The exported cross reference document lists exactly the references. Model: XRefWrite.v (`OdtWXref`), XRef.v (`CrossReferences`), Templates.v; specification: SpecXref.v (the lines of the document as templates with the tables of SpecShow.v, from the novel alone), SpecNovel.v. Proof: the dictionaries of the cross references are lists of keys in the order of first use with the values of C08; every loop writes the lines of its section (XRefWriteProofs.v). The XML document: each line is a fragment that adds one paragraph; the parser of OdfXml.v reads the paragraphs of SpecXrefDoc.v (XRefDocProofs.v). Not modelled: styles.xml, meta.xml and the archive.

## Trusted base

* Coq 8.16.1's kernel (and `vm_compute`, used for closed computations on literals in instances and for fixed texts such as templates).
* `Print Assumptions` follows every property theorem in the `P_*.v` files; it prints
  **"Closed under the global context" for every one**. No axiom of the standard library is used. (The libraries loaded declare
  a few axioms, e.g. `Coq.ssr.ssrunder.*`, but no theorem depends on them.) No `Variable`/`Hypothesis` outside sections,
  no functors, no `Admitted`, no plugin.
* That the Gallina functions are faithful to the Python text. Each cites the file and lines; the correspondence was made by reading.
* The models of what lies under the code, which is not part of /repo:
  * Python `str` methods (split, strip, replace, splitlines, find ...) in `PyStr.v`; white space is CPython's table. Code points are `N`.
  * `dict` as insertion ordered association list (`PyDict.v`); recursion and `while` loops as fuel-free structural recursion or with fuel that is proved sufficient.
  * `re`: hand-written scanners, one per pattern, cited at the definition.
  * `string.Template.safe_substitute` (`Template.v`), `configparser` (`Config.v`), `json` (string escaping in `Translations.v`).
  * `xml.etree.ElementTree` (serialiser, parser for the sub-language without DTD/namespaces, `YwText.v`), `html.unescape` with an arbitrary table `ent`
    for entities other than the five of XML, `xml.sax` as lexer plus nesting check producing events (`OdfXml.v`); the splitting of character data
    by expat is universally quantified (`deliver`).
  * the file system as a finite map with operations which may fail at any time or be cut by a crash (`FileOps.v`); writing a file = truncating, then a prefix of the text; `os.replace` atomic.
  * `datetime.date.fromisoformat` (`IsoDate.v`), `locale.getlocale` and the system language as parameters.

## What is modelled

| /repo/src | model |
|---|---|
| pywriter/pywriter_globals.py | Globals.v |
| pywriter/model/* (novel, chapter, scene, character, world element, splitter, cross references, id) | NovelModel.v, NovelOps.v, WordCount.v, Splitter.v, XRef.v |
| pywriter/yw/yw7_file.py, xml_indent.py | Yw7Build.v, Yw7Read.v, YwTree.v, YwText.v, FileWrite.v, Purge.v, Yw7Session.v |
| pywriter/yw/data_files.py | DataFiles.v |
| pywriter/file/file.py, file_export.py, doc_open.py (not doc_open) , filter | Export.v, Templates.v, FileWrite.v, Converter.v |
| pywriter/odf/odf_file.py | FileWrite.v (file operations), OdsWrite.v (content.xml) |
| pywriter/odt_w/* | Templates.v (every template), OdtText.v, Manuscript.v |
| pywriter/odt_r/* | OdtRead.v (every reader and the parser) |
| pywriter/ods_w/*, ods_r/* | OdsWrite.v, OdsWriteScenes.v, Templates.v, OdsRead.v |
| pywriter/converter/* | Converter.v |
| pywriter/config/configuration.py | Config.v |
| pywriter/ui/main_tk.py, ui.py, ui_cmd.py | MainTk.v, Converter.v (Ui protocol) |
| inliner.py, translations.py, pgettext.py, msgfmt.py (add, generate, make), translate_de.py | Inliner.v, Translations.v, Msgfmt.v, MsgfmtMake.v |

## What is not modelled

* tkinter widgets and their geometry, `rich_text_tk.py`, `set_icon_tk.py`, `ui_mb.py`, `ui_tk.py` dialogs: no semantics in /repo beyond calls into tk.
* `doc_open.py`, `open_document` (starts another program); zip compression, `meta.xml`, `styles.xml` contents (byte copies into a directory tree, only the operations are modelled).
* XML features the program never writes: DTDs, processing instructions other than the declaration, namespaces semantics; encodings other than UTF-8 (UTF-16 fallback of read is modelled as an alternative decoding).
* `msgfmt.py` command line; the test helpers and samples.
* Time and file dates, translation look-up (`_()` is an arbitrary function where its result matters).

## Findings

Statements that are false of the code are kept as `*_refuted` theorems, with a concrete witness and, where
possible, a guarded theorem. The main ones: items of scenes are lost by every save (C10); a `|` in any text is removed by reading (C37);
conflict texts and `]]>` break the CDATA handling (C13); unknown elements with escaped markup become markup (C12);
a failing post-processing leaves a damaged project without restore (C15); importing removes all occurrences of a suffix in a path (C19);
a `###` line after a `##` line destroys text (C06); formatting tags over several lines, quotations and comments give wrong or ill-formed documents (C22);
readers of list documents strip each piece of text the XML parser reports (C43); language codes with `=` accumulate project variables (C39);
data files are overwritten without backup (C41); values set to None cannot be deleted by saving (C42).
