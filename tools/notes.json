{
 "C01": [
  "proved",
  "all ID lists"
 ],
 "C02": [
  "proved",
  "all texts and one-character dividers"
 ],
 "C03": [
  "proved",
  "texts given as sequences of characters, tags, comments, dashes (unambiguous reading)"
 ],
 "C04": [
  "proved",
  "all novels"
 ],
 "C05": [
  "proved",
  "idempotence is false of the code (C05_idempotent_refuted: a system locale not of the form ll_CC is stored first and dropped by the next call); C05_again: proved under the guard that the first call left a plausible locale"
 ],
 "C08": [
  "proved",
  "all novels; success characterised by refs_exist"
 ],
 "C06": [
  "proved",
  "false in general (C06_split_keeps_lines_refuted: a ### line directly after a ## or # line destroys the text before it); proved for all novels without that pattern, as exact contents and as lines"
 ],
 "C07": [
  "proved",
  "everything proved except the reported result: the code returns False although a part was added (C07_split_flag_refuted); C07_split_flag says exactly when it returns True"
 ],
 "C09": [
  "proved",
  "new project files; every novel in the range given by SpecYw7.representable; text level (serialisation, post-processing, parsing included)"
 ],
 "C10": [
  "proved",
  "C10_references: characters and locations kept for every scene of every representable novel, items lost (written as ItmID, read as ItemID; C10_items_always_lost); the statement one would expect is refuted by C10_items_kept_refuted"
 ],
 "C11": [
  "proved",
  "new project files; every novel in the range given by SpecYw7.representable; project keyword variables are those PyWriter defines (language, country)"
 ],
 "C12": [
  "proved",
  "C12_save_preserves: trees of elements, any texts; C12_file: the file parsed again (serialisation and post-processing included). Without the condition on unknown texts false: C12_unknown_markup_refuted"
 ],
 "C13": [
  "proved",
  "every tree of elements whose CDATA texts contain no ]]>, no trailing line break; those cases and the Conflict element are refuted"
 ],
 "C34": [
  "proved",
  "all combinations of the elements; the table contains the oddity C34_unused_chapter_refuted"
 ],
 "C35": [
  "proved",
  "exclusive date/day, valid date, numeric day proved for every readable project; the time is not validated by the code (C35_time_valid_refuted), an empty <Day> is an error (C35_empty_day_refuted)"
 ],
 "C37": [
  "proved",
  "C37_nothing_filtered: the text of the file; C37_texts_present, C37_project_notes: the elements. Without the conditions false: C37_vertical_bar_refuted, C37_notes_refuted"
 ],
 "C14": [
  "proved",
  "every crash point, torn write and failing operation of saving a project, an exported text and an OpenDocument file: the old text is on disk under its own or the .bak name until the new one is complete"
 ],
 "C15": [
  "proved",
  "all failing operations, all file system states; without the conditions false: C15_project_refuted (failing postprocessing is not followed by a restore), C15_document_refuted (failing chdir in the handler)"
 ],
 "C16": [
  "proved",
  "lock file present: neither read nor write changes anything, both raise; reading never changes files"
 ],
 "C17": [
  "proved",
  "For the three converters with arbitrary document readers/writers (any functions of the content), files, failures, crash points and answers. Files below the temporary directory are excepted."
 ],
 "C18": [
  "proved",
  "One message per run, \"!\" iff no new file, and the new file exists. False of create_yw7 called directly (C18_create_refuted: stale newFile) and of Yw7Exporter.run on a file that is not a project, or a missing suffix argument (C18_exporter_refuted: exception, no message)."
 ],
 "C19": [
  "proved",
  "Guard: the suffix text occurs at the end of the path only. Without it the claim is false: C19_name_refuted (the example in the comment of import_target_factory.py), C19_directory_refuted."
 ],
 "C20": [
  "proved",
  "Acceptance and factories are proved in full, and so is the choice between refusal, outline and work in progress for documents that become new projects; the project name under the guard that suffix and extension occur once, in the given case. C20_name_refuted shows that the claim is false otherwise."
 ],
 "C31": [
  "proved",
  "Round trip proved under guards (no %, no surrounding white space per line, no comment-like lines, names distinct after lower()); the frame part (defaults kept, no settings created) is proved for every file. C31_*_refuted show that the guards are needed. configparser is modelled from the Python 3.11 source."
 ],
 "C36": [
  "proved",
  "all novels and all lists of keyword variables; a file type with keyword variables for project notes cannot be purged (C36_notes_refuted); for the language tags (an additional operation) completeness holds for closed, non-nested brackets"
 ],
 "C32": [
  "proved",
  "all catalogues, both byte orders; the PO parser in front of it (msgfmt.make) is not modelled"
 ],
 "C21": [
  "proved",
  "all texts made of XML characters; stated with a parser model (OdfXml.v) on the generated text in an element, an attribute, a paragraph, a table cell"
 ],
 "C23": [
  "proved",
  "safe_substitute of the Python library modelled with its default pattern; every template is covered (C23_segments), and the inserted values are arbitrary"
 ],
 "C24": [
  "proved",
  "the document is specified block by block with numbers defined by counting; the running state of the loops is proved to produce it, errors of mapping methods included. C24_normal_scene_in_notes_chapter records that a normal scene in a notes/todo chapter is exported and numbered"
 ],
 "C25": [
  "proved",
  "all trees of elements: rows, order, expansion, width proved; the exact statement needs that no repeated cell in front of others fills the row (C25_excess_refuted: such a row gets one cell too many), and documents without table / with a bad repeat count raise AttributeError / ValueError"
 ],
 "C26": [
  "proved",
  "all contents and novels; wrong row length is rejected, accepted tables update exactly the listed elements with field-level specification. Refuted parts: the title row is not checked, a mark without number raises AttributeError instead of Error, an over-full row is rejected"
 ],
 "C27": [
  "proved",
  "Proved for every novel n: a character, location, item or scene list of n, read into any novel m that differs from n in what the list shows (and in which elements are listed), gives n, from the text of content.xml (templates, escaping, XML parser, table reader), if ids are digits and fields fit (XML characters, no CR, no trailing white space, tags without ', ', importance set; scenes: title, description, A/R, ratings and status set, URL-coded project name and path, no markup in the titles of characters, locations and items). The unguarded statement is refuted by the eight _refuted theorems."
 ],
 "C33": [
  "proved",
  "Proved for every finite set of files, also with cyclic imports: termination, failure only for missing files, and the complete description of the output (each needed module once, lines in order, modules before the lines that follow their import unless cyclic), if no plain import clashes with a module path and the script is not itself a needed module. Without these two conditions the statement is false (C33_script_twice_refuted, C33_shadowed_refuted)."
 ],
 "C38": [
  "proved",
  "The JSON table is restored exactly for every dictionary of strings (empty translations are dropped on purpose); the POT template lists each extracted message once, sorted, quotation marks escaped injectively; PO files round-trip for single-line texts; the whole update run (JSON + POT + PO to new JSON + PO) is proved for all contents of the JSON and PO files, and is stable. Outside the statement: translations with line breaks (refuted: cut by the PO file and then in the table too); unescaped quotation mark at the start of the first PO message (refuted). JSON values other than strings, backup files and printing are not modelled."
 ],
 "C29": [
  "proved",
  "Frame theorems for every reader and every event sequence; new scenes, chapters, characters, items, locations are those marked. The scene and chapter type is set as well. Refuted for read() as a whole: it splits scenes with separator lines even if they are not in the document (C29_unmarked_split_refuted), so C29_manuscript_read and C29_proof_read are guarded for such scenes."
 ],
 "C30": [
  "proved",
  "Structure (one chapter per heading of levels 1-2, consecutive IDs, every scene in exactly one chapter, rest of the novel unchanged, title/author/description/language from the document) proved for all event sequences, for import and outline. That all paragraphs end up in order in scene contents/descriptions is proved for documents made of headings, paragraphs (text, blanks, italic, bold, comments) and divider paragraphs. The unguarded statement is false and refuted: text before the first heading, text containing '* * *', list items and quotations right behind a heading, comments in chapter outlines are lost; a level-3 heading before any chapter makes the outline unreadable."
 ],
 "C22": [
  "proved",
  "Ends for every text; well-formed with all characters, line breaks and comments shown for all texts whose tags are opened before they are closed (any order, any lines), styles right if nested (italic inside bold inside languages at line ends); refuted outside: wrong order, multi-line comment in formatting, unclosed comments, unescaped author, pair removal, swapped styles, literal '&gt; '."
 ],
 "C28": [
  "proved",
  "Proved for every novel in the stated range (SpecManuscript.manuscript_ok: known types, titles and texts of XML characters, markup [i] [b] [lang=..] nested and not over several lines with more than one tag, one-line comments, quotations, no headings, counts up to date) and every way the XML parser may deliver the text without white-space-only pieces: exporting the manuscript gives well-formed XML, and reading it into that novel, or into one with any other texts in the scenes of the document, returns the exported novel (all elements and fields; only the cached list of languages is set anew, to a subset of the exported one), without splitting. The conditions are needed (C28_*_refuted): blanks between two tags, formatting closed and opened again at a line break or a quotation, nested languages, comments of several lines or with '~', a quotation mark after a comment or before more blanks, trailing blanks, [h1]-like tags, lines beginning with #, chapters without title, scenes without text, blanks delivered as a separate piece."
 ],
 "C39": [
  "proved",
  "Exact: variables of the saved file = the old ones (ID, title, order) followed by exactly the missing ones, IDs unique if they were, for new and existing files; for languages listed once and without an equal sign in the code. With an equal sign each save adds the pair again (C39_equal_sign_refuted)."
 ],
 "C40": [
  "proved",
  "Widgets are modelled by what they show; the outcome of read() is a parameter. Proved for every history in which reading ends normally or with Error. Otherwise false: an unforeseen exception in read() leaves a project open with Close disabled (C40_broken_refuted)."
 ],
 "C41": [
  "proved",
  "Contents proved for novels whose texts can be stored (representable, as in C09). Not claimed because false: a failing export destroys the old data files, there is no backup (C41_failure_refuted), and failures other than missing permissions are passed on as OSError (C41_report_refuted)."
 ],
 "C42": [
  "proved",
  "C42_history and C42_succeeds: all histories of saving representable novels (C09) and opening; C42_unchanged: what is read after such a history is representable again, and opening and saving it unchanged keeps the same novel; refuted without these conditions (C10, C13); C42_last_refuted: missing values do not clear the file's values."
 ],
 "C43": [
  "proved",
  "Proved for each kind of document, every novel in the range stated and every project it is imported into that has other descriptions of the elements in the document: the document is well-formed XML and reading it gives the novel it was written from. The conditions are needed: Python's parser reports characters written as entities separately, and for lists such a piece may begin or end with a blank, which is lost (C43_quotes_refuted); missing descriptions become empty ones, comment-like beginnings and unescaped aliases (the other _refuted theorems)."
 ],
 "C44": [
  "proved",
  "C44_catalogue (script outcome and catalogue, any oracle), C44_mo (read back from the .mo bytes). Quantified oracles: ast.literal_eval on texts PyWriter does not write, other charsets. Refuted without the conditions: first message not ASCII (read in latin-1 before the header's charset is in force), escaped quotation marks in the source; for PO files by others: fuzzy and context leak into following entries."
 ],
 "C45": [
  "proved",
  "C45_document (the whole text of an export), C45_tables (one text per placeholder). The conversion is any function that returns; what it does is the subject of C21 and C22. Refuted: fields that are not converted show as 'None' when missing; one dangling character reference hides all characters of the scene."
 ],
 "C46": [
  "proved",
  "Proved for all novels, read into the novel itself or into one with any other texts in the exported scenes, in the range of SpecNotes.v (content.xml; the rest of the archive as in C28). C46_dangling_refuted: the unguarded statement is false, a normal scene that is not in the document can prevent its export."
 ],
 "C47": [
  "proved",
  "Guarded: titles of one line without brackets or comment marks, texts with well-formed, well-nested markup, no white space at the ends, no scene marker inside; scene markers are delivered in one piece by the parser (C47_split_marker_refuted shows that this is needed). The statement covers reading into a novel with other texts, so that a reader that ignores the document would not satisfy it."
 ],
 "C48": [
  "proved",
  "Guarded: what is referred to exists and the scenes have a completion status (C48_refused_refuted shows that otherwise there is no document at all). Tags are inserted as they are, so a tag with markup characters makes the document ill-formed: C48_tag_refuted; C48_paragraphs (the document as XML) therefore excludes such tags. C48_determined: the lines leave no choice; C48_references and C48_positions say what the lists and numbers of the specification mean."
 ]
}