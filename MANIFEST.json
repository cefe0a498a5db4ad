{
 "claims": [
  {
   "property": "C01",
   "status": "proved",
   "theorems": [
    "C01_create_id_fresh_minimal",
    "C01_new_id_never_replaces"
   ],
   "note": "all ID lists"
  },
  {
   "property": "C02",
   "status": "proved",
   "theorems": [
    "C02_string_to_list_spec",
    "C02_strip_spec",
    "C02_string_to_list_elements",
    "C02_string_to_list_nodup",
    "C02_join_split_roundtrip",
    "C02_string_to_list_idempotent"
   ],
   "note": "all texts and one-character dividers"
  },
  {
   "property": "C03",
   "status": "proved",
   "theorems": [
    "C03_letter_count",
    "C03_word_count",
    "C03_markup_does_not_count",
    "C03_setter_stores"
   ],
   "note": "texts given as sequences of characters, tags, comments, dashes (unambiguous reading)"
  },
  {
   "property": "C04",
   "status": "proved",
   "theorems": [
    "C04_languages",
    "C04_first_occurrences",
    "C04_no_duplicates",
    "C04_tags_sound",
    "C04_tags_complete"
   ],
   "note": "all novels"
  },
  {
   "property": "C05",
   "status": "proved",
   "theorems": [
    "C05_plausible_locale_kept",
    "C05_unset_locale_from_system",
    "C05_locale_pair",
    "C05_implausible_locale_reset",
    "C05_again",
    "C05_idempotent_refuted"
   ],
   "note": "idempotence is false of the code (C05_idempotent_refuted: a system locale not of the form ll_CC is stored first and dropped by the next call); C05_again: proved under the guard that the first call left a plausible locale"
  },
  {
   "property": "C06",
   "status": "proved",
   "theorems": [
    "C06_split_keeps_lines",
    "C06_split_contents",
    "C06_split_keeps_lines_refuted"
   ],
   "note": "false in general (C06_split_keeps_lines_refuted: a ### line directly after a ## or # line destroys the text before it); proved for all novels without that pattern, as exact contents and as lines"
  },
  {
   "property": "C07",
   "status": "proved",
   "theorems": [
    "C07_split_structure",
    "C07_split_elements",
    "C07_split_flag",
    "C07_split_marks",
    "C07_split_flag_refuted",
    "C07_split_total",
    "C07_split_outline"
   ],
   "note": "everything proved except the reported result: the code returns False although a part was added (C07_split_flag_refuted); C07_split_flag says exactly when it returns True"
  },
  {
   "property": "C08",
   "status": "proved",
   "theorems": [
    "C08_xref_exact",
    "C08_xref_total"
   ],
   "note": "all novels; success characterised by refs_exist"
  },
  {
   "property": "C09",
   "status": "proved",
   "theorems": [
    "C09_write_read",
    "C09_write_succeeds"
   ],
   "note": "new project files; every novel in the range given by SpecYw7.representable; text level (serialisation, post-processing, parsing included)"
  },
  {
   "property": "C10",
   "status": "proved",
   "theorems": [
    "C10_items_always_lost",
    "C10_items_kept_refuted",
    "C10_references"
   ],
   "note": "C10_references: characters and locations kept for every scene of every representable novel, items lost (written as ItmID, read as ItemID; C10_items_always_lost); the statement one would expect is refuted by C10_items_kept_refuted"
  },
  {
   "property": "C11",
   "status": "proved",
   "theorems": [
    "C11_write_read",
    "C11_languages"
   ],
   "note": "new project files; every novel in the range given by SpecYw7.representable; project keyword variables are those PyWriter defines (language, country)"
  },
  {
   "property": "C12",
   "status": "proved",
   "theorems": [
    "C12_save_preserves",
    "C12_file",
    "C12_unknown_markup_refuted"
   ],
   "note": "C12_save_preserves: trees of elements, any texts; C12_file: the file parsed again (serialisation and post-processing included). Without the condition on unknown texts false: C12_unknown_markup_refuted"
  },
  {
   "property": "C13",
   "status": "proved",
   "theorems": [
    "C13_texts_survive",
    "C13_end_mark_refuted",
    "C13_last_line_refuted",
    "C13_conflict_refuted"
   ],
   "note": "every tree of elements whose CDATA texts contain no ]]>, no trailing line break; those cases and the Conflict element are refuted"
  },
  {
   "property": "C14",
   "status": "proved",
   "theorems": [
    "C14_project_crash",
    "C14_project_success",
    "C14_saved_is_read",
    "C14_export_crash",
    "C14_export_success",
    "C14_document_crash",
    "C14_document_success"
   ],
   "note": "every crash point, torn write and failing operation of saving a project, an exported text and an OpenDocument file: the old text is on disk under its own or the .bak name until the new one is complete"
  },
  {
   "property": "C15",
   "status": "proved",
   "theorems": [
    "C15_export_fails",
    "C15_document_fails",
    "C15_project_fails",
    "C15_project_refuted",
    "C15_document_refuted"
   ],
   "note": "all failing operations, all file system states; without the conditions false: C15_project_refuted (failing postprocessing is not followed by a restore), C15_document_refuted (failing chdir in the handler)"
  },
  {
   "property": "C16",
   "status": "proved",
   "theorems": [
    "C16_locked_write",
    "C16_locked_read",
    "C16_read_changes_nothing"
   ],
   "note": "lock file present: neither read nor write changes anything, both raise; reading never changes files"
  },
  {
   "property": "C17",
   "status": "proved",
   "theorems": [
    "C17_consent",
    "C17_refused",
    "C17_create"
   ],
   "note": "For the three converters with arbitrary document readers/writers (any functions of the content), files, failures, crash points and answers. Files below the temporary directory are excepted."
  },
  {
   "property": "C18",
   "status": "proved",
   "theorems": [
    "C18_outcome",
    "C18_export",
    "C18_create_refuted",
    "C18_exporter_refuted"
   ],
   "note": "One message per run, \"!\" iff no new file, and the new file exists. False of create_yw7 called directly (C18_create_refuted: stale newFile) and of Yw7Exporter.run on a file that is not a project, or a missing suffix argument (C18_exporter_refuted: exception, no message)."
  },
  {
   "property": "C19",
   "status": "proved",
   "theorems": [
    "C19_target",
    "C19_no_update",
    "C19_name_refuted",
    "C19_directory_refuted"
   ],
   "note": "Guard: the suffix text occurs at the end of the path only. Without it the claim is false: C19_name_refuted (the example in the comment of import_target_factory.py), C19_directory_refuted."
  },
  {
   "property": "C20",
   "status": "proved",
   "theorems": [
    "C20_accepted",
    "C20_name",
    "C20_name_refuted",
    "C20_export_target",
    "C20_export_target_unknown",
    "C20_import_source",
    "C20_import_source_unknown",
    "C20_export_source",
    "C20_not_written_back",
    "C20_new_project"
   ],
   "note": "Acceptance and factories are proved in full, and so is the choice between refusal, outline and work in progress for documents that become new projects; the project name under the guard that suffix and extension occur once, in the given case. C20_name_refuted shows that the claim is false otherwise."
  },
  {
   "property": "C21",
   "status": "proved",
   "theorems": [
    "C21_one_liner",
    "C21_attribute",
    "C21_paragraphs",
    "C21_cell",
    "C21_missing"
   ],
   "note": "all texts made of XML characters; stated with a parser model (OdfXml.v) on the generated text in an element, an attribute, a paragraph, a table cell"
  },
  {
   "property": "C22",
   "status": "proved",
   "theorems": [
    "C22_ends",
    "C22_balanced",
    "C22_styles",
    "C22_order_refuted",
    "C22_comment_refuted",
    "C22_open_comment_refuted",
    "C22_author_refuted",
    "C22_pairs_refuted",
    "C22_swap_refuted",
    "C22_quote_refuted"
   ],
   "note": "Ends for every text; well-formed with all characters, line breaks and comments shown for all texts whose tags are opened before they are closed (any order, any lines), styles right if nested (italic inside bold inside languages at line ends); refuted outside: wrong order, multi-line comment in formatting, unclosed comments, unescaped author, pair removal, swapped styles, literal '&gt; '."
  },
  {
   "property": "C23",
   "status": "proved",
   "theorems": [
    "C23_substitution",
    "C23_segments"
   ],
   "note": "safe_substitute of the Python library modelled with its default pattern; every template is covered (C23_segments), and the inserted values are arbitrary"
  },
  {
   "property": "C24",
   "status": "proved",
   "theorems": [
    "C24_document",
    "C24_headings",
    "C24_heading_numbers",
    "C24_heading_unnumbered",
    "C24_scenes",
    "C24_scene_numbers",
    "C24_scene_unnumbered",
    "C24_only_normal_scenes",
    "C24_only_normal_chapters",
    "C24_total",
    "C24_normal_scene_in_notes_chapter"
   ],
   "note": "the document is specified block by block with numbers defined by counting; the running state of the loops is proved to produce it, errors of mapping methods included. C24_normal_scene_in_notes_chapter records that a normal scene in a notes/todo chapter is exported and numbered"
  },
  {
   "property": "C25",
   "status": "proved",
   "theorems": [
    "C25_table",
    "C25_table_exact",
    "C25_no_table_refuted",
    "C25_excess_refuted",
    "C25_bad_count_refuted"
   ],
   "note": "all trees of elements: rows, order, expansion, width proved; the exact statement needs that no repeated cell in front of others fills the row (C25_excess_refuted: such a row gets one cell too many), and documents without table / with a bad repeat count raise AttributeError / ValueError"
  },
  {
   "property": "C26",
   "status": "proved",
   "theorems": [
    "C26_wrong_structure",
    "C26_characters",
    "C26_locations",
    "C26_items",
    "C26_scenes",
    "C26_rows",
    "C26_accepted",
    "C26_broken_row_refuted",
    "C26_title_row_refuted",
    "C26_excess_refuted"
   ],
   "note": "all contents and novels; wrong row length is rejected, accepted tables update exactly the listed elements with field-level specification. Refuted parts: the title row is not checked, a mark without number raises AttributeError instead of Error, an over-full row is rejected"
  },
  {
   "property": "C27",
   "status": "proved",
   "theorems": [
    "C27_characters",
    "C27_locations",
    "C27_items",
    "C27_scenes",
    "C27_importance_refuted",
    "C27_text_refuted",
    "C27_return_refuted",
    "C27_tag_refuted",
    "C27_id_refuted",
    "C27_scene_missing_refuted",
    "C27_scene_status_refuted",
    "C27_scene_markup_refuted"
   ],
   "note": "Proved for every novel n: a character, location, item or scene list of n, read into any novel m that differs from n in what the list shows (and in which elements are listed), gives n, from the text of content.xml (templates, escaping, XML parser, table reader), if ids are digits and fields fit (XML characters, no CR, no trailing white space, tags without ', ', importance set; scenes: title, description, A/R, ratings and status set, URL-coded project name and path, no markup in the titles of characters, locations and items). The unguarded statement is refuted by the eight _refuted theorems."
  },
  {
   "property": "C28",
   "status": "proved",
   "theorems": [
    "C28_manuscript_reads_back",
    "C28_scenes_stay",
    "C28_blank_refuted",
    "C28_lines_refuted",
    "C28_languages_refuted",
    "C28_comments_refuted",
    "C28_text_refuted",
    "C28_quotations_refuted",
    "C28_missing_refuted",
    "C28_pieces_refuted"
   ],
   "note": "Proved for every novel in the stated range (SpecManuscript.manuscript_ok: known types, titles and texts of XML characters, markup [i] [b] [lang=..] nested and not over several lines with more than one tag, one-line comments, quotations, no headings, counts up to date) and every way the XML parser may deliver the text without white-space-only pieces: exporting the manuscript gives well-formed XML, and reading it into that novel, or into one with any other texts in the scenes of the document, returns the exported novel (all elements and fields; only the cached list of languages is set anew, to a subset of the exported one), without splitting. The conditions are needed (C28_*_refuted): blanks between two tags, formatting closed and opened again at a line break or a quotation, nested languages, comments of several lines or with '~', a quotation mark after a comment or before more blanks, trailing blanks, [h1]-like tags, lines beginning with #, chapters without title, scenes without text, blanks delivered as a separate piece."
  },
  {
   "property": "C29",
   "status": "proved",
   "theorems": [
    "C29_manuscript_parsed",
    "C29_scene_descriptions",
    "C29_chapter_descriptions",
    "C29_characters",
    "C29_items",
    "C29_locations",
    "C29_proof_parsed",
    "C29_manuscript_read",
    "C29_proof_read",
    "C29_unmarked_split_refuted"
   ],
   "note": "Frame theorems for every reader and every event sequence; new scenes, chapters, characters, items, locations are those marked. The scene and chapter type is set as well. Refuted for read() as a whole: it splits scenes with separator lines even if they are not in the document (C29_unmarked_split_refuted), so C29_manuscript_read and C29_proof_read are guarded for such scenes."
  },
  {
   "property": "C30",
   "status": "proved",
   "theorems": [
    "C30_import_structure",
    "C30_outline_structure",
    "C30_book_lists",
    "C30_import_text",
    "C30_scenes_have_all_paragraphs",
    "C30_text_kept",
    "C30_import_read",
    "C30_contents",
    "C30_outline_text",
    "C30_before_heading_refuted",
    "C30_divider_text_refuted",
    "C30_list_item_refuted",
    "C30_quotation_refuted",
    "C30_outline_comment_refuted",
    "C30_outline_scene_refuted"
   ],
   "note": "Structure (one chapter per heading of levels 1-2, consecutive IDs, every scene in exactly one chapter, rest of the novel unchanged, title/author/description/language from the document) proved for all event sequences, for import and outline. That all paragraphs end up in order in scene contents/descriptions is proved for documents made of headings, paragraphs (text, blanks, italic, bold, comments) and divider paragraphs. The unguarded statement is false and refuted: text before the first heading, text containing '* * *', list items and quotations right behind a heading, comments in chapter outlines are lost; a level-3 heading before any chapter makes the outline unreadable."
  },
  {
   "property": "C31",
   "status": "proved",
   "theorems": [
    "C31_roundtrip",
    "C31_write_succeeds",
    "C31_frame",
    "C31_missing_file",
    "C31_percent_refuted",
    "C31_value_refuted",
    "C31_case_refuted"
   ],
   "note": "Round trip proved under guards (no %, no surrounding white space per line, no comment-like lines, names distinct after lower()); the frame part (defaults kept, no settings created) is proved for every file. C31_*_refuted show that the guards are needed. configparser is modelled from the Python 3.11 source."
  },
  {
   "property": "C32",
   "status": "proved",
   "theorems": [
    "C32_mo_file",
    "C32_succeeds",
    "C32_add"
   ],
   "note": "all catalogues, both byte orders; the PO parser in front of it (msgfmt.make) is not modelled"
  },
  {
   "property": "C33",
   "status": "proved",
   "theorems": [
    "C33_terminates",
    "C33_fails_only_if_missing",
    "C33_import_lines",
    "C33_inlines",
    "C33_script_twice_refuted",
    "C33_shadowed_refuted"
   ],
   "note": "Proved for every finite set of files, also with cyclic imports: termination, failure only for missing files, and the complete description of the output (each needed module once, lines in order, modules before the lines that follow their import unless cyclic), if no plain import clashes with a module path and the script is not itself a needed module. Without these two conditions the statement is false (C33_script_twice_refuted, C33_shadowed_refuted)."
  },
  {
   "property": "C34",
   "status": "proved",
   "theorems": [
    "C34_scene_table",
    "C34_chapter_table",
    "C34_types_kept",
    "C34_unused_chapter_refuted"
   ],
   "note": "all combinations of the elements; the table contains the oddity C34_unused_chapter_refuted"
  },
  {
   "property": "C35",
   "status": "proved",
   "theorems": [
    "C35_start_exclusive",
    "C35_start_kept",
    "C35_time_valid_refuted",
    "C35_empty_day_refuted"
   ],
   "note": "exclusive date/day, valid date, numeric day proved for every readable project; the time is not validated by the code (C35_time_valid_refuted), an empty <Day> is an error (C35_empty_day_refuted)"
  },
  {
   "property": "C36",
   "status": "proved",
   "theorems": [
    "C36_exact",
    "C36_repeat",
    "C36_succeeds",
    "C36_notes_refuted",
    "C36_saving_removes_fields",
    "C36_language_tags",
    "C36_untagged_unique",
    "C36_no_language_left",
    "C36_no_language_left_refuted"
   ],
   "note": "all novels and all lists of keyword variables; a file type with keyword variables for project notes cannot be purged (C36_notes_refuted); for the language tags (an additional operation) completeness holds for closed, non-nested brackets"
  },
  {
   "property": "C37",
   "status": "proved",
   "theorems": [
    "C37_nothing_filtered",
    "C37_texts_present",
    "C37_project_notes",
    "C37_vertical_bar_refuted",
    "C37_notes_refuted"
   ],
   "note": "C37_nothing_filtered: the text of the file; C37_texts_present, C37_project_notes: the elements. Without the conditions false: C37_vertical_bar_refuted, C37_notes_refuted"
  },
  {
   "property": "C38",
   "status": "proved",
   "theorems": [
    "C38_table",
    "C38_po",
    "C38_scan",
    "C38_template",
    "C38_quoting",
    "C38_update",
    "C38_stable",
    "C38_without_table",
    "C38_line_break_refuted",
    "C38_unescaped_quote_refuted"
   ],
   "note": "The JSON table is restored exactly for every dictionary of strings (empty translations are dropped on purpose); the POT template lists each extracted message once, sorted, quotation marks escaped injectively; PO files round-trip for single-line texts; the whole update run (JSON + POT + PO to new JSON + PO) is proved for all contents of the JSON and PO files, and is stable. Outside the statement: translations with line breaks (refuted: cut by the PO file and then in the table too); unescaped quotation mark at the start of the first PO message (refuted). JSON values other than strings, backup files and printing are not modelled."
  },
  {
   "property": "C39",
   "status": "proved",
   "theorems": [
    "C39_variables",
    "C39_again",
    "C39_equal_sign_refuted"
   ],
   "note": "Exact: variables of the saved file = the old ones (ID, title, order) followed by exactly the missing ones, IDs unique if they were, for new and existing files; for languages listed once and without an equal sign in the code. With an equal sign each save adds the pair again (C39_equal_sign_refuted)."
  },
  {
   "property": "C40",
   "status": "proved",
   "theorems": [
    "C40_consistent",
    "C40_open",
    "C40_status",
    "C40_messages",
    "C40_broken_refuted",
    "C40_closed_novel_refuted"
   ],
   "note": "Widgets are modelled by what they show; the outcome of read() is a parameter. Proved for every history in which reading ends normally or with Error. Otherwise false: an unforeseen exception in read() leaves a project open with Close disabled (C40_broken_refuted)."
  },
  {
   "property": "C41",
   "status": "proved",
   "theorems": [
    "C41_contents",
    "C41_only",
    "C41_failure_refuted",
    "C41_report_refuted"
   ],
   "note": "Contents proved for novels whose texts can be stored (representable, as in C09). Not claimed because false: a failing export destroys the old data files, there is no backup (C41_failure_refuted), and failures other than missing permissions are passed on as OSError (C41_report_refuted)."
  },
  {
   "property": "C42",
   "status": "proved",
   "theorems": [
    "C42_history",
    "C42_succeeds",
    "C42_unchanged",
    "C42_last_refuted"
   ],
   "note": "C42_history and C42_succeeds: all histories of saving representable novels (C09) and opening; C42_unchanged: what is read after such a history is representable again, and opening and saving it unchanged keeps the same novel; refuted without these conditions (C10, C13); C42_last_refuted: missing values do not clear the file's values."
  },
  {
   "property": "C43",
   "status": "proved",
   "theorems": [
    "C43_scene_descriptions",
    "C43_chapter_descriptions",
    "C43_part_descriptions",
    "C43_characters",
    "C43_locations",
    "C43_items",
    "C43_quotes_refuted",
    "C43_missing_refuted",
    "C43_comment_refuted",
    "C43_alias_refuted"
   ],
   "note": "Proved for each kind of document, every novel in the range stated and every project it is imported into that has other descriptions of the elements in the document: the document is well-formed XML and reading it gives the novel it was written from. The conditions are needed: Python's parser reports characters written as entities separately, and for lists such a piece may begin or end with a blank, which is lost (C43_quotes_refuted); missing descriptions become empty ones, comment-like beginnings and unescaped aliases (the other _refuted theorems)."
  },
  {
   "property": "C44",
   "status": "proved",
   "theorems": [
    "C44_catalogue",
    "C44_mo",
    "C44_first_refuted",
    "C44_escaped_refuted",
    "C44_fuzzy_refuted",
    "C44_context_refuted"
   ],
   "note": "C44_catalogue (script outcome and catalogue, any oracle), C44_mo (read back from the .mo bytes). Quantified oracles: ast.literal_eval on texts PyWriter does not write, other charsets. Refuted without the conditions: first message not ASCII (read in latin-1 before the header's charset is in force), escaped quotation marks in the source; for PO files by others: fuzzy and context leak into following entries."
  },
  {
   "property": "C45",
   "status": "proved",
   "theorems": [
    "C45_document",
    "C45_tables",
    "C45_missing_refuted",
    "C45_unknown_character_refuted"
   ],
   "note": "C45_document (the whole text of an export), C45_tables (one text per placeholder). The conversion is any function that returns; what it does is the subject of C21 and C22. Refuted: fields that are not converted show as 'None' when missing; one dangling character reference hides all characters of the scene."
  },
  {
   "property": "C46",
   "status": "proved",
   "theorems": [
    "C46_notes",
    "C46_todo",
    "C46_dangling_refuted"
   ],
   "note": "Proved for all novels, read into the novel itself or into one with any other texts in the exported scenes, in the range of SpecNotes.v (content.xml; the rest of the archive as in C28). C46_dangling_refuted: the unguarded statement is false, a normal scene that is not in the document can prevent its export."
  },
  {
   "property": "C47",
   "status": "proved",
   "theorems": [
    "C47_proof_reads_back",
    "C47_split_marker_refuted",
    "C47_text_refuted"
   ],
   "note": "Guarded: titles of one line without brackets or comment marks, texts with well-formed, well-nested markup, no white space at the ends, no scene marker inside; scene markers are delivered in one piece by the parser (C47_split_marker_refuted shows that this is needed). The statement covers reading into a novel with other texts, so that a reader that ignores the document would not satisfy it."
  },
  {
   "property": "C48",
   "status": "proved",
   "theorems": [
    "C48_document",
    "C48_determined",
    "C48_paragraphs",
    "C48_references",
    "C48_positions",
    "C48_tag_refuted",
    "C48_refused_refuted"
   ],
   "note": "Guarded: what is referred to exists and the scenes have a completion status (C48_refused_refuted shows that otherwise there is no document at all). Tags are inserted as they are, so a tag with markup characters makes the document ill-formed: C48_tag_refuted; C48_paragraphs (the document as XML) therefore excludes such tags. C48_determined: the lines leave no choice; C48_references and C48_positions say what the lists and numbers of the specification mean."
  }
 ]
}