{"id": "C01", "title": "A generated ID is always fresh and minimal", "statement": "create_id(elements) terminates, returns the decimal string of a positive integer that is not among the given IDs, and every smaller positive integer is already taken; hence adding a new chapter, scene, character, location, item or note under that ID never replaces an existing one.", "quantifier": "every finite collection of existing IDs (any strings, any order, with duplicates and non-numeric IDs)", "why_tests_cant": "The loop bound depends on the data; a test samples a few dictionaries.", "anchors": ["src/pywriter/model/id_generator.py:create_id"]}
{"id": "C02", "title": "Tag/list strings: splitting normalises, and join followed by split is the identity on normal lists", "statement": "string_to_list(text) returns exactly the stripped non-empty pieces of the text between dividers, in first-occurrence order and without duplicates; string_to_list(list_to_string(L)) == L for every list of distinct, non-empty, stripped, divider-free strings; and string_to_list is idempotent through list_to_string.", "quantifier": "every text, every list of strings and every one-character divider", "why_tests_cant": "Whitespace, duplicates and dividers can occur in any position and number.", "anchors": ["src/pywriter/pywriter_globals.py:string_to_list", "src/pywriter/pywriter_globals.py:list_to_string"]}
{"id": "C03", "title": "Word and letter counts ignore markup, comments and line breaks", "statement": "Assigning a scene content sets letterCount to the number of characters left after deleting every [..] tag, every /*..*/ comment and every line break, and sets wordCount to the number of whitespace-separated runs after dashes became blanks and hyphens, tags, comments and line-leading '>' were deleted. Inserting a tag or comment between words therefore changes neither count, a plain text of n words counts n, and the stored content is the text given.", "quantifier": "every scene content", "why_tests_cant": "The text is unbounded; interactions of the regular expressions depend on the arrangement of brackets, dashes and blanks.", "anchors": ["src/pywriter/model/scene.py:Scene.sceneContent", "src/pywriter/model/scene.py:NO_WORD_LIMITS", "src/pywriter/model/scene.py:NON_LETTERS"]}
{"id": "C04", "title": "All languages used in the text are found, once each, in order of first use", "statement": "After get_languages(), novel.languages contains a language code if and only if some scene content has a [lang=code] tag, no code is listed twice, and codes are ordered by first appearance.", "quantifier": "every novel (any number of scenes, any texts, None contents included)", "why_tests_cant": "The scan restarts after each match; texts with nested or unterminated tags are unbounded.", "anchors": ["src/pywriter/model/novel.py:Novel.get_languages"]}
{"id": "C05", "title": "The document locale is always plausible afterwards", "statement": "check_locale() keeps a two-letter/two-letter locale unchanged, replaces an unset language by the system locale, and replaces anything else by zxx/none; calling it again changes nothing, provided that the first call left a plausible locale (which is always so unless the system locale itself is not of the form ll_CC).", "quantifier": "every combination of language and country code values (unset, empty, any length) and every system locale", "why_tests_cant": "The input strings are unbounded and the interesting cases are the combinations.", "anchors": ["src/pywriter/model/novel.py:Novel.check_locale"], "unguarded_statement": "check_locale() keeps a two-letter/two-letter locale unchanged, replaces an unset language by the system locale, and replaces anything else by zxx/none; calling it again changes nothing."}
{"id": "C06", "title": "Splitting a scene at inserted separators keeps all text, in order", "statement": "After split_scenes, reading all chapters and scenes in order yields all the text lines of the original scenes in the original order, minus only the separator lines; nothing is lost or duplicated - provided that no scene separator line (###) directly follows a chapter or part separator line (## or #).", "quantifier": "every novel and every placement of #, ##, ### separator lines in its scenes without that pattern", "why_tests_cant": "Loss happens only for particular adjacencies of separator lines, such as a ### line right after a ## line.", "anchors": ["src/pywriter/model/splitter.py:Splitter.split_scenes"], "unguarded_statement": "After split_scenes, reading all chapters and scenes in order yields all the text lines of the original scenes in the original order, minus only the separator lines; nothing is lost or duplicated."}
{"id": "C07", "title": "Splitting leaves the project structure consistent", "statement": "After split_scenes every chapter in the chapter order exists, each listed scene exists, no ID is listed twice, previously existing chapters and scenes keep their IDs and relative order, new ones get fresh IDs; scenes without separator lines and novels without separators are left unchanged, and the result is True exactly if a scene or a second-level chapter was added (a part without scenes is not reported); the outline afterwards is exactly the old one with, behind each scene, the new parts, chapters and scenes of its separator lines, with the titles and descriptions given there or generated ones.", "quantifier": "every well-formed novel", "why_tests_cant": "The invariant is over an unbounded sequence of insertions.", "anchors": ["src/pywriter/model/splitter.py:Splitter.split_scenes"], "unguarded_statement": "After split_scenes every chapter in the chapter order exists, each listed scene exists, no ID is listed twice, previously existing chapters and scenes keep their IDs and relative order, new ones get fresh IDs; scenes without separator lines and novels without separators are left unchanged, and the result reports whether something was split."}
{"id": "C08", "title": "Cross references are complete and exact", "statement": "After generate_xref, the scenes listed for a character (location, item, tag) are exactly the scenes, in novel order, that reference it; the elements listed for a tag are exactly those carrying the tag, in list order; every scene of the novel appears exactly once in the overall order and is mapped to the chapter that contains it. Each character, location and item has an entry even without scenes.", "quantifier": "every novel whose scene references exist", "why_tests_cant": "The index has as many entries as the project; each must be complete.", "anchors": ["src/pywriter/model/cross_references.py:CrossReferences.generate_xref"]}
{"id": "C09", "title": "Project write followed by read restores every chapter and scene", "statement": "Writing a novel to a new yWriter 7 project and reading it back yields the same chapters, scenes, their order, titles, contents, descriptions, notes, types, status, tags, viewpoint/character/location references, dates and times, ratings and custom fields.", "quantifier": "every novel within the stated representable range (e.g. no control characters)", "why_tests_cant": "Dozens of optional fields interact; a few sample projects cover only a few combinations.", "anchors": ["src/pywriter/yw/yw7_file.py:Yw7File.read", "src/pywriter/yw/yw7_file.py:Yw7File.write", "src/pywriter/yw/yw7_file.py:Yw7File._build_element_tree"]}
{"id": "C10", "title": "Scene references to characters and locations survive saving; references to items do not", "statement": "After a project is written and read again, each scene refers to the same characters (the first is the viewpoint) and the same locations in the same order; its references to items are lost, for every scene (a defect: they are written under a name that is not read).", "quantifier": "every novel within the representable range, every scene, any lists of IDs", "why_tests_cant": "The existing tests only read files written by yWriter, or compare text; the law quantifies over all scenes.", "anchors": ["src/pywriter/yw/yw7_file.py:build_scene_subtree", "src/pywriter/yw/yw7_file.py:read_scenes"], "unguarded_statement": "The items assigned to a scene are the same after the project is written and read again."}
{"id": "C11", "title": "Project write followed by read restores characters, locations, items, project notes and project variables", "statement": "Writing and reading back yields the same characters, locations, items and project notes in the same order with the same fields, the same project title, author, description, field titles, word targets, language settings and other keyword variables.", "quantifier": "every novel within the representable range", "why_tests_cant": "Many optional fields, unbounded lists.", "anchors": ["src/pywriter/yw/yw7_file.py:Yw7File._build_element_tree", "src/pywriter/yw/yw7_file.py:Yw7File.read"]}
{"id": "C12", "title": "Saving preserves what PyWriter does not understand", "statement": "When an existing project is written, XML elements of scenes and chapters that PyWriter does not handle stay in the file unchanged and in place; chapters and scenes removed from the novel disappear, the file lists exactly the novel's chapters and scenes in order, and no ID occurs twice. In the tree of elements this holds without restrictions on texts; in the file as parsed again, provided that the texts of the elements PyWriter does not know contain no < and & characters.", "quantifier": "every existing project tree with unique IDs and every novel (in the file: within the representable range)", "why_tests_cant": "Arbitrary foreign elements can be present in any position.", "anchors": ["src/pywriter/yw/yw7_file.py:Yw7File._build_element_tree"], "unguarded_statement": "When an existing project is written, XML elements of scenes and chapters that PyWriter does not handle stay in the file unchanged and in place; chapters and scenes removed from the novel disappear, the file lists exactly the novel's chapters and scenes in order, and no ID occurs twice."}
{"id": "C13", "title": "Text fields survive the XML file format", "statement": "For every text field stored as CDATA, the text found when the file is parsed again is the text that was written, including <, >, & and quotes, provided that it does not contain ]]> and does not end with a line break; the texts of the other elements survive if they contain no < and &.", "quantifier": "every tree of elements with such texts", "why_tests_cant": "Escaping bugs appear only for particular characters in particular fields, e.g. 'Conflict' or text that contains ']]>'.", "anchors": ["src/pywriter/yw/yw7_file.py:Yw7File._postprocess_xml_file", "src/pywriter/yw/yw7_file.py:Yw7File._CDATA_TAGS"], "unguarded_statement": "For every text field stored as CDATA, the text found when the file is parsed again is the text that was written, including <, >, & and quotes."}
{"id": "C14", "title": "A crash while saving never destroys the previous version", "statement": "At every point at which writing a project or exporting a document can be interrupted, the complete previous content of the file is still on disk, either under its own name or under the name with .bak appended; after success the new content is under the name.", "quantifier": "every crash point, every file system state and content", "why_tests_cant": "There are many interruption points, and a crash cannot be timed in a unit test.", "anchors": ["src/pywriter/yw/yw7_file.py:Yw7File._write_element_tree", "src/pywriter/file/file_export.py:FileExport.write", "src/pywriter/odf/odf_file.py:OdfFile.write"]}
{"id": "C15", "title": "A failed write reports an error and leaves the old file in place", "statement": "If writing fails with an error (not a crash), the error is raised to the caller; the file under its own name then has the content it had before, provided that moving the backup back (and, for OpenDocument files, returning to the working directory) does not fail as well and, for projects, that the failure comes before the new text is written under the name; a project's former content is on disk in any case, under its own name or with .bak appended.", "quantifier": "every failing step of every write of a project, an exported text or an OpenDocument file, every file system state", "why_tests_cant": "Every I/O step can fail; tests do not inject failures.", "anchors": ["src/pywriter/yw/yw7_file.py:Yw7File._write_element_tree", "src/pywriter/yw/yw7_file.py:Yw7File._postprocess_xml_file", "src/pywriter/file/file_export.py:FileExport.write", "src/pywriter/odf/odf_file.py:OdfFile.write"], "unguarded_statement": "If writing fails with an error (not a crash), the error is raised to the caller and the file under its own name still has the content it had before."}
{"id": "C16", "title": "A project that yWriter has open is never touched", "statement": "If the lock file of the project exists, reading and writing raise an error and no file is created, changed, renamed or deleted.", "quantifier": "every file system state and every project path", "why_tests_cant": "It must hold for all states, at the first step of any operation.", "anchors": ["src/pywriter/yw/yw7_file.py:Yw7File.is_locked", "src/pywriter/yw/yw7_file.py:Yw7File.write", "src/pywriter/converter/yw7_converter.py"]}
{"id": "C17", "title": "No file is overwritten without consent", "statement": "Exporting or updating replaces an existing file only after the user interface was asked and agreed; creating a new project from a document never replaces an existing project; if the answer is no, nothing is written and an error is shown.", "quantifier": "every file system state, source path, target path and user answer", "why_tests_cant": "The combination of conversions, existing files and answers is large.", "anchors": ["src/pywriter/converter/yw_cnv_ui.py:YwCnvUi.check", "src/pywriter/converter/yw_cnv_ui.py:YwCnvUi.create_yw7", "src/pywriter/converter/yw_cnv_ui.py:YwCnvUi.export_from_yw", "src/pywriter/converter/yw_cnv_ui.py:YwCnvUi.import_to_yw"]}
{"id": "C18", "title": "Every conversion reports its outcome, and a new file is announced only on success", "statement": "Each run of a converter ends in exactly one status message; a new file is announced exactly when the conversion succeeded, then the message names it, it exists and no other file has changed; on failure no new file is announced and the message starts with '!'. The run raises no exception, except if the exporter is run on a file that is not a project or no suffix is given.", "quantifier": "every run of the three converters, success and failure of each stage", "why_tests_cant": "All failure combinations of four stages and three conversion directions.", "anchors": ["src/pywriter/converter/yw_cnv_ui.py", "src/pywriter/ui/ui.py:Ui.set_status"], "unguarded_statement": "Each conversion ends in exactly one status message; the announced new file is set exactly when the conversion succeeded and then it names the target file; on failure it is unset and the status starts with '!'."}
{"id": "C19", "title": "An edited document updates the project it came from", "statement": "For a document path made of a project path and a known suffix, the import target is the project path with the project extension, for every directory and project name in which the suffix does not occur; a document without known suffix is never taken for an update.", "quantifier": "every path and every known suffix, the suffix occurring only at the end of the path", "why_tests_cant": "Directory and project names may themselves contain the suffix text.", "anchors": ["src/pywriter/converter/import_target_factory.py:ImportTargetFactory.make_file_objects"], "unguarded_statement": "For a document path made of a project path and a known suffix, the import target is the project path with the project extension, for every directory and project name; a document without known suffix is never taken for an update."}
{"id": "C20", "title": "File type recognition", "statement": "A file object accepts a path exactly if it ends with its suffix and extension (ignoring case), the project name is the file name without suffix and extension (provided that they occur only at its end, in the same case), and the factories select the class by the suffix and extension given, a document whose name ends with the suffix of the cross references or of the brief synopsis is refused without any change of files, and any other readable text document without known suffix becomes a new project beside it, read as an outline exactly if it has a heading of level 3.", "quantifier": "every path string", "why_tests_cant": "Suffix strings may occur more than once, in any case.", "anchors": ["src/pywriter/file/file.py:File.filePath", "src/pywriter/converter/export_target_factory.py", "src/pywriter/converter/import_source_factory.py", "src/pywriter/converter/export_source_factory.py"], "unguarded_statement": "A file object accepts a path exactly if it ends with its suffix and extension (ignoring case), the project name is the file name without suffix and extension, and the factories select the class by the suffix and extension given."}
{"id": "C21", "title": "Exported plain text is always valid XML text", "statement": "The text inserted by the ODT and ODS writers for titles, descriptions and notes contains no unescaped <, > or &, and un-escaping gives the original text with line breaks turned into line or paragraph breaks.", "quantifier": "every text", "why_tests_cant": "Escaping order errors show up only for particular inputs.", "anchors": ["src/pywriter/odt_w/odt_writer.py:OdtWriter._convert_from_yw", "src/pywriter/ods_w/ods_writer.py:OdsWriter._convert_from_yw", "src/pywriter/odt_w/odt_w_formatted.py:OdtWFormatted._convert_from_yw"]}
{"id": "C22", "title": "Formatting markup produces balanced XML", "statement": "The conversion of a scene text with [i], [b], [s], [lang=..] markup and comments always ends; if every tag is opened before it is closed and comments are closed, the result is well-formed XML in which all characters, line breaks and comments are shown in order, with formatting that spans lines re-opened in each line; the styles shown are those of the markup if the tags are nested.", "quantifier": "every scene text whose tags are opened before they are closed (any order, any lines), with comments of one line when formatted, without adjacent closing and opening tags of one kind", "why_tests_cant": "Markup can be nested, unbalanced and spread over lines in unboundedly many ways.", "anchors": ["src/pywriter/odt_w/odt_w_formatted.py:OdtWFormatted._convert_from_yw"], "unguarded_statement": "For every scene text, the document text generated from [i], [b], [s], [lang=..] markup and comments has balanced span elements in each paragraph, with formatting that spans lines re-opened in each line."}
{"id": "C23", "title": "Placeholders in the author's text are not expanded", "statement": "When a template is filled in, each known placeholder is replaced by its value exactly once, inserted values are not scanned again, unknown placeholders and single $ stay as they are, and the operation never fails.", "quantifier": "every template and every mapping", "why_tests_cant": "Values can contain anything, including placeholder names.", "anchors": ["src/pywriter/file/file_export.py:FileExport._get_chapters", "src/pywriter/file/file_export.py:FileExport._get_scenes"]}
{"id": "C24", "title": "Exported chapters and scenes appear in order, filtered by type, with consecutive numbers", "statement": "The exported document contains one block per accepted chapter and scene in novel order; unused, notes and todo elements appear only if the template set supports them; normal chapters (and only those) are numbered 1,2,3... without gaps and so are scenes.", "quantifier": "every novel and every template set", "why_tests_cant": "The selection logic has many branches and the numbering is a running state.", "anchors": ["src/pywriter/file/file_export.py:FileExport._get_chapters", "src/pywriter/file/file_export.py:FileExport._get_scenes"]}
{"id": "C25", "title": "ODS tables are read cell by cell with repetitions expanded", "statement": "Reading a table yields one row per table row, each with the cells' text in order, repeated cells expanded, cut to the number of cells requested if no repeated cell in front of others exceeds it (otherwise one cell may be too many), and rows whose first cell is empty end the table or are skipped as documented.", "quantifier": "every document tree with a table whose repeat counts are numbers", "why_tests_cant": "Repetition counts and nested text elements are arbitrary.", "anchors": ["src/pywriter/ods_r/ods_parser.py:OdsParser"], "unguarded_statement": "Reading a table yields one row per table row, each with the cells' text in order, repeated cells expanded, never more cells per row than requested, and rows whose first cell is empty end the table or are skipped as documented."}
{"id": "C26", "title": "A table with a wrong structure is rejected, and only listed elements are updated", "statement": "Reading a character, location, item or scene list raises an error when a row has the wrong number of cells; otherwise elements whose ID is listed get the cell values, unknown IDs are ignored/added as documented, and others stay unchanged. The first row is skipped whatever it contains.", "quantifier": "every table and every novel", "why_tests_cant": "Tables come from user edits; any shape is possible.", "anchors": ["src/pywriter/ods_r/ods_reader.py", "src/pywriter/ods_r/ods_r_charlist.py", "src/pywriter/ods_r/ods_r_loclist.py", "src/pywriter/ods_r/ods_r_itemlist.py", "src/pywriter/ods_r/ods_r_scenelist.py"], "unguarded_statement": "Reading a character, location, item or scene list raises an error when a row has the wrong number of cells or the wrong title row; otherwise elements whose ID is listed get the cell values, unknown IDs are ignored/added as documented, and others stay unchanged."}
{"id": "C27", "title": "Exported tables read back unchanged", "statement": "Write a character, location, item or scene list of a novel, change in the novel whatever the list shows (for the elements in the list: titles, names, descriptions, biographies, goals, notes, tags, importance; for scenes also the action/reaction mark, conflict, outcome, ratings, status; and which elements are listed in which order), and read the list: the result is the novel as it was when it was written, nothing else has changed. In particular, reading the list of an unchanged novel changes nothing. This holds provided that the IDs of the listed elements are distinct numbers, their texts have XML characters only, no carriage returns and no white space at the end, tags do not contain the divider, the importance of characters is set, listed scenes have a title, a description, an action/reaction mark, ratings from 1 to 10 and a valid status, and the titles of their characters, locations and items contain no markup. An empty cell replaces an existing text by the empty one and leaves a missing one missing.", "quantifier": "every novel with such fields, every novel that differs from it in listed fields", "why_tests_cant": "Depends on separators and empty values in any combination.", "anchors": ["src/pywriter/ods_w/ods_w_charlist.py", "src/pywriter/ods_r/ods_r_charlist.py", "src/pywriter/ods_w/ods_w_scenelist.py", "src/pywriter/ods_r/ods_r_scenelist.py"], "unguarded_statement": "Writing a character, location, item or scene list and importing the unchanged table leaves all the table's fields of all elements as they were."}
{"id": "C28", "title": "Exported manuscript reads back unchanged", "statement": "Exporting a manuscript and importing the unedited document restores the scene contents it contains (whatever texts these scenes have in the project when it is imported) and leaves other data unchanged, for texts in the supported markup range: [i], [b] and language tags nested properly (not two of them open at a line break, not closed and opened again across it), one-line comments without '~', quotations ('> ' at the beginning of a line, not after a comment), no text between tags that is white space only, no white space at the end, no lines beginning with '#'.", "quantifier": "every novel whose scene texts are in the supported markup range, every other text of the scenes in the project that is updated", "why_tests_cant": "The pipeline goes through XML escaping, span generation, a streaming parser and a markup cleaner.", "anchors": ["src/pywriter/odt_w/odt_w_manuscript.py", "src/pywriter/odt_r/odt_r_manuscript.py", "src/pywriter/odt_r/odt_parser.py", "src/pywriter/odt_r/odt_r_formatted.py"], "unguarded_statement": "Exporting a manuscript and importing the unedited document restores the scene contents it contains and leaves other data unchanged."}
{"id": "C29", "title": "Importing a document with section marks changes only the marked elements", "statement": "Reading a manuscript, proof, description, notes or todo document changes only the fields the document type represents, only for chapters and scenes whose IDs are marked in the document; the rest of the novel is unchanged, apart from scenes with separator lines, which are split whether marked or not.", "quantifier": "every sequence of document parser events and every novel", "why_tests_cant": "The handler is a state machine driven by arbitrary event sequences.", "anchors": ["src/pywriter/odt_r/odt_r_manuscript.py", "src/pywriter/odt_r/odt_r_scenedesc.py", "src/pywriter/odt_r/odt_r_chapterdesc.py", "src/pywriter/odt_r/odt_r_proof.py"], "unguarded_statement": "Reading a manuscript, proof, description, notes or todo document changes only the fields the document type represents, only for chapters and scenes whose IDs are marked in the document; the rest of the novel is unchanged."}
{"id": "C30", "title": "Importing a work in progress or an outline loses no paragraph and creates consistent structure", "statement": "Reading a plain document or an outline creates a chapter per first/second level heading and scenes for the text between, numbers IDs consecutively, and each scene belongs to exactly one chapter; if the document consists of headings, paragraphs (text, blanks, italic, bold, comments) and divider paragraphs, beginning with a heading, all text paragraphs end up in scene contents or descriptions in order.", "quantifier": "structure: every sequence of parser events; text: every document made of headings, paragraphs and dividers", "why_tests_cant": "Any document can be imported.", "anchors": ["src/pywriter/odt_r/odt_r_import.py", "src/pywriter/odt_r/odt_r_outline.py"], "unguarded_statement": "Reading a plain document creates a chapter per first/second level heading and scenes for the text between, numbers IDs consecutively, each scene belongs to exactly one chapter, and all text paragraphs end up in scene contents or descriptions in order."}
{"id": "C31", "title": "Configuration survives saving, and missing entries keep defaults", "statement": "Configuration.write followed by Configuration.read restores every setting and every option, provided that names are distinct and not changed further after conversion to lower case, values contain no %, no lines with white space at the ends or looking like comments; reading a file without a key keeps the value held before; other keys in the file do not create settings.", "quantifier": "every configuration with such names and values; every file", "why_tests_cant": "Settings are arbitrary dictionaries.", "anchors": ["src/pywriter/config/configuration.py:Configuration"], "unguarded_statement": "Configuration.write followed by Configuration.read restores every setting and every option; reading a file without a key keeps the value held before; other keys in the file do not create settings."}
{"id": "C32", "title": "Message catalogues are encoded correctly", "statement": "The .mo file generated for a set of messages, interpreted according to the GNU .mo layout, yields exactly the mapping from each message to its translation, with keys sorted.", "quantifier": "every message dictionary", "why_tests_cant": "Offsets and lengths depend on all the data.", "anchors": ["src/msgfmt.py:generate"]}
{"id": "C33", "title": "Inlining includes every needed module once and terminates", "statement": "The inliner terminates for every set of files, even for cyclic imports, and fails only if a file is missing; it copies each module of the package reachable by imports exactly once into the output and keeps other lines in order, provided that no plain import names a module path and the script itself is not imported.", "quantifier": "every finite module graph, also cyclic", "why_tests_cant": "Graph shapes are unbounded.", "anchors": ["src/inliner.py:inline_module"], "unguarded_statement": "The inliner copies each module of the package reachable by imports exactly once into the output, other lines are kept in order, and it terminates even for cyclic imports."}
{"id": "C34", "title": "Chapter and scene types are encoded unambiguously", "statement": "The Normal/Notes/Todo/Unused type of a chapter or scene is read back as written, for each type and in the presence of legacy fields, and reading follows the documented table for every combination of fields.", "quantifier": "all types, all combinations of <Unused>, <Type>, <ChapterType> and Field_SceneType values", "why_tests_cant": "The table has many don't-care entries.", "anchors": ["src/pywriter/yw/yw7_file.py:read_chapters", "src/pywriter/yw/yw7_file.py:read_scenes", "src/pywriter/model/chapter.py", "src/pywriter/model/scene.py"]}
{"id": "C35", "title": "A scene's start is either a specific date or an unspecific day, never both", "statement": "After reading, a scene has either a date (a valid calendar date in ISO format, or an empty text) or a day (a whole number, or an empty text) or neither, never both; writing then reading keeps date, day and time. (Times are kept as they are, not validated.)", "quantifier": "every content of the date/time elements", "why_tests_cant": "Invalid, partial and negative values in any combination.", "anchors": ["src/pywriter/yw/yw7_file.py:read_scenes", "src/pywriter/yw/yw7_file.py:build_scene_subtree"], "unguarded_statement": "After reading, a scene has either a date (ISO format) or a day or neither, never both, a time string is always hh:mm:ss with valid values, invalid values are dropped rather than kept, and writing then reading keeps the values."}
{"id": "C36", "title": "Purging removes exactly the plugin fields", "statement": "Resetting the custom variables clears exactly the listed keyword variables of the project, chapters, scenes, characters, locations and items, leaves everything else unchanged, reports a change exactly if something was set before, and repeating it reports no change.", "quantifier": "every novel", "why_tests_cant": "Dictionary contents are arbitrary.", "anchors": ["src/pywriter/yw/yw7_purge.py", "src/pywriter/yw/yw7_file.py:Yw7File.reset_custom_variables"]}
{"id": "C37", "title": "Reading a project never silently drops or alters text", "statement": "All texts of the project, its locations, items, characters, scenes, chapters and project notes are in the novel read, unchanged, provided that the file contains no control characters, carriage returns and vertical bars, IDs are unique and no project note has custom fields.", "quantifier": "every readable project file of this kind", "why_tests_cant": "The filter is a regular expression whose error shows only for one character.", "anchors": ["src/pywriter/yw/yw7_file.py:Yw7File.read"], "unguarded_statement": "All characters of the texts in the project file that XML allows are present in the novel read."}
{"id": "C38", "title": "Translations survive the JSON/PO round trip", "statement": "Messages read from a PO file, written to the translation database and read back are the same; quotation marks are kept; a run of the update keeps every known translation in the database and puts exactly those of the current messages into the PO file, and repeating it changes nothing; provided that translations consist of one line each.", "quantifier": "every message dictionary with one-line translations", "why_tests_cant": "Escaping of quotes and line breaks.", "anchors": ["src/translations.py", "src/pgettext.py"], "unguarded_statement": "Messages read from a PO file, written to the translation database and read back are the same; quotation marks and line breaks are kept."}
{"id": "C39", "title": "Saving keeps project variables and adds exactly the missing ones", "statement": "When a project is saved, to a new or an existing file, every project variable already in the file keeps its ID and title, and exactly the variables missing for the document language, the country and each language used in the scenes are added, each with an unused ID; saving again adds none; provided that no language code contains an equal sign.", "quantifier": "every project file, every novel, every list of distinct languages without equal signs", "why_tests_cant": "The variables found in the file, their IDs and the languages used in the novel can be in any combination and order.", "anchors": ["src/pywriter/yw/yw7_file.py: Yw7File.write, _build_element_tree, add_projectvariable", "src/pywriter/pywriter_globals.py: create_id"], "unguarded_statement": "When a project is saved, to a new or an existing file, every project variable already in the file keeps its ID and title, and exactly the variables missing for the document language, the country and each language used in the scenes are added, each with an unused ID; saving again adds none."}
{"id": "C40", "title": "The main window always shows what is open", "statement": "After every sequence of opening and closing projects and showing messages, the Close entry is enabled exactly while a project is open, the window caption names title and author of the open novel (or only the application), the path bar shows its path; cancelling the file dialog changes nothing, a project that cannot be read leaves none open and its error message is shown in red; dismissing messages brings the last status back; provided that reading a project ends normally or with the application's own error.", "quantifier": "every history of user actions, every outcome of the file dialog and of reading, every novel, every translation", "why_tests_cant": "Histories of actions and outcomes are unbounded; a test follows a few of them.", "anchors": ["src/pywriter/ui/main_tk.py: MainTk.open_project, close_project, select_project, set_title, show_status, restore_status, set_info_how", "src/pywriter/ui/ui.py: Ui.set_info_how", "src/pywriter/ui/ui_cmd.py: UiCmd.set_info_how"], "unguarded_statement": "After every sequence of opening and closing projects and showing messages, the Close entry is enabled exactly while a project is open, the window caption names title and author of the open novel (or only the application), the path bar shows its path; cancelling the file dialog changes nothing, a project that cannot be read leaves none open and its error message is shown in red; dismissing messages brings the last status back."}
{"id": "C41", "title": "The XML data files hold exactly the characters, locations and items", "statement": "After a successful export of the XML data files, the three files named after the project hold exactly the characters, locations and items of the novel, in their order and with all their texts (if these can be stored at all, as in C09), and can be parsed; no other file is touched, whatever fails and whenever the process ends; nothing is written while the project is locked.", "quantifier": "every novel, every path, every schedule of failing operations and every crash point", "why_tests_cant": "Texts are arbitrary, and each of the file operations can fail at any time.", "anchors": ["src/pywriter/yw/data_files.py: DataFiles._write_element_tree, _postprocess_xml_file", "src/pywriter/yw/yw7_file.py: Yw7File.write, _postprocess_xml_file", "src/pywriter/yw/xml_indent.py: indent"], "unguarded_statement": "After a successful export of the XML data files, the three files named after the project hold exactly the characters, locations and items of the novel, in their order and with all their texts, and can be parsed; no other file is touched, whatever fails and whenever the process ends; nothing is written while the project is locked."}
{"id": "C42", "title": "A project can be opened, edited and saved any number of times", "statement": "After every history of saving novels and opening the project file again, in one or several runs of the application, nothing fails and the file contains exactly what the history says: every chapter, scene, location, item, character and note of the novel saved last and no other, each part with the value given last (a part without a value keeps the one in the file); opening a project and saving it unchanged changes nothing; provided that the novels saved are in the representable range of C09.", "quantifier": "every sequence of saves and openings, every novel saved in that range", "why_tests_cant": "The file is modified in place, so errors can build up over a history; histories and novels are unbounded.", "anchors": ["src/pywriter/yw/yw7_file.py: Yw7File.read, write, _build_element_tree, _write_element_tree, _postprocess_xml_file", "src/pywriter/yw/xml_indent.py: indent"], "unguarded_statement": "After every history of saving novels and opening the project file again, in one or several runs of the application, nothing fails and the file contains exactly what the history says: every chapter, scene, location, item, character and note of the novel saved last and no other, each part with the value given last (a part without a value keeps the one in the file); opening a project and saving it unchanged changes nothing."}
{"id": "C43", "title": "Exported descriptions read back unchanged", "statement": "If the scene, chapter, part, character, location or item descriptions of a novel are exported and the document is imported without having been edited, the descriptions in the document (for characters: description, biography, goals and notes) are restored, whatever descriptions these elements have in the project when it is imported, and everything else stays exactly as it was, whatever the pieces in which the XML parser delivers the text (for lists: pieces without white space at their ends); provided that the descriptions are given, have no white space at the end (lists: nor at the ends of their lines), scene descriptions do not look like a comment, the titles of exported chapters are not empty and aliases contain no markup.", "quantifier": "every novel in that range, every other descriptions of these elements in the project that is updated, every project name, every way the parser splits the text (for the lists: into pieces without white space at their ends), every content of meta.xml and styles.xml", "why_tests_cant": "Novels, texts and the splitting of character data are unbounded; writer, XML grammar and five stateful readers have to fit together for all of them.", "anchors": ["src/pywriter/odt_w/odt_w_scenedesc.py: OdtWSceneDesc", "src/pywriter/odt_w/odt_w_chapterdesc.py: OdtWChapterDesc", "src/pywriter/odt_w/odt_w_partdesc.py: OdtWPartDesc", "src/pywriter/odt_w/odt_w_characters.py: OdtWCharacters", "src/pywriter/odt_w/odt_w_locations.py: OdtWLocations", "src/pywriter/odt_w/odt_w_items.py: OdtWItems", "src/pywriter/odt_r/odt_r_scenedesc.py: OdtRSceneDesc", "src/pywriter/odt_r/odt_r_chapterdesc.py: OdtRChapterDesc", "src/pywriter/odt_r/odt_r_characters.py: OdtRCharacters", "src/pywriter/odt_r/odt_r_locations.py: OdtRLocations", "src/pywriter/odt_r/odt_r_items.py: OdtRItems", "src/pywriter/file/file_export.py: FileExport._get_text"], "unguarded_statement": "If the scene, chapter, part, character, location or item descriptions of a novel are exported and the document is imported without having been edited, the novel stays exactly as it was, whatever the pieces in which the XML parser delivers the text; provided that the descriptions are given, have no white space at the end (lists: nor at the ends of their lines), scene descriptions do not look like a comment, the titles of exported chapters are not empty and aliases contain no markup."}
{"id": "C44", "title": "The compiled catalogue translates what the program looks up", "statement": "When the translation script finds a translation for every message of the template, the .mo file it compiles maps each text the running program looks up to its translation, in UTF-8, and has nothing else but the header entry; when a translation is missing, no catalogue is compiled; provided that times are plain ASCII text, messages and translations use simple escapes (a quotation mark is not escaped in the source code), no two messages stand for the same text, and the message that is first in order is ASCII.", "unguarded_statement": "When the translation script finds a translation for every message, the .mo file it compiles maps each text the running program looks up to its translation.", "quantifier": "for every set of source messages, every existing PO file or none, both byte orders, and whatever Python does with texts and charsets PyWriter does not write", "why_tests_cant": "The claim spans the extraction, the PO writer, the PO parser with its changing text encoding and the binary format, for every message and translation with any characters and escapes.", "anchors": ["src/translate_de.py", "src/translations.py: main, Translations.write_po", "src/pgettext.py: PotFile.write_pot", "src/msgfmt.py: make, add, generate"]}
{"id": "C45", "title": "An exported document shows the data its templates name", "statement": "For every novel whose lists and scene references resolve and whose scenes have a completion status, an export is the header, the chapters and scenes in document order, the characters, locations and items below their headings, the project notes and the footer; each text is its template with every placeholder replaced by exactly the field of that element that it names: titles and descriptions in the markup of the file type, numbers, names of status values, the running totals of words, the names of the scene's characters, locations and items separated by commas, the first character as viewpoint, date or day but never both, the time without seconds, durations without zero parts.", "unguarded_statement": "Exports show every element with its data; missing data show as nothing.", "quantifier": "for every novel, every set of templates and filters, every text conversion and every project name and path", "why_tests_cant": "Some forty placeholders, any template and any combination of present and missing fields; a swapped or misnamed field shows only in a template that uses it.", "anchors": ["src/pywriter/file/file_export.py: _get_fileHeaderMapping, _get_chapterMapping, _get_characterMapping, _get_itemMapping, _get_locationMapping, _get_sceneMapping, _get_prjNoteMapping, _get_text", "src/pywriter/model/scene.py: STATUS"]}
{"id": "C46", "title": "Exported notes and \"todo\" chapters read back unchanged", "statement": "If the notes (or the \"todo\" chapters) of a novel are exported as a document and the document is imported without having been edited, the result is exactly the novel that was exported (only the list of languages is set anew), even if the texts of these scenes have been changed in the project meanwhile, and whatever the pieces in which the XML parser delivers the text; provided that the exported chapters have titles, the exported scenes have texts in the range of C28, and all scenes have a status and refer to locations and items of the novel.", "unguarded_statement": "The notes and the \"todo\" chapters of any novel can be exported, and importing the document changes nothing.", "quantifier": "every novel in that range, with chapters and scenes of all kinds in any mixture, every project name, every way the parser delivers the text, every content of meta.xml and styles.xml, every other text of the exported scenes in the project that is updated", "why_tests_cant": "Novels, texts with nested markup and the splitting of character data are unbounded; which chapters and scenes are in the document depends on the kinds of both.", "anchors": ["src/pywriter/odt_w/odt_w_notes.py: OdtWNotes", "src/pywriter/odt_w/odt_w_todo.py: OdtWTodo", "src/pywriter/odt_w/odt_w_manuscript.py: OdtWManuscript", "src/pywriter/odt_r/odt_r_notes.py: OdtRNotes", "src/pywriter/odt_r/odt_r_todo.py: OdtRTodo", "src/pywriter/odt_r/odt_r_manuscript.py: OdtRManuscript"]}
{"id": "C47", "title": "The manuscript for proof reading reads back into the novel", "statement": "If a novel is exported as a manuscript for proof reading and the document is read back, the result is exactly the novel that was exported (only the list of languages is set anew), whether the novel being updated is the same one or has, meanwhile, any other texts in the scenes of the document; whatever the pieces in which the XML parser delivers the text between the scene markers; provided that titles and the author's name are one line without brackets and comment marks, the scenes in the document have texts whose markup is well-formed and well-nested, without white space at the ends and without scene markers, and the normal scenes have a valid status and refer to locations and items of the novel.", "unguarded_statement": "A manuscript exported for proof reading can be read back, and brings every scene text into the project as it is in the document.", "quantifier": "every novel in that range with chapters and scenes of all kinds, every other text in the scenes of the novel that is updated, every project name and path, every way the parser delivers text other than the markers, every content of meta.xml and styles.xml", "why_tests_cant": "Novels, nested markup, languages and the splitting of character data by the parser are unbounded; what is read depends on scene markers in the text that may interact with its content.", "anchors": ["src/pywriter/odt_w/odt_w_proof.py: OdtWProof", "src/pywriter/odt_w/odt_w_formatted.py: OdtWFormatted", "src/pywriter/odt_r/odt_r_proof.py: OdtRProof", "src/pywriter/odt_r/odt_parser.py: OdtParser"]}
{"id": "C48", "title": "The exported cross reference document lists exactly the references", "statement": "If every chapter, scene, character, location and item that the novel lists or refers to exists, and the scenes have a completion status, the cross reference document consists of the title and the author, and then, in this order: for every character, location and item that scenes refer to, a heading with its title and one line for each of these scenes in reading order; for every tag of scenes, characters, locations and items a heading and one line for each of them. Elements stand in the order of their lists, tags in the order in which they first occur; a scene line shows the number of the scene in reading order, the number of its chapter and its title, marked when the scene is a note, a todo or unused; nothing else is in the document, and there is exactly one such document. If moreover titles and names are texts that XML can carry, IDs consist of letters and digits, tags contain none of & < > and the project name has no line break, the document is well-formed XML and a program that reads it finds exactly these headings and paragraphs, with the texts as they are in the novel.", "unguarded_statement": "The cross reference document can always be exported, is well-formed, and lists for every character, location, item and tag exactly the scenes and elements that refer to it.", "quantifier": "every novel in that range with any number of chapters, scenes, elements, references and tags, every project name and path, every translation of the messages", "why_tests_cant": "Novels and their references are unbounded; completeness and the order of the lists depend on all of them at once.", "anchors": ["src/pywriter/odt_w/odt_w_xref.py: OdtWXref", "src/pywriter/model/cross_references.py: CrossReferences", "src/pywriter/odt_w/odt_writer.py: OdtWriter"]}
