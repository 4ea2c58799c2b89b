{
 "claims": [
  {
   "property": "C01",
   "status": "proved",
   "theorems": [
    "C01_whitespace_lossless",
    "C01_encode_injective"
   ],
   "note": "For every string: decode after encode is the identity; encode is injective."
  },
  {
   "property": "C02",
   "status": "proved",
   "theorems": [
    "C02_encode_canonical",
    "C02_canonical_unique",
    "C02_canonical_round_trip"
   ],
   "note": "Canonical form proved, and shown to be the unique canonical list for the string."
  },
  {
   "property": "C03",
   "status": "proved",
   "theorems": [
    "C03_constructor_text",
    "C03_append_text",
    "C03_append_text_frame"
   ],
   "note": "Constructors and any sequence of append_text calls on any mixed content."
  },
  {
   "property": "C04",
   "status": "proved",
   "theorems": [
    "C04_textlen",
    "C04_textlen_list_item_counterexample",
    "C04_textlen_cell_counterexample",
    "C04_textlen_negative_counterexample"
   ],
   "note": "Proved for all text trees without list items and cells; counterexamples for list items, cells and negative space counts."
  },
  {
   "property": "C05",
   "status": "proved",
   "theorems": [
    "C05_rendering",
    "C05_leading_blank_counterexample",
    "C05_append_counterexample"
   ],
   "note": "Exact characterisation (iff) of the texts that survive ODF whitespace collapsing; counterexamples (leading blank, single trailing blank, carriage return), also across two append_text calls."
  },
  {
   "property": "C06",
   "status": "proved",
   "theorems": [
    "C06_address_of_cell",
    "C06_column_names_bijective",
    "C06_addresses_distinct",
    "C06_case_insensitive"
   ],
   "note": "All columns and rows; names specified inductively."
  },
  {
   "property": "C07",
   "status": "proved",
   "theorems": [
    "C07_accepted_language",
    "C07_decomposition_unique",
    "C07_non_ascii_letter_accepted"
   ],
   "note": "Full characterisation of the accepted language and value for every string, over any Unicode table with the ASCII laws."
  },
  {
   "property": "C08",
   "status": "proved",
   "theorems": [
    "C08_range_is_rectangle",
    "C08_range_errors",
    "C08_range_without_start"
   ],
   "note": "Membership, no duplicates, order, length, errors."
  },
  {
   "property": "C09",
   "status": "proved",
   "theorems": [
    "C09_rectangular",
    "C09_zero_repetition_counterexample",
    "C09_nested_table_counterexample",
    "C09_maxcount_one_counterexample",
    "C09_bad_number_counterexample"
   ],
   "note": "All strategies, all tables with positive counts and no table inside a cell; counterexamples for a count of 0, for nested tables, for a maximum of 1 and for counts that are no numbers."
  },
  {
   "property": "C10",
   "status": "proved",
   "theorems": [
    "C10_logical_grid",
    "C10_frame",
    "C10_idempotent"
   ],
   "note": "Run-length semantics at every logical position, frame, idempotence. Domain: positive counts, no nested tables."
  },
  {
   "property": "C11",
   "status": "proved",
   "theorems": [
    "C11_logical_grid",
    "C11_runs_shown",
    "C11_columns"
   ],
   "note": "All three strategies, rows, cells and column descriptions."
  },
  {
   "property": "C12",
   "status": "proved",
   "theorems": [
    "C12_view_follows_document",
    "C12_loaded",
    "C12_new",
    "C12_rows_read",
    "C12_failed_reset_counterexample",
    "C12_is_consistent",
    "C12_always_consistent",
    "C12_column_setitem",
    "C12_nested_column_counterexample"
   ],
   "note": "All histories of calls, failing ones included; only a failing reset/clear is excluded (C12_failed_reset_counterexample shows why). Tables without rows or columns inside cells."
  },
  {
   "property": "C13",
   "status": "proved",
   "theorems": [
    "C13_sizes",
    "C13_calls_succeed",
    "C13_moved_cell_counterexample"
   ],
   "note": "Every call with in-range arguments succeeds and the sizes follow. A cell already in the table must not be placed again (C13_moved_cell_counterexample)."
  },
  {
   "property": "C14",
   "status": "proved",
   "theorems": [
    "C14_append_rows",
    "C14_insert_rows",
    "C14_delete_rows"
   ],
   "note": "White space between rows (tails) is not tracked."
  },
  {
   "property": "C15",
   "status": "proved",
   "theorems": [
    "C15_append_columns",
    "C15_insert_columns",
    "C15_delete_columns"
   ],
   "note": "insert/delete: the number of table-column elements equals the number of cells per row."
  },
  {
   "property": "C16",
   "status": "proved",
   "theorems": [
    "C16_get",
    "C16_set_get",
    "C16_write"
   ],
   "note": "Writing a new or foreign cell, reading it back, and changing a cell in place."
  },
  {
   "property": "C17",
   "status": "proved",
   "theorems": [
    "C17_one_step_calls",
    "C17_bad_arguments",
    "C17_delete_rows_past_end_counterexample",
    "C17_delete_columns_past_end_counterexample",
    "C17_insert_columns_past_end_counterexample",
    "C17_reset_counterexample"
   ],
   "note": "Proved for the calls named in the statement; counterexamples for the others."
  },
  {
   "property": "C18",
   "status": "proved",
   "theorems": [
    "C18_same_cells",
    "C18_rows_columns",
    "C18_itercells",
    "C18_new_row"
   ],
   "note": ""
  },
  {
   "property": "C19",
   "status": "proved",
   "theorems": [
    "C19_set_span",
    "C19_remove_span",
    "C19_inverse",
    "C19_rejected",
    "C19_single_cell_counterexample",
    "C19_overlap_counterexample",
    "C19_one_attribute_counterexample"
   ],
   "note": "Exact effect and frame of set and remove, inverse, rejections without change; three counterexamples."
  },
  {
   "property": "C20",
   "status": "proved",
   "theorems": [
    "C20_copy",
    "C20_independent",
    "C20_copy_default_name"
   ],
   "note": "Tables without repetition attributes (what loading leaves) and nested tables; operations that take a cell out of the other table are excluded."
  },
  {
   "property": "C21",
   "status": "proved",
   "theorems": [
    "C21_normal_form",
    "C21_keeps_clean_names",
    "C21_what_is_stored",
    "C21_rename"
   ],
   "note": "A newline inside a name is kept by the code; the property is about tab, carriage return and quotes."
  },
  {
   "property": "C22",
   "status": "proved",
   "theorems": [
    "C22_set_value",
    "C22_defaults",
    "C22_accepted",
    "C22_frame",
    "C22_constructor",
    "C22_read",
    "C22_true_as_float_counterexample"
   ],
   "note": "Floats are a class with laws (repr never empty, parse after repr is the identity, decimal integers parse), instantiated; non-string type and currency arguments are not modelled."
  },
  {
   "property": "C23",
   "status": "proved",
   "theorems": [
    "C23_last_stored",
    "C23_currency_value",
    "C23_never_set",
    "C23_stale_counterexample"
   ],
   "note": "Histories of set_value; stale currency as counterexample."
  },
  {
   "property": "C24",
   "status": "proved",
   "theorems": [
    "C24_display_form",
    "C24_plaintext",
    "C24_value_then_forms",
    "C24_refused",
    "C24_two_paragraphs_counterexample"
   ],
   "note": "Effect, plaintext after any number of assignments, refusals; counterexample for two paragraphs."
  },
  {
   "property": "C25",
   "status": "proved",
   "theorems": [
    "C25_append_text",
    "C25_after_set_value",
    "C25_refused",
    "C25_other_last_child_counterexample"
   ],
   "note": "Any sequence of calls; counterexample for another last child."
  },
  {
   "property": "C26",
   "status": "proved",
   "theorems": [
    "C26_rejected",
    "C26_empty_text",
    "C26_empty_text_counterexample"
   ],
   "note": "Exact description of the calls that raise and change the cell."
  },
  {
   "property": "C27",
   "status": "proved",
   "theorems": [
    "C27_tobytes",
    "C27_save",
    "C27_save_succeeds",
    "C27_tidy",
    "C27_duplicate_names_counterexample",
    "C27_read_error_counterexample",
    "C27_failed_save_counterexample"
   ],
   "note": "Any opened package (file or bytes), any registered parts, any environment without failing calls; counterexamples for duplicate names, a read error, a save after a failed save."
  },
  {
   "property": "C28",
   "status": "proved",
   "theorems": [
    "C28_registered",
    "C28_remove"
   ],
   "note": "Any initial manifest, any sequence of registrations; exact resulting entries."
  },
  {
   "property": "C29",
   "status": "proved",
   "theorems": [
    "C29_backup",
    "C29_new_name"
   ],
   "note": "Every prefix of every run, any failing calls, arbitrary contents while writing. No fsync/caches: a system call that returned has happened; rename is atomic (POSIX)."
  },
  {
   "property": "C30",
   "status": "proved",
   "theorems": [
    "C30_no_backup",
    "C30_window_counterexample"
   ],
   "note": "As C29. The moment without any file under the name is exhibited."
  },
  {
   "property": "C31",
   "status": "proved",
   "theorems": [
    "C31_save",
    "C31_session",
    "C31_other_files",
    "C31_backup",
    "C31_tmp_name_counterexample"
   ],
   "note": "Exact file system after any session; documents may change arbitrarily in between."
  },
  {
   "property": "C32",
   "status": "proved",
   "theorems": [
    "C32_unmanaged_parts",
    "C32_read_error_counterexample"
   ],
   "note": "Histories with registrations, edits, saveas, stream saves and foreign changes to other files."
  },
  {
   "property": "C33",
   "status": "proved",
   "theorems": [
    "C33_detect",
    "C33_opens",
    "C33_unsupported",
    "C33_extension_counterexample",
    "C33_newdoc",
    "C33_template",
    "C33_template_outcome",
    "C33_read_error_counterexample",
    "C33_newline_counterexample"
   ],
   "note": "Model in Document.v over the file manager model; parsing, zip and encoding are the class Bytes. Only classes of variables.py count as named inside the declarations. Template bytes that are no zip are not treated as a file name."
  },
  {
   "property": "C34",
   "status": "proved",
   "theorems": [
    "C34_open",
    "C34_set",
    "C34_unknown",
    "C34_history",
    "C34_document",
    "C34_refused_counterexample"
   ],
   "note": "Model of meta.py in Meta.v. The Statistic object's element is modelled as the first document-statistic child of office:meta; values are given after tostr."
  },
  {
   "property": "C35",
   "status": "proved",
   "theorems": [
    "C35_list",
    "C35_set",
    "C35_frame",
    "C35_duplicate_counterexample"
   ],
   "note": "None stands for an element without text."
  },
  {
   "property": "C36",
   "status": "proved",
   "theorems": [
    "C36_list",
    "C36_dict",
    "C36_update",
    "C36_frame",
    "C36_duplicate_counterexample"
   ],
   "note": "Values after tostr; update takes the items of the dictionary."
  },
  {
   "property": "C37",
   "status": "proved",
   "theorems": [
    "C37_get",
    "C37_set",
    "C37_unknown",
    "C37_items"
   ],
   "note": "Values after tostr; attribute order of iteration not modelled (the listed items are characterised as a set)."
  },
  {
   "property": "C38",
   "status": "proved",
   "theorems": [
    "C38_count",
    "C38_save",
    "C38_empty_counterexample"
   ],
   "note": "A save is modelled by its two effects on the meta document (document.py:122-123); the clock and generator string are arbitrary."
  },
  {
   "property": "C39",
   "status": "proved",
   "theorems": [
    "C39_reorder",
    "C39_duplicate_tag_counterexample"
   ],
   "note": "Children are compared by identity (a type with decidable equality, no duplicates)."
  },
  {
   "property": "C40",
   "status": "proved",
   "theorems": [
    "C40_constructor",
    "C40_length",
    "C40_tag_info",
    "C40_unknown_tag",
    "C40_prelude_insert_before",
    "C40_prelude_insert_after",
    "C40_prelude_insert_after_last",
    "C40_epilogue_insert_after",
    "C40_epilogue_insert_before",
    "C40_epilogue_insert_before_first",
    "C40_insert_position_counterexample"
   ],
   "note": "The positions that break the order are characterised; C40_insert_position_counterexample is a concrete case."
  },
  {
   "property": "C41",
   "status": "proved",
   "theorems": [
    "C41_is_valid",
    "C41_bad_lists"
   ],
   "note": "Comments and processing instructions among the children are not modelled."
  },
  {
   "property": "C42",
   "status": "proved",
   "theorems": [
    "C42_append",
    "C42_history",
    "C42_open",
    "C42_open_counterexample"
   ],
   "note": "Appending of children that are not yet in a document; C42_open_counterexample shows the open defect."
  },
  {
   "property": "C43",
   "status": "proved",
   "theorems": [
    "C43_read",
    "C43_append",
    "C43_set",
    "C43_del",
    "C43_history",
    "C43_index",
    "C43_insert",
    "C43_index_counterexample",
    "C43_insert_counterexample",
    "C43_insert_check_counterexample"
   ],
   "note": "Model in Pages.v. The objects handed out are their nodes (the wrapper cache is C54)."
  },
  {
   "property": "C44",
   "status": "proved",
   "theorems": [
    "C44_broadcast",
    "C44_exception",
    "C44_subscribe",
    "C44_broadcast_counterexample"
   ],
   "note": "Observer.v. Handlers are given by what calling them returns and do not change subscriptions; the WeakSet order is a parameter (any permutation)."
  },
  {
   "property": "C45",
   "status": "proved",
   "theorems": [
    "C45_expand",
    "C45_cache",
    "C45_injective",
    "C45_odf",
    "C45_declared",
    "C45_injective_counterexample"
   ],
   "note": "Xmlns.v; the namespace maps of const.py are written out. Justifies prefixed names as tags and attribute names in all other models."
  },
  {
   "property": "C46",
   "status": "proved",
   "theorems": [
    "C46_read",
    "C46_append",
    "C46_insert",
    "C46_insert_before",
    "C46_set",
    "C46_del",
    "C46_remove",
    "C46_replace",
    "C46_clear",
    "C46_root",
    "C46_history",
    "C46_insert_counterexample"
   ],
   "note": "Model in Wrapper.v over the store of nodes with identity; wrapper objects are their nodes. Attribute access is C47."
  },
  {
   "property": "C47",
   "status": "proved",
   "theorems": [
    "C47_string",
    "C47_bool",
    "C47_number",
    "C47_limit",
    "C47_attr",
    "C47_visibility",
    "C47_target_frame",
    "C47_protected",
    "C47_formatted_number",
    "C47_history",
    "C47_number_counterexample",
    "C47_attr_counterexample"
   ],
   "note": "Attrs.v models base.py get_attr/set_attr/get_bool_attr/set_bool_attr, all of propertymixins.py, Hyperlink.target_frame and Section.protected. int(value) in the limited setters is given by its result; the random key is a parameter."
  },
  {
   "property": "C48",
   "status": "proved",
   "theorems": [
    "C48_simple_set",
    "C48_simple_get",
    "C48_simple_read",
    "C48_user_set",
    "C48_user_get",
    "C48_type",
    "C48_history",
    "C48_lookup",
    "C48_boolean_counterexample",
    "C48_user_counterexample"
   ],
   "note": "Variables.v on the node store of Wrapper.v. What lxml makes of a name with an apostrophe is a parameter without laws; the theorems exclude such names."
  },
  {
   "property": "C49",
   "status": "proved",
   "theorems": [
    "C49_get",
    "C49_set",
    "C49_history",
    "C49_attributes",
    "C49_counterexample",
    "C49_cache_counterexample"
   ],
   "note": "Styles.v. Wrapping is modelled for style tags only (page-layout fails: its constructor has no parameter xmlnode)."
  },
  {
   "property": "C50",
   "status": "proved",
   "theorems": [
    "C50_duration",
    "C50_negative",
    "C50_parse",
    "C50_parse_counterexample",
    "C50_syntax",
    "C50_date",
    "C50_datetime",
    "C50_small_year",
    "C50_valid",
    "C50_kind"
   ],
   "note": "TimeParser.v on Float64.v (binary64 arithmetic of Coq's SpecFloat) with CPython's strptime, strftime and timedelta accumulation written out. Padding of %Y is a parameter."
  },
  {
   "property": "C51",
   "status": "proved",
   "theorems": [
    "C51_rest_untouched"
   ],
   "note": "Placing a cell that already lives elsewhere in the document is excluded (it is moved)."
  },
  {
   "property": "C52",
   "status": "proved",
   "theorems": [
    "C52_opened",
    "C52_any",
    "C52_save",
    "C52_solid",
    "C52_same",
    "C52_keeps",
    "C52_tobytes",
    "C52_empty_text_counterexample"
   ],
   "note": "play_doc [MTouch; MInc] is the meta data history of C34-C38. `parsed` in FileSys.v is what reading does to a written tree. C52_any needs only `rooted`, C52_save and C52_tobytes a complete document; all are up to empty texts, C52_same is about trees without, C52_solid says opened and new documents are such."
  },
  {
   "property": "C53",
   "status": "proved",
   "theorems": [
    "C53_save",
    "C53_lost_counterexample"
   ],
   "note": ""
  },
  {
   "property": "C54",
   "status": "proved",
   "theorems": [
    "C54_wrap",
    "C54_same",
    "C54_forget",
    "C54_class",
    "C54_same_counterexample"
   ],
   "note": "WrapCache.v with an explicit memory: objects at addresses, reference counting (an object is freed only when nothing refers to it), lxml's one element object per node."
  },
  {
   "property": "C55",
   "status": "proved",
   "theorems": [
    "C55_read",
    "C55_header_set",
    "C55_header_kind",
    "C55_header_cycle",
    "C55_history",
    "C55_part_text",
    "C55_list_texts",
    "C55_constructors",
    "C55_numbered_new",
    "C55_numbered_content",
    "C55_header_counterexample",
    "C55_numbered_counterexample"
   ],
   "note": "TextLists.v on the node store of Wrapper.v and the trees of PlainText.v. The ODF wrapping of the child returned by content is covered by its tag only."
  },
  {
   "property": "C56",
   "status": "proved",
   "theorems": [
    "C56_loaded",
    "C56_new",
    "C56_history",
    "C56_reload",
    "C56_repeated_counterexample",
    "C56_saved"
   ],
   "note": "TableReload.v on the models of C07-C13 (tables) and C52 (documents). C56_loaded, C56_new and C56_history keep the table free of repetitions, C56_reload reads it again, C56_saved does it through save() and opendoc()."
  },
  {
   "property": "C57",
   "status": "proved",
   "theorems": [
    "C57_open",
    "C57_refused",
    "C57_new",
    "C57_save",
    "C57_safe",
    "C57_saves",
    "C57_saveas",
    "C57_new_counterexample",
    "C57_meta_counterexample",
    "C57_opendoc",
    "C57_lost_counterexample"
   ],
   "note": "FlatDocument.v on the models of C34 (meta data), C33 (documents) and C35-C37 (file system calls with failures). The root element is object 0 of the state. The negative results are theorems: C57_new_counterexample, C57_meta_counterexample, C57_opendoc, C57_lost_counterexample."
  },
  {
   "property": "C58",
   "status": "proved",
   "theorems": [
    "C58_cells",
    "C58_last",
    "C58_reopened",
    "C58_saved"
   ],
   "note": "Sheet.v composes the models of C16 (cells in tables), C22 (values), C43 (sheets), C56 (tables read again) and C52 (documents). C58_cells and C58_last are about the table in memory, C58_reopened and C58_saved about the document opened from the file. set_value never brings in an empty text (SolidCells.v), unless it is in a paragraph given as value."
  },
  {
   "property": "C59",
   "status": "proved",
   "theorems": [
    "C59_read",
    "C59_call",
    "C59_history",
    "C59_new",
    "C59_values",
    "C59_refused",
    "C59_reopened",
    "C59_insert_counterexample",
    "C59_delete_counterexample",
    "C59_overlap_counterexample"
   ],
   "note": "SpanLayout.v adds reading of span and covered through the table to the models of C19 (spans), C14/C15 (rows and columns), C58 (values, saved sheets). The areas after inserting and deleting are computed by areas_after in SpanLayoutSpec.v from the arguments alone."
  },
  {
   "property": "C60",
   "status": "proved",
   "theorems": [
    "C60_check",
    "C60_opened",
    "C60_saved",
    "C60_tobytes",
    "C60_interrupted",
    "C60_double_counterexample",
    "C60_type_counterexample"
   ],
   "note": "Composition with C27, C29, C30, C33 and C52. That a first, uncompressed entry starts at byte 30 is a law of the class ZipLayout (satisfied by tree_layout), not derived from the zip format. The type given to the check is text encoded as UTF-8; other bytes are not modelled."
  },
  {
   "property": "C61",
   "status": "proved",
   "theorems": [
    "C61_inject",
    "C61_refused",
    "C61_counterexample"
   ],
   "note": "What lxml parses is a parameter (XmlParser: text to list of elements or exception, no laws); comments and processing instructions as first node are not modelled. Elements of registered classes that are not styles (tables, paragraphs, ...) are excluded, as their constructors may change the element."
  },
  {
   "property": "C62",
   "status": "proved",
   "theorems": [
    "C62_setting",
    "C62_untouched",
    "C62_first_access",
    "C62_new",
    "C62_counterexample"
   ],
   "note": "Sheets have positive numeric repetition counts and no tables inside cells (domain of C09-C11); settings with maximum counts below 2 for 'all_less_maxcount' are excluded (KeyError, counterexample of C09). Changes made through a table object keep it without repetitions (C56 shows which calls do). The list of sheets itself is the subject of C43."
  },
  {
   "property": "C63",
   "status": "proved",
   "theorems": [
    "C63_assign",
    "C63_key_text",
    "C63_history",
    "C63_read",
    "C63_counterexample"
   ],
   "note": "random.sample is a parameter (class Random) with its documented law: k distinct elements of the population. The repr of a list of letters and digits is modelled in full. Keys are not compared with the digest ODF asks for."
  },
  {
   "property": "C64",
   "status": "proved",
   "theorems": [
    "C64_ezlist",
    "C64_injective",
    "C64_grow",
    "C64_nested"
   ],
   "note": "Items and header are strings; the parts are new nodes, so the element of the list is the state (C55 has the header setter on a store of shared nodes)."
  },
  {
   "property": "C65",
   "status": "proved",
   "theorems": [
    "C65_rename",
    "C65_names",
    "C65_history",
    "C65_lookup",
    "C65_new_page",
    "C65_duplicate_counterexample",
    "C65_cleaned_counterexample"
   ],
   "note": "Renaming is in the store of all trees with node identity; the pages used in a history are elements outside of and not above the body. Making sheets (Table(name)) is part of C13 and C21."
  },
  {
   "property": "C66",
   "status": "proved",
   "theorems": [
    "C66_properties",
    "C66_layout",
    "C66_keys",
    "C66_counterexample"
   ],
   "note": "wrap() of a page layout raises TypeError (C49), so the class is only reached by calling it."
  },
  {
   "property": "C67",
   "status": "proved",
   "theorems": [
    "C67_call",
    "C67_determined",
    "C67_history",
    "C67_saved",
    "C67_blocks",
    "C67_cleared_counterexample",
    "C67_append_text"
   ],
   "note": "TextDoc.v works on the content tree of the document of C52; `edited` in TextDocSpec.v describes one call, C67_determined says that this leaves nothing open. Inserted elements have no parent before; moving nodes between trees is C46. Declaration elements must hold only variables (`good_decl`), otherwise the file cannot be opened (C33)."
  },
  {
   "property": "C68",
   "status": "proved",
   "theorems": [
    "C68_life",
    "C68_opens",
    "C68_reads",
    "C68_texts",
    "C68_cycles",
    "C68_keyword_counterexample",
    "C68_blocks"
   ],
   "note": "Sessions.v puts together C34-C38, C52 and C67. Between save and opendoc the machine may do anything that leaves the saved file alone; the save itself may fail in the ways of C28, then the session does not count."
  },
  {
   "property": "C69",
   "status": "proved",
   "theorems": [
    "C69_start",
    "C69_step",
    "C69_result",
    "C69_works",
    "C69_reads",
    "C69_spans",
    "C69_tree",
    "C69_saved",
    "C69_names"
   ],
   "note": "Book.v puts the container of C65/C53, the table objects of C07-C13 and the cache of C54 on one tree; TableProps.v adds the properties of sheets, rows and columns (the protection key of C63 is an argument), BookSpans.v the spans of C19; BookSaved.v composes with C52 and C56. insert_columns at a place outside of the sheet (which puts cells into the rows before it raises), cells moved from one sheet to another, a span of 1x1 (which raises KeyError), and insert/index of the container are not in the programs."
  },
  {
   "property": "C70",
   "status": "proved",
   "theorems": [
    "C70_life",
    "C70_meta",
    "C70_opens",
    "C70_unasked"
   ],
   "note": "Composes C69 (one session on a workbook) with the sessions of C68, by induction on the sessions. Between a save and the next opendoc anything may happen to the file system except to the saved file."
  },
  {
   "property": "C71",
   "status": "proved",
   "theorems": [
    "C71_move",
    "C71_places",
    "C71_short"
   ],
   "note": "Complements C16, which excludes cells that are already in the table. Text after elements inside of a table row is not content and not followed (lxml drops the text after the replaced cell)."
  },
  {
   "property": "C72",
   "status": "proved",
   "theorems": [
    "C72_values",
    "C72_saved",
    "C72_found"
   ],
   "note": "C72_values (in memory: frame, unassigned names, last assignment) and C72_saved (the document saved and opened again); what lxml's xpath finds for names with an apostrophe is the parameter odd, and such names are left out."
  },
  {
   "property": "C73",
   "status": "proved",
   "theorems": [
    "C73_works",
    "C73_determined",
    "C73_spared",
    "C73_saved"
   ],
   "note": "C73_works (call by call, with everything that is no page unchanged), C73_determined and C73_saved. Work on the content of a page is an arbitrary function of its tree; the identity of elements inside a page is not followed, and pages of other documents are left out."
  },
  {
   "property": "C74",
   "status": "proved",
   "theorems": [
    "C74_life",
    "C74_meta",
    "C74_opens"
   ],
   "note": "C74_life, C74_meta and C74_opens, by induction over the sessions on top of C73 and C68. The styles are not edited, and the sessions use saveas() with a zipped package (not flat XML)."
  },
  {
   "property": "C75",
   "status": "proved",
   "theorems": [
    "C75_life",
    "C75_stays",
    "C75_last",
    "C75_meta"
   ],
   "note": "C75_life, C75_stays, C75_last and C75_meta, by induction over the sessions on top of C72 and C68. The sessions use saveas() with a zipped package; the rest of the body is not edited in them. What a name with an apostrophe selects (an XPath of another shape) is a parameter of each session."
  },
  {
   "property": "C76",
   "status": "proved",
   "theorems": [
    "C76_life",
    "C76_meta",
    "C76_opens"
   ],
   "note": "C76_life, C76_meta and C76_opens, by induction over the sessions on top of C57 and the laws of meta data (C34-C38). As opendoc() never opens a flat file (C57_opendoc), the sessions construct FlatXMLDocument from the parsed file."
  },
  {
   "property": "C77",
   "status": "proved",
   "theorems": [
    "C77_saved",
    "C77_others"
   ],
   "note": "C77_saved and C77_others, from the invariant of C49, the frame of the program (nothing but the container changes) and C52_save."
  },
  {
   "property": "C78",
   "status": "proved",
   "theorems": [
    "C78_saved",
    "C78_found"
   ],
   "note": "C78_saved and C78_found, by induction over the texts on top of C61, and C52_save. How texts are parsed is a parameter (XmlParser)."
  }
 ]
}