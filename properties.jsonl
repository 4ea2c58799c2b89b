{"id": "C01", "title": "Whitespace encoding is lossless", "statement": "Decoding the result of encode_whitespaces(s) gives back exactly s, for every string s.", "quantifier": "every string of Unicode code points, any mixture and run length of blanks, tabs and newlines", "why_tests_cant": "Infinitely many strings; the encoder is a character state machine whose behaviour depends on run lengths and on what ends a run.", "anchors": ["ezodf/whitespaces.py: _WhitespaceEncoder.encode, encode_whitespaces, decode_whitespaces"]}
{"id": "C02", "title": "Encoded text is in canonical ODF form", "statement": "The output of encode_whitespaces never contains a raw tab, a raw newline or two adjacent blanks inside a string, never contains an empty string or two adjacent strings, every space element has a count of at least 1 and follows directly a string that ends with a blank.", "quantifier": "every input string", "why_tests_cant": "Canonicity must hold at every position of every output.", "anchors": ["ezodf/whitespaces.py: _WhitespaceEncoder.encode"]}
{"id": "C03", "title": "Paragraph and span text round trip", "statement": "A Paragraph, Heading, Span or Hyperlink created with text t reports plaintext() == t, and a sequence of append_text calls reports the concatenation of all appended strings after whatever plain text was there before.", "quantifier": "every text, every list of appended strings, every starting text element", "why_tests_cant": "Unbounded strings and unbounded call histories, with text landing in .text or in some .tail depending on the state.", "anchors": ["ezodf/text.py: Span.append_text, Span.plaintext, Paragraph, Heading, Hyperlink"]}
{"id": "C04", "title": "Text length equals plain-text length", "statement": "For every tree of text elements (paragraph, span, heading, hyperlink, blanks, tab, line break, soft page break, arbitrarily nested) textlen equals len(plaintext()).", "quantifier": "every tree of these elements with non-negative space counts, any nesting depth, any text and tail (list items, cells and negative counts are shown to break it)", "why_tests_cant": "textlen and plaintext are two independent recursions over unbounded trees.", "anchors": ["ezodf/base.py: GenericWrapper.textlen, plaintext", "ezodf/whitespaces.py", "ezodf/text.py"]}
{"id": "C05", "title": "Encoded text survives ODF white-space collapsing", "statement": "What an ODF consumer shows after applying the ODF white-space rules (runs of blank characters collapse to one blank; leading and trailing blanks of a paragraph are dropped) to the encoded text of a new paragraph is the original string exactly when the string has no carriage return, no leading blank and no single trailing blank.", "quantifier": "every string (both directions)", "why_tests_cant": "Needs a second, independent semantics (the consumer) compared over all strings.", "anchors": ["ezodf/whitespaces.py: _WhitespaceEncoder.encode"]}
{"id": "C06", "title": "Cell addresses and indices are in bijection", "statement": "address_to_index maps the spreadsheet name of column c and row r (base-26 letters without zero, then the 1-based row) to (r, c), for all r, c >= 0; different cells have different names; the case of the letters does not matter.", "quantifier": "all pairs of non-negative row and column numbers", "why_tests_cant": "Bijective base 26 has carries at every power of 26; tests sample a few columns.", "anchors": ["ezodf/tableutils.py: address_to_index"]}
{"id": "C07", "title": "Exactly the well-formed addresses are accepted", "statement": "address_to_index accepts exactly the strings whose upper-case form is letters A-Z followed by decimal digits (optionally followed by one newline, because of '$' in the pattern), returns (number - 1, column), and raises ValueError on everything else; row number 0 yields row index -1.", "quantifier": "every string", "why_tests_cant": "Acceptance is a statement about the whole language of strings.", "anchors": ["ezodf/tableutils.py: CELL_ADDRESS, address_to_index"]}
{"id": "C08", "title": "Cell range iteration enumerates the rectangle once in row-major order", "statement": "iter_cell_range(pos, size) yields exactly the positions (r, c) with pos.row <= r < pos.row+size.rows and pos.col <= c < pos.col+size.cols, every position once, row by row, left to right; sizes below one raise ValueError.", "quantifier": "all positions and all sizes", "why_tests_cant": "The rectangle is unbounded.", "anchors": ["ezodf/tableutils.py: iter_cell_range, iter_cell_range_without_start_pos"]}
{"id": "C09", "title": "Loaded tables are rectangular", "statement": "After a table is loaded with any of the expansion strategies, all rows have the same number of cells, namely that of the longest row, whatever positive repetition counts the file contained.", "quantifier": "every table with positive repetition counts and no table inside a cell, every expansion strategy (other counts and nested tables are shown to break it)", "why_tests_cant": "Repetition counts and row lengths are arbitrary; rectangularity is an invariant over all of them.", "anchors": ["ezodf/tablenormalizer.py: normalize_table, TableNormalizer.align_table_columns"]}
{"id": "C10", "title": "Expanding repetitions keeps the logical grid", "statement": "Normalising with strategy 'all' makes row i, column j hold the content that the run-length-encoded file puts at logical position (i, j), then pads short rows on the right with empty cells; nothing is dropped or reordered; no repetition count other than 1 remains.", "quantifier": "every table with positive repetition counts", "why_tests_cant": "Logical positions are sums of arbitrary repetition counts.", "anchors": ["ezodf/tablenormalizer.py: _ExpandAll, TableNormalizer.expand_repeated_table_content"]}
{"id": "C11", "title": "The shortcut strategies only drop the trailing repetition", "statement": "With 'all_but_last' the grid is the fully expanded grid in which the last run of every row and the last run of rows occurs once; with 'all_less_maxcount' exactly the runs with a count of at least the maximum occur once.", "quantifier": "every table with positive repetition counts, every maxcount > 1", "why_tests_cant": "Same as above.", "anchors": ["ezodf/tablenormalizer.py: _ExpandAllButLast, _ExpandAllLessMaxCount"]}
{"id": "C12", "title": "The row view never drifts from the document", "statement": "After every sequence of table operations, the rows and columns seen through the Table object are exactly the rows and columns a reader of the XML tree would find, in document order. The library's own checks (is_consistent of the row and the column controller) say exactly this, so they are true after every sequence. (The one exception, a reset that raises, is shown by a counterexample.)", "quantifier": "all sequences of append/insert/delete rows and columns, set_cell, value writes and renaming, successful or failing, and of successful reset and clear; starting from any loaded or new table", "why_tests_cant": "The library keeps its own list of row nodes beside the tree; the two can only be compared over all histories.", "anchors": ["ezodf/tablerowcontroller.py", "ezodf/tablecolumncontroller.py", "ezodf/table.py: Table"]}
{"id": "C13", "title": "Table dimensions follow the operations", "statement": "Over every history of successful operations nrows() and ncols() equal the initial size plus inserted minus deleted rows/columns, and every row keeps ncols() cells.", "quantifier": "all operation histories with in-range arguments and cells that are not already in the table (moving a cell of the table is shown to make it ragged)", "why_tests_cant": "Invariant over unbounded histories.", "anchors": ["ezodf/table.py", "ezodf/tablerowcontroller.py", "ezodf/tablecolumncontroller.py"]}
{"id": "C14", "title": "Row operations act exactly on the addressed rows", "statement": "append_rows(n) adds n empty rows at the end, insert_rows(i, n) adds n empty rows before row i, delete_rows(i, n) removes exactly rows i..i+n-1; all other rows keep content and order. Negative indices count from the end.", "quantifier": "every rectangular table, every in-range index (positive or negative) and count", "why_tests_cant": "Unbounded tables, indices and counts; off-by-one at every boundary.", "anchors": ["ezodf/tablerowcontroller.py: append, insert, delete", "ezodf/table.py"]}
{"id": "C15", "title": "Column operations act exactly on the addressed columns", "statement": "append_columns(n), insert_columns(i, n), delete_columns(i, n) do the same for columns, in every row at once, and column_info(i) keeps describing the same column.", "quantifier": "every rectangular table, every in-range index and count", "why_tests_cant": "Each row is edited separately; equality must hold for all rows.", "anchors": ["ezodf/tablerowcontroller.py: insert_columns ...", "ezodf/tablecolumncontroller.py", "ezodf/table.py"]}
{"id": "C16", "title": "Writing a cell reads back and changes nothing else", "statement": "After table[pos] = cell, table[pos] is that cell, every other position is unchanged and the dimensions are unchanged; positions may be (row, col) pairs, negative, or addresses like 'B7'.", "quantifier": "every rectangular table, every in-range position, every cell that is not already part of a table", "why_tests_cant": "Frame condition over all other positions.", "anchors": ["ezodf/table.py: __getitem__, __setitem__", "ezodf/tablerowcontroller.py: get_cell, set_cell", "ezodf/tableutils.py: get_cell_index"]}
{"id": "C17", "title": "Failing table calls leave the table unchanged", "statement": "When appending or inserting rows, placing a cell, writing a cell or renaming raises, the table is as before; deletions with a bad count or start and column additions with a bad count raise before any change. Deleting past the end, inserting columns past the end and reset with a bad size are shown not to have this property.", "quantifier": "every consistent table, every argument", "why_tests_cant": "Quantifies over all arguments and states; false for several calls (deleting past the end, inserting columns past the end, reset with a bad size), proved for the rest.", "anchors": ["ezodf/tablerowcontroller.py", "ezodf/tablecolumncontroller.py", "ezodf/table.py"]}
{"id": "C18", "title": "Column access and row access see the same cells", "statement": "For every column j and row i, table.column(j)[i], table.row(i)[j] and table[i, j] are the same cell, and rows(), columns() enumerate all of them. itercells() gives every position together with the cell there, each once, row by row and from left to right. TableRow(n) has n empty cells.", "quantifier": "every rectangular table and every position", "why_tests_cant": "All positions of all tables.", "anchors": ["ezodf/table.py: row, column, rows, columns, itercells, TableRow", "ezodf/tablerowcontroller.py"]}
{"id": "C19", "title": "Setting and removing a cell span are exact and inverse", "statement": "set_cell_span(pos, size), for a size other than (1, 1) and a rectangle inside the table in which no cell has a span, gives the cell at pos that span, marks exactly the other cells of the rectangle as covered and changes no other cell, row, column or node outside the table. remove_cell_span(pos) of a spanned cell whose rectangle lies in the table makes exactly that rectangle normal cells again; after a set_cell_span over unmarked cells it restores the rows and columns as they were. A negative position, a size below 1, a rectangle that leaves the table or contains a cell with a span is rejected without change. Counterexamples are proved for: size (1, 1), overlap through a covered cell, a cell with only one span attribute.", "quantifier": "every rectangular table, every position and size", "why_tests_cant": "Frame condition over all cells, unbounded rectangles.", "anchors": ["ezodf/cellspancontroller.py:14-78", "ezodf/cells.py:193-236", "ezodf/table.py:177-181"]}
{"id": "C20", "title": "Copying a table is independent", "statement": "table.copy(newname) has the same cells, the new name, and later changes of either table do not change the other.", "quantifier": "every table, every later operation history on one of the two", "why_tests_cant": "Non-interference over all histories.", "anchors": ["ezodf/table.py: Table.copy"]}
{"id": "C21", "title": "Sheet names are normalised", "statement": "A name given to a table is stored without the characters that would break references; normalising is idempotent, and keeps names that are already clean.", "quantifier": "every string", "why_tests_cant": "All strings.", "anchors": ["ezodf/table.py: Table._normalize_sheet_name"]}
{"id": "C22", "title": "A cell returns the value that was last set", "statement": "After a successful set_value(v, type, currency) the cell reports the resulting type and the value, independently of everything stored in it before: booleans as booleans, numbers as the float of their text, dates and times as their text, strings and text objects as text. Which calls succeed depends only on the arguments. Tag, text, tail and unrelated attributes stay. A boolean True stored with a number type is accepted but cannot be read back (counterexample). For a cell as it comes from a file, what is read depends on the type and the attribute of that type only: a boolean is True exactly for the text true, numbers are the float of the text (ValueError if there is none), dates and times are the text, a missing attribute reads None and an unknown type raises KeyError.", "quantifier": "every value, every admissible type and currency, every prior cell state", "why_tests_cant": "Histories: old attributes and old content must not leak into the new value.", "anchors": ["ezodf/cells.py: Cell.set_value, value, value_type, _clear_old_value"]}
{"id": "C23", "title": "cell.currency is the last currency stored", "statement": "After any history of set_value calls, cell.currency is the non-empty currency given with the most recent accepted value that was not a text object; a cell that never got a currency reports None. A later value of another type does not remove it (counterexample).", "quantifier": "every history of set_value calls", "why_tests_cant": "The attribute survives a change of type; needs histories to see.", "anchors": ["ezodf/cells.py: _clear_value_attribute, currency"]}
{"id": "C24", "title": "The display form does not change the value", "statement": "Assigning display_form replaces the first paragraph by one with the text, or appends one, and leaves value, type and all attributes (formula, style) as they were. With at most one paragraph and no headings, as set_value leaves the cell, plaintext() is then the text, for any number of assignments. It is refused without change for string and untyped cells. With two paragraphs plaintext() is not the text (counterexample).", "quantifier": "every cell state and text", "why_tests_cant": "All prior states.", "anchors": ["ezodf/cells.py: display_form"]}
{"id": "C25", "title": "Appending text to a string cell concatenates", "statement": "For a string cell whose last child is a paragraph or heading, or which has no such child - so for every cell after set_value of a string - any sequence of append_text calls makes value the old value followed by the texts. For cells of another type it raises TypeError and changes nothing. With another last child a newline comes in (counterexample).", "quantifier": "every cell state, every list of strings", "why_tests_cant": "Unbounded histories.", "anchors": ["ezodf/cells.py: append_text"]}
{"id": "C26", "title": "Rejected values leave the cell unchanged", "statement": "If set_value raises, the cell is as before, unless the value is empty text with a type other than string and boolean: then the old value and content are lost, the type and all other attributes stay (exact effect, and counterexample).", "quantifier": "every cell state and every argument", "why_tests_cant": "Every argument and cell state; the exception is one corner.", "anchors": ["ezodf/cells.py: set_value", "ezodf/base.py: set_attr"]}
{"id": "C27", "title": "A saved package is well-formed", "statement": "When no system call fails, the first entry of the package written by save() or tobytes() is 'mimetype', stored uncompressed with the registered mimetype; every registered part occurs exactly once with its current bytes; all other entries are the entries of the opened package that are not registered, in their order, with their compression and the data that reading their name gives. Afterwards the same parts are registered. With enough time, a free temporary name, readable sources and parts that have bytes, save() succeeds. (With two entries of one name, a read error or after a failed save this is not so: counterexamples.)", "quantifier": "every opened package and every set of registered parts", "why_tests_cant": "All directories and all source packages.", "anchors": ["ezodf/filemanager.py: _tozip, _copy_zip_to, register"]}
{"id": "C28", "title": "The manifest lists every registered part exactly once", "statement": "After any sequence of register calls every registered path (except the manifest's own) has exactly one manifest entry, or as many as the opened manifest had; the first one has the media type given last and keeps its other attributes; the manifest itself is not added; entries of other paths are preserved; no entry moves. remove() removes the first entry of a path and nothing else.", "quantifier": "all sequences of registrations on all initial manifests", "why_tests_cant": "Histories.", "anchors": ["ezodf/manifest.py: Manifest.add, find, remove", "ezodf/filemanager.py: register"]}
{"id": "C29", "title": "Saving with backup never loses the document", "statement": "At every point where the process can stop during save() with backup, and after every failure of a system call, the previous version of the document is complete under its own name or under the .bak name; under the name is the old version, nothing, or a complete new version; no other file changes except a temporary one that did not exist before; after success the new version is under the name and the old one under .bak. Saving under a free name leaves nothing or the complete document there.", "quantifier": "every crash point, every initial directory content, every document content", "why_tests_cant": "Crash points are not testable by unit tests.", "anchors": ["ezodf/filemanager.py: save"]}
{"id": "C30", "title": "Saving without backup never loses the document", "statement": "At every point where save() without backup can stop or fail either the old or the complete new version is under the document's name, or the complete new version is under the temporary name; no other file changes. (Between remove and rename nothing is under the name: counterexample.)", "quantifier": "every crash point, every initial directory content", "why_tests_cant": "Crash points; under the document's own name the claim is false in the window between remove and rename.", "anchors": ["ezodf/filemanager.py: save"]}
{"id": "C31", "title": "Save histories keep the directory clean", "statement": "After any session of successful saves under names not ending in .tmp the files are exactly the initial ones updated by the saves in order: no temporary file is left, no other file changed, the name has the last version and name.bak the version saved before. (A name ending in .tmp can be drawn as temporary name, and then saving fails: counterexample.)", "quantifier": "all sequences of saves with arbitrary names and contents", "why_tests_cant": "Histories.", "anchors": ["ezodf/filemanager.py: save, tmpfilename", "ezodf/document.py: save, saveas"]}
{"id": "C32", "title": "Unknown package parts survive repeated saving", "statement": "Over any history of registrations, changes, saves under any names, saves to streams and changes of other files, without failing system calls, the parts that are not registered at the end are the same, in the same order, with the same compression and bytes, as at the beginning. (One read error during save() can silently drop them: counterexample.)", "quantifier": "all histories of save/saveas, all packages", "why_tests_cant": "Each save copies from the file written by the previous one.", "anchors": ["ezodf/filemanager.py: save, _copy_zip_to", "ezodf/document.py"]}
{"id": "C33", "title": "A document opens with the declared type and the stored trees", "statement": "opendoc takes the type from the mimetype part, else from the manifest entry '/', and succeeds exactly for the ten supported types with readable parts; meta, styles and content are the stored trees plus missing standard children, missing parts are made; no file changes. Other types raise KeyError. newdoc(ext) succeeds exactly for the ten extensions, else KeyError; with a template the type loses exactly one '-template' ending and unsupported types raise InvalidFiletypeError. (The file name extension is never used: without type there is always an exception. A single read error while a part is read silently gives an empty part. A line break after the type is refused.)", "quantifier": "every package, file or bytes, every state of the file system in which no system call fails", "why_tests_cant": "All packages and all trees; the extension fall-back is dead and read errors are hard to produce.", "anchors": ["ezodf/document.py: opendoc, __detect_mime_type, _new_doc_from_template", "ezodf/const.py"]}
{"id": "C34", "title": "Meta data behaves like a dictionary", "statement": "Opening a stored meta document keeps all its data, opening one without meta data gives creation date, date and generator only; a wrong root element raises ValueError. meta[k] = v (a string or None) makes meta[k] == v and leaves every other key, keyword, user tag and statistic unchanged; after any history of operations every key reads what was last set (KeyError if nothing), and nothing of the document outside office:meta changed. Unknown keys raise KeyError and change nothing. (A value that is neither is refused with TypeError but leaves an empty entry behind.)", "quantifier": "every meta document, every key and value, every history", "why_tests_cant": "Framing over all other data.", "anchors": ["ezodf/meta.py: OfficeDocumentMeta"]}
{"id": "C35", "title": "Keywords behave like a set", "statement": "After any history of operations the keywords are exactly those of the list semantics (add appends a missing word, remove takes the first, clear takes all). On a document without duplicates a keyword is contained iff it was added after its last removal and iteration lists every keyword once; other meta data is untouched. (On a document that stores a word twice, remove leaves it contained.)", "quantifier": "all histories, all keywords", "why_tests_cant": "Histories.", "anchors": ["ezodf/meta.py: Keywords"]}
{"id": "C36", "title": "User tags behave like a dictionary", "statement": "After any history of set/delete/update/clear, on a document with distinct names, usertags[name] is the last value set after the last deletion, else KeyError (also for del, which changes nothing then); typeof follows the last explicit type, 'string' by default; update is setting one by one; other meta data is untouched. (With two stored tags of one name, deletion leaves the second.)", "quantifier": "all histories, all names and values", "why_tests_cant": "Histories.", "anchors": ["ezodf/meta.py: Usertags"]}
{"id": "C37", "title": "Statistics behave like a dictionary of integers", "statement": "After any history count[k] is the last integer set, 0 if never set or cleared; a non-numeric stored value reads as 0; setting changes no other count and no other meta data; unknown keys raise KeyError and change nothing; iteration lists exactly the counts that are set, each once.", "quantifier": "all histories and all attribute contents", "why_tests_cant": "Histories and malformed stored values.", "anchors": ["ezodf/meta.py: Statistic"]}
{"id": "C38", "title": "Every save increments the editing cycles by one", "statement": "After n > 0 saves (touch and inc_editing_cycles) of a document whose counter reads k the counter reads k+n, where a missing or non-numeric counter counts as 0; one save raises nothing and changes no other meta data but date and generator. (If the stored counter element is empty, every save raises TypeError.)", "quantifier": "all n and all stored counters", "why_tests_cant": "Unbounded; false when the stored element is empty (TypeError escapes).", "anchors": ["ezodf/meta.py: inc_editing_cycles", "ezodf/document.py: save"]}
{"id": "C39", "title": "Reordering prelude and epilogue is a stable permutation", "statement": "For duplicate-free tag lists reorder keeps exactly the same children, puts prelude tags first and epilogue tags last in the order of the tag lists (a tag in both lists counts as prelude), keeps document order inside each tag and of the remaining children, which determines the result, and is idempotent. A tag listed twice makes reorder raise ValueError with children already removed.", "quantifier": "every node, every pair of duplicate-free tag lists", "why_tests_cant": "All child sequences.", "anchors": ["ezodf/nodeorganizer.py: PreludeEpilogueOrganizer"]}
{"id": "C40", "title": "Prelude and epilogue blocks are measured exactly", "statement": "Block constructors accept exactly non-empty duplicate-free tag lists. The length of the block is the length of the longest prefix (suffix) whose tags follow the order of the tag list; tag_info gives exactly the positions of a tag in the block. Inserting a tag at its insert position makes the block one longer whenever the block is empty or the tag or a tag behind it (before it, for epilogues) is in the block, and always for the outermost position; otherwise the returned position breaks the order. Unknown tags raise ValueError.", "quantifier": "every child sequence and tag list", "why_tests_cant": "All child sequences.", "anchors": ["ezodf/nodeorganizer.py: PreludeTagBlock, EpilogueTagBlock"]}
{"id": "C41", "title": "The structure checker accepts exactly prelude-middle-epilogue sequences", "statement": "is_valid is true iff the children are a sorted prelude, then only allowed middle tags, then a sorted epilogue; empty or duplicate tag lists raise ValueError.", "quantifier": "every child sequence and all tag lists", "why_tests_cant": "Language equality.", "anchors": ["ezodf/nodestructurechecker.py"]}
{"id": "C42", "title": "Appending to a text body keeps the epilogue last", "statement": "TextBody.append places the new element after all existing content and before the longest epilogue, so a valid body stays valid over any history of appends of middle elements, and the elements appear in order of the appends. Opening a body that has its declaration elements leaves it unchanged; opening one without them puts them behind the content, which can make a valid body invalid.", "quantifier": "every body, all histories of appends", "why_tests_cant": "Histories.", "anchors": ["ezodf/body.py: TextBody", "ezodf/nodeorganizer.py"]}
{"id": "C43", "title": "Sheets and pages behave like a list with names", "statement": "len, iteration, names(), [i], ['name'], assignment, del, append and += of sheets and pages agree with a list of pages with names in every history, including exceptions; the other children of the body stay as they are, in their order. index() and insert() use positions in the body: they agree with the list exactly when no other child precedes. (With a declaration before the sheets index() of the first sheet is 1, and insert(1, x) makes x the first sheet. insert() accepts objects that append() refuses.)", "quantifier": "every document, all histories", "why_tests_cant": "Histories; index() and insert() go wrong only when declarations precede the sheets.", "anchors": ["ezodf/pagecontainer.py", "ezodf/sheets.py", "ezodf/body.py"]}
{"id": "C44", "title": "Broadcast reaches exactly the listeners of the document", "statement": "After any history, broadcast(event, msg, root) with a root that has children calls exactly the listeners that are subscribed to the event, alive, and have this root, each once; without a root it calls all subscribed listeners. A handler that raises ends the broadcast after the listeners before it. subscribe of an object without handler raises AttributeError, unsubscribe of one that is not subscribed KeyError, and nothing changes; subscribing twice is subscribing once. (A root without children counts as no root and reaches listeners of other documents.)", "quantifier": "all histories of subscribe, unsubscribe and freed listeners, all events and roots, every iteration order", "why_tests_cant": "Histories, iteration orders.", "anchors": ["ezodf/observer.py"]}
{"id": "C45", "title": "Clark-notation caching is invisible", "statement": "After any history CN('p:l') is {u}l where u is the uri registered last for p, KeyError if there is none; names in Clark notation are returned unchanged, the empty name raises IndexError, names without exactly one colon ValueError. A call changes no later answer. CN is injective on prefixed names when no two prefixes share a uri; this holds for the ODF namespaces of the package, after any calls. Every namespace map that a new part of a document declares on its root binds each prefix to the uri CN expands it to, and binds no uri twice. (Two prefixes with one uri give equal expansions.)", "quantifier": "all histories of registrations and calls, all names", "why_tests_cant": "Cache state; all names.", "anchors": ["ezodf/xmlns.py: _XMLNamespaces, CN", "ezodf/const.py: ALL_NSMAP, META_NSMAP, MANIFEST_NSMAP, STYLES_NSMAP, SETTINGS_NSMAP, TEXT_NSMAP, SPREADSHEET_NSMAP, PRESENTATION_NSMAP"]}
{"id": "C46", "title": "Wrapped nodes behave like a list of children", "statement": "len, iteration, [i], index, find, findall read the list of children. append, +=, insert, insert_before, [i] = c, replace, del [i], remove, clear change that list like the list operation and take a node that is put somewhere away from its old parent; nothing else changes anywhere (del [i] also drops the text after the child, clear all content of the node). Wrong positions raise IndexError, wrong children and cycles raise ValueError, and then nothing changes. get_xmlroot is the top node above. After any history every node is still there, at most once a child of at most one node. (insert before the start of the list puts the child to the end, unlike list.insert.)", "quantifier": "every forest of nodes, every node, every index, all histories", "why_tests_cant": "All forests, nodes and indices, negative included; moves between trees and cycles.", "anchors": ["ezodf/base.py: GenericWrapper"]}
{"id": "C47", "title": "Typed attribute properties round trip", "statement": "Setting a string, boolean, float, integer or limited-integer property and reading it gives the value back (truth of the value for booleans; clamped to the limit for limited integers and start_value) and touches nothing else of the element; deleting makes the default come back, deleting a missing attribute raises KeyError and changes nothing. In every history of such writes a property reads what the last write of its attribute stored. set_attr refuses false values with ValueError and no change. visibility, target_frame (with xlink:show) and protected (with its key) write exactly their attributes; formatted_number writes the first text:number child, made if missing, and leaves all other children. A limited integer is never read below its limit. (A float property accepts True and then cannot be read; set_attr refuses 0.)", "quantifier": "every element, every attribute name, every value, all histories of writes and deletions", "why_tests_cant": "All values, prior attribute sets and histories.", "anchors": ["ezodf/propertymixins.py", "ezodf/base.py: set_attr"]}
{"id": "C48", "title": "Variables and user fields return what was stored", "statement": "Assigning a value to a declared variable writes text and type of every element of the document that sets, gets or inputs this variable, and the type of the declaration, and changes nothing else; the variable and each of these elements then read as str(value), or float(str(value)) for numbers; booleans read as False (counterexample for True). In any document a variable reads as its first instance, where setting elements come before showing ones and these before inputs, each in document order; without instances reading raises IndexError. Assigning to a user field stores value and type in its declaration, from where strings, numbers and booleans are read back; empty values (0, '', None) raise ValueError and leave the declaration; the elements that show the user field are not written, those of a variable of that name are (counterexample). After any sequence of assignments every variable has the value assigned last. The containers find by name the last declaration of that name they had when constructed, and take any other key as a position.", "quantifier": "all documents, declared variables and user fields whose name has no apostrophe, values, and sequences of assignments to them", "why_tests_cant": "Needs all documents, positions of instances and interleavings.", "anchors": ["ezodf/variables.py"]}
{"id": "C49", "title": "Named styles can be looked up and stored", "statement": "styles[name] is the first child with that style:name (KeyError without one, TypeError for a page layout), however many lookups preceded. styles[name] = style puts the style into the place of the first child of that name, or to the end, and changes nothing else. After any history of lookups and assignments of new styles under their own name, the tree holds under each name the style assigned first, else the one from the start, which is what a newly opened document finds; in the same container a name that was assigned raises AttributeError when read and TypeError when assigned again, without any change. Keys of style objects read the style attribute of that name; assigning them does nothing. Counterexamples: assigned styles cannot be read, styles assigned under another name, the cache after changes of the tree.", "quantifier": "all documents and histories of lookups and assignments", "why_tests_cant": "All histories; the cache holds objects of two kinds.", "anchors": ["ezodf/styles.py: Container", "ezodf/styles.py: BaseStyle"]}
{"id": "C50", "title": "Durations and dates written are re-read equal", "statement": "TimeParser(TimeParser(v).timestr).value is v for every date and for every datetime and timedelta that is not negative, except that microseconds of a datetime are dropped and those of a timedelta are cut to multiples of 100. The text of a negative timedelta raises ValueError, and where strftime does not pad years so does the text of a date before the year 1000. PnYnMnDTnHnMn,nS (any part missing, up to 6 decimals) is read to the exact microsecond with 365-day years and 30-day months, OverflowError beyond the range of timedelta; no other text that begins with P is accepted (one newline may follow). Every value read is a valid one. (Exact for seconds below 2^20 and other numbers below 2^53; a counterexample shows microseconds lost beyond.) A text that is accepted is a duration (is_duration) exactly if it begins with P, otherwise a date (is_date), with a time (has_time) exactly if it contains T.", "quantifier": "all dates, datetimes and timedeltas; all duration texts", "why_tests_cant": "Calendar, carry and binary floating point over all values.", "anchors": ["ezodf/timeparser.py"]}
{"id": "C51", "title": "Table operations touch nothing outside the table", "statement": "Whatever a table operation does, successful or failing, the document around the table is the same as before; nodes removed from the table have no parent afterwards.", "quantifier": "every store, every operation (placing a cell that already lives elsewhere excepted), every argument", "why_tests_cant": "Frame condition over the whole document and all operations.", "anchors": ["ezodf/table.py", "ezodf/tablerowcontroller.py", "ezodf/tablecolumncontroller.py"]}
{"id": "C52", "title": "Saving and opening again gives the same document", "quantifier": "every document with its three roots and its meta data (complete where said so), every successful save, every later state of the file system with that file", "statement": "Documents from opendoc and newdoc are complete: all five parts registered, all standard children there, all parts listed in the manifest. If save() of a complete document succeeds, opening the file later gives the same type, styles and content tree, and the meta tree with touched date and generator and the editing cycle counted; the manifest is the same. If standard parts of styles or content were removed before save(), they are added, empty and in the standard order at the end, and nothing else changes. Comparing trees, an empty text is the same as none: this is all that reading changes. No document from opendoc or newdoc has an empty text, and trees without empty texts come back identical. The open document stays complete, so this holds for any number of saves. tobytes() and opening the bytes gives all trees unchanged in this sense. (Counterexample: meta['title'] = '' reads None in the opened document.)", "why_tests_cant": "All documents, types and histories of saves, not just sample files.", "anchors": ["ezodf/document.py: opendoc, newdoc, PackagedDocument", "ezodf/filemanager.py: save, tobytes", "ezodf/content.py", "ezodf/styles.py: OfficeDocumentStyles", "ezodf/body.py: GenericBody"]}
{"id": "C53", "title": "Saving a document that was opened from bytes", "quantifier": "every state, every outcome", "statement": "ByteStreamManager.save writes a correct package to the named file when it succeeds and never touches another file. (It empties the file first: if the document cannot be written, for instance because a part of the old package is damaged, the old file is lost.)", "why_tests_cant": "All outcomes including failures at every point.", "anchors": ["ezodf/bytestreammanager.py: save"]}
{"id": "C54", "title": "A cached wrapper belongs to its element", "quantifier": "all histories of wrapping, constructing, caching, forgetting and freeing, every reuse of memory addresses", "statement": "wrapcache.wrap(element).xmlnode is the element, although the cache is keyed by id(element) and ids of freed objects are used again. The same node gives the same wrapper until something is put into or removed from the cache. remove and clear make a new wrapper possible, remove of an uncached element raises KeyError. A new wrapper has the class registered last for the tag, or the generic class. (Wrapping a sheet without the cache replaces the cached wrapper.)", "why_tests_cant": "Garbage collection and address reuse.", "anchors": ["ezodf/wrapcache.py", "ezodf/xmlns.py: _ClassRegistry", "ezodf/table.py: Table.__init__"]}
{"id": "C55", "title": "Lists, sections and numbered paragraphs", "quantifier": "all documents, lists, nodes, texts, and sequences of header assignments, appends and removals", "statement": "List.header is the first child that is a list header and iteritems() gives the list items in order. Assigning a list header makes it the first child in place of the old one, taking it out of the place it had; everything else stays as it was. Other objects raise TypeError without any change; a header that contains the list raises ValueError after the old header has been removed (counterexample to atomicity). After any sequence of assigned headers, appended and removed items, header is the one assigned last and the items are those of a Python list treated the same way. Headers and items made with a text have exactly this text in one paragraph (no paragraph for the empty text), and a list filled with such items gives the texts back in order. List, Section and NumberedParagraph constructors write the given names and content and nothing else; a numbered paragraph takes None or a wrapper, else TypeError. NumberedParagraph.content is the first heading, else the first paragraph, else a new empty paragraph at the end, and reading it again changes nothing (counterexample: reading adds a paragraph if the content is of another kind).", "why_tests_cant": "All nestings of lists and headers and all operation sequences; failed assignments have partial effects.", "anchors": ["ezodf/text.py: List", "ezodf/text.py: ListHeader", "ezodf/text.py: ListItem", "ezodf/text.py: Section", "ezodf/text.py: NumberedParagraph"]}
{"id": "C56", "title": "Tables survive being written and read again", "quantifier": "all tables and sizes, all histories of table calls in range, all expansion strategies, all documents", "statement": "A table that was read (under any strategy) or made has no repetitions in its XML, and no call of the table interface with arguments in range brings one in, unless an element carrying a repetition attribute is put into the table. When such a table is written with the document by save() (no element of the content with an empty text) and the file is opened again, under any strategy, the table is loaded as it is: the same number of rows and columns, the same content in every cell, the same XML; and loading it changes nothing in the document. (Counterexample: a cell with number-columns-repeated=\"2\" put into a table makes it one column wider after reading it again.)", "why_tests_cant": "All histories of calls, and all strategies used for reading again.", "anchors": ["ezodf/table.py: Table", "ezodf/tablenormalizer.py", "ezodf/tablerowcontroller.py", "ezodf/document.py: save, opendoc"]}
{"id": "C57", "title": "Documents in a single XML file: opening and saving", "quantifier": "all XML trees, file types, file systems, and every way the operating system calls of saving can fail or be interrupted", "statement": "FlatXMLDocument(filetype, filename, xmlnode) accepts exactly the trees with the root office:document whose office:mimetype is one of the types that packaged documents have (C33) and whose declarations are usable, given a known file type; it makes the missing elements, keeps all others, and has the type written in the tree (doctype is the file type given, even if they differ). An unknown file type raises KeyError, another root AttributeError (not the intended ValueError), a missing or unknown type TypeError, formula, master and web types KeyError. save() renews date, generator and number of editing cycles and writes exactly the tree, which opens again as the same tree (empty texts read as none, nothing else changes); a backup keeps the previous version as NAME.bak. Whatever fails or stops the process during save(): no other file changes, and with a backup the previous version is in the file or in NAME.bak. Without failures save() succeeds unless the number of editing cycles is an element without text. (Counterexamples: a document made new and saved never opens again, since its type is not written; meta data in office:meta, where OpenDocument puts them, are ignored; opendoc() opens no flat document; without a backup a stopped save() can lose the document.)", "why_tests_cant": "All trees, and all moments at which a save can be stopped or fail.", "anchors": ["ezodf/document.py: FlatXMLDocument", "ezodf/document.py: _BaseDocument.save, saveas", "ezodf/meta.py: Meta.__init__", "ezodf/xmlns.py: subelement"]}
{"id": "C58", "title": "Cell values written to a sheet are read from the saved document", "quantifier": "all tables, all sequences of set_value calls on any cells, all values and types, all documents and strategies", "statement": "After any sequence of set_value() calls on cells of a table, by position (also negative) or by address such as 'B7', every cell returns the value and type of the last accepted call for it, whatever was set in other cells before and after, and a cell that got no accepted call is unchanged; a call is accepted exactly if its value is acceptable. When the table is a sheet of a spreadsheet, reached as doc.sheets[name or index], in a document without empty texts (as every opened one is, C52), the document is saved and opened again, then doc.sheets has the same names, doc.sheets[name or index] loads under every expansion strategy with the same size, and every cell returns the same value and type. The latter holds after any history of table calls (C56), not only set_value(). (An accepted value is read back as C22 says; empty text for a number or date counts as a call that changes the cell, C26.)", "why_tests_cant": "Histories, positions, values, documents and strategies are unbounded.", "anchors": ["ezodf/table.py: Table.__getitem__", "ezodf/cells.py: Cell.set_value, Cell.value", "ezodf/pagecontainer.py: AbstractPageContainer", "ezodf/document.py: save, opendoc"]}
{"id": "C59", "title": "Merged areas of a sheet follow from the calls and survive saving", "quantifier": "all tables, all sets of separate areas, all histories of merging, splitting, setting values, inserting and deleting rows and columns, all documents and strategies", "statement": "Call a sheet laid out by a set of pairwise separate areas (each of more than one cell) when the first cell of each area has span (rows, columns) of the area and is not covered, all other cells of an area are covered with span (1, 1), and all cells outside are neither. A new table is laid out by no areas. If a sheet is laid out by L, then: set_cell_span() for an area separate from those of L succeeds and the sheet is laid out by L and this area; remove_cell_span() at the first cell of an area of L succeeds and leaves the others; both keep value, type and currency of every cell, covered or not; set_value() on any cell keeps L; inserting or deleting rows or columns that does not cut an area (strictly inside, or partly deleted) shifts the areas behind and drops deleted ones; reset() and clear() leave none; renaming and appending rows or columns keep them. set_cell_span() for an area with the first cell of another one in it raises ValueError, remove_cell_span() at a cell that starts no area does nothing, both without any change. After any history of such calls, cell.span and cell.covered are what the areas computed from the arguments say, and the same areas are found when the document (without empty texts) is saved, opened again and the sheet loaded under any strategy. (What the library does not do: a row inserted inside an area is not covered and the span not adjusted, deleting the first row of an area leaves cells covered by nothing, and an area overlapping another without its first cell is accepted; all three are proved as counterexamples.)", "why_tests_cant": "Sets of areas, histories, documents and strategies are unbounded.", "anchors": ["ezodf/cellspancontroller.py: CellSpanController", "ezodf/table.py: Table.set_cell_span, Table.remove_cell_span", "ezodf/cells.py: Cell.span, Cell.covered", "ezodf/tablerowcontroller.py", "ezodf/document.py: save, opendoc"]}
{"id": "C60", "title": "Saved documents pass the package validity check", "quantifier": "all files, types, documents, manifests, and every way the operating system calls of saving can fail or be interrupted", "statement": "check_zipfile_for_oasis_validity(filename, mimetype) returns True exactly if the file is a zip archive in which the text 'mimetype' and the type follow at byte 30, which has the entries META-INF/manifest.xml, content.xml, meta.xml, styles.xml and mimetype, and whose manifest has file entries for content.xml, meta.xml, styles.xml and '/', the last one for '/' having this type as media type; it changes no file, and raises an exception only if the stored manifest cannot be read or is no XML. A document that was made new, or opened from a package (or made from a template) whose manifest has at most one entry for '/' and no elements other than file entries with these paths, is accepted by the check for its own type and refused for every other type after every save() and every tobytes(), whatever was changed in its content, styles and meta data in between. If save() fails or is stopped at any point, the file has its previous contents, is missing, or is accepted. (Counterexamples: with two entries for '/' in the opened manifest the saved file is refused; a package accepted for one type may be opened by opendoc() as a document of another type.)", "why_tests_cant": "All documents, manifests, histories and points of interruption; tests check a few files.", "anchors": ["ezodf/filemanager.py: check_zipfile_for_oasis_validity, FileManager._tozip, FileManager.save", "ezodf/manifest.py: Manifest.add", "ezodf/document.py: PackagedDocument"]}
{"id": "C61", "title": "Injected styles", "quantifier": "all documents, all histories of lookups, assignments and injections, all texts", "statement": "In every document, after any sequence of lookups and assignments in doc.styles.styles and of injections, inject_style(text) with a text whose first element is a style (of any kind but page layouts) adds exactly this element, with its attributes, text and everything below it, after all children of office:styles; nothing that was there before changes, further elements of the text are ignored, and so is the argument where. Afterwards every name that was not assigned before is looked up as follows: if there was a style of that name, the same result as before; else, if it is the name of the new style, the new style; else KeyError. A text that is not well-formed raises the parser's exception, one without elements IndexError, one that starts with a page layout TypeError; then nothing in the document changes and every lookup gives what it gave before. (Counterexample: a style injected under a name in use is stored a second time and never found; page layouts cannot be injected; only the first of several styles arrives.)", "why_tests_cant": "All histories (the container has a cache that injections bypass), texts and documents; the tests inject one style into a new document.", "anchors": ["ezodf/document.py: _BaseDocument.inject_style", "ezodf/xmlns.py: fake_element", "ezodf/styles.py: Container"]}
{"id": "C62", "title": "A sheet is expanded once, by the setting at its first access", "quantifier": "all documents with any number of sheets, all settings, all histories of settings, accesses and changes", "statement": "The global expand strategy is the one set or reset last; setting it changes no sheet. Call a setting refused if its strategy is unknown (TypeError) or if it is 'all' or 'all_less_maxcount' with fewer than two maximum counts (IndexError). A sheet that has not been accessed, or only while the setting was refused, is exactly as stored; an access while the setting is refused raises that exception and changes nothing. At the first access under a usable setting the sheet becomes the expansion of the stored one by exactly this setting (C09, C11), with no repetitions left and all rows of the same length; from then on it is this table with the changes made to it, whatever is set or accessed later, even if the wrapper cache is cleared; while the cache is kept accessing it always succeeds and changes nothing, also when the setting is refused. A new table does not depend on the setting but cannot be made while the setting is refused. (Counterexamples: a setting made after the first access has no effect on a sheet; with 'all_but_last' and a single maximum count the access raises IndexError after the rows have been expanded.)", "why_tests_cant": "All interleavings of global settings with accesses to many sheets; tests set the strategy once before opening.", "anchors": ["ezodf/conf.py: TableExpandStrategyConfig, Config", "ezodf/tablerowcontroller.py: TableCellAccessor.__init__", "ezodf/tablecolumncontroller.py: TableColumnController._expand_repeated_content", "ezodf/tablenormalizer.py: normalize_table", "ezodf/wrapcache.py: wrap"]}
{"id": "C63", "title": "Protecting a sheet or section sets the flag and draws a fresh key", "quantifier": "all sheets and sections, all values assigned, all histories of assignments, every random generator", "statement": "Assigning v to the property protected of a sheet or of a section never raises; it reads back as the truth value of v, and only the text 'true' in the file counts as protected. If v is true, twelve different letters or digits are drawn and the key attribute becomes the text of the Python list of these characters (\"['A', 'b', ...]\", 60 characters, different for different draws); if v is false nothing is drawn and the key stays. All other attributes, the texts and the content are unchanged. After any history of assignments the flag is that of the last one, the key is the one drawn last, and one key has been drawn for every true value. (Counterexample: the key is never the drawn characters themselves, and unprotecting leaves the key in the file.)", "why_tests_cant": "Histories and every outcome of the random generator; tests only look at the flag.", "anchors": ["ezodf/protection.py: random_protection_key", "ezodf/table.py: Table.protected", "ezodf/text.py: Section.protected", "ezodf/base.py: get_bool_attr, set_bool_attr, set_attr"]}
{"id": "C64", "title": "ezlist makes exactly the list described by its arguments", "quantifier": "all sequences of item texts, all headers and style names", "statement": "ezlist(items, header, style_name) is a list whose items have the given texts as plaintext, in order; its header has the given text and is the first child, and there is none for an empty header; the style attribute is set exactly if a style name is given and there is no other attribute. Each part consists of one paragraph, or of nothing for an empty text. Different arguments give different lists. Appending items one by one to the result, or giving it another header, results in the list made at once. A list put into an item can be found there, but its texts do not occur in the plaintext of the item: it counts as an empty line.", "why_tests_cant": "All texts, including blanks and control characters, and all lengths; nested lists.", "anchors": ["ezodf/__init__.py: ezlist", "ezodf/text.py: List, ListHeader, ListItem"]}
{"id": "C65", "title": "Renaming pages and sheets", "quantifier": "all documents, all names, all histories of list operations and renamings", "statement": "Assigning a name to a page or sheet changes the name attribute of this node and nothing else in any tree: the pages, their order and the other children of the body stay. A page of a drawing takes the name as it is, a sheet takes it normalised; if nothing is left of the name, ValueError is raised and nothing changes. In every history of lookups, assignments, deletions, appends and renamings, names() and all results and exceptions are those of a list of pages with a table of names. A renamed page is found under its new name if no page before it has this name; a name that no page has any more raises KeyError. DrawingPage(name) is a new page outside of all documents with this name, without content; DrawingPage() raises ValueError. (Counterexamples: names are not checked for duplicates, so a renamed page may be unreachable by name; a sheet is not found under the name assigned if it was normalised.)", "why_tests_cant": "Interleavings of renaming with list operations; duplicates and normalised names.", "anchors": ["ezodf/drawingpage.py: DrawingPage", "ezodf/table.py: Table.name", "ezodf/pagecontainer.py", "ezodf/base.py: set_attr"]}
{"id": "C66", "title": "A page layout gets header and footer properties, and keeps everything else", "quantifier": "all page layouts, all keys", "statement": "PageLayout(element) never raises; afterwards the first header style and the first footer style each have a child named after them with '-properties', and the objects header and footer stand for these. A missing style, and missing properties in the first one, are added at the end; tag, attributes, texts and all other children stay as they were, in order, and doing it again changes nothing. _properties with new=False raises KeyError for a missing element and changes nothing. The layout answers to the keys 'name' and 'page-usage', every other key, and every key of header and footer, raises KeyError. (Counterexample: the element ODF uses, style:header-footer-properties, is not found; a layout of a conforming file is changed, and the object does not give its properties.)", "why_tests_cant": "All elements, with any number and order of children.", "anchors": ["ezodf/styles.py: BaseStyle._properties, PageLayout", "ezodf/xmlns.py: subelement"]}
{"id": "C67", "title": "Text documents, written through doc.body, saved and opened again", "quantifier": "every complete text document, every list of calls on doc.body, every text, style, level and list; every successful save and later state of the file system with that file", "statement": "append, insert, body[i] = x, del body[i], clear and calls on body[i] change the list of children of doc.body like a list (append stays before the closing elements of a text document, insert at an index that does not exist appends, other such indices raise IndexError and change nothing), clear() drops also the attributes and text of the body; the rest of the content is untouched. After save() and opendoc() the children of the body are those in memory after the last call (empty texts read as none), followed only by those declaration elements that were missing. Hence: paragraphs, headings and lists appended to a well structured text are read back in this order with their texts, styles, outline levels, items and headers, after the old text, before the closing elements, and the text is well structured again; append_text on a paragraph of the body adds its text at the end of the text read back and nothing else. (Counterexample: after body.clear() and appending anything, the declarations of the opened document come last, and is_valid is false.)", "why_tests_cant": "All histories, texts and documents, across saving and opening.", "anchors": ["ezodf/body.py: TextBody", "ezodf/base.py: GenericWrapper", "ezodf/text.py", "ezodf/__init__.py: ezlist", "ezodf/document.py: save, opendoc", "ezodf/content.py"]}
{"id": "C68", "title": "Working on a document in any number of sessions", "quantifier": "every complete document of every supported type, every number of sessions, in each every list of calls on doc.meta and doc.body, every file name (also changing ones), clock and later state of the file system with the saved file", "statement": "When a document is edited by way of doc.meta and doc.body, saved, opened from the saved file, edited, saved … any number of times, every save that succeeded can be opened, and in the end: every meta data field reads what the calls and saves of all sessions made of what was there at first, and so do the keywords, the user tags and the statistics; the body is what the calls of all sessions make of the first one, with missing declarations added at each opening; the styles and the rest of the content are as at first. Saving and opening have no part in this except that an empty text reads as None afterwards: if nothing empty is written, the sessions together are as one. The counter of saves has grown by the number of sessions if no call changes it; all text blocks appended in the sessions are there in order. (Counterexample: keywords.add of an empty keyword adds it again in each session.)", "why_tests_cant": "Any number of sessions, any calls in each, any document.", "anchors": ["ezodf/document.py: save, saveas, opendoc", "ezodf/meta.py", "ezodf/body.py: TextBody", "ezodf/base.py: GenericWrapper", "ezodf/filemanager.py"]}
{"id": "C69", "title": "A workbook: any number of sheets edited in any order, saved and opened again", "quantifier": "every opened spreadsheet document with any sheets, every program of operations on doc.sheets, on the tables, on spans and on the properties of sheets, rows and columns, in any order, each depending on the results before it, with arguments in range or refused; every loading strategy and limit; every later state of the file system with the saved file", "statement": "A program asks doc.sheets for sheets by index or name, makes new sheets and copies, replaces, deletes and appends sheets, and on each sheet it holds (also one that is no longer in the document) it inserts, appends and deletes rows and columns, sets and writes cells, sets values, clears, resets and renames, and sets or deletes properties of the sheet, of a row or of a column (style, visibility, print, protection, any attribute but the name and the repetition counts), merges cells with set_span and takes the merge back with remove_span. Then an operation on one sheet changes nothing in any other; sheets are named grids in an order, with properties, and every operation does to them exactly what a short description in terms of lists says, with the result it says: in particular the properties of a row or column stay with it when others are inserted or deleted before it, new rows and columns have none, and a copy has the same. A count below one, deleting all rows or columns, a place outside of the sheet, a value that is no cell, an empty name, and a merge at a negative place, of a size below one, out of the sheet or over a cell that has a span are refused with the exception it says and change nothing. Asking for a sheet twice gives the same object, and a sheet nobody asked for is as in the file. len, iteration, names, nrows, ncols, every cell, span, covered and every property read what the description says. Everything in the content that is not a sheet stays as it was. After saving and opening the document has the same sheets in the same order under the same names: those that were open are read by every strategy with the same cells (an empty text reads as None) and the same properties, the others are as in the first file, and every index or name leads to the sheet at the same place.", "why_tests_cant": "Any number of sheets and any interleaving of operations on them, any document.", "anchors": ["ezodf/pagecontainer.py", "ezodf/sheets.py", "ezodf/table.py: Table, TableColumn, TableRow", "ezodf/propertymixins.py", "ezodf/tablerowcontroller.py", "ezodf/tablecolumncontroller.py", "ezodf/wrapcache.py", "ezodf/document.py: save, opendoc", "ezodf/cellspancontroller.py"]}
{"id": "C70", "title": "A workbook edited, saved and opened any number of times", "quantifier": "every complete spreadsheet document with any sheets, every number of sessions, in each every program on the workbook as in C69 and every list of calls on doc.meta; every file name (also changing ones), clock, and later state of the file system with the saved file", "statement": "A spreadsheet document is opened, edited by a program as in C69 and by calls on doc.meta, saved under any name, opened from there, and so on any number of times. Then every save that succeeded can be opened, and each session (and whoever opens the document in the end) finds the workbook the session before left: the same sheets in the same order under the same names, those that were open with the same cells (an empty text reads as None) and the same properties by every loading strategy, and everything else in the body. A sheet nobody asked for in a session is for the next session what it was at the start, from the second session on to the letter: saving and opening do not change it any more. The meta data are what the calls and saves of all sessions make of those that were there at first, and the styles stay.", "why_tests_cant": "Any number of sessions, any program in each, any document.", "anchors": ["ezodf/document.py: save, saveas, opendoc", "ezodf/sheets.py", "ezodf/table.py", "ezodf/meta.py", "ezodf/filemanager.py"]}
{"id": "C71", "title": "A cell assigned to a second place leaves the first", "quantifier": "every document with any number of tables, every rectangular table in it, every position given as tuple or address, every cell anywhere in the document (in the same row, the same table, another table, a cell of a table no longer in the document, or a new cell)", "statement": "table[pos] = cell moves the cell: it takes the place of the cell that was at pos, which afterwards belongs to no table; no attribute, text or child of any element changes otherwise. In the row the cell was in, of whatever table, the cells behind it move one place to the left; every other place in every table shows the cell it showed before. Hence assigning a cell of a table to another place of the same table always leaves its row one cell short: the last place of that row raises IndexError, and of no other row, and nrows() stays. Assigning a cell to the place where it is changes nothing.", "why_tests_cant": "All positions in all documents, including the combinations in one row where indices shift between reading and writing.", "anchors": ["ezodf/table.py: __setitem__, set_cell", "ezodf/tablerowcontroller.py: set_cell, get_cell"]}
{"id": "C72", "title": "Variables and user fields assigned by name survive saving", "quantifier": "every complete document of every type with its variable and user field declarations, every sequence of assignments body.variables[name] = value and body.userfields[name] = value (values None, booleans, integers, floats, strings; names without apostrophe; unknown names raise and change nothing), every save that does not fail and every later opening of the file", "statement": "Assignments by name move no element and change nothing but the declarations and instances of the names assigned. Afterwards a name that was not assigned has the value it had; a user field has the value assigned last (if truthy), a variable with at least one instance too, with the conversions of C48. After save() and opendoc() the document is complete, its content is the edited content as an XML parser reads it, body.variables and body.userfields contain exactly the names they contained, and every value that could be read before saving is read again; except that a variable which reads as the empty string reads as None. An opened document has its variables and its user fields, each kind with exactly the names declared for it in the body (text:variable-decls, text:user-field-decls) and no other.", "why_tests_cant": "All documents, all programs of assignments, all saves and reopenings; that nothing but the named fields changes concerns every element of every document.", "anchors": ["ezodf/body.py: GenericBody.__init__", "ezodf/variables.py: SimpleVariables, UserFields, SimpleVariable, UserField", "ezodf/document.py: save, opendoc", "ezodf/content.py: get_application_body"]}
{"id": "C73", "title": "Pages of drawings and presentations: programs, saving and reopening", "quantifier": "every opened drawing or presentation in memory, every program of calls on doc.body.pages and its pages (get, set, delete by index or name, append, insert, new pages, names, any work on what is in a page that leaves it a page) with the exceptions caught, pages taken from the document or in no document; every save that does not fail and every later opening", "statement": "The program does, call by call, what a document made of an ordered body, page trees and names says, including results and exceptions; each call other than the creation of a page determines the document after it and its result. Everything in the body that is no page stays, in the same order and unchanged, and so does everything outside the body. After save() and opendoc() the document is complete, its content is the edited content as an XML parser reads it, the body has the same pages with the same names and content in the same order and between them what was there before, and the next program can begin. A page that is neither named nor worked on keeps its content and name throughout, whatever is done to the others and wherever it is moved.", "why_tests_cant": "All programs over all documents, interleavings of moving, renaming, editing and creating pages, and what is not to change concerns every element of every document.", "anchors": ["ezodf/body.py: DrawingBody, PresentationBody", "ezodf/pages.py: Pages", "ezodf/drawingpage.py: DrawingPage", "ezodf/presentationpage.py", "ezodf/document.py: save, opendoc"]}
{"id": "C74", "title": "Drawings and presentations over any number of sessions", "quantifier": "every complete drawing or presentation, every number of sessions, in each any program of calls on the pages (as in C73), any calls on the meta data, a saveas() that does not fail to any plain file name, anything happening between the save and the next opendoc() that leaves the saved file alone", "statement": "Each session finds what the session before left: the same pages with the same names and content in the same order, and between them what is no page (empty texts have become none); so does whoever opens the document after the last session. The document keeps its type and stays complete, the meta data are what the calls of all sessions make of what was there at first, and the styles stay. What a session saved can be opened, so any session prolongs the life of the document.", "why_tests_cant": "Any number of sessions with arbitrary programs in each; losses that add up only over several saves and openings need not show in a single one.", "anchors": ["ezodf/document.py: opendoc, saveas", "ezodf/pages.py: Pages", "ezodf/drawingpage.py: DrawingPage", "ezodf/meta.py: Meta"]}
{"id": "C75", "title": "Variables and user fields over any number of sessions", "quantifier": "every complete document whose declarations are of the right kind, every number of sessions, in each any assignments of any values by name to doc.body.variables and doc.body.userfields (exceptions caught; names without apostrophes), any calls on the meta data, a saveas() that does not fail to any plain file name, anything happening between the save and the next opendoc() that leaves the saved file alone", "statement": "Each session can read what the session before could read at its end: the same names are declared and each has its value, except that a variable set to the empty text reads None; so can whoever opens the document after the last session. A value stays as long as its name is not assigned: what could be read at the end of a session is read after all sessions if no later one assigned the name. After any number of sessions a user field has the value assigned last (if that was not a falsy one), in whichever session that was, and so has a variable that is shown in the document. The document keeps its type and stays complete, the meta data are what the calls of all sessions make of them, and the styles stay.", "why_tests_cant": "Any number of sessions with arbitrary assignments; a value that changes only when it is saved a second time, or when another name is assigned in a later session, needs the right sequence to show.", "anchors": ["ezodf/variables.py: SimpleVariables, UserFields", "ezodf/body.py: GenericBody", "ezodf/document.py: opendoc, saveas", "ezodf/meta.py: Meta"]}
{"id": "C76", "title": "Flat documents over any number of sessions", "quantifier": "every complete tree of a FlatXMLDocument that states a supported type, every number of sessions, in each any calls on the meta data and any changes of the rest of the tree that leave the document complete and its root alone, a save() that does not fail; anything may happen between a save and the next opening that leaves the saved file alone", "statement": "Each session finds the tree the session before left: the root is the same, the elements below it are of the same kinds in the same order, and all but the meta data are the same (empty texts have become none); so does whoever opens the file after the last session. The document keeps stating its type and stays complete. The meta data are what the calls of all sessions, and each save, make of what was there at first. What was saved can be parsed and opened, so any session prolongs the life of the document.", "why_tests_cant": "Any number of sessions with arbitrary changes in between; opening fills in missing elements and saving changes the meta data, and neither must ever add up to a loss or a duplicate.", "anchors": ["ezodf/document.py: FlatXMLDocument, _BaseDocument.save", "ezodf/meta.py: Meta"]}
{"id": "C77", "title": "Named styles come back from a saved document", "quantifier": "every complete document in a package, every container of its styles (fonts, styles, automatic_styles, master_styles), every program of lookups and assignments of styles that are in no tree yet under the names they have, a save() that does not fail; anything may happen between the save and the opening that leaves the saved file alone", "statement": "Opened again, the document has the container again. Under each name that was assigned it finds the style that was assigned first, with everything in it; under each other name it finds the style it found before the program, with everything in it, or nothing if nothing was there; page layouts still raise TypeError (empty texts have become none). The other containers, and whatever else is in the styles, are as they were, and so is the content of the document.", "why_tests_cant": "All containers, programs and names; styles are moved between trees while the container keeps a cache, and opening fills in missing containers.", "anchors": ["ezodf/styles.py: OfficeDocumentStyles, Container", "ezodf/document.py: PackagedDocument, _BaseDocument.save"]}
{"id": "C78", "title": "Injected styles come back from a saved document", "quantifier": "every complete document in a package, every list of texts (which start with styles, or are no XML, or hold no element) given to inject_style one after the other, a save() that does not fail; anything may happen between the save and the opening that leaves the saved file alone", "statement": "The styles of the document become the old ones with the first element of each text, but page layouts, at the end of office:styles, in the order of the calls; texts that raise an exception leave nothing. Saved and opened again, the styles are this tree (empty texts have become none) and the content is as it was. So under each name the document opened again finds the first style of that name in this list: one it had before, else the first one that was injected under it, whole; KeyError if there is none, TypeError for a page layout.", "why_tests_cant": "All documents, texts and numbers of calls; the parsed text leaves other trees in memory, which must not get into the document.", "anchors": ["ezodf/document.py: _BaseDocument.inject_style, save", "ezodf/xmlns.py: fake_element", "ezodf/styles.py: Container"]}
