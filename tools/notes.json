{
 "C01": "For every string: decode after encode is the identity; encode is injective.",
 "C02": "Canonical form proved, and shown to be the unique canonical list for the string.",
 "C03": "Constructors and any sequence of append_text calls on any mixed content.",
 "C04": "Proved for all text trees without list items and cells; counterexamples for list items, cells and negative space counts.",
 "C05": "Exact characterisation (iff) of the texts that survive ODF whitespace collapsing; counterexamples (leading blank, single trailing blank, carriage return), also across two append_text calls.",
 "C06": "All columns and rows; names specified inductively.",
 "C07": "Full characterisation of the accepted language and value for every string, over any Unicode table with the ASCII laws.",
 "C08": "Membership, no duplicates, order, length, errors.",
 "C09": "All strategies, all tables with positive counts and no table inside a cell; counterexamples for a count of 0, for nested tables, for a maximum of 1 and for counts that are no numbers.",
 "C10": "Run-length semantics at every logical position, frame, idempotence. Domain: positive counts, no nested tables.",
 "C11": "All three strategies, rows, cells and column descriptions.",
 "C12": {
  "note": "All histories of calls, failing ones included; only a failing reset/clear is excluded (C12_failed_reset_counterexample shows why). Tables without rows or columns inside cells."
 },
 "C13": {
  "note": "Every call with in-range arguments succeeds and the sizes follow. A cell already in the table must not be placed again (C13_moved_cell_counterexample)."
 },
 "C14": {
  "note": "White space between rows (tails) is not tracked."
 },
 "C15": {
  "note": "insert/delete: the number of table-column elements equals the number of cells per row."
 },
 "C16": {
  "note": "Writing a new or foreign cell, reading it back, and changing a cell in place."
 },
 "C17": {
  "note": "Proved for the calls named in the statement; counterexamples for the others."
 },
 "C18": {
  "note": ""
 },
 "C20": {
  "note": "Tables without repetition attributes (what loading leaves) and nested tables; operations that take a cell out of the other table are excluded."
 },
 "C21": {
  "note": "A newline inside a name is kept by the code; the property is about tab, carriage return and quotes."
 },
 "C51": {
  "note": "Placing a cell that already lives elsewhere in the document is excluded (it is moved)."
 },
 "C19": "Exact effect and frame of set and remove, inverse, rejections without change; three counterexamples.",
 "C22": "Floats are a class with laws (repr never empty, parse after repr is the identity, decimal integers parse), instantiated; non-string type and currency arguments are not modelled.",
 "C23": "Histories of set_value; stale currency as counterexample.",
 "C24": "Effect, plaintext after any number of assignments, refusals; counterexample for two paragraphs.",
 "C25": "Any sequence of calls; counterexample for another last child.",
 "C26": "Exact description of the calls that raise and change the cell.",
 "C27": {
  "note": "Any opened package (file or bytes), any registered parts, any environment without failing calls; counterexamples for duplicate names, a read error, a save after a failed save."
 },
 "C28": {
  "note": "Any initial manifest, any sequence of registrations; exact resulting entries."
 },
 "C29": {
  "note": "Every prefix of every run, any failing calls, arbitrary contents while writing. No fsync/caches: a system call that returned has happened; rename is atomic (POSIX)."
 },
 "C30": {
  "note": "As C29. The moment without any file under the name is exhibited."
 },
 "C31": {
  "note": "Exact file system after any session; documents may change arbitrarily in between."
 },
 "C32": {
  "note": "Histories with registrations, edits, saveas, stream saves and foreign changes to other files."
 },
 "C39": {
  "note": "Children are compared by identity (a type with decidable equality, no duplicates)."
 },
 "C40": {
  "note": "The positions that break the order are characterised; C40_insert_position_counterexample is a concrete case."
 },
 "C41": {
  "note": "Comments and processing instructions among the children are not modelled."
 },
 "C42": {
  "note": "Appending of children that are not yet in a document; C42_open_counterexample shows the open defect."
 },
 "C34": {
  "note": "Model of meta.py in Meta.v. The Statistic object's element is modelled as the first document-statistic child of office:meta; values are given after tostr."
 },
 "C35": {
  "note": "None stands for an element without text."
 },
 "C36": {
  "note": "Values after tostr; update takes the items of the dictionary."
 },
 "C37": {
  "note": "Values after tostr; attribute order of iteration not modelled (the listed items are characterised as a set)."
 },
 "C38": {
  "note": "A save is modelled by its two effects on the meta document (document.py:122-123); the clock and generator string are arbitrary."
 },
 "C33": {
  "note": "Model in Document.v over the file manager model; parsing, zip and encoding are the class Bytes. Only classes of variables.py count as named inside the declarations. Template bytes that are no zip are not treated as a file name."
 },
 "C52": {
  "note": "play_doc [MTouch; MInc] is the meta data history of C34-C38. `parsed` in FileSys.v is what reading does to a written tree. C52_any needs only `rooted`, C52_save and C52_tobytes a complete document; all are up to empty texts, C52_same is about trees without, C52_solid says opened and new documents are such."
 },
 "C53": {
  "note": ""
 },
 "C46": {
  "note": "Model in Wrapper.v over the store of nodes with identity; wrapper objects are their nodes. Attribute access is C47."
 },
 "C43": {
  "note": "Model in Pages.v. The objects handed out are their nodes (the wrapper cache is C54)."
 },
 "C47": {
  "note": "Attrs.v models base.py get_attr/set_attr/get_bool_attr/set_bool_attr, all of propertymixins.py, Hyperlink.target_frame and Section.protected. int(value) in the limited setters is given by its result; the random key is a parameter."
 },
 "C44": {
  "note": "Observer.v. Handlers are given by what calling them returns and do not change subscriptions; the WeakSet order is a parameter (any permutation)."
 },
 "C45": {
  "note": "Xmlns.v; the namespace maps of const.py are written out. Justifies prefixed names as tags and attribute names in all other models."
 },
 "C54": {
  "note": "WrapCache.v with an explicit memory: objects at addresses, reference counting (an object is freed only when nothing refers to it), lxml's one element object per node."
 },
 "C50": {
  "note": "TimeParser.v on Float64.v (binary64 arithmetic of Coq's SpecFloat) with CPython's strptime, strftime and timedelta accumulation written out. Padding of %Y is a parameter."
 },
 "C48": {
  "note": "Variables.v on the node store of Wrapper.v. What lxml makes of a name with an apostrophe is a parameter without laws; the theorems exclude such names."
 },
 "C49": {
  "note": "Styles.v. Wrapping is modelled for style tags only (page-layout fails: its constructor has no parameter xmlnode)."
 },
 "C55": {
  "note": "TextLists.v on the node store of Wrapper.v and the trees of PlainText.v. The ODF wrapping of the child returned by content is covered by its tag only."
 },
 "C56": {
  "note": "TableReload.v on the models of C07-C13 (tables) and C52 (documents). C56_loaded, C56_new and C56_history keep the table free of repetitions, C56_reload reads it again, C56_saved does it through save() and opendoc()."
 },
 "C57": {
  "note": "FlatDocument.v on the models of C34 (meta data), C33 (documents) and C35-C37 (file system calls with failures). The root element is object 0 of the state. The negative results are theorems: C57_new_counterexample, C57_meta_counterexample, C57_opendoc, C57_lost_counterexample."
 },
 "C58": {
  "note": "Sheet.v composes the models of C16 (cells in tables), C22 (values), C43 (sheets), C56 (tables read again) and C52 (documents). C58_cells and C58_last are about the table in memory, C58_reopened and C58_saved about the document opened from the file. set_value never brings in an empty text (SolidCells.v), unless it is in a paragraph given as value."
 },
 "C59": {
  "note": "SpanLayout.v adds reading of span and covered through the table to the models of C19 (spans), C14/C15 (rows and columns), C58 (values, saved sheets). The areas after inserting and deleting are computed by areas_after in SpanLayoutSpec.v from the arguments alone."
 },
 "C60": {
  "note": "Composition with C27, C29, C30, C33 and C52. That a first, uncompressed entry starts at byte 30 is a law of the class ZipLayout (satisfied by tree_layout), not derived from the zip format. The type given to the check is text encoded as UTF-8; other bytes are not modelled."
 },
 "C61": {
  "note": "What lxml parses is a parameter (XmlParser: text to list of elements or exception, no laws); comments and processing instructions as first node are not modelled. Elements of registered classes that are not styles (tables, paragraphs, ...) are excluded, as their constructors may change the element."
 },
 "C62": {
  "note": "Sheets have positive numeric repetition counts and no tables inside cells (domain of C09-C11); settings with maximum counts below 2 for 'all_less_maxcount' are excluded (KeyError, counterexample of C09). Changes made through a table object keep it without repetitions (C56 shows which calls do). The list of sheets itself is the subject of C43."
 },
 "C63": {
  "note": "random.sample is a parameter (class Random) with its documented law: k distinct elements of the population. The repr of a list of letters and digits is modelled in full. Keys are not compared with the digest ODF asks for."
 },
 "C64": {
  "note": "Items and header are strings; the parts are new nodes, so the element of the list is the state (C55 has the header setter on a store of shared nodes)."
 },
 "C65": {
  "note": "Renaming is in the store of all trees with node identity; the pages used in a history are elements outside of and not above the body. Making sheets (Table(name)) is part of C13 and C21."
 },
 "C66": {
  "note": "wrap() of a page layout raises TypeError (C49), so the class is only reached by calling it."
 },
 "C67": {
  "note": "TextDoc.v works on the content tree of the document of C52; `edited` in TextDocSpec.v describes one call, C67_determined says that this leaves nothing open. Inserted elements have no parent before; moving nodes between trees is C46. Declaration elements must hold only variables (`good_decl`), otherwise the file cannot be opened (C33)."
 },
 "C68": {
  "note": "Sessions.v puts together C34-C38, C52 and C67. Between save and opendoc the machine may do anything that leaves the saved file alone; the save itself may fail in the ways of C28, then the session does not count."
 },
 "C69": {
  "note": "Book.v puts the container of C65/C53, the table objects of C07-C13 and the cache of C54 on one tree; TableProps.v adds the properties of sheets, rows and columns (the protection key of C63 is an argument), BookSpans.v the spans of C19; BookSaved.v composes with C52 and C56. insert_columns at a place outside of the sheet (which puts cells into the rows before it raises), cells moved from one sheet to another, a span of 1x1 (which raises KeyError), and insert/index of the container are not in the programs."
 },
 "C70": {
  "note": "Composes C69 (one session on a workbook) with the sessions of C68, by induction on the sessions. Between a save and the next opendoc anything may happen to the file system except to the saved file."
 },
 "C71": {
  "note": "Complements C16, which excludes cells that are already in the table. Text after elements inside of a table row is not content and not followed (lxml drops the text after the replaced cell)."
 },
 "C72": {
  "note": "C72_values (in memory: frame, unassigned names, last assignment) and C72_saved (the document saved and opened again); what lxml's xpath finds for names with an apostrophe is the parameter odd, and such names are left out."
 },
 "C73": {
  "note": "C73_works (call by call, with everything that is no page unchanged), C73_determined and C73_saved. Work on the content of a page is an arbitrary function of its tree; the identity of elements inside a page is not followed, and pages of other documents are left out."
 },
 "C74": {
  "note": "C74_life, C74_meta and C74_opens, by induction over the sessions on top of C73 and C68. The styles are not edited, and the sessions use saveas() with a zipped package (not flat XML)."
 },
 "C75": {
  "note": "C75_life, C75_stays, C75_last and C75_meta, by induction over the sessions on top of C72 and C68. The sessions use saveas() with a zipped package; the rest of the body is not edited in them. What a name with an apostrophe selects (an XPath of another shape) is a parameter of each session."
 },
 "C76": {
  "note": "C76_life, C76_meta and C76_opens, by induction over the sessions on top of C57 and the laws of meta data (C34-C38). As opendoc() never opens a flat file (C57_opendoc), the sessions construct FlatXMLDocument from the parsed file."
 },
 "C77": {
  "note": "C77_saved and C77_others, from the invariant of C49, the frame of the program (nothing but the container changes) and C52_save."
 },
 "C78": {
  "note": "C78_saved and C78_found, by induction over the texts on top of C61, and C52_save. How texts are parsed is a parameter (XmlParser)."
 }
}