{
 "C01": {
  "status": "proved",
  "note": "All well-formed documents and all resolving paths, including the empty path."
 },
 "C02": {
  "status": "proved",
  "note": "All well-formed documents; any prefix resolving to an array followed by a bad step and any remaining steps."
 },
 "C03": {
  "status": "partial",
  "note": "False in general: the key search runs on into later siblings (C03_absent_key_refuted). C03_absent_key_exact determines the result for every absent key: not found, or the value of a member of a later sibling (Domains.stray), except in texts with brackets inside strings where the scanner does not recognise strings (Unclear). Those are covered only when the quoted key occurs nowhere."
 },
 "C04": {
  "status": "partial",
  "note": "False in general (C04_below_value_refuted). Proved when the search goes on in vain (seen_below). C04_below_value_exact gives the result of Get, and C04_set_below that of Set, in all cases but two: a string or key with brackets lies between the value and the next container, or the container found lacks the rest of the path as well."
 },
 "C05": {
  "status": "proved",
  "note": "Byte-for-byte, for every replacement text; tree and content versions as well."
 },
 "C06": {
  "status": "proved",
  "note": "Same path and every path that parts from it in the tree."
 },
 "C07": {
  "status": "proved",
  "note": "Content version and textual locality."
 },
 "C08": {
  "status": "partial",
  "note": "False in general because C03 is (C08_add_pair_refuted). Proved when absence is visible or the object is empty; refused when the search ends in another object (C08_add_pair_stray); present key and non-object cases proved; strings that read {...} are taken for objects."
 },
 "C09": {
  "status": "partial",
  "note": "Array targets fully proved. Non-array targets: proved except strings whose raw text is [...], for which the statement is false (C09_add_element_refuted)."
 },
 "C10": {
  "status": "partial",
  "note": "False when whitespace precedes the last of several elements (C10_insert_refuted); otherwise proved, out-of-range indexes proved, refusal of what is no array (and no string that reads like one) proved. C10_insert_exact: the result is a document exactly on the layouts proved; C10_insert_garbles gives the bytes otherwise."
 },
 "C11": {
  "status": "partial",
  "note": "False in general because C03 is (C11_setkey_refuted); proved when absence of the new key is visible; refused when its search ends in another object (C11_setkey_stray); taken key and array element cases proved."
 },
 "C12": {
  "status": "partial",
  "note": "False in general because C03 is (C12_store_refuted); proved when the key is present or its absence is visible; when the search ends in another object the value there is overwritten (C12_store_stray)."
 },
 "C32": {
  "status": "partial",
  "note": "Proved for the seven byte-level updating functions and all typed wrappers on arbitrary bytes, except AddKeyValueString with an empty key and InsertString with a negative index, which return nil (C32_typed_refuted)."
 },
 "C33": {
  "status": "proved",
  "note": "All error values, all embedded strings."
 },
 "C36": {
  "status": "partial",
  "note": "Full statement false since single operations are (C36_history_refuted). Proved unconditionally for Set/Delete/Add histories and for all seven operations when each is in the domain of its theorem or provably rejected."
 },
 "C13": {
  "status": "partial",
  "note": "Non-empty arrays proved for every callback and state, with early stop and errors; exact behaviour on empty arrays proved, which refutes the statement there (C13_iterate_array_refuted)."
 },
 "C14": {
  "status": "partial",
  "note": "Non-empty objects proved for every callback (the last pair's error is dropped by the code, values must not be one byte followed by blanks); refuted outside (C14_iterate_key_value_refuted). The result on every object, including the exceptions, is determined (C14_iterate_key_value_exact)."
 },
 "C15": {
  "status": "partial",
  "note": "GetKeys exact on all objects; GetValues/GetKeysValues on non-empty objects without a one-byte value followed but not preceded by blanks; refuted outside (C15_listing_refuted). The result on every object, including the exceptions, is determined (C15_get_values_exact, C15_get_keys_values_exact)."
 },
 "C16": {
  "status": "partial",
  "note": "Exact result on every container, number and literal (these are not refused: C16_length_of_a_number_or_literal); the statement fails only for a root array with one one-byte element (C16_length_refuted)."
 },
 "C17": {
  "status": "partial",
  "note": "IsArray and IsValue fully proved; IsObject is also true on arrays, GetType takes the blanks around a root token for part of it (C17_types_refuted); otherwise proved, and the result is determined on every value (C17_get_type_exact, C17_get_type_blanks). With the ParseFloat of GoFloat.v, GetType calls a JSON number a number exactly when it is not too large for a float64 (C17_get_type_of_a_number)."
 },
 "C18": {
  "status": "partial",
  "note": "Exact result on every value, strings that read like containers included (C18_is_empty_of_a_string_exact); refuted for one-byte one-element arrays and for strings that read like containers (C18_is_empty_refuted)."
 },
 "C19": {
  "status": "partial",
  "note": "Root and containers directly followed by a bracket of their kind; refuted elsewhere (C19_get_map_refuted). The result on every value of every document, including the exceptions, is determined (C19_get_map_exact, C19_not_a_container)."
 },
 "C22": {
  "status": "partial",
  "note": "Non-empty arrays without a one-byte element followed but not preceded by blanks; refuted outside (C22_parse_array_refuted). The result on every array, including the exceptions and the panic, is determined (C22_parse_array_exact, C22_get_string_array_exact)."
 },
 "C23": {
  "status": "partial",
  "note": "Values, order and first error proved on non-empty arrays (same whitespace condition as C22); the empty array panics (C23_typed_arrays_refuted). The result on every array, including the exceptions and the panics, is determined (C23_get_*_array_exact), and on other values (C23_array_in_string, C23_not_an_array)."
 },
 "C38": {
  "status": "proved",
  "note": "All byte sequences, key lists and paths: results, first error, and the map version."
 },
 "C20": {
  "status": "proved",
  "note": "Well-formed documents: the result is the rendering of the tree with all gaps emptied. Every byte sequence: idempotent, never longer, and every non-whitespace byte kept in order."
 },
 "C21": {
  "status": "partial",
  "note": "False in general (C21_indent_refuted): a string ending in an escaped backslash makes Indent lose track of quotes, and a document that is a bare string panics. Proved for the remaining documents (calm), with the exact layout. On every byte string: only blanks change (C21_indent_keeps_every_other_byte), the panics are determined exactly, and Flatten undoes Indent unless a quote follows an escaped backslash or a backslash stands outside of quotes."
 },
 "C24": {
  "status": "partial",
  "note": "False for paths that do not resolve but where the scanner finds something (C24_int_refuted). Proved for every resolving position; Store needs the key present or visibly absent, Insert the layout of C10. The text written is always an RFC 8259 number (C24_text_is_json)."
 },
 "C25": {
  "status": "partial",
  "note": "Proved for every resolving position; Store needs the key present or visibly absent, Insert the layout of C10. Unresolved paths deviate as in C24. The full statement (C25_statement) is false: C25_bool_refuted."
 },
 "C26": {
  "status": "partial",
  "note": "False: base 32 and base 64 are passed to strconv (C26_sized_integers_refuted). Proved: the 32-bit writers are right exactly for one-digit numbers, the 64-bit writers always panic."
 },
 "C28": {
  "status": "partial",
  "note": "False for strings that need escaping and for texts strconv takes for numbers (C28_strings_refuted, for every ParseFloat). Proved: JSON values given as strings are kept valid; raw JSON string content gives a valid value unless taken for a number or bracketed text. With the ParseFloat of GoFloat.v the strings that go wrong are determined exactly (C28_string_exact, C28_other_strings): nan, Inf, 0x1p-2, 1_000.5, +5, .5 and the like are written without quotes (C28_numerals_refuted)."
 },
 "C41": {
  "status": "partial",
  "note": "Raw strings without unescaped quotes that are not fenced by brackets, at every resolving position; Store needs the key present or visibly absent, Insert the layout of C10. ParseFloat is an arbitrary predicate that accepts only token characters; the _go theorems are for the one of GoFloat.v, without that condition. The full statement (C41_statement) is false: C41_string_refuted."
 },
 "C42": {
  "status": "partial",
  "note": "Proved for every history of Set, Delete and Add, for Flatten, and for single calls and histories of all seven operations within the domains of their own theorems; false outside because of C03 and C10 (C42_validity_refuted)."
 },
 "C27": {
  "status": "partial",
  "note": "Non-empty argument lists; string values in the domain `fit` (printed by formatType as one scalar or string, see C28). Empty non-nil slices give `]` or `}`: C27_make_refuted. MakeArrayFloat is wrong for most numbers: C27_float_text_exact, C27_floats_refuted."
 },
 "C31": {
  "status": "proved",
  "note": "All histories, all slice capacities, any growth policy of append. The heap model (Heap.v) makes the aliasing explicit. C31_current_keys_refuted shows the two side conditions of the aliasing theorems (no Restore in between; not past the end of the given slice) cannot be dropped."
 },
 "C39": {
  "status": "partial",
  "note": "Check is exact for all byte strings. CheckAbs for objects other than the text `{}` (there it answers false, as GetKeys errors: C39_check_abs_two_bytes). Mutations for distinct non-empty keys and values formatType copies faithfully; C39_mutate_refuted shows strings that read as numbers change type, and that MutateJson returns (nil, nil) on duplicate scheme keys."
 },
 "C29": {
  "status": "partial",
  "note": "False for steps into an array of one scalar or string and for indexes such as +1 or 01 (C29_lonely_refuted, C29_index_refuted). Proved for all other resolving paths; whatever is found is what Get finds, and unresolvable paths fail, with no condition on the path. A scalar root makes Parse fail (proved)."
 },
 "C30": {
  "status": "partial",
  "note": "False in many ways, each with a witness (C30_*_refuted). Proved for single calls and for all histories from Parse on of Set, Delete, Add, AddKeyValue, SetKey and at most one Insert, with scalars or strings put in, nothing with children overwritten, unique keys, and last elements deleted."
 },
 "C35": {
  "status": "partial",
  "note": "False in five ways, each with a witness (C35_*_refuted). Proved: on every well-formed document whose empty objects do not mislead the scanner, repeated keys or not, and for every callback, Walk makes exactly the calls of the separately defined walk `walked` on the document as its paths show it (C35_walk_partial), which is the expected one when no array is empty and, apart from stopping, when there are no objects or no errors (C35_leaves_partial). Walk ends on every input (C35_terminates)."
 },
 "C37": {
  "status": "partial",
  "note": "False when the path slice has spare capacity: append writes the key behind it (C37_*_refuted, including wrong GetAll results and overwritten paths kept from Walk). Proved: exactly which one cell is written (C37_writes), nothing visible changes without spare capacity or for slices not showing that cell, the results are those of the by-value models, and Walk leaves the caller's slices alone."
 },
 "C40": {
  "status": "partial",
  "note": "False for StoreString, which skips formatType (C40_store_string_refuted). Proved for all other methods on all bodies and arguments, for all histories of them, for all reading methods, and together with C36 for the documents held; failing methods keep the body except AddKeyValueString with an empty key and InsertString with a negative index (C40_failure_refuted)."
 },
 "C34": {
  "status": "partial",
  "note": "Termination: structural recursion in the model (Walk: C35_terminates). No panic: proved on all texts whose last non-blank byte is none of ': , [ {' (all documents among them) and all paths, for Get/GetString/GetInt/GetBool/GetFloat/GetAll/GetAllMap/GetType/Is*/Length/Set/SetKey/AddKeyValue/Add/Store/IterateArray; on all documents and paths for Insert and the typed variants; for Delete unless a path element is a prefix of the text. Refuted with witnesses: Delete in general, GetKeys/GetValues/GetKeysValues/GetMap/IterateKeyValue when the path leads into a string (never where it leads to a value: C34_listings_partial), the array getters on an empty array, incomplete texts. C34_blank_*: on every text of two or more blanks these functions all panic. Parser.AddKeyValue panics for a nil value under a key of two bytes or more wherever another value could be added (C34_nil_value)."
 },
 "C43": {
  "status": "partial",
  "note": "Proved byte for byte on all documents: Set of the present value, Set twice, Set/Delete hiding any earlier in-domain update at or below the path, Delete undoing Add and any AddKeyValue that succeeded, SetKey back when accepted, Sets / plain updates at parting places commuting, all seven updates commuting when each is in its own theorem's domain when called; deletions of two members of one object commute on content. False for Insert before the last element with whitespace before it, and SetKey back can be refused (C43_undo_refuted)."
 },
 "C44": {
  "status": "partial",
  "note": "Proved for Get of present paths, Get after Flatten, the type tests, GetType, GetKeys and Length below the root, the typed getters, the array getters on arrays without containers (whitespace condition of C22), IterateArray and GetKeys on non-empty containers, every history of Set, Delete and Add, every update that is in its own theorem's domain on both documents, and every history of Set, Delete, Add, AddKeyValue, SetKey and Store whose new keys are found nowhere by the search (settled_from). Paths that do not resolve answer alike too: a key the object lacks, a path below a value, a bad index; so do GetValues and GetKeysValues without blanks before commas. Walk runs alike on both with any callback (unless the search finds an empty object's empty key), and so do IterateArray, and IterateKeyValue without blanks before commas, with any callbacks that treat texts of the same content alike. What Flatten writes, and Indent on calm documents, is such a document. False for Insert in general (C44_whitespace_refuted)."
 },
 "C45": {
  "status": "partial",
  "note": "Proved on all byte strings for Get, Set, Add, AddKeyValue, Store and Insert; for Delete unless the text begins with a comma (then the text can grow, C45_delete_refuted); for SetKey one stretch is always replaced, and it is the key between its quotes when the key's quotes are escaped and the text does not begin with the key (C45_set_key_refuted otherwise)."
 },
 "C46": {
  "status": "proved",
  "note": "Pointers.v models the node structs on a heap, with nil dereference as a panic; C46_refines shows that it panics, fails and answers like Parser.v for every text and every history, and that the nodes reached from the core form the tree of Parser.v."
 },
 "C47": {
  "status": "partial",
  "note": "The typed getters agree with the interpreter's for every resolving path (straight, as in C29) right after Parse and after every history covered by C30; where the parser's Get fails they fail with the same error. GetNew is exact right after Parse for every path: well-formed and of the same content. After every C30 history without Insert it is well-formed and of the same content as the value addressed, for values without repeated keys (C47_get_new_history_partial). For the document itself it can show the old text when that has become empty (C47_get_new_refuted), and after an Insert it shows the new element last (C47_insert_refuted)."
 },
 "C48": {
  "status": "partial",
  "note": "Exact output for every document (C48_tree_partial); what is listed is every value a straight path leads to (C48_all), nothing else (C48_only) and nothing twice (C48_once). False for the element of an array of one scalar or string, which is not shown (C48_tree_refuted)."
 },
 "C49": {
  "status": "partial",
  "note": "False for infinities and NaN, which are written as +Inf, -Inf, NaN (C49_infinity_refuted; they are read back all the same). Proved for every float64 at every resolving position; Store needs the key present or visibly absent, Insert the layout of C10. Every finite float64 has a text (C49_every_float_is_written) and reading rounds to nearest, ties to even (C49_get_float, C49_rounding). strconv is modelled in GoFloat.v; of FormatFloat only its promise is used."
 },
 "C50": {
  "status": "proved",
  "note": "A number, true, false or null must be followed by a blank, a comma or a closing bracket: otherwise it is another token. The index in the error is the place where the value begins."
 },
 "C51": {
  "status": "proved",
  "note": "The decisions of the functions are taken from Api.v and Format.v on the bytes the slices show; what they do to memory is modelled step by step. Refuted beside it: that Get copies, and that a failing update returns a copy."
 },
 "C52": {
  "status": "partial",
  "note": "All but the last two clauses are proved as stated. The typed array getters panic on the empty array, which is excepted. Of Length and IsEmpty only one direction holds: where Length is zero IsEmpty does not answer false; the converse is refuted (IsEmpty does not look at the last byte inside the brackets). On documents the exact condition is proved (C52_length_on_documents)."
 },
 "C53": {
  "status": "partial",
  "note": "Proved for all sixteen writers after any lawful history, for places the tree has a node for. Refuted as stated: Add into an array of one number or into an empty root array, SetString of the empty text (panics) and of a text ending with an escaped quote (not quoted)."
 },
 "C54": {
  "status": "proved",
  "note": "Walking, and the decisions of the package functions called, are taken on the bytes the slices show; what is stored where is modelled step by step. Refuted beside it: that Parse copies the document, that an update frees the parser from it, that Set copies the value, and that GetNew of a plain value is new memory."
 },
 "C55": {
  "status": "partial",
  "note": "Proved for the states reached by Parse and lawful histories, and for empty paths, keys and values on every parser. Refuted as stated: AddKeyValue of a taken key below the root leaves a second node in the tree, SetKey on an array element reports nothing, Insert at a negative index panics, Add writes into a string that reads like an array. Also refuted: AddKeyValue accepts every new key (it looks beside the object)."
 },
 "C56": {
  "status": "partial",
  "note": "The errors of Get, the typed getters, IsEmpty, all updates, Store, SetKey and the guards are proved on all byte strings. Length and GetMap answer on {} and [] whatever the path; the type tests and listings, which do not look at the whole value, share the errors that are not about the value itself (C56_statement_refuted). AddKeyValue itself takes an empty key (C56_empty_key_refuted)."
 },
 "C57": {
  "status": "partial",
  "note": "Proved on every parser for Delete and Insert, and below the root for Add and AddKeyValue. Set and SetKey ignore the error of the function they call, so they can report success with the text unchanged (C57_set_refuted). At the root Add and AddKeyValue write a comma into an empty container (C57_statement_refuted); their texts are given byte for byte, with the exact conditions for both. A nil value for AddKeyValue is modelled apart (ParserNil.v): below the root the text gets null as the function writes it, at the root nothing, which is no document."
 },
 "C58": {
  "status": "proved",
  "note": "All 27 updating methods, memory as in GoMem.v. The four refuted statements say that New, JSON, Get and a failing call do not copy, as the property has it."
 },
 "C59": {
  "status": "partial",
  "note": "IterateArray on all byte strings. IterateKeyValue: on all byte strings for callbacks that leave the document as it is, and at objects with members in documents for callbacks that edit it; on other texts an edited value can be handed over again (C59_statement_refuted). Callbacks that panic are covered too (C59_panicking_*): the iteration panics exactly where the callback does."
 },
 "C60": {
  "status": "proved",
  "note": "Exact for panics and failures of Parse. That Parse never panics, and that GetNew never does, is refuted (C60_total_refuted, C60_get_new_refuted), as the property has it. What the Parser reads from a malformed text is not specified."
 },
 "C61": {
  "status": "proved",
  "note": "Add and Insert right after Parse, into arrays that are not of one scalar (for those see C30_add_lonely_refuted); AddKeyValue where the key was not found before. Members of a container put in are those straight paths lead to; what GetNew shows of it is told relative to what GetNew of a new parser shows. That members are found where a caller expects them is refuted (C61_where_put_refuted). A nil value for AddKeyValue leaves a node that holds nothing while the text has null (C61_add_key_value_nil_drifts)."
 },
 "C62": {
  "status": "proved",
  "note": "core_go (CoreGo.v) is a transcription by hand too, but keeps the statements and variables of the source, so that it can be compared with it line by line."
 },
 "C63": {
  "status": "proved",
  "note": "The transcriptions (IterGo.v) are by hand too, but keep the statements and variables of the source. The callback is any function of a state; a callback that panics or changes the text is outside (C59)."
 },
 "C64": {
  "status": "proved",
  "note": "Nodes are cells of a heap as in C46; slices are values, as everywhere outside the memory models."
 },
 "C65": {
  "status": "proved",
  "note": "The transcriptions (ListGo.v) are by hand too, but keep the statements and variables of the source."
 },
 "C66": {
  "status": "proved",
  "note": "The transcriptions (SplitGo.v) are by hand too, but keep the statements and variables of the source."
 },
 "C67": {
  "status": "proved",
  "note": "The transcriptions (FormatGo.v) are by hand too, but keep the statements and variables of the source."
 },
 "C68": {
  "status": "proved",
  "note": "The transcriptions (UpdateGo.v) are by hand too, but keep the statements and variables of the source. Slices are values, as everywhere outside the memory models; that the caller's arrays are not written to is C51."
 },
 "C69": {
  "status": "proved",
  "note": "The transcriptions (MakeGo.v) are by hand too, but keep the statements and variables of the source. Floats are given as the texts strconv.FormatFloat makes, other values as the texts of fmt.Sprintf; a map as its pairs in the order range yields them."
 },
 "C70": {
  "status": "proved",
  "note": "The transcriptions (WalkGo.v) are by hand too, but keep the statements and variables of the source. Paths are values; what append(path, key) does to the array behind a path is C37."
 },
 "C71": {
  "status": "proved",
  "note": "The transcription (ParserGo.v) is by hand too, but keeps the statements and variables of the source; what the methods call are the programs of C62 to C68. The heap of nodes is that of Pointers.v. Bytes at least 256 are excluded by octets. Parser.AddKeyValue with a nil value apart: C71_add_key_value_nil."
 },
 "C72": {
  "status": "partial",
  "note": "Proved for the statement-by-statement programs on all documents within the domains of the properties named; those domains are what is missing where C03, C07-C11, C13-C16, C21, C30 and C35 are partial or refuted. A root array holding one one-byte element right before its bracket counts 0, so the full statement is false (C72_length_refuted; C72_length_exact says what is counted). Bytes at least 256 are excluded by octets."
 },
 "C73": {
  "status": "partial",
  "note": "The equations with the models are proved for all byte strings. Write-then-read by the programs is proved at every resolving position; Store needs the key present or visibly absent, Insert the layout of C10 (C73_int_partial, C73_bool_partial), as in C24 and C25. strconv.ParseFloat is a parameter; a float value is given as its text. Bytes at least 256 are excluded by octets. For paths that do not resolve it is false: C73_int_refuted."
 },
 "C74": {
  "status": "partial",
  "note": "Proved on arbitrary bytes of the kind named, for arbitrary histories. Delete and Insert are left out: on texts that are no JSON they can panic (C74_refuted). So can GetNew, after an AddKeyValue of the Parser that was refused has left a node behind. Values given to a Parser must not be a lone quote nor, opening with a bracket, close too many (C60_set: Set panics on those); every JSON text qualifies (C74_documents_fair). The _written theorems say the same of the functions as transcribed, typed methods of the Parser included: such a history returns."
 },
 "C75": {
  "status": "proved",
  "note": "On arbitrary UTF-8 bytes; paths may be anything. C75_jo_written and C75_parser_written say it of the functions as transcribed. C75_get_new_refuted shows why GetNew after an update is left out of the statement."
 },
 "C76": {
  "status": "partial",
  "note": "The full statement (C76_statement) is false, C76_piece_refuted: the search for an absent key runs on behind the piece, so a key absent from the piece may be found in the document. Proved for everything present, for bad indexes, for keys the search does not find, for all seven updates in their domains and for histories of Set, Delete and Add. At the root of the piece Length of a one-element text and the listings of {} and [] differ."
 },
 "C77": {
  "status": "proved",
  "note": "flat c is the text of a content c without a blank; values are given in the same form. Strings given to the Make functions are those of C27 (fit). AddKeyValue, SetKey and Store in the domains of their own theorems (legal)."
 },
 "C78": {
  "status": "proved",
  "note": "Keys are usable (different, not empty, no escaping needed), values fit (C27: no escaping needed, not bracketed, and what ParseFloat accepts is a token). MutateJson with a missing key needs ParseFloat to reject the empty text. Failing array calls: some error, InsertString with a negative index returns nil for the text."
 },
 "C79": {
  "status": "partial",
  "note": "The full statement (C79_statement) is false, C79_parser_refuted: AddKeyValue on the object without members puts a comma. Proved for string values (no arrays or objects) and all histories that add nothing while the object has no members (p_goes), with texts whose length is an int."
 },
 "C80": {
  "status": "partial",
  "note": "Reading is proved in full, Walk for values without empty maps or slices and callbacks without errors, the Parser for all but the only string of a slice (C29). For the updates the full statement (C80_statement) is false, C80_new_key_refuted: AddKeyValue and Store in a map inside take a key of a later map for one of this map. Proved for keys that are there already and for new keys that the text shows nowhere in quotes (mcmd_ok). Calls that do not apply leave the text as it is and say why (C80_refused, C80_taken); C80_any_call_partial says of any call but Store into a slice whether it applies."
 },
 "C81": {
  "status": "partial",
  "note": "As C80: reading and Walk are proved in full on their domains; the updates for keys that are there already and for new keys that the text shows nowhere in quotes (mcmd_ok), the full statement (C81_statement) being false, C81_new_key_refuted; the Parser for all but the only string of a slice (C29). strconv.ParseFloat is a parameter. Bytes at least 256 are excluded (m_octets)."
 },
 "C82": {
  "status": "partial",
  "note": "Proved where a key absent from a map is one the text shows nowhere in quotes (C80), keys are not empty and indices not negative (else the JO loses its body, C40), no path leads into a string and Store is called on maps (m_sures). The full statement, with StoreString for Store, is false: C82_store_string_refuted."
 },
 "C83": {
  "status": "partial",
  "note": "Proved for histories in which only strings are put in, in the place of strings or empty maps and slices, on the paths of C29, with keys unique where one is deleted or renamed, the last element of a slice deleted, and nothing added to an empty root or to a slice of one string (p_mcmd_ok); calls that do not apply are included where no element of a slice is renamed and a key is added to a map that has it only at the root (p_m_calm); Insert and Store (which Parser lacks) are left out. The full statement (C83_statement) is false: C83_tree_refuted. Set is given the text the Make functions write, not SetString (C30). strconv.ParseFloat is a parameter; the last conclusion assumes that the length of the text is an int."
 }
}