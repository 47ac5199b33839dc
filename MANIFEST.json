{
 "claims": [
  {
   "property": "C01",
   "status": "proved",
   "theorems": [
    "C01_get_returns_addressed_value"
   ],
   "note": "All well-formed documents and all resolving paths, including the empty path."
  },
  {
   "property": "C02",
   "status": "proved",
   "theorems": [
    "C02_bad_array_step"
   ],
   "note": "All well-formed documents; any prefix resolving to an array followed by a bad step and any remaining steps."
  },
  {
   "property": "C03",
   "status": "partial",
   "theorems": [
    "C03_absent_key_exact",
    "C03_absent_key_partial",
    "C03_absent_key_refuted",
    "C03_set_stray"
   ],
   "note": "False in general: the key search runs on into later siblings (C03_absent_key_refuted). C03_absent_key_exact determines the result for every absent key: not found, or the value of a member of a later sibling (Domains.stray), except in texts with brackets inside strings where the scanner does not recognise strings (Unclear). Those are covered only when the quoted key occurs nowhere."
  },
  {
   "property": "C04",
   "status": "partial",
   "theorems": [
    "C04_below_value_exact",
    "C04_below_value_partial",
    "C04_below_value_refuted",
    "C04_set_below"
   ],
   "note": "False in general (C04_below_value_refuted). Proved when the search goes on in vain (seen_below). C04_below_value_exact gives the result of Get, and C04_set_below that of Set, in all cases but two: a string or key with brackets lies between the value and the next container, or the container found lacks the rest of the path as well."
  },
  {
   "property": "C05",
   "status": "proved",
   "theorems": [
    "C05_set_gives_the_updated_content",
    "C05_set_gives_the_updated_tree",
    "C05_set_replaces_the_value"
   ],
   "note": "Byte-for-byte, for every replacement text; tree and content versions as well."
  },
  {
   "property": "C06",
   "status": "proved",
   "theorems": [
    "C06_get_after_set",
    "C06_get_elsewhere_after_set"
   ],
   "note": "Same path and every path that parts from it in the tree."
  },
  {
   "property": "C07",
   "status": "proved",
   "theorems": [
    "C07_delete_only_removes_text",
    "C07_delete_removes_one_item"
   ],
   "note": "Content version and textual locality."
  },
  {
   "property": "C08",
   "status": "partial",
   "theorems": [
    "C08_add_pair_partial",
    "C08_add_pair_refuted",
    "C08_add_pair_stray",
    "C08_not_an_object",
    "C08_present_key"
   ],
   "note": "False in general because C03 is (C08_add_pair_refuted). Proved when absence is visible or the object is empty; refused when the search ends in another object (C08_add_pair_stray); present key and non-object cases proved; strings that read {...} are taken for objects."
  },
  {
   "property": "C09",
   "status": "partial",
   "theorems": [
    "C09_add_appends_one_element",
    "C09_add_element_refuted",
    "C09_add_only_adds_text",
    "C09_not_an_array_partial"
   ],
   "note": "Array targets fully proved. Non-array targets: proved except strings whose raw text is [...], for which the statement is false (C09_add_element_refuted)."
  },
  {
   "property": "C10",
   "status": "partial",
   "theorems": [
    "C10_index_out_of_range",
    "C10_insert_exact",
    "C10_insert_garbles",
    "C10_insert_partial",
    "C10_insert_refuted",
    "C10_not_an_array_partial"
   ],
   "note": "False when whitespace precedes the last of several elements (C10_insert_refuted); otherwise proved, out-of-range indexes proved, refusal of what is no array (and no string that reads like one) proved. C10_insert_exact: the result is a document exactly on the layouts proved; C10_insert_garbles gives the bytes otherwise."
  },
  {
   "property": "C11",
   "status": "partial",
   "theorems": [
    "C11_array_element",
    "C11_key_taken",
    "C11_setkey_partial",
    "C11_setkey_refuted",
    "C11_setkey_stray"
   ],
   "note": "False in general because C03 is (C11_setkey_refuted); proved when absence of the new key is visible; refused when its search ends in another object (C11_setkey_stray); taken key and array element cases proved."
  },
  {
   "property": "C12",
   "status": "partial",
   "theorems": [
    "C12_store_partial",
    "C12_store_refuted",
    "C12_store_stray"
   ],
   "note": "False in general because C03 is (C12_store_refuted); proved when the key is present or its absence is visible; when the search ends in another object the value there is overwritten (C12_store_stray)."
  },
  {
   "property": "C13",
   "status": "partial",
   "theorems": [
    "C13_empty_array_exact",
    "C13_iterate_array_partial",
    "C13_iterate_array_refuted",
    "C13_not_an_array"
   ],
   "note": "Non-empty arrays proved for every callback and state, with early stop and errors; exact behaviour on empty arrays proved, which refutes the statement there (C13_iterate_array_refuted)."
  },
  {
   "property": "C14",
   "status": "partial",
   "theorems": [
    "C14_iterate_key_value_exact",
    "C14_iterate_key_value_partial",
    "C14_iterate_key_value_refuted",
    "C14_not_an_object"
   ],
   "note": "Non-empty objects proved for every callback (the last pair's error is dropped by the code, values must not be one byte followed by blanks); refuted outside (C14_iterate_key_value_refuted). The result on every object, including the exceptions, is determined (C14_iterate_key_value_exact)."
  },
  {
   "property": "C15",
   "status": "partial",
   "theorems": [
    "C15_get_keys_partial",
    "C15_get_keys_values_exact",
    "C15_get_keys_values_partial",
    "C15_get_values_exact",
    "C15_get_values_partial",
    "C15_listing_refuted",
    "C15_not_an_object"
   ],
   "note": "GetKeys exact on all objects; GetValues/GetKeysValues on non-empty objects without a one-byte value followed but not preceded by blanks; refuted outside (C15_listing_refuted). The result on every object, including the exceptions, is determined (C15_get_values_exact, C15_get_keys_values_exact)."
  },
  {
   "property": "C16",
   "status": "partial",
   "theorems": [
    "C16_length_exact",
    "C16_length_of_a_number_or_literal",
    "C16_length_partial",
    "C16_length_refuted"
   ],
   "note": "Exact result on every container, number and literal (these are not refused: C16_length_of_a_number_or_literal); the statement fails only for a root array with one one-byte element (C16_length_refuted)."
  },
  {
   "property": "C17",
   "status": "partial",
   "theorems": [
    "C17_get_type_blanks",
    "C17_get_type_exact",
    "C17_get_type_of_a_number",
    "C17_get_type_partial",
    "C17_is_array",
    "C17_is_object_exact",
    "C17_is_object_partial",
    "C17_is_value",
    "C17_types_refuted"
   ],
   "note": "IsArray and IsValue fully proved; IsObject is also true on arrays, GetType takes the blanks around a root token for part of it (C17_types_refuted); otherwise proved, and the result is determined on every value (C17_get_type_exact, C17_get_type_blanks). With the ParseFloat of GoFloat.v, GetType calls a JSON number a number exactly when it is not too large for a float64 (C17_get_type_of_a_number)."
  },
  {
   "property": "C18",
   "status": "partial",
   "theorems": [
    "C18_is_empty_exact",
    "C18_is_empty_of_a_number_or_literal",
    "C18_is_empty_of_a_string_exact",
    "C18_is_empty_of_a_string_partial",
    "C18_is_empty_partial",
    "C18_is_empty_refuted"
   ],
   "note": "Exact result on every value, strings that read like containers included (C18_is_empty_of_a_string_exact); refuted for one-byte one-element arrays and for strings that read like containers (C18_is_empty_refuted)."
  },
  {
   "property": "C19",
   "status": "partial",
   "theorems": [
    "C19_get_map_array_partial",
    "C19_get_map_exact",
    "C19_get_map_object_partial",
    "C19_get_map_refuted",
    "C19_not_a_container"
   ],
   "note": "Root and containers directly followed by a bracket of their kind; refuted elsewhere (C19_get_map_refuted). The result on every value of every document, including the exceptions, is determined (C19_get_map_exact, C19_not_a_container)."
  },
  {
   "property": "C20",
   "status": "proved",
   "theorems": [
    "C20_content_is_kept",
    "C20_flatten_decides_equality",
    "C20_flatten_is_idempotent",
    "C20_flatten_keeps_every_other_byte",
    "C20_flatten_never_lengthens",
    "C20_flatten_removes_insignificant_whitespace",
    "C20_same_content_same_text"
   ],
   "note": "Well-formed documents: the result is the rendering of the tree with all gaps emptied. Every byte sequence: idempotent, never longer, and every non-whitespace byte kept in order."
  },
  {
   "property": "C21",
   "status": "partial",
   "theorems": [
    "C21_flatten_undoes_indent",
    "C21_indent_ignores_whitespace",
    "C21_indent_keeps_every_other_byte",
    "C21_indent_layout_partial",
    "C21_indent_panics_exactly",
    "C21_indent_partial",
    "C21_indent_refuted",
    "C21_layout_keeps_content"
   ],
   "note": "False in general (C21_indent_refuted): a string ending in an escaped backslash makes Indent lose track of quotes, and a document that is a bare string panics. Proved for the remaining documents (calm), with the exact layout. On every byte string: only blanks change (C21_indent_keeps_every_other_byte), the panics are determined exactly, and Flatten undoes Indent unless a quote follows an escaped backslash or a backslash stands outside of quotes."
  },
  {
   "property": "C22",
   "status": "partial",
   "theorems": [
    "C22_cleaning_exact",
    "C22_get_string_array_empty_partial",
    "C22_get_string_array_exact",
    "C22_get_string_array_partial",
    "C22_parse_array_exact",
    "C22_parse_array_partial",
    "C22_parse_array_refuted"
   ],
   "note": "Non-empty arrays without a one-byte element followed but not preceded by blanks; refuted outside (C22_parse_array_refuted). The result on every array, including the exceptions and the panic, is determined (C22_parse_array_exact, C22_get_string_array_exact)."
  },
  {
   "property": "C23",
   "status": "partial",
   "theorems": [
    "C23_array_in_string",
    "C23_get_bool_array_exact",
    "C23_get_bool_array_partial",
    "C23_get_float_array_exact",
    "C23_get_float_array_partial",
    "C23_get_int_array_error_partial",
    "C23_get_int_array_exact",
    "C23_get_int_array_partial",
    "C23_not_an_array",
    "C23_typed_arrays_refuted"
   ],
   "note": "Values, order and first error proved on non-empty arrays (same whitespace condition as C22); the empty array panics (C23_typed_arrays_refuted). The result on every array, including the exceptions and the panics, is determined (C23_get_*_array_exact), and on other values (C23_array_in_string, C23_not_an_array)."
  },
  {
   "property": "C24",
   "status": "partial",
   "theorems": [
    "C24_add_int_partial",
    "C24_add_key_value_int_partial",
    "C24_insert_int_partial",
    "C24_int_refuted",
    "C24_set_int_partial",
    "C24_store_int_partial",
    "C24_text_is_json"
   ],
   "note": "False for paths that do not resolve but where the scanner finds something (C24_int_refuted). Proved for every resolving position; Store needs the key present or visibly absent, Insert the layout of C10. The text written is always an RFC 8259 number (C24_text_is_json)."
  },
  {
   "property": "C25",
   "status": "partial",
   "theorems": [
    "C25_add_bool",
    "C25_add_key_value_bool",
    "C25_bool_refuted",
    "C25_insert_bool_partial",
    "C25_set_bool",
    "C25_store_bool_partial"
   ],
   "note": "Proved for every resolving position; Store needs the key present or visibly absent, Insert the layout of C10. Unresolved paths deviate as in C24. The full statement (C25_statement) is false: C25_bool_refuted."
  },
  {
   "property": "C26",
   "status": "partial",
   "theorems": [
    "C26_32bit_text_is_decimal_for_one_digit_partial",
    "C26_32bit_unsigned_text_partial",
    "C26_32bit_writers_partial",
    "C26_64bit_writers_panic",
    "C26_digits_denote_the_number",
    "C26_sized_integers_refuted"
   ],
   "note": "False: base 32 and base 64 are passed to strconv (C26_sized_integers_refuted). Proved: the 32-bit writers are right exactly for one-digit numbers, the 64-bit writers always panic."
  },
  {
   "property": "C27",
   "status": "partial",
   "theorems": [
    "C27_bool_array_round_trip_partial",
    "C27_float_text_exact",
    "C27_floats_refuted",
    "C27_get_from_made_object_partial",
    "C27_int_array_round_trip_partial",
    "C27_lengths_must_agree",
    "C27_made_array_is_valid_partial",
    "C27_made_object_is_valid_partial",
    "C27_make_array_bool_partial",
    "C27_make_array_bytes_partial",
    "C27_make_array_int_partial",
    "C27_make_array_string_partial",
    "C27_make_json_string_partial",
    "C27_make_json_with_map_partial",
    "C27_make_refuted",
    "C27_printed_values",
    "C27_string_array_round_trip_partial"
   ],
   "note": "Non-empty argument lists; string values in the domain `fit` (printed by formatType as one scalar or string, see C28). Empty non-nil slices give `]` or `}`: C27_make_refuted. MakeArrayFloat is wrong for most numbers: C27_float_text_exact, C27_floats_refuted."
  },
  {
   "property": "C28",
   "status": "partial",
   "theorems": [
    "C28_json_value_given_as_string",
    "C28_numerals_refuted",
    "C28_other_strings",
    "C28_string_exact",
    "C28_string_partial",
    "C28_strings_refuted"
   ],
   "note": "False for strings that need escaping and for texts strconv takes for numbers (C28_strings_refuted, for every ParseFloat). Proved: JSON values given as strings are kept valid; raw JSON string content gives a valid value unless taken for a number or bracketed text. With the ParseFloat of GoFloat.v the strings that go wrong are determined exactly (C28_string_exact, C28_other_strings): nan, Inf, 0x1p-2, 1_000.5, +5, .5 and the like are written without quotes (C28_numerals_refuted)."
  },
  {
   "property": "C29",
   "status": "partial",
   "theorems": [
    "C29_absent",
    "C29_found_partial",
    "C29_index_refuted",
    "C29_lonely_refuted",
    "C29_no_container",
    "C29_parse",
    "C29_same_as_get"
   ],
   "note": "False for steps into an array of one scalar or string and for indexes such as +1 or 01 (C29_lonely_refuted, C29_index_refuted). Proved for all other resolving paths; whatever is found is what Get finds, and unresolvable paths fail, with no condition on the path. A scalar root makes Parse fail (proved)."
  },
  {
   "property": "C30",
   "status": "partial",
   "theorems": [
    "C30_add_container_refuted",
    "C30_add_key_value_container_refuted",
    "C30_add_key_value_partial",
    "C30_add_key_value_root_refuted",
    "C30_add_lonely_refuted",
    "C30_add_partial",
    "C30_add_root_blank_refuted",
    "C30_delete_element_refuted",
    "C30_delete_partial",
    "C30_delete_twin_refuted",
    "C30_history_partial",
    "C30_insert_container_refuted",
    "C30_insert_partial",
    "C30_like_new_partial",
    "C30_second_insert_refuted",
    "C30_set_container_refuted",
    "C30_set_key_element_refuted",
    "C30_set_key_partial",
    "C30_set_over_container_refuted",
    "C30_set_partial"
   ],
   "note": "False in many ways, each with a witness (C30_*_refuted). Proved for single calls and for all histories from Parse on of Set, Delete, Add, AddKeyValue, SetKey and at most one Insert, with scalars or strings put in, nothing with children overwritten, unique keys, and last elements deleted."
  },
  {
   "property": "C31",
   "status": "proved",
   "theorems": [
    "C31_callers_slices_are_left_alone",
    "C31_current_keys_refuted",
    "C31_current_keys_stay_until_restore",
    "C31_history",
    "C31_restore_brings_back_the_saved_keys",
    "C31_saved_keys_are_never_disturbed"
   ],
   "note": "All histories, all slice capacities, any growth policy of append. The heap model (Heap.v) makes the aliasing explicit. C31_current_keys_refuted shows the two side conditions of the aliasing theorems (no Restore in between; not past the end of the given slice) cannot be dropped."
  },
  {
   "property": "C32",
   "status": "partial",
   "theorems": [
    "C32_add",
    "C32_add_key_value",
    "C32_delete",
    "C32_insert",
    "C32_set",
    "C32_setkey",
    "C32_store",
    "C32_typed",
    "C32_typed_refuted"
   ],
   "note": "Proved for the seven byte-level updating functions and all typed wrappers on arbitrary bytes, except AddKeyValueString with an empty key and InsertString with a negative index, which return nil (C32_typed_refuted)."
  },
  {
   "property": "C33",
   "status": "proved",
   "theorems": [
    "C33_error_codes",
    "C33_no_error"
   ],
   "note": "All error values, all embedded strings."
  },
  {
   "property": "C34",
   "status": "partial",
   "theorems": [
    "C34_blank_reads",
    "C34_blank_schemes",
    "C34_blank_writes",
    "C34_delete_partial",
    "C34_delete_refuted",
    "C34_documents",
    "C34_documents_complete",
    "C34_incomplete_refuted",
    "C34_iterate_array",
    "C34_listings_partial",
    "C34_listings_refuted",
    "C34_nil_value",
    "C34_reads",
    "C34_writes"
   ],
   "note": "Termination: structural recursion in the model (Walk: C35_terminates). No panic: proved on all texts whose last non-blank byte is none of ': , [ {' (all documents among them) and all paths, for Get/GetString/GetInt/GetBool/GetFloat/GetAll/GetAllMap/GetType/Is*/Length/Set/SetKey/AddKeyValue/Add/Store/IterateArray; on all documents and paths for Insert and the typed variants; for Delete unless a path element is a prefix of the text. Refuted with witnesses: Delete in general, GetKeys/GetValues/GetKeysValues/GetMap/IterateKeyValue when the path leads into a string (never where it leads to a value: C34_listings_partial), the array getters on an empty array, incomplete texts. C34_blank_*: on every text of two or more blanks these functions all panic. Parser.AddKeyValue panics for a nil value under a key of two bytes or more wherever another value could be added (C34_nil_value)."
  },
  {
   "property": "C35",
   "status": "partial",
   "theorems": [
    "C35_bare_containers",
    "C35_duplicate_refuted",
    "C35_empty_array_refuted",
    "C35_empty_object_refuted",
    "C35_error_refuted",
    "C35_leaves_partial",
    "C35_stop_refuted",
    "C35_terminates",
    "C35_unique_keys_partial",
    "C35_walk_partial"
   ],
   "note": "False in five ways, each with a witness (C35_*_refuted). Proved: on every well-formed document whose empty objects do not mislead the scanner, repeated keys or not, and for every callback, Walk makes exactly the calls of the separately defined walk `walked` on the document as its paths show it (C35_walk_partial), which is the expected one when no array is empty and, apart from stopping, when there are no objects or no errors (C35_leaves_partial). Walk ends on every input (C35_terminates)."
  },
  {
   "property": "C36",
   "status": "partial",
   "theorems": [
    "C36_history_partial",
    "C36_history_refuted",
    "C36_set_delete_add"
   ],
   "note": "Full statement false since single operations are (C36_history_refuted). Proved unconditionally for Set/Delete/Add histories and for all seven operations when each is in the domain of its theorem or provably rejected."
  },
  {
   "property": "C37",
   "status": "partial",
   "theorems": [
    "C37_AddKeyValue_refuted",
    "C37_GetAllMap_refuted",
    "C37_GetAll_refuted",
    "C37_GetAll_result_refuted",
    "C37_Insert_refuted",
    "C37_Store_refuted",
    "C37_kept_partial",
    "C37_result_partial",
    "C37_walk_partial",
    "C37_walk_refuted",
    "C37_writes"
   ],
   "note": "False when the path slice has spare capacity: append writes the key behind it (C37_*_refuted, including wrong GetAll results and overwritten paths kept from Walk). Proved: exactly which one cell is written (C37_writes), nothing visible changes without spare capacity or for slices not showing that cell, the results are those of the by-value models, and Walk leaves the caller's slices alone."
  },
  {
   "property": "C38",
   "status": "proved",
   "theorems": [
    "C38_get_all_error",
    "C38_get_all_map_error",
    "C38_get_all_map_results",
    "C38_get_all_results"
   ],
   "note": "All byte sequences, key lists and paths: results, first error, and the map version."
  },
  {
   "property": "C39",
   "status": "partial",
   "theorems": [
    "C39_check",
    "C39_check_abs_not_an_object",
    "C39_check_abs_partial",
    "C39_check_abs_same_keys_partial",
    "C39_check_abs_two_bytes",
    "C39_check_absent_partial",
    "C39_check_present",
    "C39_format_type_is_idempotent",
    "C39_mutate_abs_missing_key_partial",
    "C39_mutate_abs_partial",
    "C39_mutate_partial",
    "C39_mutate_refuted"
   ],
   "note": "Check is exact for all byte strings. CheckAbs for objects other than the text `{}` (there it answers false, as GetKeys errors: C39_check_abs_two_bytes). Mutations for distinct non-empty keys and values formatType copies faithfully; C39_mutate_refuted shows strings that read as numbers change type, and that MutateJson returns (nil, nil) on duplicate scheme keys."
  },
  {
   "property": "C40",
   "status": "partial",
   "theorems": [
    "C40_documents_partial",
    "C40_failure_partial",
    "C40_failure_refuted",
    "C40_getters",
    "C40_history_partial",
    "C40_methods_partial",
    "C40_store_string_refuted"
   ],
   "note": "False for StoreString, which skips formatType (C40_store_string_refuted). Proved for all other methods on all bodies and arguments, for all histories of them, for all reading methods, and together with C36 for the documents held; failing methods keep the body except AddKeyValueString with an empty key and InsertString with a negative index (C40_failure_refuted)."
  },
  {
   "property": "C41",
   "status": "partial",
   "theorems": [
    "C41_add_key_value_string",
    "C41_add_key_value_string_go",
    "C41_add_string",
    "C41_add_string_go",
    "C41_insert_string_go_partial",
    "C41_insert_string_partial",
    "C41_set_string",
    "C41_set_string_go",
    "C41_store_string_go_partial",
    "C41_store_string_partial",
    "C41_string_refuted"
   ],
   "note": "Raw strings without unescaped quotes that are not fenced by brackets, at every resolving position; Store needs the key present or visibly absent, Insert the layout of C10. ParseFloat is an arbitrary predicate that accepts only token characters; the _go theorems are for the one of GoFloat.v, without that condition. The full statement (C41_statement) is false: C41_string_refuted."
  },
  {
   "property": "C42",
   "status": "partial",
   "theorems": [
    "C42_every_json_text_is_a_document",
    "C42_flatten_keeps_validity",
    "C42_get_on_json_texts",
    "C42_history_partial",
    "C42_one_content_per_text",
    "C42_set_delete_add_keep_validity",
    "C42_update_partial",
    "C42_validity_refuted"
   ],
   "note": "Proved for every history of Set, Delete and Add, for Flatten, and for single calls and histories of all seven operations within the domains of their own theorems; false outside because of C03 and C10 (C42_validity_refuted)."
  },
  {
   "property": "C43",
   "status": "partial",
   "theorems": [
    "C43_add_key_value_undone",
    "C43_add_undone",
    "C43_commute",
    "C43_delete_hides",
    "C43_deletes_commute",
    "C43_insert_undone_partial",
    "C43_plain_commute",
    "C43_set_hides",
    "C43_set_key_undone_partial",
    "C43_set_twice",
    "C43_set_what_is_there",
    "C43_sets_commute",
    "C43_undo_refuted"
   ],
   "note": "Proved byte for byte on all documents: Set of the present value, Set twice, Set/Delete hiding any earlier in-domain update at or below the path, Delete undoing Add and any AddKeyValue that succeeded, SetKey back when accepted, Sets / plain updates at parting places commuting, all seven updates commuting when each is in its own theorem's domain when called; deletions of two members of one object commute on content. False for Insert before the last element with whitespace before it, and SetKey back can be refused (C43_undo_refuted)."
  },
  {
   "property": "C44",
   "status": "partial",
   "theorems": [
    "C44_absent_key_partial",
    "C44_bad_index",
    "C44_below_the_root",
    "C44_below_value_partial",
    "C44_flatten",
    "C44_get",
    "C44_get_from_flat",
    "C44_get_keys",
    "C44_histories_partial",
    "C44_indent_partial",
    "C44_iterate_array",
    "C44_iterate_array_any",
    "C44_iterate_key_value_partial",
    "C44_plain_histories",
    "C44_typed_arrays_partial",
    "C44_typed_getters",
    "C44_types",
    "C44_update_partial",
    "C44_values_partial",
    "C44_walk_partial",
    "C44_whitespace_refuted"
   ],
   "note": "Proved for Get of present paths, Get after Flatten, the type tests, GetType, GetKeys and Length below the root, the typed getters, the array getters on arrays without containers (whitespace condition of C22), IterateArray and GetKeys on non-empty containers, every history of Set, Delete and Add, every update that is in its own theorem's domain on both documents, and every history of Set, Delete, Add, AddKeyValue, SetKey and Store whose new keys are found nowhere by the search (settled_from). Paths that do not resolve answer alike too: a key the object lacks, a path below a value, a bad index; so do GetValues and GetKeysValues without blanks before commas. Walk runs alike on both with any callback (unless the search finds an empty object's empty key), and so do IterateArray, and IterateKeyValue without blanks before commas, with any callbacks that treat texts of the same content alike. What Flatten writes, and Indent on calm documents, is such a document. False for Insert in general (C44_whitespace_refuted)."
  },
  {
   "property": "C45",
   "status": "partial",
   "theorems": [
    "C45_add",
    "C45_add_key_value",
    "C45_delete_partial",
    "C45_delete_refuted",
    "C45_get",
    "C45_insert",
    "C45_set",
    "C45_set_key_partial",
    "C45_set_key_refuted",
    "C45_store"
   ],
   "note": "Proved on all byte strings for Get, Set, Add, AddKeyValue, Store and Insert; for Delete unless the text begins with a comma (then the text can grow, C45_delete_refuted); for SetKey one stretch is always replaced, and it is the key between its quotes when the key's quotes are escaped and the text does not begin with the key (C45_set_key_refuted otherwise)."
  },
  {
   "property": "C46",
   "status": "proved",
   "theorems": [
    "C46_refines",
    "C46_sequence",
    "C46_tree"
   ],
   "note": "Pointers.v models the node structs on a heap, with nil dereference as a panic; C46_refines shows that it panics, fails and answers like Parser.v for every text and every history, and that the nodes reached from the core form the tree of Parser.v."
  },
  {
   "property": "C47",
   "status": "partial",
   "theorems": [
    "C47_get_new_history_partial",
    "C47_get_new_partial",
    "C47_get_new_refuted",
    "C47_insert_refuted",
    "C47_typed",
    "C47_typed_fails",
    "C47_typed_history_partial"
   ],
   "note": "The typed getters agree with the interpreter's for every resolving path (straight, as in C29) right after Parse and after every history covered by C30; where the parser's Get fails they fail with the same error. GetNew is exact right after Parse for every path: well-formed and of the same content. After every C30 history without Insert it is well-formed and of the same content as the value addressed, for values without repeated keys (C47_get_new_history_partial). For the document itself it can show the old text when that has become empty (C47_get_new_refuted), and after an Insert it shows the new element last (C47_insert_refuted)."
  },
  {
   "property": "C48",
   "status": "partial",
   "theorems": [
    "C48_all",
    "C48_once",
    "C48_only",
    "C48_tree_partial",
    "C48_tree_refuted",
    "C48_width",
    "C48_width_any"
   ],
   "note": "Exact output for every document (C48_tree_partial); what is listed is every value a straight path leads to (C48_all), nothing else (C48_only) and nothing twice (C48_once). False for the element of an array of one scalar or string, which is not shown (C48_tree_refuted)."
  },
  {
   "property": "C49",
   "status": "partial",
   "theorems": [
    "C49_add_float_partial",
    "C49_add_key_value_float_partial",
    "C49_every_float_is_written",
    "C49_get_float",
    "C49_infinity_refuted",
    "C49_insert_float_partial",
    "C49_numbers",
    "C49_rounding",
    "C49_set_float_partial",
    "C49_store_float_partial",
    "C49_text_is_json"
   ],
   "note": "False for infinities and NaN, which are written as +Inf, -Inf, NaN (C49_infinity_refuted; they are read back all the same). Proved for every float64 at every resolving position; Store needs the key present or visibly absent, Insert the layout of C10. Every finite float64 has a text (C49_every_float_is_written) and reading rounds to nearest, ties to even (C49_get_float, C49_rounding). strconv is modelled in GoFloat.v; of FormatFloat only its promise is used."
  },
  {
   "property": "C50",
   "status": "proved",
   "theorems": [
    "C50_broken",
    "C50_get",
    "C50_get_type",
    "C50_is_empty",
    "C50_iterate_array",
    "C50_iterate_key_value",
    "C50_keys",
    "C50_length",
    "C50_set",
    "C50_type_tests",
    "C50_typed",
    "C50_values"
   ],
   "note": "A number, true, false or null must be followed by a blank, a comma or a closing bracket: otherwise it is another token. The index in the error is the place where the value begins."
  },
  {
   "property": "C51",
   "status": "proved",
   "theorems": [
    "C51_add",
    "C51_add_key_value",
    "C51_delete",
    "C51_flatten",
    "C51_get",
    "C51_get_copies_refuted",
    "C51_indent",
    "C51_insert",
    "C51_programs",
    "C51_programs_that_only_call",
    "C51_set",
    "C51_set_key",
    "C51_store",
    "C51_success_is_independent",
    "C51_update_copies_refuted"
   ],
   "note": "The decisions of the functions are taken from Api.v and Format.v on the bytes the slices show; what they do to memory is modelled step by step. Refuted beside it: that Get copies, and that a failing update returns a copy."
  },
  {
   "property": "C52",
   "status": "partial",
   "theorems": [
    "C52_bool",
    "C52_bool_array",
    "C52_float",
    "C52_float_array",
    "C52_int",
    "C52_int_array",
    "C52_is_value",
    "C52_keys_values",
    "C52_length_on_documents",
    "C52_length_partial",
    "C52_length_refuted",
    "C52_types"
   ],
   "note": "All but the last two clauses are proved as stated. The typed array getters panic on the empty array, which is excepted. Of Length and IsEmpty only one direction holds: where Length is zero IsEmpty does not answer false; the converse is refuted (IsEmpty does not look at the last byte inside the brackets). On documents the exact condition is proved (C52_length_on_documents)."
  },
  {
   "property": "C53",
   "status": "partial",
   "theorems": [
    "C53_add_bool_partial",
    "C53_add_float_partial",
    "C53_add_int_partial",
    "C53_add_int_refuted",
    "C53_add_key_value_bool_partial",
    "C53_add_key_value_float_partial",
    "C53_add_key_value_int_partial",
    "C53_add_key_value_string_partial",
    "C53_add_root_refuted",
    "C53_add_string_partial",
    "C53_empty_key",
    "C53_insert_bool_partial",
    "C53_insert_float_partial",
    "C53_insert_int_partial",
    "C53_insert_string_partial",
    "C53_negative_index",
    "C53_set_bool_partial",
    "C53_set_float_partial",
    "C53_set_int_partial",
    "C53_set_string_partial",
    "C53_set_string_refuted"
   ],
   "note": "Proved for all sixteen writers after any lawful history, for places the tree has a node for. Refuted as stated: Add into an array of one number or into an empty root array, SetString of the empty text (panics) and of a text ending with an escaped quote (not quoted)."
  },
  {
   "property": "C54",
   "status": "proved",
   "theorems": [
    "C54_add",
    "C54_add_key_value",
    "C54_delete",
    "C54_get",
    "C54_get_new",
    "C54_get_new_copies_refuted",
    "C54_get_new_own",
    "C54_insert",
    "C54_parse",
    "C54_parse_copies_refuted",
    "C54_programs",
    "C54_set",
    "C54_set_key",
    "C54_update_copies_refuted",
    "C54_value_copies_refuted",
    "C54_writes_elsewhere"
   ],
   "note": "Walking, and the decisions of the package functions called, are taken on the bytes the slices show; what is stored where is modelled step by step. Refuted beside it: that Parse copies the document, that an update frees the parser from it, that Set copies the value, and that GetNew of a plain value is new memory."
  },
  {
   "property": "C55",
   "status": "partial",
   "theorems": [
    "C55_accepts_refuted",
    "C55_add_key_refuted",
    "C55_negative_index_refuted",
    "C55_null_key",
    "C55_null_path",
    "C55_refuses_partial",
    "C55_set_key_atomic",
    "C55_set_key_refuted",
    "C55_string_refuted"
   ],
   "note": "Proved for the states reached by Parse and lawful histories, and for empty paths, keys and values on every parser. Refuted as stated: AddKeyValue of a taken key below the root leaves a second node in the tree, SetKey on an array element reports nothing, Insert at a negative index panics, Add writes into a string that reads like an array. Also refuted: AddKeyValue accepts every new key (it looks beside the object)."
  },
  {
   "property": "C56",
   "status": "partial",
   "theorems": [
    "C56_empty_key_refuted",
    "C56_listings_partial",
    "C56_lookup_errors",
    "C56_negative_index",
    "C56_no_key",
    "C56_no_path",
    "C56_reads_partial",
    "C56_set_key",
    "C56_short_text",
    "C56_statement_refuted",
    "C56_store",
    "C56_updates"
   ],
   "note": "The errors of Get, the typed getters, IsEmpty, all updates, Store, SetKey and the guards are proved on all byte strings. Length and GetMap answer on {} and [] whatever the path; the type tests and listings, which do not look at the whole value, share the errors that are not about the value itself (C56_statement_refuted). AddKeyValue itself takes an empty key (C56_empty_key_refuted)."
  },
  {
   "property": "C57",
   "status": "partial",
   "theorems": [
    "C57_add",
    "C57_add_key_value",
    "C57_add_key_value_nil",
    "C57_add_key_value_nil_empty",
    "C57_add_key_value_root",
    "C57_add_key_value_root_exact",
    "C57_add_root",
    "C57_add_root_exact",
    "C57_delete",
    "C57_documents_partial",
    "C57_insert",
    "C57_run_partial",
    "C57_set_key_partial",
    "C57_set_partial",
    "C57_set_refuted",
    "C57_statement_refuted"
   ],
   "note": "Proved on every parser for Delete and Insert, and below the root for Add and AddKeyValue. Set and SetKey ignore the error of the function they call, so they can report success with the text unchanged (C57_set_refuted). At the root Add and AddKeyValue write a comma into an empty container (C57_statement_refuted); their texts are given byte for byte, with the exact conditions for both. A nil value for AddKeyValue is modelled apart (ParserNil.v): below the root the text gets null as the function writes it, at the root nothing, which is no document."
  },
  {
   "property": "C58",
   "status": "proved",
   "theorems": [
    "C58_any_call_copies_refuted",
    "C58_apart",
    "C58_call",
    "C58_get",
    "C58_get_copies_refuted",
    "C58_history",
    "C58_json_copies_refuted",
    "C58_new_copies_refuted",
    "C58_new_json"
   ],
   "note": "All 27 updating methods, memory as in GoMem.v. The four refuted statements say that New, JSON, Get and a failing call do not copy, as the property has it."
  },
  {
   "property": "C59",
   "status": "partial",
   "theorems": [
    "C59_any_callback_refuted",
    "C59_array",
    "C59_key_value",
    "C59_key_value_edited",
    "C59_overwriting",
    "C59_panicking_array",
    "C59_panicking_key_value",
    "C59_panicking_key_value_edited",
    "C59_statement_refuted",
    "C59_updating_callbacks",
    "C59_updating_callbacks_key_value"
   ],
   "note": "IterateArray on all byte strings. IterateKeyValue: on all byte strings for callbacks that leave the document as it is, and at objects with members in documents for callbacks that edit it; on other texts an edited value can be handed over again (C59_statement_refuted). Callbacks that panic are covered too (C59_panicking_*): the iteration panics exactly where the callback does."
  },
  {
   "property": "C60",
   "status": "proved",
   "theorems": [
    "C60_fails",
    "C60_get",
    "C60_get_new",
    "C60_get_new_refuted",
    "C60_numbers",
    "C60_panics",
    "C60_set",
    "C60_total_refuted"
   ],
   "note": "Exact for panics and failures of Parse. That Parse never panics, and that GetNew never does, is refuted (C60_total_refuted, C60_get_new_refuted), as the property has it. What the Parser reads from a malformed text is not specified."
  },
  {
   "property": "C61",
   "status": "proved",
   "theorems": [
    "C61_add_above",
    "C61_add_container",
    "C61_add_elsewhere",
    "C61_add_key_value_above",
    "C61_add_key_value_container",
    "C61_add_key_value_elsewhere",
    "C61_add_key_value_nil",
    "C61_add_key_value_nil_drifts",
    "C61_add_key_value_plain",
    "C61_add_plain",
    "C61_delete",
    "C61_insert_above",
    "C61_insert_container",
    "C61_insert_elsewhere",
    "C61_insert_plain",
    "C61_set_above",
    "C61_set_container",
    "C61_set_elsewhere",
    "C61_set_key",
    "C61_set_plain",
    "C61_where_put_refuted"
   ],
   "note": "Add and Insert right after Parse, into arrays that are not of one scalar (for those see C30_add_lonely_refuted); AddKeyValue where the key was not found before. Members of a container put in are those straight paths lead to; what GetNew shows of it is told relative to what GetNew of a new parser shows. That members are found where a caller expects them is refuted (C61_where_put_refuted). A nil value for AddKeyValue leaves a node that holds nothing while the text has null (C61_add_key_value_nil_drifts)."
  },
  {
   "property": "C62",
   "status": "proved",
   "theorems": [
    "C62_core",
    "C62_ends"
   ],
   "note": "core_go (CoreGo.v) is a transcription by hand too, but keeps the statements and variables of the source, so that it can be compared with it line by line."
  },
  {
   "property": "C63",
   "status": "proved",
   "theorems": [
    "C63_clean_value",
    "C63_clean_value_string",
    "C63_iterate_array",
    "C63_iterate_key_value"
   ],
   "note": "The transcriptions (IterGo.v) are by hand too, but keep the statements and variables of the source. The callback is any function of a state; a callback that panics or changes the text is outside (C59)."
  },
  {
   "property": "C64",
   "status": "proved",
   "theorems": [
    "C64_pointers",
    "C64_tree"
   ],
   "note": "Nodes are cells of a heap as in C46; slices are values, as everywhere outside the memory models."
  },
  {
   "property": "C65",
   "status": "proved",
   "theorems": [
    "C65_get_keys",
    "C65_get_keys_values",
    "C65_get_values",
    "C65_is_empty",
    "C65_length",
    "C65_start_end",
    "C65_type_control"
   ],
   "note": "The transcriptions (ListGo.v) are by hand too, but keep the statements and variables of the source."
  },
  {
   "property": "C66",
   "status": "proved",
   "theorems": [
    "C66_get",
    "C66_get_bool",
    "C66_get_bool_array",
    "C66_get_float",
    "C66_get_float_array",
    "C66_get_int",
    "C66_get_int_array",
    "C66_get_string",
    "C66_get_string_array",
    "C66_parse_array"
   ],
   "note": "The transcriptions (SplitGo.v) are by hand too, but keep the statements and variables of the source."
  },
  {
   "property": "C67",
   "status": "proved",
   "theorems": [
    "C67_create_tabs",
    "C67_flatten",
    "C67_indent"
   ],
   "note": "The transcriptions (FormatGo.v) are by hand too, but keep the statements and variables of the source."
  },
  {
   "property": "C68",
   "status": "proved",
   "theorems": [
    "C68_add",
    "C68_add_key_value",
    "C68_delete",
    "C68_insert",
    "C68_outcome",
    "C68_replace",
    "C68_set",
    "C68_set_key",
    "C68_store"
   ],
   "note": "The transcriptions (UpdateGo.v) are by hand too, but keep the statements and variables of the source. Slices are values, as everywhere outside the memory models; that the caller's arrays are not written to is C51."
  },
  {
   "property": "C69",
   "status": "proved",
   "theorems": [
    "C69_check",
    "C69_check_abs",
    "C69_format_type",
    "C69_make_array",
    "C69_make_array_bool",
    "C69_make_array_bytes",
    "C69_make_array_float",
    "C69_make_array_int",
    "C69_make_array_string",
    "C69_make_json",
    "C69_make_json_with_map",
    "C69_mutate",
    "C69_mutate_abs"
   ],
   "note": "The transcriptions (MakeGo.v) are by hand too, but keep the statements and variables of the source. Floats are given as the texts strconv.FormatFloat makes, other values as the texts of fmt.Sprintf; a map as its pairs in the order range yields them."
  },
  {
   "property": "C70",
   "status": "proved",
   "theorems": [
    "C70_get_all",
    "C70_get_all_map",
    "C70_get_map",
    "C70_get_type",
    "C70_is",
    "C70_walk"
   ],
   "note": "The transcriptions (WalkGo.v) are by hand too, but keep the statements and variables of the source. Paths are values; what append(path, key) does to the array behind a path is C37."
  },
  {
   "property": "C71",
   "status": "proved",
   "theorems": [
    "C71_add",
    "C71_add_key_value",
    "C71_add_key_value_nil",
    "C71_delete",
    "C71_get",
    "C71_history",
    "C71_insert",
    "C71_parse",
    "C71_set",
    "C71_set_key"
   ],
   "note": "The transcription (ParserGo.v) is by hand too, but keeps the statements and variables of the source; what the methods call are the programs of C62 to C68. The heap of nodes is that of Pointers.v. Bytes at least 256 are excluded by octets. Parser.AddKeyValue with a nil value apart: C71_add_key_value_nil."
  },
  {
   "property": "C72",
   "status": "partial",
   "theorems": [
    "C72_array_getters_exact",
    "C72_delete_answers_partial",
    "C72_flatten",
    "C72_get",
    "C72_get_absent_partial",
    "C72_get_type_exact",
    "C72_history_partial",
    "C72_indent_partial",
    "C72_is_empty_exact",
    "C72_iterate_array_partial",
    "C72_iterate_key_value_exact",
    "C72_kinds_partial",
    "C72_length_exact",
    "C72_length_of_a_number_or_literal",
    "C72_length_partial",
    "C72_length_refuted",
    "C72_listings_answer_partial",
    "C72_listings_exact",
    "C72_map_exact",
    "C72_parser_partial",
    "C72_reads_answer",
    "C72_types",
    "C72_update_ends",
    "C72_update_partial",
    "C72_update_refused_partial",
    "C72_updates_answer",
    "C72_walk_partial"
   ],
   "note": "Proved for the statement-by-statement programs on all documents within the domains of the properties named; those domains are what is missing where C03, C07-C11, C13-C16, C21, C30 and C35 are partial or refuted. A root array holding one one-byte element right before its bracket counts 0, so the full statement is false (C72_length_refuted; C72_length_exact says what is counted). Bytes at least 256 are excluded by octets."
  },
  {
   "property": "C73",
   "status": "partial",
   "theorems": [
    "C73_64bit_writers_panic",
    "C73_add",
    "C73_add_key_value",
    "C73_answer",
    "C73_bool_partial",
    "C73_insert",
    "C73_int_partial",
    "C73_int_refuted",
    "C73_jo",
    "C73_parser",
    "C73_parser_readers",
    "C73_set",
    "C73_store"
   ],
   "note": "The equations with the models are proved for all byte strings. Write-then-read by the programs is proved at every resolving position; Store needs the key present or visibly absent, Insert the layout of C10 (C73_int_partial, C73_bool_partial), as in C24 and C25. strconv.ParseFloat is a parameter; a float value is given as its text. Bytes at least 256 are excluded by octets. For paths that do not resolve it is false: C73_int_refuted."
  },
  {
   "property": "C74",
   "status": "partial",
   "theorems": [
    "C74_add",
    "C74_add_key_value",
    "C74_documents_fair",
    "C74_jo_go_partial",
    "C74_jo_partial",
    "C74_jo_written_partial",
    "C74_parser_partial",
    "C74_parser_written_partial",
    "C74_refuted",
    "C74_set",
    "C74_set_key",
    "C74_store"
   ],
   "note": "Proved on arbitrary bytes of the kind named, for arbitrary histories. Delete and Insert are left out: on texts that are no JSON they can panic (C74_refuted). So can GetNew, after an AddKeyValue of the Parser that was refused has left a node behind. Values given to a Parser must not be a lone quote nor, opening with a bracket, close too many (C60_set: Set panics on those); every JSON text qualifies (C74_documents_fair). The _written theorems say the same of the functions as transcribed, typed methods of the Parser included: such a history returns."
  },
  {
   "property": "C75",
   "status": "proved",
   "theorems": [
    "C75_add",
    "C75_add_key_value",
    "C75_delete",
    "C75_flatten",
    "C75_get",
    "C75_get_all",
    "C75_get_keys",
    "C75_get_keys_values",
    "C75_get_map",
    "C75_get_new",
    "C75_get_new_refuted",
    "C75_get_string_array",
    "C75_get_values",
    "C75_indent",
    "C75_insert",
    "C75_iterate_array",
    "C75_iterate_key_value",
    "C75_jo",
    "C75_jo_written",
    "C75_make_arrays",
    "C75_make_json",
    "C75_make_map",
    "C75_mutations",
    "C75_parse_array",
    "C75_parser",
    "C75_parser_written",
    "C75_set",
    "C75_set_key",
    "C75_store",
    "C75_walk"
   ],
   "note": "On arbitrary UTF-8 bytes; paths may be anything. C75_jo_written and C75_parser_written say it of the functions as transcribed. C75_get_new_refuted shows why GetNew after an update is left out of the statement."
  },
  {
   "property": "C76",
   "status": "partial",
   "theorems": [
    "C76_getters",
    "C76_histories",
    "C76_iterators",
    "C76_lists",
    "C76_nowhere_partial",
    "C76_piece",
    "C76_piece_refuted",
    "C76_root_partial",
    "C76_types",
    "C76_update_partial"
   ],
   "note": "The full statement (C76_statement) is false, C76_piece_refuted: the search for an absent key runs on behind the piece, so a key absent from the piece may be found in the document. Proved for everything present, for bad indexes, for keys the search does not find, for all seven updates in their domains and for histories of Set, Delete and Add. At the root of the piece Length of a one-element text and the listings of {} and [] differ."
  },
  {
   "property": "C77",
   "status": "proved",
   "theorems": [
    "C77_array",
    "C77_flatten",
    "C77_get",
    "C77_histories",
    "C77_made_arrays",
    "C77_made_objects",
    "C77_object",
    "C77_update"
   ],
   "note": "flat c is the text of a content c without a blank; values are given in the same form. Strings given to the Make functions are those of C27 (fit). AddKeyValue, SetKey and Store in the domains of their own theorems (legal)."
  },
  {
   "property": "C78",
   "status": "proved",
   "theorems": [
    "C78_histories",
    "C78_make",
    "C78_mutate",
    "C78_mutate_abs",
    "C78_reads",
    "C78_slices",
    "C78_step"
   ],
   "note": "Keys are usable (different, not empty, no escaping needed), values fit (C27: no escaping needed, not bracketed, and what ParseFloat accepts is a token). MutateJson with a missing key needs ParseFloat to reject the empty text. Failing array calls: some error, InsertString with a negative index returns nil for the text."
  },
  {
   "property": "C79",
   "status": "partial",
   "theorems": [
    "C79_histories_partial",
    "C79_one_document",
    "C79_parser_refuted"
   ],
   "note": "The full statement (C79_statement) is false, C79_parser_refuted: AddKeyValue on the object without members puts a comma. Proved for string values (no arrays or objects) and all histories that add nothing while the object has no members (p_goes), with texts whose length is an int."
  },
  {
   "property": "C80",
   "status": "partial",
   "theorems": [
    "C80_any_call_partial",
    "C80_calls_partial",
    "C80_histories_partial",
    "C80_new_key_refuted",
    "C80_parser_partial",
    "C80_reads",
    "C80_refused",
    "C80_taken",
    "C80_types",
    "C80_walk"
   ],
   "note": "Reading is proved in full, Walk for values without empty maps or slices and callbacks without errors, the Parser for all but the only string of a slice (C29). For the updates the full statement (C80_statement) is false, C80_new_key_refuted: AddKeyValue and Store in a map inside take a key of a later map for one of this map. Proved for keys that are there already and for new keys that the text shows nowhere in quotes (mcmd_ok). Calls that do not apply leave the text as it is and say why (C80_refused, C80_taken); C80_any_call_partial says of any call but Store into a slice whether it applies."
  },
  {
   "property": "C81",
   "status": "partial",
   "theorems": [
    "C81_histories_partial",
    "C81_new_key_refuted",
    "C81_parser_partial",
    "C81_reads",
    "C81_walk"
   ],
   "note": "As C80: reading and Walk are proved in full on their domains; the updates for keys that are there already and for new keys that the text shows nowhere in quotes (mcmd_ok), the full statement (C81_statement) being false, C81_new_key_refuted; the Parser for all but the only string of a slice (C29). strconv.ParseFloat is a parameter. Bytes at least 256 are excluded (m_octets)."
  },
  {
   "property": "C82",
   "status": "partial",
   "theorems": [
    "C82_histories_partial",
    "C82_store_string_refuted",
    "C82_written_partial"
   ],
   "note": "Proved where a key absent from a map is one the text shows nowhere in quotes (C80), keys are not empty and indices not negative (else the JO loses its body, C40), no path leads into a string and Store is called on maps (m_sures). The full statement, with StoreString for Store, is false: C82_store_string_refuted."
  },
  {
   "property": "C83",
   "status": "partial",
   "theorems": [
    "C83_any_call_partial",
    "C83_any_call_written_partial",
    "C83_histories_partial",
    "C83_tree_refuted",
    "C83_written_partial"
   ],
   "note": "Proved for histories in which only strings are put in, in the place of strings or empty maps and slices, on the paths of C29, with keys unique where one is deleted or renamed, the last element of a slice deleted, and nothing added to an empty root or to a slice of one string (p_mcmd_ok); calls that do not apply are included where no element of a slice is renamed and a key is added to a map that has it only at the root (p_m_calm); Insert and Store (which Parser lacks) are left out. The full statement (C83_statement) is false: C83_tree_refuted. Set is given the text the Make functions write, not SetString (C30). strconv.ParseFloat is a parameter; the last conclusion assumes that the length of the text is an int."
  }
 ]
}