{"id": "C01", "title": "Get returns exactly the addressed value", "statement": "For every well-formed JSON document and every path that resolves in it (object keys compared as raw bytes, first match wins; array steps read as decimal integers), Get returns no error and returns exactly the bytes of the addressed value as they stand in the document: the text between the quotes for a string, the whole text otherwise.", "quantifier": "all well-formed JSON texts (any nesting, any whitespace), all non-empty paths resolving in them", "why_tests_cant": "The claim ranges over unboundedly many documents, nesting depths, whitespace layouts and paths; a test fixes finitely many.", "anchors": ["inter_get.go:Get", "inter_core.go:core"]}
{"id": "C02", "title": "Bad array steps are always rejected", "statement": "If a prefix of the path resolves to an array and the next step is not a decimal integer, Get fails with IndexExpected; if it is an integer outside the array's bounds (including negative), Get fails with IndexOutOfRange (EmptyArray for index 0 of an empty array).", "quantifier": "all well-formed documents, all paths whose last step is a bad array step", "why_tests_cant": "The claim ranges over unboundedly many documents, nesting depths, whitespace layouts and paths; a test fixes finitely many.", "anchors": ["inter_core.go:core", "errors.go"]}
{"id": "C03", "title": "Looking up an absent key fails with KeyNotFound", "statement": "If a path prefix resolves to an object that has no member with the next key, Get fails with KeyNotFound and never returns some other value.", "quantifier": "all well-formed documents, all object positions, all absent keys", "why_tests_cant": "The claim ranges over unboundedly many documents, nesting depths, whitespace layouts and paths; a test fixes finitely many.", "anchors": ["inter_core.go:core", "inter_get.go:Get"]}
{"id": "C04", "title": "A path that continues below a string, number or literal is rejected", "statement": "If a proper prefix of the path resolves to a scalar or string, Get fails; it never returns a value located elsewhere in the document.", "quantifier": "all well-formed documents, all paths passing through a non-container", "why_tests_cant": "The claim ranges over unboundedly many documents, nesting depths, whitespace layouts and paths; a test fixes finitely many.", "anchors": ["inter_core.go:core"]}
{"id": "C05", "title": "Set replaces exactly the addressed value", "statement": "For every well-formed document, resolving path and replacement that is the text of a JSON value, Set succeeds and the result is the same document, byte for byte, with only the addressed value's text (quotes included) replaced.", "quantifier": "all well-formed documents, all resolving paths, all replacement values", "why_tests_cant": "The claim ranges over unboundedly many documents, nesting depths, whitespace layouts and paths; a test fixes finitely many.", "anchors": ["inter_set.go:Set", "utils.go:replace"]}
{"id": "C06", "title": "Reading back after Set", "statement": "After a successful Set, Get on the same path returns the new value (string quotes stripped), and Get on any path that branches off before the updated position returns what it returned before.", "quantifier": "all well-formed documents, all pairs of paths, all replacement values", "why_tests_cant": "The claim ranges over unboundedly many documents, nesting depths, whitespace layouts and paths; a test fixes finitely many.", "anchors": ["inter_set.go:Set", "inter_get.go:Get"]}
{"id": "C07", "title": "Delete removes exactly one element or pair", "statement": "For every well-formed document and resolving non-empty path, Delete succeeds and yields a well-formed document whose content is the original with exactly the addressed array element or (first matching) key-value pair removed; commas are fixed up and every other key, value and order is unchanged.", "quantifier": "all well-formed documents, all resolving paths (first, middle, last, only element; arrays and objects)", "why_tests_cant": "The claim ranges over unboundedly many documents, nesting depths, whitespace layouts and paths; a test fixes finitely many.", "anchors": ["inter_delete.go:Delete"]}
{"id": "C08", "title": "AddKeyValue appends one pair to the addressed object", "statement": "If the path resolves to an object without the given key, AddKeyValue succeeds and the result is the same document with the pair appended as the last member of that object; if the key is present it fails with KeyAlreadyExist and returns the input; a nil value is stored as null.", "quantifier": "all well-formed documents, all paths to objects (including the empty path), all keys and values", "why_tests_cant": "The claim ranges over unboundedly many documents, nesting depths, whitespace layouts and paths; a test fixes finitely many.", "anchors": ["inter_add.go:AddKeyValue"]}
{"id": "C09", "title": "Add appends one element to the addressed array", "statement": "If the path resolves to an array, Add succeeds and the result is the same document with the value appended as the last element; if it resolves to anything else Add fails with ArrayExpected and returns the input.", "quantifier": "all well-formed documents, all paths (including the empty path), all values", "why_tests_cant": "The claim ranges over unboundedly many documents, nesting depths, whitespace layouts and paths; a test fixes finitely many.", "anchors": ["inter_add.go:Add"]}
{"id": "C10", "title": "Insert places the value at the given index", "statement": "If the path resolves to an array and 0 <= index < length, Insert succeeds and yields a well-formed document in which that array has the new value at the index and the former elements from there on shifted by one; for any other index it fails and returns the input.", "quantifier": "all well-formed documents, all array positions, all indices, all whitespace layouts", "why_tests_cant": "The claim ranges over unboundedly many documents, nesting depths, whitespace layouts and paths; a test fixes finitely many.", "anchors": ["inter_add.go:Insert"]}
{"id": "C11", "title": "SetKey renames exactly one member", "statement": "If the path resolves to an object member and the new key is non-empty and not present in that object, SetKey succeeds and only the key's bytes change; if the new key is already present, or the path is an array element, it fails and returns the input.", "quantifier": "all well-formed documents, all member paths, all new keys", "why_tests_cant": "The claim ranges over unboundedly many documents, nesting depths, whitespace layouts and paths; a test fixes finitely many.", "anchors": ["inter_set.go:SetKey"]}
{"id": "C12", "title": "Store sets or adds in the addressed object only", "statement": "If the path resolves to an object, Store with a key replaces that member's value when present and appends the pair when absent; no other part of the document changes.", "quantifier": "all well-formed documents, all object positions, all keys and values", "why_tests_cant": "The claim ranges over unboundedly many documents, nesting depths, whitespace layouts and paths; a test fixes finitely many.", "anchors": ["inter_set.go:Store", "jin_object_add.go:Store"]}
{"id": "C13", "title": "IterateArray visits each element once, in order", "statement": "On a path resolving to an array, IterateArray calls the callback on the elements' texts (string quotes stripped, surrounding whitespace trimmed), each once, left to right, stopping early exactly when the callback returns false or an error, and returns the callback's error; on an empty array the callback is not called.", "quantifier": "all well-formed documents, array positions, and callback behaviours (arbitrary state and return sequences)", "why_tests_cant": "The claim ranges over all documents and over all callback behaviours.", "anchors": ["inter_iter.go:IterateArray", "utils.go:cleanValue"]}
{"id": "C14", "title": "IterateKeyValue visits each pair once, in order", "statement": "On a path resolving to an object, IterateKeyValue calls the callback on each (key, value text) pair once, left to right, stopping early exactly when the callback returns false or an error, and returns the callback's error; on an empty object the callback is not called.", "quantifier": "all well-formed documents, object positions, and callback behaviours", "why_tests_cant": "The claim ranges over all documents and over all callback behaviours.", "anchors": ["inter_iter.go:IterateKeyValue"]}
{"id": "C15", "title": "GetKeys, GetValues and GetKeysValues list the members in order", "statement": "On a path resolving to an object, GetKeys returns its keys in order, GetValues the value texts in order, and GetKeysValues both, with equal lengths.", "quantifier": "all well-formed documents and object positions", "why_tests_cant": "The claim ranges over unboundedly many documents, nesting depths, whitespace layouts and paths; a test fixes finitely many.", "anchors": ["inter_get.go:GetKeys", "inter_get.go:GetValues", "inter_get.go:GetKeysValues", "utils.go:cleanValueString"]}
{"id": "C16", "title": "Length counts elements or members", "statement": "On a path (possibly empty) resolving to an array or object, Length returns the number of its elements or members.", "quantifier": "all well-formed documents and container positions", "why_tests_cant": "The claim ranges over unboundedly many documents, nesting depths, whitespace layouts and paths; a test fixes finitely many.", "anchors": ["others.go:Length", "utils.go:getStartEnd"]}
{"id": "C17", "title": "Type predicates tell the JSON type", "statement": "On a resolving path (possibly empty): IsArray is true exactly for arrays, IsObject exactly for objects, IsValue exactly for non-containers; GetType names array, object, string, boolean, null, number correctly.", "quantifier": "all well-formed documents and resolving paths", "why_tests_cant": "The claim ranges over unboundedly many documents, nesting depths, whitespace layouts and paths; a test fixes finitely many.", "anchors": ["inter_type.go:IsObject", "inter_type.go:IsArray", "inter_type.go:IsValue", "inter_type.go:GetType", "inter_type.go:typeControlCore"]}
{"id": "C18", "title": "IsEmpty is true exactly for empty containers", "statement": "On a path resolving to a container, IsEmpty returns true if and only if it has no elements or members; on other values it fails with ObjectExpected.", "quantifier": "all well-formed documents and resolving paths", "why_tests_cant": "The claim ranges over unboundedly many documents, nesting depths, whitespace layouts and paths; a test fixes finitely many.", "anchors": ["inter_type.go:IsEmpty"]}
{"id": "C19", "title": "GetMap returns the addressed container as a map", "statement": "On a path resolving to a non-empty object, GetMap returns the map from each key to its value text (last duplicate wins); on a non-empty array, the map from decimal index to element text.", "quantifier": "all well-formed documents and container positions", "why_tests_cant": "The claim ranges over unboundedly many documents, nesting depths, whitespace layouts and paths; a test fixes finitely many.", "anchors": ["inter_get.go:GetMap", "utils.go:getStartEnd"]}
{"id": "C20", "title": "Flatten removes exactly the insignificant whitespace", "statement": "For every well-formed document, Flatten returns the same document with all whitespace outside strings removed and nothing else changed; for every byte sequence Flatten is idempotent, and never lengthens its input.", "quantifier": "all well-formed documents; all byte sequences (idempotence)", "why_tests_cant": "The claim ranges over unboundedly many documents, nesting depths, whitespace layouts and paths; a test fixes finitely many.", "anchors": ["others.go:Flatten"]}
{"id": "C21", "title": "Indent only changes insignificant whitespace", "statement": "For every well-formed document Indent does not panic and Flatten(Indent(doc)) = Flatten(doc): the content is unchanged.", "quantifier": "all well-formed documents", "why_tests_cant": "The claim ranges over unboundedly many documents, nesting depths, whitespace layouts and paths; a test fixes finitely many.", "anchors": ["others.go:Indent", "utils.go:createTabs"]}
{"id": "C22", "title": "ParseArray and GetStringArray split an array into its elements", "statement": "On the text of an array, ParseArray returns the element texts in order, strings without quotes and surrounding whitespace trimmed; GetStringArray does the same for the array at a path.", "quantifier": "all array texts of well-formed documents", "why_tests_cant": "The claim ranges over unboundedly many documents, nesting depths, whitespace layouts and paths; a test fixes finitely many.", "anchors": ["others.go:ParseArray", "inter_get.go:GetStringArray", "utils.go:cleanValueString"]}
{"id": "C23", "title": "Typed array getters", "statement": "On an array of integers GetIntArray returns those integers in order, on an array of booleans GetBoolArray returns them in order; on the empty array they return an empty slice; they never panic on well-formed documents.", "quantifier": "all well-formed documents and array positions, all integer and boolean contents", "why_tests_cant": "The claim ranges over unboundedly many documents, nesting depths, whitespace layouts and paths; a test fixes finitely many.", "anchors": ["inter_get.go:GetIntArray", "inter_get.go:GetBoolArray", "utils.go:cleanValueString"]}
{"id": "C24", "title": "Integer write/read round trip", "statement": "For every int value, SetInt/AddInt/AddKeyValueInt/StoreInt followed by GetInt at the written position returns the same integer, in any document where the write succeeds.", "quantifier": "all 64-bit integers, all documents and paths", "why_tests_cant": "2^64 integers times all documents.", "anchors": ["inter_set.go:SetInt", "inter_add.go:AddKeyValueInt", "inter_get.go:GetInt"]}
{"id": "C25", "title": "Boolean write/read round trip", "statement": "For both booleans, SetBool/AddKeyValueBool/AddBool followed by GetBool at the written position returns the same boolean.", "quantifier": "all documents and resolving paths", "why_tests_cant": "The claim ranges over unboundedly many documents, nesting depths, whitespace layouts and paths; a test fixes finitely many.", "anchors": ["inter_set.go:SetBool", "inter_get.go:GetBool"]}
{"id": "C26", "title": "Sized integer writers store the decimal value", "statement": "AddInt32/AddInt64/AddUint/AddUint32/AddUint64 and the AddKeyValue and Insert variants store the decimal representation of their argument and never panic.", "quantifier": "all arguments, all documents", "why_tests_cant": "All 32/64-bit arguments.", "anchors": ["inter_add.go:AddInt32", "inter_add.go:AddInt64", "inter_add.go:AddKeyValueUint64"]}
{"id": "C27", "title": "Make functions build well-formed documents holding the given data", "statement": "MakeJsonString, MakeArrayString, MakeArrayInt, MakeArrayBool, MakeArrayBytes, MakeJsonWithMap build a well-formed document containing exactly the given keys and values in order (for keys that are valid raw strings), also for zero keys/values.", "quantifier": "all key and value lists", "why_tests_cant": "Unbounded lists of arbitrary strings.", "anchors": ["make.go:MakeJsonString", "make.go:MakeArrayString", "make.go:MakeArrayInt", "make.go:MakeArrayBool", "make.go:MakeArrayBytes", "make.go:MakeJsonWithMap"]}
{"id": "C28", "title": "String writers produce a valid JSON value for every string", "statement": "For every Go string, the text written by AddString/AddKeyValueString/SetString/MakeArrayString (formatType) is a valid JSON value.", "quantifier": "all strings", "why_tests_cant": "All strings.", "anchors": ["utils.go:formatType", "inter_set.go:SetString"]}
{"id": "C29", "title": "Parse-then-Get agrees with Get", "statement": "For every well-formed document whose root is a container and every path, Parser.Get after Parse returns the addressed value (same bytes as the interpreter's Get) and fails when the path does not resolve.", "quantifier": "all well-formed documents and paths", "why_tests_cant": "The claim ranges over unboundedly many documents, nesting depths, whitespace layouts and paths; a test fixes finitely many.", "anchors": ["parse_core.go:pCore", "parse_get.go:Parser.Get", "parse_utils.go:Parse", "parse_utils.go:walk"]}
{"id": "C30", "title": "Parser updates keep lookups and text consistent", "statement": "After a successful Parser.Set/AddKeyValue/Add/Insert/Delete/SetKey, JSON() is the document the interpreter operation produces and Parser.Get on every path agrees with Get on JSON().", "quantifier": "all well-formed documents, operations and subsequent paths; histories of operations", "why_tests_cant": "All documents and all histories.", "anchors": ["parse_set.go:Parser.Set", "parse_add.go:Parser.AddKeyValue", "parse_add.go:Parser.Add", "parse_delete.go:Parser.Delete"]}
{"id": "C31", "title": "Scheme save/restore over any history", "statement": "Over any sequence of Add/Remove/Save/Restore, Restore brings back exactly the key list at the last Save (or construction), Add of a present key returns false and changes nothing, Remove removes all occurrences and reports whether any existed; key lists obtained earlier are not disturbed by the Scheme's internal aliasing within their original keys.", "quantifier": "all operation histories", "why_tests_cant": "Unboundedly many histories; aliasing depends on slice capacities.", "anchors": ["make.go:Scheme"]}
{"id": "C32", "title": "A failed update leaves the document unchanged", "statement": "Every updating function that returns an error returns the input document unchanged, so that a JO whose method failed still holds its previous body.", "quantifier": "all inputs (also malformed), all updating functions", "why_tests_cant": "All byte inputs.", "anchors": ["inter_add.go", "inter_set.go", "inter_delete.go", "jin_object_add.go", "jin_object_set.go"]}
{"id": "C33", "title": "Error codes are recognised exactly", "statement": "For every error value produced by the package (whatever key, value or position its message embeds) ErrEqual(err, c) is true if and only if c is that error's documented code.", "quantifier": "all error constructors and all embedded strings/integers", "why_tests_cant": "Embedded strings are arbitrary.", "anchors": ["errors.go:ErrEqual"]}
{"id": "C34", "title": "No panic and termination", "statement": "Every lookup and update function terminates on every input, and on well-formed documents with resolving or failing paths it does not panic.", "quantifier": "all byte inputs for termination; all well-formed documents and all paths for absence of panics", "why_tests_cant": "All inputs.", "anchors": ["inter_core.go:core"]}
{"id": "C35", "title": "Walk visits every leaf with its path", "statement": "Walk calls the callback for every scalar or string in document order with its key, bytes and path; stops when the callback returns false; returns the callback's error.", "quantifier": "all well-formed documents and callback behaviours", "why_tests_cant": "All documents and callbacks.", "anchors": ["walk.go:walk"]}
{"id": "C36", "title": "Well-formedness is preserved by any history of updates", "statement": "Starting from a well-formed document, after any sequence of Set, Delete, Add, AddKeyValue, Insert, SetKey, Store operations with well-formed arguments, the document is still well-formed and its content is the result of applying the corresponding operations to the abstract content.", "quantifier": "all documents and all operation sequences", "why_tests_cant": "All histories.", "anchors": ["inter_set.go", "inter_add.go", "inter_delete.go", "jin_object.go"]}
{"id": "C37", "title": "Caller's path slice is not modified", "statement": "Calling AddKeyValue, Store, Insert, GetAll, GetAllMap or Walk with a path slice does not change any string the caller can observe through slices sharing that path's backing array.", "quantifier": "all slices (length, capacity, sharing)", "why_tests_cant": "Depends on slice capacities.", "anchors": ["inter_add.go:AddKeyValue", "inter_set.go:Store", "inter_get.go:GetAll", "walk.go:walk"]}
{"id": "C38", "title": "GetAll and GetAllMap agree with Get", "statement": "GetAll(json, keys, path...) returns the list of Get(json, path..., k) for k in keys, in order, and fails with the first failing lookup's error; GetAllMap returns the same results as a map.", "quantifier": "all inputs (also malformed), all key lists", "why_tests_cant": "All inputs.", "anchors": ["inter_get.go:GetAll", "inter_get.go:GetAllMap"]}
{"id": "C39", "title": "Scheme checks and mutations", "statement": "Check holds exactly when every scheme key is found by Get; CheckAbs holds exactly when the document's top-level key set has the same size as the scheme and is contained in it; MutateJsonAbs builds a document with exactly the scheme's keys and the source's values.", "quantifier": "all documents and schemes", "why_tests_cant": "All documents and schemes.", "anchors": ["make.go:Scheme.Check", "make.go:Scheme.CheckAbs", "make.go:Scheme.MutateJson", "make.go:Scheme.MutateJsonAbs"]}
{"id": "C40", "title": "JO methods are the interpreter functions on the held body", "statement": "Every JO method returns what the interpreter function of the same name returns on the current body and leaves the body that function returned; hence any history of JO calls equals the same history of function calls.", "quantifier": "all bodies, all method calls, all histories", "why_tests_cant": "All histories.", "anchors": ["jin_object_add.go", "jin_object_get.go", "jin_object_set.go", "jin_object_others.go"]}
{"id": "C41", "title": "String write/read round trip", "statement": "Writing a string s that needs no escaping with SetString, AddString, AddKeyValueString, InsertString or StoreString at a position of a well-formed document and reading the position back with GetString yields s.", "quantifier": "all documents, all positions, all raw strings that are not bracketed text", "why_tests_cant": "All strings and documents.", "anchors": ["inter_set.go:SetString", "inter_add.go:AddString", "utils.go:formatType", "inter_get.go:GetString"]}
{"id": "C42", "title": "RFC 8259 texts stay valid", "statement": "Every RFC 8259 JSON text is covered by the documents the other properties quantify over, and applying any history of Set, Delete, Add, AddKeyValue, Insert, SetKey, Store (with RFC 8259 values and keys) or Flatten to one gives an RFC 8259 JSON text again.", "quantifier": "all JSON texts, all histories with valid arguments", "why_tests_cant": "All texts and histories.", "anchors": ["inter_set.go", "inter_add.go", "inter_delete.go", "others.go:Flatten"]}
{"id": "C43", "title": "Laws of the updates", "statement": "On a well-formed document, byte for byte: setting what is there changes nothing; a Set hides every earlier update at or below its path, and so does a Delete; Delete takes back an Add, AddKeyValue or Insert, and a second SetKey takes back the first; updates at places that part give the same text in either order.", "quantifier": "all documents, positions, values and pairs of operations", "why_tests_cant": "All pairs of operations on all documents.", "anchors": ["inter_set.go:Set", "inter_set.go:SetKey", "inter_add.go", "inter_delete.go:Delete"]}
{"id": "C44", "title": "Insignificant whitespace does not matter", "statement": "Two well-formed documents that differ only in insignificant whitespace are read alike by Get, IterateArray and GetKeys (containers compared after Flatten), and every operation that applies to one applies to the other with results that again differ only in whitespace.", "quantifier": "all pairs of documents with the same content, all paths, all histories", "why_tests_cant": "All layouts of all documents.", "anchors": ["inter_core.go:core", "inter_get.go:Get", "inter_iter.go:IterateArray", "inter_set.go", "inter_add.go", "inter_delete.go", "others.go:Flatten"]}
{"id": "C45", "title": "Arbitrary bytes: reads return a stretch, updates change one", "statement": "On any byte string, well-formed or not, a Get that succeeds returns a stretch of the input that is a balanced bracketed text, the inside of a string or a token; a Set, Add, AddKeyValue, Insert, Delete, SetKey or Store that succeeds changes exactly one stretch of the input - the value with its quotes, the place before the closing bracket, the element with its separators, the key - and every other byte is kept.", "quantifier": "all byte strings, all paths, all arguments", "why_tests_cant": "All byte strings, including every malformed text.", "anchors": ["inter_core.go:core", "inter_get.go:Get", "inter_set.go", "inter_add.go", "inter_delete.go:Delete"]}
{"id": "C46", "title": "The parser's nodes form a tree", "statement": "After Parse and any history of Set, SetKey, Delete, AddKeyValue, Add and Insert calls on a Parser, failing calls included, the node structs linked by up and down pointers form a tree: no sharing, no cycle, every up pointer leads to the node that lists the node. The calls answer what the same calls on a pointer-free tree answer, and the array of sequence.go behaves as an unbounded stack for every history of push, pop, last and inc.", "quantifier": "all texts, all histories of calls, all initial capacities", "why_tests_cant": "All histories of calls on all texts.", "anchors": ["parse_core.go:pCore", "parse_utils.go:node", "parse_utils.go:walk", "parse_utils.go:insert", "parse_utils.go:deAttach", "sequence.go", "parse_set.go", "parse_add.go", "parse_delete.go"]}
{"id": "C47", "title": "The parser's typed getters and GetNew", "statement": "After Parse and any successful updates the parser's GetString, GetInt, GetBool, GetFloat and the four array getters answer like the interpreter's functions on the parser's text, and GetNew gives a well-formed text with the content of the value addressed.", "quantifier": "all documents, all paths, all histories of updates, every ParseFloat", "why_tests_cant": "All documents and paths.", "anchors": ["parse_get.go", "parse_utils.go:dive"]}
{"id": "C48", "title": "Tree prints every value once", "statement": "For every document Tree prints exactly one line for each value inside it, in the order of the text, with the depth and the label; TreeFull prints the value's text as well, behind the label filled up to six characters.", "quantifier": "all documents, all labels in UTF-8", "why_tests_cant": "All documents.", "anchors": ["parse_utils.go:Tree", "parse_utils.go:TreeFull", "parse_utils.go:createTree"]}
{"id": "C49", "title": "Floating-point numbers are read back and read right", "statement": "Writing a float64 with SetFloat, AddFloat, AddKeyValueFloat, InsertFloat or StoreFloat at a position of a well-formed document and reading the position with GetFloat yields the same float64, and what is written is a JSON number. A number that stands in a document is read as the nearest float64, ties to even, and refused exactly when it rounds beyond the largest one.", "quantifier": "all documents and positions, all float64 values, all JSON numbers with exponents below 100000", "why_tests_cant": "All float64 values and numbers of any length.", "anchors": ["inter_set.go:SetFloat", "inter_add.go:AddFloat", "inter_get.go:GetFloat", "inter_type.go:GetType", "utils.go:formatType"]}
{"id": "C50", "title": "A lookup reads no further than the value", "statement": "On a text that agrees with a well-formed document up to the end of the value at a path, whatever follows (nothing, another document, garbage), Get, the typed getters, GetType, Length, IsEmpty, GetKeys, GetValues, GetKeysValues, IterateKeyValue and IterateArray answer as on the document, the type tests need only its first byte, and Set replaces exactly the value; a text that breaks off inside the value is an error of Get and Set.", "quantifier": "all documents, all resolving non-empty paths, all continuations", "why_tests_cant": "All continuations of all documents, malformed ones included.", "anchors": ["inter_core.go:core", "inter_get.go:Get", "inter_set.go:Set", "inter_type.go", "inter_iter.go", "others.go:Length"]}
{"id": "C51", "title": "Byte slices handed in are never written to", "statement": "Get, Set, SetKey, Delete, Add, AddKeyValue, Insert, Store, Flatten and Indent write to no array that existed before the call, the spare capacity of the slices they are given included. A successful update, Flatten and Indent return memory nobody else has; Get returns a window of the document and a failing update the document itself. So a program that makes any sequence of these calls on slices of one another, and itself writes only to bytes that none of its other slices can show, behaves as if every slice were a string.", "quantifier": "all memories, all slices with any spare capacity, all arguments, any growth of append; all sequences of calls", "why_tests_cant": "All ways slices can overlap, all sequences of calls.", "anchors": ["utils.go:replace", "inter_get.go:Get", "inter_set.go", "inter_add.go", "inter_delete.go:Delete", "others.go:Flatten", "others.go:Indent"]}
{"id": "C52", "title": "The reading functions agree with one another on every text", "statement": "On every byte string and path, JSON or not: GetKeysValues gives what GetKeys and GetValues give; IsValue is the negation of IsObject; GetType decides IsArray, IsObject and IsValue; what GetBool, GetInt or GetFloat accepts is of that type or a string with that text; GetIntArray, GetFloatArray and GetBoolArray are GetStringArray with every element parsed, and refuse exactly when an element does not parse; Length is zero exactly when IsEmpty answers true.", "quantifier": "all byte strings, all paths", "why_tests_cant": "All byte strings, malformed ones included.", "anchors": ["inter_get.go", "inter_type.go", "others.go:Length"]}
{"id": "C53", "title": "The parser's typed writers are read back", "statement": "After Parse and any updates that keep the parser right, SetInt, SetBool, SetFloat, SetString and the AddKeyValue, Add and Insert variants of the parser succeed, leave the text the package's functions make of it, and the value written is what the matching typed getters of the parser and of the package read at its place.", "quantifier": "all documents, all lawful histories, all integers, booleans, float64 values and string texts", "why_tests_cant": "All histories of updates on all documents.", "anchors": ["parse_set.go:SetString", "parse_set.go:SetInt", "parse_set.go:SetFloat", "parse_set.go:SetBool", "parse_add.go:AddKeyValueString", "parse_add.go:AddString", "parse_add.go:InsertString"]}
{"id": "C54", "title": "The Parser writes to no byte slice but keeps the ones it is given", "statement": "Parse, Get, GetNew, JSON, Set, SetKey, Delete, Add, AddKeyValue and Insert of the Parser write to no array that existed before the call. A parser holds slices of the document it was made from, of the values it was given and of memory its own calls made, and of nothing else; Get, JSON and GetNew of a plain value hand out windows of these, GetNew of an object or array with members hands out new memory. So a program that makes any sequence of these calls, with slices that overlap in any way, behaves as if every slice were a string, and writing to arrays the parser was given nothing of does not change the parser.", "quantifier": "all memories, all slices with any spare capacity, all arguments, any growth of append; all sequences of calls", "why_tests_cant": "All ways slices can overlap, all sequences of calls.", "anchors": ["parse_core.go", "parse_get.go", "parse_set.go", "parse_add.go", "parse_delete.go", "parse_utils.go"]}
{"id": "C55", "title": "A Parser call that cannot apply is refused with the right error and changes nothing", "statement": "An update of the Parser that has no meaning on the document it holds (a path that leads nowhere, a key that is taken, a value of the wrong kind, an index out of range, an empty path or key) returns the error the code has for it - key not found with the first key that leads nowhere, key already exist, object or array expected, index out of range, null path or key - and the parser is as it was.", "quantifier": "all documents, all lawful histories before, all arguments", "why_tests_cant": "All histories of updates on all documents, and all ways a call can fail.", "anchors": ["parse_set.go", "parse_add.go", "parse_delete.go", "parse_utils.go:walk", "parse_utils.go:insert", "errors.go"]}
{"id": "C56", "title": "Where a lookup fails, every function fails, with the lookup's error", "statement": "On every byte string and path: when Get fails, its error is key not found naming a key of the path, index expected, index out of range, empty array or bad JSON; the typed getters, the listings, the type tests, Length, GetMap and the iterators fail with the same error, and the updates hand back the text unchanged with it (Store adds if a key was not found; SetKey also fails when the new key is found). An update without a path, a typed AddKeyValue or a SetKey with an empty key and a typed Insert with a negative index are refused with the error for that.", "quantifier": "all byte strings, all paths, all arguments", "why_tests_cant": "All byte strings, malformed ones included, and every function with its own way of calling the lookup.", "anchors": ["inter_core.go:core", "inter_get.go", "inter_set.go", "inter_add.go", "inter_delete.go", "inter_type.go", "inter_iter.go", "others.go:Length", "errors.go"]}
{"id": "C57", "title": "The text a Parser holds is updated as the package's functions update it", "statement": "Whatever tree and text a Parser holds: a Set, SetKey, Add, AddKeyValue, Insert or Delete on it either reports an error and leaves the text, or leaves the text that the function of that name makes of it. Over any sequence of calls the text is thus what the functions make of the first text by some of the calls, and where the calls apply to a document it is a document with the content meant, also after containers were put in or overwritten and elements deleted or inserted anywhere.", "quantifier": "all parsers, all arguments, all sequences of calls", "why_tests_cant": "The tree may have drifted from the text in any way; all histories.", "anchors": ["parse_set.go", "parse_add.go", "parse_delete.go", "inter_set.go", "inter_add.go", "inter_delete.go"]}
{"id": "C58", "title": "A JO keeps the buffer it was made from until an update succeeds", "statement": "No method of a JO writes to an array that existed before the call, whatever slices it is handed. The JO holds the very slice New was given until a method that updates it succeeds (or nil, after a typed AddKeyValue or Insert of a string that was refused at once); from then on it holds memory no one else has. So any sequence of methods goes as if every slice were a string, the caller's slices keep their bytes, and after a success neither the caller's writes to old slices nor writes to what JSON returned reach the other. Until then New and JSON share, and Get always hands out a part of the body.", "quantifier": "all memories, all slices with any spare capacity, all sequences of the 27 updating methods, any growth of append", "why_tests_cant": "All ways slices can overlap, all sequences of calls.", "anchors": ["jin_object.go", "jin_object_add.go", "jin_object_set.go", "jin_object_get.go:Get", "inter_add.go", "inter_set.go"]}
{"id": "C59", "title": "An iterator's callback may edit what it was handed", "statement": "IterateArray and IterateKeyValue hand the callback parts of the document's own memory and write to none themselves. A callback that writes to no byte of the document behind the part it was handed - one that calls functions of the package, updates the document it is called on, or edits its value in place - does not disturb the iteration: the callbacks to come see the values the document held at the start, and the iteration ends as it would over that string.", "quantifier": "all byte strings in all memories, all callbacks", "why_tests_cant": "Any callback, with any state and any effect on memory.", "anchors": ["inter_iter.go:IterateArray", "inter_iter.go:IterateKeyValue", "utils.go:cleanValue"]}
{"id": "C60", "title": "Parse is determined on any bytes", "statement": "Parse panics exactly on the texts of two bytes or more that are all blank, or close more brackets outside of strings than are open, or begin with a blank and have a colon before the first string. It fails with bad JSON exactly on texts shorter than two bytes and on those without a bracket and without a comma behind a comma or colon. Every other text, however malformed, gives a Parser on which Get and the typed getters of numbers and flags never panic, and GetNew does not either if all brackets outside of strings are closed. Setting a container that closes too many brackets panics.", "quantifier": "all byte strings, all paths", "why_tests_cant": "All byte strings, malformed in any way; a recover in a test says nothing about the others.", "anchors": ["parse_core.go:pCore", "parse_utils.go:Parse", "parse_get.go:Get", "parse_get.go:GetNew", "parse_set.go:Set"]}
{"id": "C61", "title": "What a Parser answers after an update, also where it has drifted from its text", "statement": "After a successful update Get of the Parser answers: at the place of the update the value put in, and, if that was an object or array, below it a single key 0 under which its members are found (nothing, after AddKeyValue with a key of one byte; after Insert at the root the container itself is found empty); a scalar or string set over a container leaves the old members in place; at the containers above, what the new text has there (after Add of a container the outermost one keeps its old text); a deleted key or index is not found and the elements behind it keep their numbers; a renamed key leads where the old one led; elements behind an inserted one are found one further; every place the path parts from answers as before. GetNew shows a container put in once more inside one of its kind, and panics after a container was inserted at the root.", "quantifier": "any parser, whatever tree and text it holds, and all values for Set, AddKeyValue, Delete and SetKey; all documents for Add and Insert; all paths", "why_tests_cant": "All trees and all places in them, most of which a test does not look at after an update.", "anchors": ["parse_set.go", "parse_add.go", "parse_delete.go", "parse_utils.go:insert", "parse_utils.go:deAttach"]}
{"id": "C62", "title": "The search loop, statement by statement, computes what the model computes", "statement": "core as written in Go - index variables and ints that may be negative, a table of 256 flags whose entries for comma and colon are switched off and on during the search, nested loops with break, continue and goto, an assignment to the loop's own index - returns, fails and panics exactly as the recursive model does that the other properties are about. No loop runs for ever: one turn for every byte and every part of the path is enough.", "quantifier": "all byte strings, all paths, with and without justStart", "why_tests_cant": "All byte strings and paths: a flag not switched back or an index off by one shows on few of them only.", "anchors": ["inter_core.go:core"]}
{"id": "C63", "title": "The iterators and the trimming, statement by statement, compute what the models compute", "statement": "IterateArray, IterateKeyValue, cleanValue and cleanValueString as written in Go - index variables, the table of flags, a level counter, the loops that look for the quotes and the end of a key, the tests of the last byte - call the callback with the same values in the same order, stop at the same place, return the same error and panic exactly as the recursive models do that the other properties are about, and end within one turn for every byte.", "quantifier": "all byte strings, all paths, all callbacks", "why_tests_cant": "All byte strings and callbacks: an index off by one shows on few of them only.", "anchors": ["inter_iter.go:IterateArray", "inter_iter.go:IterateKeyValue", "utils.go:cleanValue", "utils.go:cleanValueString"]}
{"id": "C64", "title": "The parsing loop, statement by statement, computes what the models compute", "statement": "pCore as written in Go - nodes allocated one by one and hung below the current one, which moves down at a bracket and up at its end, two sequences of ints, index variables, goto - builds the nodes that the recursive model builds, panics exactly when it does, ends within one turn for every byte, and touches no node but the one it is given and those it makes.", "quantifier": "all byte strings, all heaps", "why_tests_cant": "All byte strings, malformed ones included.", "anchors": ["parse_core.go:pCore", "sequence.go"]}
{"id": "C65", "title": "The listings, type tests and Length, statement by statement, compute what the models compute", "statement": "GetKeys, GetValues, GetKeysValues, typeControlCore, getStartEnd, IsEmpty and Length as written in Go - the two ways to the first byte, the loops over the bytes with their tables of flags and level counters, slices taken and appended, the loops from the back - return the same lists, flags, positions, lengths and errors and panic exactly as the recursive models do, and end within one turn for every byte.", "quantifier": "all byte strings, all paths", "why_tests_cant": "All byte strings, malformed ones included.", "anchors": ["inter_get.go:GetKeys", "inter_get.go:GetValues", "inter_get.go:GetKeysValues", "inter_type.go:typeControlCore", "inter_type.go:IsEmpty", "utils.go:getStartEnd", "others.go:Length"]}
{"id": "C66", "title": "The readers of one value or an array, statement by statement, compute what the models compute", "statement": "Get, GetString, GetInt, GetFloat, GetBool, ParseArray and the four array readers as written in Go - the slices taken, the trimming, the loop over the bytes of an array with its flags and level counter, the loops that convert one element after another - return the same values and errors and panic exactly as the recursive models do, and end within one turn for every byte.", "quantifier": "all byte strings, all paths, any reading of floats", "why_tests_cant": "All byte strings, malformed ones included.", "anchors": ["inter_get.go:Get", "inter_get.go:GetString", "inter_get.go:GetInt", "inter_get.go:GetFloat", "inter_get.go:GetBool", "inter_get.go:GetStringArray", "inter_get.go:GetIntArray", "inter_get.go:GetFloatArray", "inter_get.go:GetBoolArray", "others.go:ParseArray"]}
{"id": "C67", "title": "The formatters, statement by statement, compute what the models compute", "statement": "Flatten, Indent and createTabs as written in Go - the loops with their flags for being inside a string, the level counter, the bytes appended one after another - write the same text and panic exactly as the recursive models do, and end within one turn for every byte.", "quantifier": "all byte strings", "why_tests_cant": "All byte strings, malformed ones included.", "anchors": ["others.go:Flatten", "others.go:Indent", "utils.go:createTabs"]}
{"id": "C68", "title": "The updates, statement by statement, compute what the models compute", "statement": "replace, Set, SetKey, Delete, AddKeyValue, Add, Insert and Store as written in Go - the loops that look for the two ends of the whole text, over quotes and to the bytes before and after a value, the test for an empty container, copies of paths and values into new slices, index variables that may be -1 - return the same text and error and panic exactly as the models do, and end within one turn for every byte.", "quantifier": "all byte strings, all paths, keys, indices and values", "why_tests_cant": "All byte strings, malformed ones included: an index off by one shows on few of them only.", "anchors": ["utils.go:replace", "inter_set.go:Set", "inter_set.go:SetKey", "inter_set.go:Store", "inter_delete.go:Delete", "inter_add.go:AddKeyValue", "inter_add.go:Add", "inter_add.go:Insert"]}
{"id": "C69", "title": "The Make functions and the Scheme methods, statement by statement, compute what the models compute", "statement": "formatType, MakeArray, MakeArrayString, MakeArrayInt, MakeArrayBool, MakeArrayFloat, MakeArrayBytes, MakeJson, MakeJsonString, MakeJsonWithMap and Scheme's MutateJson, MutateJsonAbs, Check and CheckAbs as written in Go - range loops that append to a slice and cut off its last byte, values indexed beside their keys, the search for the exponent of a float, the search of one list of keys in another, a nil slice carried through a loop - return the same texts, answers and errors and panic exactly as the recursive models do.", "quantifier": "all lists of keys and values, all byte strings", "why_tests_cant": "All lists and texts, empty and nil ones included.", "anchors": ["utils.go:formatType", "make.go:MakeArray", "make.go:MakeArrayString", "make.go:MakeArrayInt", "make.go:MakeArrayBool", "make.go:MakeArrayFloat", "make.go:MakeArrayBytes", "make.go:MakeJson", "make.go:MakeJsonString", "make.go:MakeJsonWithMap", "make.go:MutateJson", "make.go:MutateJsonAbs", "make.go:Check", "make.go:CheckAbs"]}
{"id": "C70", "title": "The type tests, the maps and walk, statement by statement, compute what the models compute", "statement": "IsObject, IsArray, IsValue, GetType, GetMap, GetAll, GetAllMap and walk as written in Go, on top of the iterators and readers as written in Go, return the same answers, call the callback with the same keys, values and paths in the same order, return the same error and panic exactly as the models do.", "quantifier": "all byte strings, all paths, all callbacks", "why_tests_cant": "All byte strings and callbacks.", "anchors": ["inter_type.go:IsObject", "inter_type.go:IsArray", "inter_type.go:IsValue", "inter_type.go:GetType", "inter_get.go:GetMap", "inter_get.go:GetAll", "inter_get.go:GetAllMap", "walk.go:walk"]}
{"id": "C71", "title": "The Parser, statement by statement, computes what the models compute", "statement": "Parse, Get, GetNew, Tree, TreeFull, Set, SetKey, Delete, AddKeyValue, Add and Insert of Parser as written in Go, over nodes linked by pointers, leave the same nodes and the same text, return the same value and error and panic exactly as the pointer model does; after Parse and any history of updates, whether they succeed or fail, they answer what the model without pointers answers.", "quantifier": "all byte strings, all histories of updates, all paths, keys, values and indices", "why_tests_cant": "All byte strings and all histories.", "anchors": ["parse_utils.go:Parse", "parse_utils.go:walk", "parse_utils.go:insert", "parse_utils.go:deAttach", "parse_utils.go:getIndex", "parse_utils.go:dive", "parse_utils.go:createTree", "parse_get.go:Get", "parse_get.go:GetNew", "parse_set.go:Set", "parse_set.go:SetKey", "parse_delete.go:Delete", "parse_add.go:AddKeyValue", "parse_add.go:Add", "parse_add.go:Insert"]}
{"id": "C72", "title": "The functions as written in Go meet the specification of documents", "statement": "On the text of a document, the functions as written in Go - not models of them - return the addressed value, leave the document that the update means or the text as it was, run through the elements and pairs, list keys and values, count, tell types, walk, flatten and indent as the specification of documents says; so do the Parser's methods over pointers after any history of updates in the domain of C30. Readers and updates answer on every document and every path - Delete unless a part of the path begins the text -: no panic, and every loop ends.", "quantifier": "all documents, all paths, values, callbacks and histories in the domains of C01, C03, C13-C17, C20, C21, C30, C35 and C36", "why_tests_cant": "All documents and all histories; and what is checked is the Go statements, not a model that agrees with them on samples.", "anchors": ["inter_core.go:core", "inter_get.go:Get", "inter_set.go:Set", "inter_set.go:SetKey", "inter_set.go:Store", "inter_delete.go:Delete", "inter_add.go:Add", "inter_add.go:AddKeyValue", "inter_add.go:Insert", "inter_iter.go:IterateArray", "inter_iter.go:IterateKeyValue", "others.go:Flatten", "others.go:Indent", "walk.go:walk", "parse_get.go:Get"]}
{"id": "C73", "title": "The typed writers, JO and the typed methods of Parser, statement by statement, compute what the models compute", "statement": "SetString, SetInt, SetFloat, SetBool, the four Store variants, the nine variants each of AddKeyValue, Add and Insert, the methods of JO and the typed readers and writers of Parser as written in Go, on top of the other functions as written in Go, return the same text, value and error and panic exactly as the models do; after any history of calls a JO has the same body and has returned the same errors, and a Parser has the same text and answers the same. What the typed writers for integers and booleans write at a position of a document, the typed readers read there.", "quantifier": "all byte strings, all histories of typed and other calls, all paths, keys, values and indices", "why_tests_cant": "All byte strings and all histories; dozens of near-copies, of which a test calls each once.", "anchors": ["inter_set.go:SetString", "inter_set.go:SetInt", "inter_set.go:SetFloat", "inter_set.go:SetBool", "inter_set.go:StoreString", "inter_set.go:StoreInt", "inter_set.go:StoreFloat", "inter_set.go:StoreBool", "inter_add.go:AddKeyValueString", "inter_add.go:AddString", "inter_add.go:InsertString", "jin_object_add.go:Store", "jin_object_add.go:Add", "jin_object_set.go:Set", "jin_object_others.go:Delete", "parse_get.go:GetString", "parse_get.go:GetInt", "parse_get.go:GetStringArray", "parse_set.go:SetString", "parse_add.go:AddKeyValueString", "parse_add.go:InsertBool"]}
{"id": "C74", "title": "No history of updates panics", "statement": "Starting from any bytes whose last non-blank byte is none of : , [ { - all documents and most texts that are no JSON - no sequence of Set, SetKey, Add, AddKeyValue, Store and their typed variants, on a JO or call after call, panics, whatever the keys and paths and whether or not the calls succeed or do the right thing, as long as a value put in the place of another ends like such a text itself; the text stays of this kind, so that no reading function panics afterwards. The same for a Parser of any such bytes and its Set, SetKey, Add, AddKeyValue and Get.", "quantifier": "all such byte strings, all histories of these calls, all keys, paths and values", "why_tests_cant": "The texts reached by calls that go wrong are not the ones anybody writes into a test, and a panic needs a scan that runs off the end of one of them.", "anchors": ["inter_set.go:Set", "inter_set.go:SetKey", "inter_set.go:Store", "inter_add.go:Add", "inter_add.go:AddKeyValue", "jin_object_set.go:Set", "jin_object_add.go:Store", "parse_set.go:Set", "parse_set.go:SetKey", "parse_add.go:Add", "parse_add.go:AddKeyValue", "parse_get.go:Get"]}
{"id": "C75", "title": "UTF-8 in, UTF-8 out", "statement": "Given a text that is valid UTF-8 - JSON or not - and any path, whatever the readers, listings, array splitters and maps return, whatever the iterators and Walk hand to a callback and whatever Flatten, Indent and a Scheme's mutations make is valid UTF-8, as is what the Make functions build of UTF-8 parts; given keys and values in UTF-8 too, so is the text after any history of updates of a JO or a Parser, typed ones and failed ones included, and every value a Parser then returns; so is what GetNew returns after parsing a text with balanced brackets. The functions work on bytes and never decode: no cut falls inside a character. GetNew after an update is not included: it can cut one.", "quantifier": "all UTF-8 byte strings, all paths, all histories of updates with UTF-8 keys and values", "why_tests_cant": "All texts; a cut inside a character shows only where a multi-byte character stands beside the position in question, and the tests are in ASCII.", "anchors": ["inter_get.go:Get", "inter_get.go:GetKeys", "inter_get.go:GetValues", "inter_get.go:GetKeysValues", "inter_get.go:GetMap", "inter_get.go:GetAll", "inter_get.go:GetStringArray", "inter_set.go:Set", "inter_set.go:SetKey", "inter_set.go:Store", "inter_add.go:Add", "inter_add.go:AddKeyValue", "inter_add.go:Insert", "inter_delete.go:Delete", "others.go:Flatten", "others.go:Indent", "others.go:ParseArray", "inter_iter.go:IterateArray", "inter_iter.go:IterateKeyValue", "parse_core.go:pCore", "parse_get.go:Get", "parse_get.go:GetNew", "walk.go:Walk", "make.go:MakeArray", "make.go:MakeArrayString", "make.go:MakeJson", "make.go:MakeJsonWithMap", "make.go:MutateJson", "make.go:MutateJsonAbs"]}
{"id": "C76", "title": "A piece of a document can be worked on by itself", "statement": "What the readers, type tests, listings and iterators answer at a value below the root is a function of that value, whatever surrounds it and whatever path leads there. So take an array or object out with Get: below it everything present is read in the piece as in the document, and an update of the piece, put back with Set at the place it came from, gives the very bytes of the same update made in place with the longer path; the same for paths that resolve to nothing.", "quantifier": "all documents, all paths in them, all callbacks, all updates and all histories of Set, Delete and Add", "why_tests_cant": "Two whole runs over different texts have to agree byte for byte, for every surrounding document.", "anchors": ["inter_get.go:Get", "inter_get.go:GetString", "inter_get.go:GetInt", "inter_get.go:GetBool", "inter_get.go:GetFloat", "inter_get.go:GetStringArray", "inter_get.go:GetIntArray", "inter_get.go:GetBoolArray", "inter_get.go:GetFloatArray", "inter_get.go:GetKeys", "inter_get.go:GetValues", "inter_get.go:GetKeysValues", "inter_get.go:Length", "inter_type.go:IsArray", "inter_type.go:IsObject", "inter_type.go:IsValue", "inter_type.go:GetType", "inter_type.go:IsEmpty", "inter_iter.go:IterateArray", "inter_iter.go:IterateKeyValue", "inter_set.go:Set", "inter_set.go:SetKey", "inter_set.go:Store", "inter_add.go:Add", "inter_add.go:AddKeyValue", "inter_add.go:Insert", "inter_delete.go:Delete"]}
{"id": "C77", "title": "Without insignificant whitespace the functions compute on the content", "statement": "Flatten maps every document to a text that depends on its content alone, and the Make functions build such texts of non-empty lists. On such texts, at every array or object that is not empty: Get, GetKeys, GetValues, GetKeysValues, IterateKeyValue, IterateArray, GetStringArray and the typed array getters return exactly what the content says, as does Length, but for a root array of one one-byte element (of IterateKeyValue, the last pair's error is dropped); and every history of Set, Delete, Add and Insert with values of the same kind leads from the flat text of a content to the flat text of the new content, byte for byte, as does a single AddKeyValue, SetKey or Store whose key the search sees to be absent (or present, for Store).", "quantifier": "all documents, all contents, all paths, all callbacks, all indexes, all histories", "why_tests_cant": "The functions go wrong on certain layouts (C10, C14, C15, C22, C23); that there is a layout on which they never do is a statement about all contents.", "anchors": ["others.go:Flatten", "inter_get.go:Get", "inter_get.go:GetKeys", "inter_get.go:GetValues", "inter_get.go:GetKeysValues", "inter_get.go:Length", "inter_get.go:GetStringArray", "inter_get.go:GetIntArray", "inter_get.go:GetBoolArray", "inter_get.go:GetFloatArray", "inter_iter.go:IterateArray", "inter_iter.go:IterateKeyValue", "inter_set.go:Set", "inter_set.go:SetKey", "inter_set.go:Store", "inter_add.go:Add", "inter_add.go:AddKeyValue", "inter_add.go:Insert", "inter_delete.go:Delete", "make.go:MakeArrayString", "make.go:MakeArrayInt", "make.go:MakeArrayBool", "make.go:MakeArrayBytes", "make.go:MakeJsonString", "make.go:MakeJsonWithMap"]}
{"id": "C78", "title": "A document made of a map or a slice is that map or slice", "statement": "The object MakeJsonString or MakeJsonWithMap builds of different, non-empty keys and values that are plain strings or arrays and objects so made stands for the list of pairs: SetString, StoreString, AddKeyValueString, Delete and SetKey at its root lead to the very document made of the changed list, fail with the right error and leave the document alone exactly when the change does not apply, and so does any history of them; GetKeys, GetValues, GetKeysValues, GetMap, Length and Get give the list back, Check says whether all keys of a scheme are there, CheckAbs whether they are the same ones in any order, and MutateJson and MutateJsonAbs give the document made of the list arranged after the scheme. Likewise the arrays MakeArrayString, MakeArrayInt and MakeArrayBool build, under Set, Add, Insert and Delete of their types, with any index. (The empty list is given as nil.)", "quantifier": "all such lists of pairs, all lists of strings, ints and bools, all histories of calls, all schemes", "why_tests_cant": "All lists and all histories; a test follows one list through a few calls.", "anchors": ["make.go:MakeJsonString", "make.go:MakeJsonWithMap", "make.go:MakeArrayString", "make.go:MakeArrayInt", "make.go:MakeArrayBool", "make.go:Check", "make.go:CheckAbs", "make.go:MutateJson", "make.go:MutateJsonAbs", "inter_set.go:SetString", "inter_set.go:SetInt", "inter_set.go:SetBool", "inter_set.go:StoreString", "inter_set.go:SetKey", "inter_add.go:AddKeyValueString", "inter_add.go:AddString", "inter_add.go:AddInt", "inter_add.go:AddBool", "inter_add.go:InsertString", "inter_add.go:InsertInt", "inter_add.go:InsertBool", "inter_delete.go:Delete", "inter_get.go:Get", "inter_get.go:GetKeys", "inter_get.go:GetValues", "inter_get.go:GetKeysValues", "inter_get.go:GetMap", "inter_get.go:Length", "inter_get.go:GetStringArray", "inter_get.go:GetIntArray", "inter_get.go:GetBoolArray"]}
{"id": "C79", "title": "A Parser of a document made of a map is that map", "statement": "Parse the object MakeJsonString or MakeJsonWithMap builds of different, non-empty keys and plain string values. Through any history of Set (of the text the Make functions write), AddKeyValueString, Delete and SetKey at its root, failing calls included, the Parser holds the very document made of the list of pairs changed accordingly, Get gives the value of every key, and a call fails, with the right error and the Parser unchanged, exactly when the change does not apply.", "quantifier": "all such lists of pairs, all histories of these calls, all keys", "why_tests_cant": "All lists and all histories; the tree and the text of a Parser are updated separately and drift apart on other documents (C30).", "anchors": ["parse_get.go:Get", "parse_set.go:Set", "parse_set.go:SetKey", "parse_add.go:AddKeyValue", "parse_add.go:AddKeyValueString", "parse_delete.go:Delete", "parse_core.go:pCore", "make.go:MakeJsonString", "make.go:MakeJsonWithMap"]}
{"id": "C80", "title": "Documents are made of documents", "statement": "Give the texts made of maps and slices to MakeJsonWithMap and MakeArrayString as values, to any depth. The document made stands for the nested value: Get returns at every path the text made of the part there, GetKeys, GetValues, GetStringArray and Length list the parts, IsArray and IsValue tell their kinds, Walk shows every string with its path, a Parser of the document finds the parts, and SetString, Delete, StoreString, AddKeyValueString, SetKey, AddString and InsertString at any path, with strings or with texts so made, lead to the very document made of the changed nested value, as do all histories of them.", "quantifier": "all nested values, all paths, all histories of calls", "why_tests_cant": "All depths; a test nests once or twice.", "anchors": ["make.go:MakeJsonWithMap", "make.go:MakeArrayString", "walk.go:Walk", "parse_utils.go:Parse", "parse_get.go:Get", "inter_type.go:IsArray", "inter_type.go:IsValue", "inter_get.go:Get", "inter_get.go:GetKeys", "inter_get.go:GetValues", "inter_get.go:GetStringArray", "inter_get.go:Length", "inter_set.go:SetString", "inter_set.go:SetKey", "inter_set.go:StoreString", "inter_add.go:AddKeyValueString", "inter_add.go:AddString", "inter_add.go:InsertString", "inter_delete.go:Delete"]}
{"id": "C81", "title": "Nested values made, changed and read by the functions as written in Go", "statement": "C80 for the programs that follow the Go functions statement by statement: make a text of nested maps and slices by MakeJsonWithMap and MakeArrayString, then call SetString, StoreString, AddKeyValueString, AddString, InsertString, SetKey and Delete as the history says. Every loop ends, no call fails or panics, and the text at the end is the text made of the nested value changed accordingly. On it Get, GetKeys, GetValues, GetStringArray, Length, IsArray, IsValue, Walk and a Parser return the parts of the value.", "quantifier": "all nested values, all histories of calls, all paths, all bounds on the turns of loops from some bound on", "why_tests_cant": "A whole run of several functions, each with its loops, flags and indexes, for all nested values and all histories at once.", "anchors": ["make.go:MakeJsonWithMap", "make.go:MakeArrayString", "utils.go:formatType", "inter_core.go:core", "inter_set.go:SetString", "inter_set.go:StoreString", "inter_set.go:SetKey", "inter_add.go:AddKeyValueString", "inter_add.go:AddString", "inter_add.go:InsertString", "inter_delete.go:Delete", "inter_get.go:Get", "inter_get.go:GetKeys", "inter_get.go:GetValues", "inter_get.go:GetStringArray", "inter_get.go:Length", "inter_type.go:IsArray", "inter_type.go:IsValue", "walk.go:Walk", "parse_utils.go:Parse", "parse_get.go:Get"]}
{"id": "C82", "title": "A JO holds a nested value", "statement": "A JO made of the text of a nested value of maps and slices, or NewJSON, stands for that value. Through any history of SetString, Store, AddKeyValueString, AddString, InsertString, SetKey and Delete at any depth, whether the calls apply or not, its body is the text made of the value changed by the calls that apply, and a call returns an error exactly when it does not apply. The methods as written in Go do so, every loop coming to its end.", "quantifier": "all nested values, all histories of calls, applicable or not", "why_tests_cant": "All histories, failing calls included; the body is assigned even when a function fails.", "anchors": ["jin_object.go:New", "jin_object.go:NewJSON", "jin_object_add.go:AddKeyValueString", "jin_object_add.go:AddString", "jin_object_add.go:InsertString", "jin_object_add.go:Store", "jin_object_add.go:StoreString", "jin_object_set.go:SetString", "jin_object_set.go:SetKey", "jin_object_others.go:Delete", "make.go:MakeJsonWithMap", "make.go:MakeArrayString"]}
{"id": "C83", "title": "A Parser of a nested value changes as the value does", "statement": "Parse the text made of nested maps and slices. Through any history of Set, AddKeyValueString, AddString, SetKey and Delete at any depth, the Parser's text is the text made of the nested value changed accordingly, a call returns an error exactly when it does not apply and then leaves the Parser as it is, Get returns at every path the text made of the part there, and whatever Get returns is such a part. The methods as written in Go do so, every loop coming to its end.", "quantifier": "all nested values, all histories of calls, all paths", "why_tests_cant": "The tree and the text of a Parser are updated separately by different code; that they keep in step is a statement about all histories.", "anchors": ["parse_utils.go:Parse", "parse_core.go:pCore", "parse_get.go:Get", "parse_set.go:Set", "parse_set.go:SetKey", "parse_add.go:Add", "parse_add.go:AddString", "parse_add.go:AddKeyValue", "parse_add.go:AddKeyValueString", "parse_delete.go:Delete", "make.go:MakeJsonWithMap", "make.go:MakeArrayString"]}
