# Formal model of ecoshub/jin in Coq 8.16.1

## Layout (rocq/theories)

Three kinds of files.  **Specification** files mention nothing of the model; **model** files contain the code, function by
function, with the lines of /repo cited at every definition; **proof** files contain lemmas.  The property theorems stand alone in `P_*.v`.

| specification | content |
|---|---|
| Json.v | JSON documents as concrete-syntax trees (every byte, blanks included), `render`, well-formedness, `content`, path lookup |
| Spec.v | abstract documents, lookup and the seven updates on them, paths that part (`apart`) |
| Rfc.v | the grammar of RFC 8259, as inductive relations on bytes |
| Domains.v | the conditions on documents under which properties that are false in general hold |
| SpecIter.v, SpecList.v, SpecFormat.v, SpecParser.v, SpecParserOps.v, SpecTyped.v, SpecScheme.v, SpecWalk.v, SpecAlias.v, SpecJO.v, SpecPanic.v, SpecPtr.v, SpecTree.v, SpecNumber.v, SpecLocal.v, SpecMem.v, SpecAgree.v, SpecIterMem.v, SpecScan.v, SpecNest.v | what iteration, listing (with the code's trimming), formatting, the parser, schemes, Walk, aliasing, JO, panic freedom, the parser's pointers and Tree should do; what a number denotes and which float64 is nearest; texts that agree with a document up to the end of a value; who may write to and who shares which bytes; agreement of results; what lies inside strings and how brackets count on any bytes |

| model | code |
|---|---|
| GoStd.v | Go slices and indexing with an explicit `Panic`; `strconv.Atoi/Itoa/ParseInt/FormatInt`; error values |
| GoFloat.v | `strconv.ParseFloat`, and what `FormatFloat` promises |
| Core.v | inter_core.go |
| GoLang.v, CoreGo.v, IterGo.v, PCoreGo.v, ListGo.v, SplitGo.v, FormatGo.v, UpdateGo.v, MakeGo.v, WalkGo.v, ParserGo.v, TypedGo.v, ParserTypedGo.v | Go statements (loops with break, continue, goto; variables of a block) as state transformers; inter_core.go, inter_iter.go, cleanValue and cleanValueString (utils.go), parse_core.go, inter_get.go, the type tests, getStartEnd, Length, ParseArray, Flatten, Indent, replace, Set, SetKey, Store, Delete, AddKeyValue, Add, Insert, formatType, make.go, walk.go and the Parser's methods (parse_utils.go, parse_get.go, parse_set.go, parse_delete.go, parse_add.go), the typed writers and JO (jin_object_*.go) again, statement by statement |
| AsWritten.v | calls and histories of calls of the programs of statements; `eventually` (from some bound on), `octets` |
| Errors.v | errors.go |
| Api.v | utils.go (replace, space), inter_get.go (Get), inter_set.go, inter_add.go, inter_delete.go |
| Typed.v | the typed getters and setters, utils.go (formatType and helpers) |
| Iter.v | inter_iter.go, inter_type.go, others.go (Length, ParseArray), GetKeys ... GetAllMap, the array getters |
| Format.v | others.go (Flatten, Indent) |
| Make.v, Scheme.v, Heap.v | make.go; slices with shared backing arrays and append |
| Parser.v | sequence.go, parse_*.go, nodes as a tree |
| Pointers.v | sequence.go, parse_*.go again, nodes as structs with pointers on a heap |
| Tree.v | parse_utils.go (Tree, TreeFull) with the `fmt` verbs and `utf8.RuneCountInString` they use |
| Walk.v | walk.go |
| Alias.v | the functions that append to the caller's path, again, on a heap of slices |
| GoMem.v, Mem.v | byte slices as windows of arrays with spare capacity; replace, Get, the updates, Flatten and Indent again, on that memory |
| ParserMem.v | the parser again, on that memory |
| JOMem.v | the JO methods again, on that memory |
| IterMem.v | the iterators again, on that memory, with callbacks that may write |
| JO.v | jin_object*.go |

| proofs | about |
|---|---|
| Skip.v, Focus.v, CoreProofs.v, CoreNeg.v, CoreSib.v, Below.v | the scanners on rendered trees: resolving paths, failing paths, absent keys, paths below values |
| ApiProofs.v, Updates.v, InsertExact.v, Ops.v, History.v, SpecProofs.v | updates, and sequences of updates |
| Laws.v, Layout.v | laws between updates; documents that differ in whitespace |
| SpecSplice.v, Splice.v | what a successful call does to arbitrary bytes |
| Parse.v | a reader of texts into trees, used in examples only |
| IterProofs.v, IterObj.v, IterMisc.v, Split.v, ListExact.v (exact results of listings, arrays and maps), TypedProofs.v, FormatProofs.v, MakeProofs.v, SchemeProofs.v, RfcProofs.v, RfcUpdates.v, ParserProofs.v, ParserGet.v, ParserUpd.v, ParserOps.v, ParserInsert.v, WalkProofs.v, WalkTotal.v, AliasProofs.v, JOProofs.v, NoPanic.v, NoPanicB.v, NoPanicC.v, NoPanicD.v, NoPanicE.v, PointerProofs.v, TreeProofs.v, ParserNew.v, FloatProofs.v, FloatApi.v, TypeExact.v, MemProofs.v, MemSession.v, Agree.v, LayoutRead.v, LayoutAbsent.v, LayoutWalk.v, Piece.v, Neat.v, Flat.v, Made.v, MadeParser.v, ParserTyped.v, ParserRefuse.v, LookupFails.v, BlankText.v, ParserText.v, JOMemProofs.v, IterMemProofs.v, IterEdit.v, IterPanic.v, ParseAny.v, ParserNest.v, ParserNil.v (also the model of Parser.AddKeyValue with a nil value), CoreGoProofs.v, IterGoProofs.v, PCoreGoProofs.v, ListGoProofs.v, SplitGoProofs.v, FormatGoProofs.v, UpdateGoProofs.v, MakeGoProofs.v, WalkGoProofs.v, ParserGoProofs.v, Octets.v, ParserGoWritten.v, ParserNilGo.v (also the program and the pointer model of Parser.AddKeyValue with a nil value), AsWrittenProofs.v, TypedGoProofs.v, ParserTypedGoProofs.v, QuietProofs.v, QuietGoProofs.v, Utf8Proofs.v, Utf8More.v, Utf8Calls.v, Utf8Parser.v, Utf8Walk.v | the file's namesake |
| SpecFails.v | which errors a lookup may answer |
| SpecLayout.v | updates whose meaning does not hang on blanks |
| SpecQuiet.v, SpecQuietGo.v | histories of calls that keep a text complete |
| SpecPiece.v | a value as a document of its own; a call with a longer path |
| SpecFlat.v | the tree and the text of a content without whitespace |
| SpecMade.v | changes of maps and slices, and the calls that are to make them |
| SpecUtf8.v, SpecUtf8Calls.v | UTF-8 as in RFC 3629; calls with keys and values in UTF-8 |
| P_*.v | the property theorems only, each closed by `exact` (a refutation by its witness), followed by `Print Assumptions` and by an `Example` that meets its hypotheses |

`properties.jsonl` is written by tools/mkprops.py; `MANIFEST.json` by tools/mkmanifest.py from tools/claims.json and the theorems
found in `P_*.v`.  `seeded/LOG.jsonl` lists the wrong programs the theorems were tried on.

How to read that log: `failed` names, per file, the proof at which the build stopped (dependent files are then not built). This
shows that the proofs do not go through for the wrong program; it does not by itself show that the named statement is false
for it, since a proof script can break while its statement stays true. Two of the last seven entries (`P_AddKeyValue_nil`)
stopped that way: with the first lemma admitted in the scratch copy another theorem failed, and that one is logged, with a note.
The earlier entries were not re-examined like this. Of the 964 entries, 283 have direct evidence that a claim is hit
(`examples_falsified` is not empty or a property theorem itself is in `failed`); 601 rest on a single entry in `failed` and no
falsified example, and for those the log is weaker evidence.

## Modelling conventions

* A Go `[]byte` is `list N`; values above 255 are allowed (a superset of Go bytes).
* A loop `for i := a; i < len(json); i++` is structural recursion over the suffix `json[i:]` with the index `i`
  carried along (look-back and random access go through the whole text). The one loop that assigns to its own
  index (`i = j` in the key search) is modelled by a `resume` index: iterations below it do nothing. For core these
  simplifications, and leaving out the table `isJSONChar`, are justified by C62-C71 and C73 against transcriptions that make none of them (CoreGo.v, IterGo.v, PCoreGo.v, ListGo.v, SplitGo.v, FormatGo.v, UpdateGo.v, MakeGo.v, WalkGo.v, ParserGo.v, TypedGo.v, ParserTypedGo.v).
* Out-of-range indexing/slicing is an explicit `Panic` result. Errors are values of an inductive type with the
  message text computed by a function (so that `ErrEqual` can be modelled on the text).
* Go `int` is 64 bits; lengths and positions never overflow (a slice is shorter than 2^63), `Atoi`'s range check is modelled.
* Floating point: `ParseFloat` is a parameter (an arbitrary function) of the functions that use it, and a float64 argument is
  given by its text. Most theorems hold for every such parameter. GoFloat.v models `ParseFloat` itself, and P_Float.v draws the
  consequences; there the text of a float64 is any text that fulfils the promise of `FormatFloat`.

## Plan per property

C01 `core` is run symbolically over the rendering of a well-formed tree, by induction on the path and over members/elements;
    a generic "a balanced value is skipped by every scanner" lemma (section with a scanner's step equations as hypotheses) is
    instantiated for each loop of the code.
C02 same machinery, failing last step.
C03 expected false (the key search runs on into later siblings of the object): `_refuted` witness; `_exact` says
    what the search finds in them by a two-state walk over the siblings (`Domains.stray`); `_partial` where that is nothing.
C04 expected false: `_refuted`; `_partial` when the search goes on in vain; exact result (`below_at`) otherwise.
C05, C06 from C01 plus `render (put t p v) = pre ++ render v ++ post` and spec-level lookup/put laws.
C07 edges computed from the C01 span; the remaining text is re-read as the rendering of a tree with the item removed.
C08, C09, C11, C12 from C01/C03; C08, C11, C12 inherit C03's condition (refuted without it).
C10 expected false when whitespace precedes the last element: `_refuted`, `_partial` otherwise; that it is false in exactly these
    cases by a small automaton that no document's text with two commas in a row passes.
C13, C14 the loops are modelled with an arbitrary state-passing callback; equal to a fold over the spec's element list.
    Empty containers / last-pair error: `_refuted` where the code deviates.
C15-C19 same scanner lemmas; deviations (`Length` on one-byte root arrays, `IsObject` on arrays, `IsEmpty` on one-byte
    arrays, `GetMap` below the root, GetValues on empty objects / one-byte values followed by whitespace) are `_refuted` with witnesses and the
    exact remaining domain is proved.
C20 induction over the tree (content) and over bytes with the scanner state (idempotence).
C21 `_refuted` (root string panics; string ending in an escaped backslash), `_partial` otherwise.
C22, C23 scanner lemma for the `\`-skipping scanners; `_refuted` for empty arrays.  C14, C15, C19, C22 and C23 also have
`_exact` theorems that give the result on every document, in terms of the trimming described in SpecList.v.
C24, C25 `Atoi (Itoa z) = z` plus C05/C01.
C26 `_refuted` (base 32 / panic with base 64).
C27, C28 induction over lists; `_refuted` for empty non-nil slices and for strings that need escaping; `_partial` for
    the domain on which formatType is right.
C29 pCore as a stack machine building a tree; `_refuted` for one-element scalar arrays; `_partial` otherwise.
C30 tree updates; `_refuted` for container values; partial.
C31 state machine with an explicit heap of backing arrays and capacities; invariant over histories.
C32 per function; `_refuted` for AddKeyValueString/InsertString (return nil).
C33 computation on the message text, for all embedded strings.
C34 totality of the structural model plus no-panic corollaries; `_refuted` for whitespace-only input.
C35 walk modelled with callbacks; `_refuted` for empty arrays and for early stop; partial.
C36 induction over the list of operations.
C37 slice heap model of `append`; `_refuted` when the path has spare capacity; proved when it has none.
C38 direct, for all byte inputs.
C39, C40 as C15/C05; StoreString of JO `_refuted`.

C43: each operation replaces the value at its place by a value that depends on that value alone (`op_writes`); replacing at
parting places commutes on concrete trees, hence the same bytes.  C44 from C01, C05–C12 and C21: the theorems give the content of
the result, and content determines Flatten's output.  Where a path does not resolve (C03, C04), the whereabouts of a stray key are
read off the tree without its blanks (`strip`), so two layouts have the same ones (LayoutAbsent.v).  The walk of a tree (`walked`) depends on its leaves and keys
alone, and an iteration on what the callback is shown, so Walk and the iterators run alike on both, whatever the callback
(LayoutWalk.v).

C45 on arbitrary bytes: the end-of-value loops are followed byte by byte (`value_end_shape`), the key mark by an invariant of the key
search (`key_mark`: it stands after a quote, its end at one, both before the value), the rest is list splitting.

C46: while pCore runs, the nodes still open are a `spine` of cells, each listing closed trees and then the next open one; an update
changes the cells of one subtree, and `plug` puts the changed subtree back.

C47, C48: the tree Parse builds is computed exactly from the document (`node_of`, `parse_exact`); GetNew and Tree are folds over it. After updates GetNew is read off the invariant of C30, which says of every node what value its bytes show (`shows`); the root node, whose bytes are never renewed, only lends its first byte.

C49 from C01, C05–C12 with tokens ParseFloat accepts; rounding by division with remainder in units of 2^-1074, where a fraction that
is a float64 stays the same, so that the exact decimal expansion is a text for every float64.

C50: the invariant of the search (`AtO`) speaks only of what has been passed, so the proof of C01 is repeated with an arbitrary
continuation (`core_cut`); the loops of the listing functions stop at the closing bracket.

C51: a slice under construction lies in an array that did not exist when the call began (`building`), an invariant of append, copy and
assignment, so everything older is untouched; programs by simulation, handles of different families lying in different arrays.

C52: induction over the remaining bytes, the two loops side by side; the typed getters through the first byte of what they accept.

C53: the last call of a lawful history (C30), its place in the new abstract document, and the readers on a known text.

C54: the parser with memory simulates the one of Parser.v (`shown_parser`), with the invariant that every slice it holds lies in a given set
of arrays or in a new one; dive, whose calls share one buffer, by what each call leaves untouched (`keep_but`).

C55: `refuses p d` lists which calls a parser holding `d` must refuse and with which error; proved from the invariant of C30 (`p_holds`).

C56: `lookup_error` and `early` classify errors; each function is unfolded down to its call of `core`, whose own errors come out of the loops by induction with the invariant that the key searched for is an element of the path. Any bytes.
C57: no invariant on the parser at all; each method is unfolded to `take_text`/`take_or_fail`, whose continuation (`refresh`) keeps the text. The root cases are computed on `o :: m ++ [c]`. Histories by induction with `call_ok`.
C58: the methods are the functions of C51's memory model followed by an assignment to the body; histories by induction, each step a new array or the same slice.
C59: the loops read the document anew at every step; invariant: from the last comma on it shows what it showed at the start (the escape look-back stops there). For IterateKeyValue `paired` says that the text has a key and a colon between commas, which documents do.

C60: `skeleton` (SpecScan.v) drops what is inside strings; the scanner of pCore keeps the same place (`place`), its stack is as deep as brackets are open, so popping an empty stack is being overclosed. The slice that can start before the text is the first key's after a leading blank. Weak and strong trees (ParseAny.v) say which nodes can be sliced out of the text again.

C61: needs no invariant between tree and text. Walking to `q` in a tree changed at `q` gives the changed node (`walk_upd`), refreshing a value changes nothing below it (`walk_value`), and paths that part see the old tree (`upd_parted`).

C62: every loop by induction on the bytes left, with the fuel above their number; the key search by induction on the fuel because it jumps. The invariant of the key search is that the end of the last key lies at or before the index (so the comparison stays inside the text), of the closing search that the level is at least 1.
C63 to C70: in the same way. The number of bytes left is below the fuel at every turn; the searches inside a turn (for the two ends of a value) start afresh with the whole fuel.
C71: no invariant for the updates: one lemma for each kind of statement followed by the rest, then a case for every branch; a node just made is none that was there, so writing to it leaves what `curr` says. Fuel for the loops is computed from the path. `dive` and `createTree` by the tree the pointers stand for (C46), which gives the bound on their recursion. The methods take the functions they call as a record (`lib`); the updates are first compared with the models while the record holds models, then a relation between statements (`settles`: with enough fuel the same end, and the text stays made of bytes) carries this over to the record of programs.

C72: no new argument: the equation of C62-C71 followed by the theorem about the model, with a bound on the turns that the length of the text and of the path give; for histories, that an update of bytes by bytes is made of bytes.

C73: unfolding and the equations of C62-C71; for JO by induction on the calls, the body staying made of bytes. A typed method of Parser is the untyped one on the formatted value (`plain`), so the history of C71 carries over; the readers by the text that Get returns (`gotten_spec`).

C74: by C45 an update replaces one stretch, and what follows it is left alone; so the last non-blank byte stays, or is that of the value written.  With C34 no call panics.  For the Parser, the tree keeps the invariant that no value in it is a lone quote, the only thing cleanValue panics on; Get returns none (`value_in`), Parse makes none (C60).

C75: every position at which a function cuts the text is next to a byte below 128 (a quote, bracket, comma, colon, blank or the position 0), and UTF-8 can be cut on either side of such a byte (`utf8_cut`).  For the Parser the invariant is that all labels and values of the tree are UTF-8.

C76: the exact results proved for C01, C10, C13 and C44 name the value and not the place, so two documents holding the same value answer alike (Piece.v); for updates, both sides are the text around the piece with the rendering of the changed piece between (`op_writes_at` in Laws.v, stated relative to a place).

C77: trees without whitespace are closed under what each update writes (Neat.v), so the text after a call is determined by its content (Flat.v); the whitespace conditions of the exact theorems on listings, arrays and Insert hold of themselves.

C78: a made document is the flat text of its list (Made.v); what is written for a string is a function of the string, so C77 carries each step over, and histories follow by induction.

C79: a text without blanks has one tree only (`flat_unique`, by lengths), so the tree the Parser's theorems speak of after a call is the tree of the new list (MadeParser.v).

C80: a nested Go value has a content (Deep.v `cont`), whose flat text is the text made of it from the inside out, since texts in brackets are put as they are; paths and changes of the value are those of the content, and C77 gives the calls; DeepWalk.v and DeepParser.v do the same for Walk (C35) and Parse (C29).

C81: C80 and the equations of C62 to C73 joined (DeepGo.v): every intermediate text is made of bytes, so each program of the history computes what its model does.

C82: DeepTotal.v adds to C80 what calls do that do not apply; a JO assigns what the functions return (C40), and C73 gives the methods as written.

C83: the tree of C79's proofs (`stands`) follows each call of C80 whose operation is one of C30's (DeepParserOps.v `deep_p_legal`); C74 gives the methods as written.

## Trusted base

* Coq 8.16.1's kernel (`vm_compute` included, used in examples, refutations and a few finite case checks).
* `Print Assumptions` stands beneath every theorem of `P_*.v`; for each it prints *Closed under the global context*: no axiom is
  used, neither our own nor one of the standard library.  Only the standard library is imported.
* The reading of the Go code: the model is a transcription by hand, checked against the text only by reading.  The code was
  not run.

Modelled: every exported function and method of the package except those listed below, with the unexported functions they
call.

Not modelled:

* `ReadFile`, `ReadJSONFile` (file access), testing_utils.go and `stripQuotes`, which only the tests use;
* how `strconv.ParseFloat` and `FormatFloat` compute: GoFloat.v has the syntax of the former with exact rounding, proved to be the
  rounding to nearest that the documentation of strconv promises, and only the promise of the latter; elsewhere both are
  arbitrary parameters, with the facts needed stated as hypotheses in the theorems;
* `MakeArray`, `MakeJson` and `Scheme.MakeJson` on arguments of kind `interface{}`: an argument is given by the text `fmt` prints
  for it, and by whether it is nil;
* the order in which Go ranges over a map (`MakeJsonWithMap`): any order;
* memory: except where a property is about aliasing (Heap.v, Alias.v, Scheme.v, GoMem.v) slices are values whose capacity is their
  length.  For the interpreter's Get, updates, Flatten and Indent, for the parser and for JO, C51, C54 and C58 justify this from a model with memory;
  for the other functions it is an assumption: nobody writes to bytes the library holds or has handed out;
* time and space used, and integer overflow of lengths and positions (a Go slice is shorter than 2^63);
* goroutines: the package starts none and the model has no concurrent calls.

Simplified, with the reason at the definition: loops are structural recursion; one loop that assigns to its index carries a
`resume` index; in Parser.v the parser's
nodes are a tree without parent pointers (the `up` pointers are the list of frames above), which C46 justifies from a model with pointers.
