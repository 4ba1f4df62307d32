# Formal model of OpyenXes: design

## What this is

A Rocq (Coq 8.16.1) model of the Python package in `/repo/src/opyenxes`, written
function by function, and machine-checked proofs of the properties listed in
`properties.jsonl`.  The Python code was read, never run.  Python semantics is
that of CPython 3.11.

## Layout of `rocq/theories`

* `Base/`   Python values: text (lists of code points), results with exceptions,
  insertion-ordered dictionaries, integers and floats, date-times.
* `Model/`  one file per area of the package; definitions only, each citing the
  file and lines it models.
* `Spec/`   small independent definitions used in theorem statements.
* `Proofs/` lemmas.
* `Props/`  the theorems.  One theorem per claim, closed by `exact`, followed by
  `Print Assumptions` and by an `Example` with a concrete instance.
* `Tests/`  the model against evidence of what the code does: the tests in `/repo/tests`,
  and the files in `/repo/example/xes_file` that were written by the library itself.
  The model gives the same text as the recorded files, up to the order of dictionaries
  in old versions of Python and their name of the zone UTC.  `StdlibTests.v` tests
  `Base/` against the standard library of CPython.  These are tests, no proofs.

## Modelling decisions

* Python `str` is `list N` (code points, no bound).  `str.lower` uses the
  Unicode 14 tables of CPython 3.11, with the rule for the final sigma; `str.strip`
  uses the exact white-space set.
* Exceptions are values: a call gives `Ok v` or `Raise e`.
* `dict` is an association list in insertion order; assignment to an existing
  key keeps its place.  `set` is a duplicate-free list; where Python's iteration
  order of a set is visible, theorems quantify over the order.
* Attribute values are dynamically typed (`pyval`), as in Python: a literal
  attribute may hold any value, and operations on mismatched values raise.
* Floats are IEEE 754 `spec_float`.  Their text conversion (`repr`, `float(s)`)
  is a parameter of the model, with the round-trip law as an explicit
  hypothesis of the theorems that need it.
* Object identity matters for clones, equality, maps shared between elements and the
  SAX handlers.  These parts use a heap (list of objects, location = index).
  The rest uses trees.
* Random UUIDs and object creation are supplied by a counter / stream of ids.
* Documents are element trees, and the parsers consume the SAX event sequence of such
  a tree.  The text of documents is modelled separately (C40), and so are files
  (C70, C71).  gzip and the network are parameters.

## Plan per property

| Id | Model | Proof idea |
|----|-------|-----------|
| C01 | `compare_to`, `__eq__`, `__lt__`.. of all attribute classes over `pyval`, exceptions included | orders on code point lists, Z, N, dyadic numbers, instants; lexicographic lifting |
| C02, C03 | `__eq__` dispatch by class, keys fed to `hash` | case analysis; exact characterisation of the asymmetric pairs |
| C04 | `uuid.UUID(hex)` and `str`, upper | positional hexadecimal codec |
| C05-C07 | `__str__` of timestamps, `parse_date_time`, `strptime` as a first-match regex parser | codec proof over field digits; calendar validity |
| C08, C09 | `insert_ordered` on lists of events | induction on the reversed trace |
| C10, C11 | `XTimeBounds` as a state machine | fold invariant, min/max, permutation |
| C12-C15 | classifiers over events | map lookups, injectivity of joining with a separator, merge of sorted keys |
| C16-C18 | `XEventClasses` state machine | counting invariant, sortedness and uniqueness of sorted permutations |
| C19-C24 | `XLogInfo`, `XAttributeInfo`, cache | fold invariants, exact success condition |
| C25-C30 | registries, extension manager, name maps, singletons | invariants over call histories |
| C31, C32 | `XTokenHelper` | scanning lemmas for split/join |
| C33-C39 | XES serializer to element trees, SAX handler on a heap | simulation by induction over trees with ownership of heap intervals |
| C40 | minidom escaping, expat attribute normalisation | character-level codec |
| C41, C42 | `can_parse`, registry search | suffix reasoning |
| C43-C46 | MXML handler on a heap, MXML serializer | as for XES |
| C47-C51 | heap model of `clone`, constructors, factory | frame conditions on heaps |
| C52-C55 | extension setters and getters on attribute maps, nested support | dictionary laws, path induction |
| C56 | `get_extensions` recursion | tree induction |
| C57 | `format_duration` for ints and floats | div/mod arithmetic, exactness of the double operations |
| C58 | extension definition SAX handler | invariant over events |
| C59 | cached union | history invariant |
| C60 | organizational setters | dictionary laws, `lower` |
| C61-C64 | alpha algorithm of the examples; iteration order of sets as a parameter | relations as sets, closure of the pair enumeration, maximal elements |
| C65-C68 | variant filter, CSV converter, anonymiser, clustering of the examples | fold invariants, positions, permutations |
| C69 | statistics after a file round trip | composition of C40, C34 with the statistics' specs |
| C70, C71 | files as bytes: encodings, gzip, saving and loading | codec inverses, composition of C40, C42 |
| C72 | extension cache over a tree of folders | history invariant: the support folder exists after the first call that returns |
| C73 | list.__eq__ over the heap | pointwise comparison by keys; composition with cloning |
| C74 | readers over arbitrary SAX sequences | invariant: ids on the heap are the draws so far, every reference is stored once |
| C75 | events, maps and wrappers as objects, histories | refinement of plain names by an invariant (every event owns its map) |
| C76 | histories of timers on doubles | invariant by induction on histories, error bounds of rounding |
| C77 | histories of loggers | invariant by induction on histories |
| C78 | reader over arbitrary SAX sequences, two managers | simulation between two runs; invariant on the log's extensions |
| C79 | people-chart script over lists of logs | invariant of the counting dictionary; C69 for files |
| C80 | texts of a log against the written document | induction over attribute trees, for any character predicate that holds of ASCII |
| C81 | random-log script, attribute constructors | invariant of the counter of drawn ids; C80 for the file |
| C82 | dictionary of trace boundaries with arbitrary hash values | invariant of the entries; C10 for each trace |
| C83 | `XAttributeTimestamp` with milliseconds, a clock with a fixed offset, division to doubles | calendar arithmetic: ordinals and dates are inverse; rounding errors of the double operations |
| C84 | saving and loading repeated | reading back is idempotent, for values, attributes, globals, extensions and classifiers; induction over the rounds |
| C85 | writer and reader for values of any type | outcome of each write as an equivalence; a bad start event raises in every parser state |
| C86 | MXML written and read repeatedly | the log read as a function of the log written; its fixpoints; what was read is writable |
| C87 | MXML read, written as XES, read | every attribute of the MXML specification is readable and keyed; then the XES round trip |
| C88 | Comparing attributes of different classes | case analysis over the pairs of classes against a table |
| C89 | XES reader on documents of any structure | induction over documents with the place of each element; case analysis of each start and end tag |
| C90 | MXML reader on documents of any structure | induction over documents with the place of each element; the text buffer is part of the fault specification |
| C91 | extension parser, exceptions | induction from the end of the tag sequence; the state is determined by what was reached and whether an attribute is open |
| C92 | standard extension objects (Model/StdInit.v) | a fold of registrations is the last matching one; finite tables compared by computation, all other keys and mappings by exclusion |
| C93 | MXML writer, document and exceptions | building and writing composed element by element; the result is a function of the list of faults |
| C94 | XES writer, document | induction over attribute trees against an inductive relation between logs and elements; digit texts by Horner evaluation |
| C95 | name maps listed and shown | induction over histories; order of first meeting as a specification function |
| C96 | event classes compared | order of the identities; C16's partition for events in both logs |
| C97 | platform tests | induction over histories; prefixes |
| C98 | mining, filtering, clustering, storing | C62/C63 up to order, with a counting argument for the numbers of pairs and places; C69 |
| C99 | text of attributes | induction over collections; splitting at the first separator |
| C100 | lines, cells and titles of CSV files | induction over the text; replacing word by word |
| C101 | identifiers are objects that can be shared | frame by induction over the program; new holders own new objects |
| C102 | the lines of the written files | printer to lines by induction over trees; pieces of a split text |
| C103 | types of attributes and their prototypes | case analysis over classes |
| C104 | when two logs have the same file | prefix-freeness of the printed tree by induction, separation of the parts of a document by tags |
| C105 | when two logs have the same MXML file | the document is drawn injectively from what is kept; date texts are split at separators |
| C106 | what the mined net can replay | marking equation by induction on the trace; places as maximal pairs; for sequential logs one place before and one after each activity |
| C107 | `XAttributeTimestamp` with milliseconds and a clock that changes its offset | the clock of C83 with readings instead of offsets |
| C108 | `XEventClass` objects shared by `XEventClasses` and its users | history invariant: each key has an object of this identity; refinement to the map of C16-C18 |
| C109 | classifiers as objects that are keys of the dictionary of a summary | dictionary with kept hash values; first keys of equal classifiers |
| C110 | registries of parsers and factories over whole histories; search with file objects | invariant of histories; search as a relation on files |
| C111 | text of a mined net, saving it | reading the lines back; replay through the maximal pairs of C106 |
| C112 | the mined net and the token game | balances of the maximal pairs, with the changed part of the trace in the middle |
| C113 | the anonymiser with the other examples and the serializer | traces before and after have the same identities; loops in step |
| C114 | the anonymiser on objects | one loop over all objects that are looked at; trees below kept by a frame argument |

Where the code contradicts its documentation the property is stated as the exact
behaviour, or the intended statement is refuted by a theorem named `..._refuted`.

## Trusted base

1. **Coq 8.16.1's kernel** (and `coqchk`).
2. **Axioms: none.**  `Print Assumptions` under every theorem of `Props/` prints
   *Closed under the global context*.  The model has no axiom, parameter or
   admitted proof.  `coqchk` reports seven constants
   `Coq.ssr.ssrunder.Under_rel.*` as assumptions of the loaded library: they are
   part of Coq's own `ssreflect` support (loaded by `Lia`/`FinFun` through the
   standard library), and no theorem here depends on them.
3. **The correspondence of model and source**: each definition of `Model/` cites
   the lines it models and was written by reading them.  It is tested against
   seeded errors (`seeded/LOG.jsonl`), not proved.
4. **The library behaviours written down in `Base/`, `Model/XmlText.v` and
   `Model/XmlChars.v`** (CPython 3.11): `str` methods, `int()`, `dict`, `list`,
   comparison of numbers, arithmetic of floats, `datetime`, `strptime` for the patterns used, `uuid`,
   `xml.etree.ElementTree`, `xml.dom.minidom`, and `expat` on what these two write.
   They are tested, not proved: `Tests/StdlibTests.v` compares them with results of
   CPython's own standard library on generated inputs, valid and broken ones.

### Parameters of the model

These are quantified in the theorems, so the results hold for every behaviour of them:

| Parameter | Stands for |
|-----------|------------|
| class `FloatIO` | `repr(float)` and `float(text)`; where reading back is needed the law is a hypothesis of the theorem |
| `draw` | the identifiers `uuid4` delivers |
| class `SetOrder` | the order in which Python iterates a set (any permutation) |
| clock / `epoch` | local time of a number of seconds |
| `off`, `mk` | the offset of the local time zone (C83), the offset at every instant and `mktime` of the C library (C107) |
| `h`, `hq` | the hash values of traces, one for each call (C82) |
| `urlparse`, `urlopen` | the URL functions of the XES reader and the extension parser; they may fail, and the answers of `urlopen` may change between calls |
| class `Gzip` | gzip's compression, one instance per moment of writing since the bytes hold the time; loading needs that it can be undone (a hypothesis) |
| `loc`, `wr`, `rd` | the encoding of text files |
| `platform`, `profile`, `expanduser`, `here`, `old` | `sys.platform`, `USERPROFILE`, `os.path.expanduser`, the current folder and the ages of files in the extension cache |
| `strp` | `datetime.strptime` in the CSV example |
| `centres`, `predict` | scikit-learn's k-means |

### Simplifications

* `int` has no limit on digits.
* There is no limit on the depth of recursion, and memory does not run out.
* An extension is its name, prefix and URI text; the object identity of extensions
  is not modelled.  A classifier is its name and its keys, except in
  Model/Renamed.v, where it is an object that can change, the built-in hash functions are
  parameters and the log is one for which summaries can be made.  Event classes are objects
  only in Model/ClassObjects.v.
* Attribute trees are values except in `Model/Heap.v` and `Model/HeapAnon.v`, which model constructors,
  clones, edits and the anonymiser on a heap.  So outside of it nothing is said about one
  attribute object stored at two places, except where the code itself shares.
* The readers keep their objects on a heap; each object is the only one that
  refers to its own map, as the constructors ensure.
* `XAttributeID` with a value that is not an `XID` is covered only up to the
  exception.  Timestamps hold date-times; values of other types are carried along.
* The clock of C83 has one offset all the year; that of C107 changes.  `fold` of a date-time is left out.
* Registries hold objects, not `None`.
* Objects are built by the standard factory; C110 has the choice of the factory, with what a
  format's code makes of a file as a parameter.  Its registries both exist from the start.
* Logging calls and their timing are left out of readers and writers; loggers
  and timers are modelled by themselves.
* Files are contents by path; permissions, links, directories and the line ends of
  Windows are left out.  A file is read as a whole.  expat decodes UTF-8 only.
* The expat model covers what the writers write (one document, no DTD, no
  processing instructions but the declaration).
* Attribute values of MXML are read with the source table as the code does; the
  list of work-flow logs is modelled up to the objects a caller can reach.
* Template attributes of the standard extensions are values; changing a template
  by hand is not modelled.  The uuid in the template of identity attributes is any.
* Identifiers are their uuids except in `Model/XidObjects.v`, where they are objects.

### What is modelled

`classification/`, `model/`, `info/`, `extension/` (objects, parser, manager
with its cache on disk, all of `std/`), `factory/XFactory`, `id/`,
`data_in/` and `data_out/` (readers and writers of XES and MXML, compressed and
plain files, file names, registries), `utils/` (registry, singletons, tokens, time stamps, durations,
timers, attribute utilities, support folders), `log/`, and from `/repo/example` the alpha algorithm, the variant
filter, the CSV converter, the anonymiser, the clustering, the chart of resources and the random log.

### What is not modelled

`cli.py`, the network, plots, and the example scripts that only print.
