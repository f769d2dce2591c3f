# Formal model of PyCIM in Rocq (Coq 8.16.1)

## What is modelled

| part of /repo | model file | granularity |
|---|---|---|
| Python strings, `int()`, `str()`, `str.title`, `rsplit`, `replace` | `PyStr.v` | functions on lists of code points |
| Python object heap: instance dictionaries, mutable lists with identity, exceptions as values | `PyHeap.v` | state-and-exception monad |
| class tables (`_attrs`, `_defaults`, `_enums`, `_refs`, `_many_refs`, properties, constructors) of all 16 tables: CIM14, CIM15 and their profiles | `Schema.v` + generated `Tab*.v` | one record per class, extracted from the Python source as text (`tools/gen_tables.py`) |
| generated getters, setters, `add*`, `remove*`, `__init__` | `Assoc.v`, `OneWay.v` (`add_*`, `remove_*`) | statement by statement, one definition per code shape; `tools/gen_tables.py` checks that every method of every class has exactly one of these shapes |
| `PyCIM/RDFXMLReader.py` | `Reader.v`, `ReaderLog.v`, `Stream.v` | event loop by event loop; the messages and the position of a file object separately |
| the import statements of the 1893 modules of CIM14 and CIM15, Python's import of them, `__import__` in the reader | `Imports.v`, `ImportReader.v` + generated `TabImports.v` | statement by statement; `tools/gen_imports.py` fails on any top-level statement of another kind |
| the 16 ecore models under `Model` that the classes were generated from | `Ecore.v` + generated `TabEcore.v` | classes, supertypes, attributes with types, references with multiplicity and opposite; not annotations, lower bounds, containment, `abstract` |
| the `_attr_types` of the classes | `AttrTypes.v` + generated `TabTypes.v` | row by row; nothing in the code uses them |
| `PyCIM/SimpleXMLWriter.py` | `XmlWriter.v` | method by method (Python 3 branch, plus the Python 2 branch of the escape functions) |
| `PyCIM/RDFXMLWriter.py` | `CimWriter.v`, `WriterLog.v` | loop by loop |
| `PyCIM/PrettyPrintXML.py` | `Pretty.v` | function by function |

Generated, `tools/gen_tables.py`: `Names.v`, `TabCIM14.v`, `TabCIM15.v`, `TabProfiles.v` (collected in `Tables.v`);
`tools/gen_types.py`: `TabTypes.v`; `tools/gen_imports.py`: `TabImports.v`; `tools/gen_ecore.py`: `TabEcore.v`; `tools/gen_ranks.py`: `ImportRanks.v`, a certificate that `ImportTabs.v` checks.

Specifications, which the theorems refer to and which say what is meant without the code model's helpers:

| file | contents |
|---|---|
| `AssocSpec.v` | the dereferenced view of a heap, consistency of an object graph, the effect of each operation |
| `HistorySpec.v` | admissible client statements; `History.v` is the language of client programs |
| `TableSpec.v` | what a class table must satisfy, with the exact exception lists |
| `ArgSpec.v` | constructor parameters along the base-class chain |
| `XmlSpec.v`, `XmlCalls.v` | an XML 1.0 parser (lexer, tree builder, entity expansion, line ends, attribute normalisation, namespaces); writer calls for a tree |
| `ReaderSpec.v` | what a document declares, what a property element means, effect of a statement |
| `VocabSpec.v` | objects and properties of a document by tags and attributes, base-class chains, values of attribute expressions |
| `AgainSpec.v` | closed dictionaries, documents without the references that lead outside, round trips |
| `PartsSpec.v` | the statements of a list of descriptions, files that can be read in turn, reading them one after the other, likeness of dictionaries |
| `DetachSpec.v` | ends, references through ends, a client that clears the ends of an object |
| `ExportSpec.v` | classes whose single references are association ends |
| `GraphSpec.v` | the references of a graph as a table, what each client statement does to the table |
| `MemberSpec.v` | the member a statement brings to a collection and how it joins, the contents after a list of statements |
| `FilesSpec.v` | dictionaries whose exports can be read in their order, reading files one after the other, a restored model |
| `CrossSpec.v` | classes that extend others, package maps that embed in others, a model moved to other classes |
| `QuietSpec.v` | documents whose classes, attributes and references are known; graphs whose references stay inside the dictionary |
| `StreamSpec.v` | what is asked of a parser, positions of a file |
| `SecondSpec.v` | keys of an object, graphs that refer to the same identifiers |
| `MovesSpec.v` | values given by statements, members that leave and arrive |
| `ImportSpec.v` | dotted names of modules, modules that are needed, interpreters in which modules have been imported, interpreters in which imports have been tried |
| `EcoreSpec.v` | classes that implement classes of an ecore model, exceptions by name, inheritance and instances by the model, values of a type |
| `WritableSpec.v` | objects that can be written: identifier, attributes and references present |
| `MisfitSpec.v` | values an association end does not lead to, what an assignment of them leaves (C112) |
| `CleanSpec.v` | documents that survive being read and written: characters, identifiers, enumerations (C113) |
| `TypesSpec.v` | declared types of attributes and of values (C114) |
| `DocSpec.v` | values given by the elements about an attribute, references stated by a document, coherent documents, reordering |
| `LogSpec.v` | messages by kind, positions of a document with unknown attributes or dangling references |
| `PrettySpec.v` | same content, layout |
| `WriteSpec.v` | the document cimwrite should write, as elements |
| `RoundSpec.v` | graphs that can be exported, agreement of two graphs |

`Prop*.v` hold the property theorems, each followed by `Print Assumptions` and an example that meets its hypotheses;
`*Facts.v`, `*Tables.v`, `*Check.v`, `ReadSound.v`, `RoundMain.v` hold the lemmas, `Demo.v`, `ReadDemo.v`,
`RoundDemo.v` the object graphs and documents of the examples.

## Simplifications

* Python 3 before 3.9 is meant (`xml.etree.cElementTree` is imported). The Python 2 branch is modelled for the escape
  functions only.
* expat / ElementTree: `XmlSpec.v` is my reading of XML 1.0 + Namespaces for the subset that occurs; DTDs, PIs other than
  the declaration, CDATA and encodings are not modelled. The reader model takes the event stream as its input; a document
  that does not parse is an event stream with an error at its end (`s_error`). In `Reader.v`
  `source` is re-readable (a path); `Stream.v` adds file objects, whose position matters.
* Files: opening, flushing and encoding are not modelled; what is written is a string of code points.
* `time` is left out. The messages of the reader are in `ReaderLog.v`, beside the model of its result, as values with the
  data they show; the texts of the messages, handlers and levels configured by the user are not modelled. The one message of
  the writer (RDFXMLWriter.py:109) and the value it returns are in `WriterLog.v`.
* float arithmetic: a Python float is identified with its `repr` string; `float(text)` is a parameter of the model, about
  which only what a theorem states is assumed. `int(text)` is modelled for ASCII digits, signs, underscores and ASCII
  white space; other text that Python may accept stops the model with `Unmodelled`.
* Attribute names in a document that reach Python internals (dunder names and class metadata; methods when an enumeration
  value would shadow them, a text or reference for them is modelled) stop the model with `Unmodelled`, as
  do attributes holding lists or CIM objects in `cimwrite` (their text contains memory addresses).
* Recursion deeper than the model's fuel is the explicit exception `RecursionError`; theorems hold for all fuel above the
  stated small bound.
* Iterating over a list while it changes: the second loop of the many-to-many setter looks at its list anew in every turn,
  as Python does (`live_each`). The other loops read the elements once (`iter_val`); LiveFacts.v proves for each of them,
  in every heap, that this is the same as looking at the list anew in every turn.
* Clients that mutate the internal lists directly are not operations of `History.v`; C13 says what a shared list does.
* `_attr_types` is unused by the code; it is extracted into `TabTypes.v` (types in `AttrTypes.v`) for C114.
* `xml.etree` serialisation in `PrettyPrintXML.xmlpp` is not modelled; `indent` is.
* Imports: the finders, the locks and the caches of Python's import system are not modelled; a class statement or an
  assignment at the top level of a module binds its name and does nothing else. `Reader.v` does not thread `sys.modules`:
  it has the class of a tag at once. `ImportReader.v` is the same reader with `sys.modules` threaded; C106 says when the
  two have the same result, and what happens otherwise.
* Package scripts, tests, `setup.py` and the documentation are not modelled.

## Trusted base

Coq's kernel (and its `vm_compute` machine), the reading of the source described above, and the extractors
`tools/gen_tables.py`, `tools/gen_types.py`, `tools/gen_imports.py` and `tools/gen_ecore.py`, which read /repo as text and fail on any class, method or top-level
statement that does not have one of the modelled shapes. Axioms: see the end of this file.

## Plan per property

| id | property | how |
|---|---|---|
| C01 | Setting the single end of a one-to-many reference | Assoc model; exact effect on the dereferenced view of the heap under the consistency invariant. |
| C02 | Setting a one-to-one reference | as C01 for the one-to-one setter. |
| C03 | add* on a one-to-many collection | induction over the argument list from C01. |
| C04 | remove* on a one-to-many collection | induction over the argument list from C01 with None. |
| C05 | remove* only touches its own collection | exact effect on foreign and unowned members (`remove_foreign`); expectation refuted by a witness. |
| C06 | References stay mutually consistent over every history | invariant over op lists, one preservation lemma per operation. |
| C07 | Assigning a one-to-many collection | effect theorem of the collection setter under its guard. |
| C08 | Assigning a collection takes members over from their former owner | exact effect for members owned elsewhere; expectation refuted by a witness. |
| C09 | add* on a many-to-many collection | effect theorem. |
| C10 | remove* on a many-to-many collection | effect theorem and error theorem. |
| C11 | Many-to-many collections hold each partner once | exact effect of a second add; expectation refuted by a witness. |
| C12 | A many-to-many collection can be reassigned | proved as a universal negative: every assignment over a non-empty collection raises AttributeError. |
| C13 | Collections of different objects are independent | invariant (unshared lists, part of C06) and exact effect of sharing; expectation refuted by a witness. |
| C14 | A new object is blank | constructor model; induction over the base-class chain and constructor steps. |
| C15 | Failed assignments are atomic | exact effect of every failing assignment to a single end; expectation refuted. |
| C16 | ACLineSegment has one impedance model | effect theorems on the generated CIM15 table. |
| C17 | PerLength*Impedance.LineSegments is the inverse of ACLineSegment.*Impedance | exact effect on every graph over the CIM15 table; expectation refuted. |
| C18 | Equipment.OperationalLimitSet add/remove | exact effect of add and remove. |
| C19 | Every class named in a package map can be instantiated by the reader | finite: forallb over the generated tables by vm_compute, lifted with forallb_forall to every heap via C14. |
| C20 | Every association end has an inverse | finite over the generated tables. |
| C21 | Class metadata agrees with the constructor | finite over the generated tables. |
| C22 | packageMap and nsURI must be given together | case analysis on the reader model. |
| C23 | CIM version detection | case analysis, strings arbitrary. |
| C24 | The dictionary returned by cimread | induction over flat documents. |
| C25 | Objects are of the declared class | induction over documents. |
| C26 | Forward references resolve | corollary of the second-pass semantics. |
| C27 | Reading leaves references mutually consistent | invariant of both passes. |
| C28 | First reference wins | step theorem + induction. |
| C29 | Attribute conversion | step theorem. |
| C30 | Empty string elements read as the empty string | step theorem per type of attribute; expectation refuted. |
| C31 | A malformed number aborts the read | step theorem lifted. |
| C32 | Dangling references are skipped | step theorem. |
| C33 | Unknown classes are skipped | induction over documents. |
| C34 | Unknown attributes are skipped | step theorem. |
| C35 | Foreign namespaces are ignored | simulation over event streams. |
| C36 | Reading does not disturb other objects | frame invariant. |
| C37 | Merging into start_dict keeps what was read before | exact effect; expectation refuted. |
| C38 | Nested object elements | exact state after a nested element; expectation refuted. |
| C39 | Enumerations | step theorem. |
| C40 | A many-to-many link given from both ends is recorded once per end | exact effect of a many-to-many reference; expectation refuted. |
| C41 | Namespace prefix map | induction over events. |
| C42 | Text escaping is lossless | induction over strings against an independent unescape function. |
| C43 | Attribute escaping is lossless | same. |
| C44 | Balanced writer calls produce well-formed XML | induction over trees against an independent XML parser. |
| C45 | close(id) closes exactly the elements opened since | induction. |
| C46 | Unbalanced end is rejected | case analysis. |
| C47 | Keyword attributes are written | equality of the calls with and without keywords; expectation refuted. |
| C48 | Attribute order is canonical | permutation invariance of sort. |
| C49 | Character references in the Python 2 us-ascii path are lossless | exact condition; expectation refuted. |
| C50 | Comments are well formed | exact condition; expectation refuted. |
| C51 | cimwrite emits one flat element per dictionary entry | induction over the dictionary against a separately written document specification. |
| C52 | cimwrite output is well formed | exact condition against the parser of XmlSpec; expectation refuted. |
| C53 | cimwrite is read-only | by the state-passing model (heap equality). |
| C54 | Round trip | invariant over the second pass (agreement + consistency). |
| C55 | Many-to-many references survive the round trip | exact behaviour; expectation refuted. |
| C56 | Objects with equal UUIDs | exact behaviour; expectation refuted. |
| C57 | CIM14 objects survive the round trip | exact behaviour; expectation refuted. |
| C58 | Pretty printing preserves the document | induction over trees. |
| C59 | Pretty printing layout | induction over trees. |
| C60 | Pretty printing is idempotent | induction over trees. |
| C61 | Adding twice and removing once | composition of C09, C11, C10. |
| C62 | White space in text and attributes | exact result of parsing what element() wrote. |
| C63 | Pretty printing is canonical | induction over pairs of trees. |
| C64 | Pretty printing does not change what is read | simulation of the reader over both event streams. |
| C65 | Keyword arguments in any order | permutation invariance of argument binding along the chain. |
| C66 | Positional arguments | binding along the chain; parameter names checked over the tables. |
| C67 | Unknown keyword arguments | simulation of the chain with and without the keyword. |
| C68 | Arguments for a repeated parameter are lost | exact effect; the eight classes checked by computation. |
| C69 | What a document says | characterisation of the vocabulary of the reader theorems. |
| C70 | Attribute access | chains checked over the tables; case analysis. |
| C71 | Elements are read only in the namespace expected | C35's invisibility applied to all elements; `elem_ns` in PropReread.v is the spec. |
| C72 | Text where a reference is expected | exact step from each state of the property. |
| C73 | Documents that are not well formed | the first pass stops with the error; it writes new objects only. |
| C74 | Reading a document again | region invariant with the empty region. |
| C75 | Collections without add method | exact steps; `plain_collections` checked over the tables. |
| C76 | Assigning a property to itself | from the effects of the setters; refuted by `g14`. |
| C77 | Lists held by the caller | the setter split at its second half; code that changes no existing list, code that changes only lists. |
| C78 | Loops over collections | `live_from` with the list changing under it: induction on the rest of the list. |
| C79 | What leaves no trace in the file | every step of the writer gives the same result and text on two heaps with the same objects. |
| C80 | What is left when cimwrite raises | what is missing is the end of an element; if the text parsed, so would the text with its end tags (all characters being XML characters), but nothing of that kind may follow a root element. |
| C81 | Skipped objects are reported | the notes of each pass, by induction over the events, against the objects of the document (`LogSpec.v`). |
| C82 | Dangling references are reported | number of messages = number of positions of the document (`Reaches`) with a dangling reference. |
| C83 | Unknown attributes are counted | as C82 for the dictionary of counters. |
| C84 | The summary of a read (expectation refuted) | from the shape of the log and C24; two descriptions of one identifier. |
| C85 | Namespaces and versions reported (expectation refuted) | cases of get_rdf_ns and get_cim_ns; a CIM16 document. |
| C86 | A quiet log (expectation refuted) | from C81-C83; reading and log with and without the element. |
| C87 | Attributes after a whole document | the statements about one attribute as a relation on values (`DocSpec.v`); induction over the statements. |
| C88 | References after a whole document | which single references and members the statements name (`says`, `says_many`); invariant over the statements, the collections from C27. |
| C89 | Order of a document (expectation refuted) | from C87 and C88, which depend on the document only through `about`; flat documents with objects and properties reordered. |
| C90 | When reading succeeds | the first failing statement is about an attribute, by C87 with a value that cannot be converted. |
| C91 | A second export (expectation refuted) | both documents from C51; the second from the copy of C54 entry by entry, with `trim` removing the references that lead outside; a copy is portable and closed, hence induction. |
| C92 | A model in several files (expectation refuted) | an invariant `Made` says what a dictionary holds in terms of the statements read so far; each file adds its statements (C87, C88) and disturbs no earlier end; two dictionaries made of the same statements are alike. |
| C93 | Taking an object out (expectation refuted) | each clearing call by C01, C02, C07, C10; composed through a relation that forgets the object; a consistent graph with the ends of an object empty has no reference to it. |
| C94 | Exporting what was read (expectation refuted) | corresponding objects (C89, C92) have the same descriptions because references are written by UUID; dictionaries without repeated keys give permuted entries; C51 turns entries into text. |
| C95 | References are what the history makes (expectation refuted) | the abstract table is read off the views; the effects of C01-C10 become one table change each; induction over the history. |
| C96 | Order of collections after reads (expectation refuted) | every statement is one of three ways to join a list; induction over the statements with the invariant of C88; for exports all arrivals are the described object itself. |
| C97 | Exports are coherent documents that say what the graph holds | every element written is the value of an attribute or a single reference (RoundFacts.does); consistency of the graph gives compatibility and agreement. |
| C98 | A model exported in several files (expectation refuted) | the files of the parts are the export of the whole cut into files (C51, C97), to which C92 applies; what C54 says about the whole is carried over along the correspondence of C92. |
| C99 | An export read with other classes (expectation refuted) | the document means the same to both tables: same declared objects, same statements, references between ends of the same kinds; so it is compatible and coherent for the reader and C87, C88 and C90 apply; attributes are compared with a read by the tables of the writer (C54). |
| C100 | Assigning the collection of another object (expectation refuted) | exact effect of the setters when the value is a list that some object already holds; the append loop is run to its end over the growing list (LiveFacts.live_append_runs). |
| C101 | An export is read back without complaints; the report of cimwrite (expectations refuted) | the positions of properties (QuietFacts.positions) have the attribute by the blank objects of C24; document facts of C97; the model of the call is `WriterLog.v`. |
| C102 | File objects as source (expectations refuted) | `Stream.v` models the position of the file in the three parses; the result is compared with `Reader.cimread`. |
| C103 | Objects described a second time (expectations refuted) | `SecondSpec.v`: listed objects, graphs that refer to the same identifiers, assignments of the listed object. |
| C104 | The order of assignments (expectations refuted) | `MovesSpec.v`: the values that statements give, and the graph after them. |
| C105 | Importing the modules of CIM14 and CIM15 (expectation refuted) | `ImportSpec.v`: dotted names, modules that are needed, interpreters in which modules have been imported. |
| C106 | Reading depends on what is imported (expectation refuted) | `ImportSpec.v`: the packages a document asks for in its order, timely. |
| C107 | Failed imports leave nothing half done (expectation refuted) | `ImportSpec.v`: interpreters in which imports have been tried. |
| C108 | The classes are those of the UML models | `EcoreSpec.v`: implements, zero of a type, inherits. |
| C109 | References connect what the models say they connect (expectation for all inherited references refuted) | `EcoreSpec.v`: opposite, instance of, leads. |
| C110 | Documents are read by the types of the models (expectation for big integers refuted) | `EcoreSpec.v`: of type, means. `DocSpec.v`: about. |
| C111 | What cimread returns can be written | `WritableSpec.v`: Writable, holds_values. |
| C112 | Assigning and adding objects of an unrelated class | `MisfitSpec.v`: misfit, atom, Breaks, Parts. |
| C113 | Read, write and read again | `CleanSpec.v`: repr_law, clean_doc. |
| C114 | Attributes have the types the classes declare | `TypesSpec.v`: has_type, typed, declares; tables `TabTypes.v`. |
| C115 | References without an opposite | `EcoreSpec.v`: instance_of, group; `AssocSpec.v`: view, Consistent. |

## Axioms

No axiom is declared in this development. `Print Assumptions` of every property theorem (made by
`tools/gen_assumptions.py` from a built tree):

<!-- assumptions -->
`Closed under the global context` (324 theorems):
C01_set_single, C02_set_pair, C03_add, C04_remove, C05_remove_foreign, C05_own_collection_refuted, C06_mutual,
C06_step, C06_tables, C07_assign_collection, C08_assign_takes_nothing, C08_takeover_refuted, C09_add_many,
C10_remove_many, C10_remove_absent, C11_add_again, C11_once_refuted, C12_reassign_many, C12_assign_many,
C12_reassign_refuted, C13_unshared, C13_setter_keeps_list, C13_shared_list, C13_independent_refuted,
C15_failed_assignment, C15_atomic_refuted, C16_views, C16_assign, C16_constructor, C17_set_line_segments,
C17_inverse_refuted, C18_add, C18_remove, C61_add_add_remove, C14_blank, C19_instantiable, C19_exceptions,
C20_inverse, C20_exceptions, C21_metadata, C21_exceptions, C42_text_escaping, C43_attribute_escaping,
C44_well_formed, C45_close, C45_close_start, C46_unbalanced_end, C47_keywords_ignored,
C47_element_keywords_ignored, C47_keywords_written_refuted, C48_canonical_order, C49_py2_exact,
C49_py2_lossless_refuted, C50_comment_exact, C50_well_formed_refuted, C62_white_space, C22_both_or_neither,
C23_cim14, C23_cim15, C23_given, C24_keys, C25_classes, C26_reference, C27_consistent, C28_first_wins,
C29_conversion, C29_total, C29_none, C30_empty_exact, C30_empty_number, C30_empty_string_refuted,
C31_malformed, C32_dangling, C33_unknown_class, C34_unknown_attribute, C34_method, C35_foreign, C36_others,
C37_merge_exact, C37_merge_refuted, C38_inside, C38_after_exact, C38_nested_refuted, C39_enum, C39_no_dot,
C40_twice_exact, C40_once_refuted, C41_prefixes, C41_errors, C58_content_preserved, C59_layout, C60_idempotent,
C63_canonical, C64_reading, C51_document, C51_returns, C51_unique, C52_well_formed_exact,
C52_well_formed_refuted, C53_read_only, C54_round_trip, C54_default, C55_collections_exact,
C55_survives_refuted, C56_by_uuid_exact, C56_merged, C56_keeps_all_refuted, C57_cim15_exact,
C57_survives_refuted, C65_keyword_order, C66_positional, C66_too_many, C66_twice, C66_exceptions,
C67_unknown_raises, C67_links_stay, C67_clean_failure_refuted, C68_argument_lost, C68_argument_kept_refuted,
C69_object, C69_property, C69_resource, C69_declared, C69_order, C69_last, C69_owner, C70_base_classes,
C70_lookup, C70_getter, C70_alias, C70_set_get, C70_set_get_pair, C71_default, C71_no_hash, C71_given,
C72_unset, C72_no_text, C72_one_many, C72_many_many, C72_single, C72_ignored_refuted, C73_raises,
C73_unchanged, C73_dictionary, C74_unchanged, C74_again, C75_reference, C75_text, C75_where, C76_single,
C76_pair, C76_collection, C76_unchanged_refuted, C77_left, C77_joined, C77_many, C78_one_many, C78_many_many,
C78_endless, C78_empties_refuted, C79_lists, C79_add, C79_remove, C79_keys, C79_seen, C80_unfinished,
C80_well_formed_iff, C81_reported, C81_unlocated, C81_missing, C81_twice, C82_dangling, C82_resolved,
C83_counted, C83_once, C84_summary, C84_raises, C84_number, C84_end, C84_created_refuted, C85_rdf, C85_cim,
C85_version, C85_given, C85_cim16, C85_unsupported_refuted, C86_quiet, C86_levels, C86_second_reference,
C86_text_for_reference, C86_method, C86_nothing_lost_refuted, C87_attribute, C87_same, C87_last, C88_stated,
C88_unstated, C88_kept, C88_collection, C88_many, C89_order, C89_reordered, C89_returns, C89_rivals_refuted,
C89_multiplicity_refuted, C90_returns, C90_references, C91_same, C91_exact, C91_stable, C91_same_refuted,
C92_parts, C92_returns, C92_order_refuted, C93_taken_out, C93_always_out_refuted, C94_alike, C94_order,
C94_parts, C94_profiles, C94_text_refuted, C95_graph, C95_last, C95_undo, C95_undo_pair, C95_undo_refuted,
C96_members, C96_stated, C96_round, C96_kept_refuted, C97_coherent, C98_files, C98_default,
C98_any_order_refuted, C99_moved, C99_tables, C99_default, C99_any_tables_refuted, C100_one, C100_many,
C100_follow, C100_copies_refuted, C100_keeps_refuted, C101_quiet, C101_export, C101_default, C101_reported,
C101_message, C101_success_refuted, C101_always_refuted, C101_count_refuted, C102_start, C102_elsewhere,
C102_again, C102_unseekable, C102_written, C102_sought, C102_file_like_refuted, C102_twice_refuted,
C103_replaced, C103_not_referred, C103_in_place, C103_ids, C103_repointed, C103_healed, C103_merged_refuted,
C103_led_refuted, C103_ignored_refuted, C104_moves, C104_order, C104_lists_refuted, C104_pairs_refuted,
C105_import, C105_wires_first, C105_loads, C105_names, C105_first_refuted, C105_class, C106_timely, C106_early,
C106_always, C106_ready, C106_refuted, C107_import, C107_names, C107_class, C107_reads, C107_again_refuted,
C108_classes, C108_only, C108_extra, C108_models, C108_new, C109_connect, C109_inherited_refuted, C110_typed,
C110_literal, C110_integer_refuted, C111_exact, C111_read, C111_profiles, C112_single, C112_pair_value,
C112_pair, C112_add, C112_add_many, C112_unchanged_refuted, C113_portable, C113_again, C113_profiles,
C113_phase_refuted, C114_tables, C114_model, C114_read, C114_resource, C114_declared_refuted, C115_assign,
C115_methods, C115_add, C115_remove, C115_remove_missing, C115_remove_more, C115_absent, C115_once_refuted.
<!-- end -->

`coqchk -o` over all files additionally lists the seven constants of the module `Coq.ssr.ssrunder.Under_rel` (standard
library, loaded with ssreflect by stdpp: `Under_rel`, `Under_rel_from_rel`, `Under_relE`, `Over_rel`, `over_rel`,
`over_rel_done`, `under_rel_done`); they come from a sealed module and no theorem uses them.
