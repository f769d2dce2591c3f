{
 "claims": [
  {
   "property": "C01",
   "status": "proved",
   "theorems": [
    "C01_set_single"
   ],
   "note": "Exact effect of the assignment and frame, for every class table and consistent graph."
  },
  {
   "property": "C02",
   "status": "proved",
   "theorems": [
    "C02_set_pair"
   ],
   "note": "Exact effect and frame."
  },
  {
   "property": "C03",
   "status": "proved",
   "theorems": [
    "C03_add"
   ],
   "note": "Exact effect for argument lists of any length, repetitions included."
  },
  {
   "property": "C04",
   "status": "proved",
   "theorems": [
    "C04_remove"
   ],
   "note": "Exact effect for argument lists of any length."
  },
  {
   "property": "C05",
   "status": "proved",
   "theorems": [
    "C05_remove_foreign",
    "C05_own_collection_refuted"
   ],
   "note": "The expectation is false of the code; the theorem gives the exact effect in both cases (unowned, owned by another object)."
  },
  {
   "property": "C06",
   "status": "proved",
   "theorems": [
    "C06_mutual",
    "C06_step",
    "C06_tables"
   ],
   "note": "Client programs of any length; admissibility of each statement is stated in HistorySpec.v."
  },
  {
   "property": "C07",
   "status": "proved",
   "theorems": [
    "C07_assign_collection"
   ],
   "note": "Exact effect and frame."
  },
  {
   "property": "C08",
   "status": "proved",
   "theorems": [
    "C08_assign_takes_nothing",
    "C08_takeover_refuted"
   ],
   "note": "False of the code: the former owner keeps the member in every such graph."
  },
  {
   "property": "C09",
   "status": "proved",
   "theorems": [
    "C09_add_many"
   ],
   "note": "Exact effect and frame."
  },
  {
   "property": "C10",
   "status": "proved",
   "theorems": [
    "C10_remove_many",
    "C10_remove_absent"
   ],
   "note": "Exact effect and frame; ValueError without any change when absent."
  },
  {
   "property": "C11",
   "status": "proved",
   "theorems": [
    "C11_add_again",
    "C11_once_refuted"
   ],
   "note": "False of the code: a second add always duplicates."
  },
  {
   "property": "C12",
   "status": "proved",
   "theorems": [
    "C12_reassign_many",
    "C12_assign_many",
    "C12_reassign_refuted"
   ],
   "note": "False of the code: every non-empty collection makes the setter raise; the empty case is proved to work."
  },
  {
   "property": "C13",
   "status": "proved",
   "theorems": [
    "C13_unshared",
    "C13_setter_keeps_list",
    "C13_shared_list",
    "C13_independent_refuted"
   ],
   "note": "Holds while lists are unshared (an invariant of C06); false when a caller assigns one list to two objects."
  },
  {
   "property": "C15",
   "status": "proved",
   "theorems": [
    "C15_failed_assignment",
    "C15_atomic_refuted"
   ],
   "note": "False of the code; exact effect of every failing assignment to a single end."
  },
  {
   "property": "C16",
   "status": "proved",
   "theorems": [
    "C16_views",
    "C16_assign",
    "C16_constructor"
   ],
   "note": "For the CIM15 table."
  },
  {
   "property": "C17",
   "status": "proved",
   "theorems": [
    "C17_set_line_segments",
    "C17_inverse_refuted"
   ],
   "note": "False of the code for every graph with such an alias."
  },
  {
   "property": "C18",
   "status": "proved",
   "theorems": [
    "C18_add",
    "C18_remove"
   ],
   "note": "Exact effect and frame."
  },
  {
   "property": "C61",
   "status": "proved",
   "theorems": [
    "C61_add_add_remove"
   ],
   "note": "Adding a partner twice and removing it once always leaves the two ends in disagreement."
  },
  {
   "property": "C14",
   "status": "proved",
   "theorems": [
    "C14_blank"
   ],
   "note": "Every class of every table except the 20 listed as unconstructible; collections declared without a constructor parameter (one, in CIM14/ENTSOE/Dynamics/Thing.py) are never created."
  },
  {
   "property": "C19",
   "status": "proved",
   "theorems": [
    "C19_instantiable",
    "C19_exceptions"
   ],
   "note": "The exceptions are exactly the list unconstructible (TableSpec.v); they raise TypeError on every heap."
  },
  {
   "property": "C20",
   "status": "proved",
   "theorems": [
    "C20_inverse",
    "C20_exceptions"
   ],
   "note": "Exceptions: the four ends in dual_exceptions (TableSpec.v)."
  },
  {
   "property": "C21",
   "status": "proved",
   "theorems": [
    "C21_metadata",
    "C21_exceptions"
   ],
   "note": "Exceptions: the three classes in meta_exceptions (TableSpec.v), each shown to deviate."
  },
  {
   "property": "C42",
   "status": "proved",
   "theorems": [
    "C42_text_escaping"
   ],
   "note": "All strings."
  },
  {
   "property": "C43",
   "status": "proved",
   "theorems": [
    "C43_attribute_escaping"
   ],
   "note": "All strings."
  },
  {
   "property": "C44",
   "status": "proved",
   "theorems": [
    "C44_well_formed"
   ],
   "note": "Against an independent XML 1.0 parser (XmlSpec.v). Data without carriage returns and attribute values without tabs and line ends; C62 says what becomes of those."
  },
  {
   "property": "C45",
   "status": "proved",
   "theorems": [
    "C45_close",
    "C45_close_start"
   ],
   "note": "All writer states, exact output."
  },
  {
   "property": "C46",
   "status": "proved",
   "theorems": [
    "C46_unbalanced_end"
   ],
   "note": "All writer states."
  },
  {
   "property": "C47",
   "status": "proved",
   "theorems": [
    "C47_keywords_ignored",
    "C47_element_keywords_ignored",
    "C47_keywords_written_refuted"
   ],
   "note": "False of the code: keyword attributes never have any effect."
  },
  {
   "property": "C48",
   "status": "proved",
   "theorems": [
    "C48_canonical_order"
   ],
   "note": "All dictionaries; also the order itself."
  },
  {
   "property": "C49",
   "status": "proved",
   "theorems": [
    "C49_py2_exact",
    "C49_py2_lossless_refuted"
   ],
   "note": "False of the code; exact condition. The Python 2 branch of escape_cdata."
  },
  {
   "property": "C50",
   "status": "proved",
   "theorems": [
    "C50_comment_exact",
    "C50_well_formed_refuted"
   ],
   "note": "False of the code; well formed exactly when the text contains no double hyphen."
  },
  {
   "property": "C62",
   "status": "proved",
   "theorems": [
    "C62_white_space"
   ],
   "note": "Exact condition for text and attribute values to survive."
  },
  {
   "property": "C22",
   "status": "proved",
   "theorems": [
    "C22_both_or_neither"
   ],
   "note": "All arguments; a source whose prolog does not parse raises ParseError first."
  },
  {
   "property": "C23",
   "status": "proved",
   "theorems": [
    "C23_cim14",
    "C23_cim15",
    "C23_given"
   ],
   "note": "All namespace maps."
  },
  {
   "property": "C24",
   "status": "proved",
   "theorems": [
    "C24_keys"
   ],
   "note": "All event streams with the root outside the CIM namespace; also the order of the keys."
  },
  {
   "property": "C25",
   "status": "proved",
   "theorems": [
    "C25_classes"
   ],
   "note": "All 16 class tables."
  },
  {
   "property": "C26",
   "status": "proved",
   "theorems": [
    "C26_reference"
   ],
   "note": "Every position of every compatible document (ReaderSpec.v: compatible_doc), starting from every sound graph."
  },
  {
   "property": "C27",
   "status": "proved",
   "theorems": [
    "C27_consistent"
   ],
   "note": "Whether the read succeeds or stops at an error, unless it meets one of the 20 unconstructible classes. Doubled collections (C20 exceptions) are not compatible ends."
  },
  {
   "property": "C28",
   "status": "proved",
   "theorems": [
    "C28_first_wins"
   ],
   "note": "Every position of every document. A property defined as an alias (CIM15 PhaseImpedance, SequenceImpedance) holds an object only when it is of the alias's class."
  },
  {
   "property": "C29",
   "status": "proved",
   "theorems": [
    "C29_conversion",
    "C29_total",
    "C29_none"
   ],
   "note": "float() is a parameter of the model. int of non-ASCII text is outside the model."
  },
  {
   "property": "C30",
   "status": "proved",
   "theorems": [
    "C30_empty_exact",
    "C30_empty_number",
    "C30_empty_string_refuted"
   ],
   "note": "False of the code; exact effect."
  },
  {
   "property": "C31",
   "status": "proved",
   "theorems": [
    "C31_malformed"
   ],
   "note": "Every position; the dictionary and heap at that point are also exact."
  },
  {
   "property": "C32",
   "status": "proved",
   "theorems": [
    "C32_dangling"
   ],
   "note": "Every position of every document; equality of whole results."
  },
  {
   "property": "C33",
   "status": "proved",
   "theorems": [
    "C33_unknown_class"
   ],
   "note": "Flat documents; equality of whole results."
  },
  {
   "property": "C34",
   "status": "proved",
   "theorems": [
    "C34_unknown_attribute",
    "C34_method"
   ],
   "note": "Every position of every document; equality of whole results."
  },
  {
   "property": "C35",
   "status": "proved",
   "theorems": [
    "C35_foreign"
   ],
   "note": "All event streams."
  },
  {
   "property": "C36",
   "status": "proved",
   "theorems": [
    "C36_others"
   ],
   "note": "cimread itself, all arguments and heaps."
  },
  {
   "property": "C37",
   "status": "proved",
   "theorems": [
    "C37_merge_exact",
    "C37_merge_refuted"
   ],
   "note": "False of the code; exact behaviour."
  },
  {
   "property": "C38",
   "status": "proved",
   "theorems": [
    "C38_inside",
    "C38_after_exact",
    "C38_nested_refuted"
   ],
   "note": "False of the code; exact behaviour."
  },
  {
   "property": "C39",
   "status": "proved",
   "theorems": [
    "C39_enum",
    "C39_no_dot"
   ],
   "note": "All resource strings."
  },
  {
   "property": "C40",
   "status": "proved",
   "theorems": [
    "C40_twice_exact",
    "C40_once_refuted"
   ],
   "note": "False of the code; exact behaviour."
  },
  {
   "property": "C41",
   "status": "proved",
   "theorems": [
    "C41_prefixes",
    "C41_errors"
   ],
   "note": "All event streams."
  },
  {
   "property": "C58",
   "status": "proved",
   "theorems": [
    "C58_content_preserved"
   ],
   "note": "All trees and levels. ElementTree's parse and tostring are not modelled."
  },
  {
   "property": "C59",
   "status": "proved",
   "theorems": [
    "C59_layout"
   ],
   "note": "All trees with data only in elements without children."
  },
  {
   "property": "C60",
   "status": "proved",
   "theorems": [
    "C60_idempotent"
   ],
   "note": "All trees and levels."
  },
  {
   "property": "C63",
   "status": "proved",
   "theorems": [
    "C63_canonical"
   ],
   "note": "All trees."
  },
  {
   "property": "C64",
   "status": "proved",
   "theorems": [
    "C64_reading"
   ],
   "note": "All trees whose elements with children are objects or foreign; namespaces given by the caller."
  },
  {
   "property": "C51",
   "status": "proved",
   "theorems": [
    "C51_document",
    "C51_returns",
    "C51_unique"
   ],
   "note": "All class tables, dictionaries and heaps. Attributes holding lists or CIM objects are outside the model (their text contains memory addresses)."
  },
  {
   "property": "C52",
   "status": "proved",
   "theorems": [
    "C52_well_formed_exact",
    "C52_well_formed_refuted"
   ],
   "note": "False of the code; exact condition, against the independent XML parser of XmlSpec.v."
  },
  {
   "property": "C53",
   "status": "proved",
   "theorems": [
    "C53_read_only"
   ],
   "note": "All inputs, also when an exception is raised."
  },
  {
   "property": "C54",
   "status": "proved",
   "theorems": [
    "C54_round_trip",
    "C54_default"
   ],
   "note": "All class tables, graphs, and heaps of the reading process. Assumes that cimwrite returns (see C51) and that the graph is exportable (Portable in RoundSpec.v); the ElementTree parser is the XML parser of XmlSpec.v."
  },
  {
   "property": "C55",
   "status": "proved",
   "theorems": [
    "C55_collections_exact",
    "C55_survives_refuted"
   ],
   "note": "False of the code; exact behaviour."
  },
  {
   "property": "C56",
   "status": "proved",
   "theorems": [
    "C56_by_uuid_exact",
    "C56_merged",
    "C56_keeps_all_refuted"
   ],
   "note": "False of the code; exact behaviour, for any reading package map."
  },
  {
   "property": "C57",
   "status": "proved",
   "theorems": [
    "C57_cim15_exact",
    "C57_survives_refuted"
   ],
   "note": "False of the code; exact behaviour when the read returns."
  },
  {
   "property": "C65",
   "status": "proved",
   "theorems": [
    "C65_keyword_order"
   ],
   "note": "All schemas, also when the call raises."
  },
  {
   "property": "C66",
   "status": "proved",
   "theorems": [
    "C66_positional",
    "C66_too_many",
    "C66_twice",
    "C66_exceptions"
   ],
   "note": "All classes but the eight in repeats (ArgSpec.v), which are shown to be exceptions."
  },
  {
   "property": "C67",
   "status": "proved",
   "theorems": [
    "C67_unknown_raises",
    "C67_links_stay",
    "C67_clean_failure_refuted"
   ],
   "note": "False of the code that a failed construction leaves no trace; exact effect."
  },
  {
   "property": "C68",
   "status": "proved",
   "theorems": [
    "C68_argument_lost",
    "C68_argument_kept_refuted"
   ],
   "note": "False of the code that the argument is kept; exact effect. The members must exist and have the collection at the other end."
  },
  {
   "property": "C69",
   "status": "proved",
   "theorems": [
    "C69_object",
    "C69_property",
    "C69_resource",
    "C69_declared",
    "C69_order",
    "C69_last",
    "C69_owner"
   ],
   "note": "The vocabulary of the reader theorems, in terms of tags and attributes; the owner for documents whose properties have no element children (C38 says what nesting does)."
  },
  {
   "property": "C70",
   "status": "proved",
   "theorems": [
    "C70_base_classes",
    "C70_lookup",
    "C70_getter",
    "C70_alias",
    "C70_set_get",
    "C70_set_get_pair"
   ],
   "note": "All class tables."
  },
  {
   "property": "C71",
   "status": "proved",
   "theorems": [
    "C71_default",
    "C71_no_hash",
    "C71_given"
   ],
   "note": "Documents without XML error that have at least one element; all class tables."
  },
  {
   "property": "C72",
   "status": "proved",
   "theorems": [
    "C72_unset",
    "C72_no_text",
    "C72_one_many",
    "C72_many_many",
    "C72_single",
    "C72_ignored_refuted"
   ],
   "note": "False of the code that the text is ignored; exact behaviour, except that which of the three outcomes a set single reference has depends on the constructor of its class."
  },
  {
   "property": "C73",
   "status": "proved",
   "theorems": [
    "C73_raises",
    "C73_unchanged",
    "C73_dictionary"
   ],
   "note": "All sources with an error, all arguments."
  },
  {
   "property": "C74",
   "status": "proved",
   "theorems": [
    "C74_unchanged",
    "C74_again"
   ],
   "note": "Also when the second read raises (C74_unchanged)."
  },
  {
   "property": "C75",
   "status": "proved",
   "theorems": [
    "C75_reference",
    "C75_text",
    "C75_where"
   ],
   "note": "All documents; the list of classes checked over all tables."
  },
  {
   "property": "C76",
   "status": "proved",
   "theorems": [
    "C76_single",
    "C76_pair",
    "C76_collection",
    "C76_unchanged_refuted"
   ],
   "note": "False of the code that nothing ever changes; exact effect. For many-to-many collections C12 applies: the assignment raises unless the collection is empty."
  },
  {
   "property": "C77",
   "status": "proved",
   "theorems": [
    "C77_left",
    "C77_joined",
    "C77_many"
   ],
   "note": "Consistent graphs; the new value fits the association."
  },
  {
   "property": "C78",
   "status": "proved",
   "theorems": [
    "C78_one_many",
    "C78_many_many",
    "C78_endless",
    "C78_empties_refuted"
   ],
   "note": "False of the code for many-to-many collections; exact effect. The loop is Python's, looking at the list anew in every turn; an endless loop is one that exceeds any bound on the number of turns."
  },
  {
   "property": "C79",
   "status": "proved",
   "theorems": [
    "C79_lists",
    "C79_add",
    "C79_remove",
    "C79_keys",
    "C79_seen"
   ],
   "note": "C79_lists, C79_add, C79_remove and C79_keys also when cimwrite raises."
  },
  {
   "property": "C80",
   "status": "proved",
   "theorems": [
    "C80_unfinished",
    "C80_well_formed_iff"
   ],
   "note": "Encoding names the XML declaration allows (as in C51, C52)."
  },
  {
   "property": "C81",
   "status": "proved",
   "theorems": [
    "C81_reported",
    "C81_unlocated",
    "C81_missing",
    "C81_twice"
   ],
   "note": "A root element in the CIM namespace is left out (as in C24)."
  },
  {
   "property": "C82",
   "status": "proved",
   "theorems": [
    "C82_dangling",
    "C82_resolved"
   ],
   "note": ""
  },
  {
   "property": "C83",
   "status": "proved",
   "theorems": [
    "C83_counted",
    "C83_once"
   ],
   "note": ""
  },
  {
   "property": "C84",
   "status": "proved",
   "theorems": [
    "C84_summary",
    "C84_raises",
    "C84_number",
    "C84_end",
    "C84_created_refuted"
   ],
   "note": "The expectation about created objects is refuted; the exact number is proved."
  },
  {
   "property": "C85",
   "status": "proved",
   "theorems": [
    "C85_rdf",
    "C85_cim",
    "C85_version",
    "C85_given",
    "C85_cim16",
    "C85_unsupported_refuted"
   ],
   "note": "The expectation is refuted; the exact conditions are proved."
  },
  {
   "property": "C86",
   "status": "proved",
   "theorems": [
    "C86_quiet",
    "C86_levels",
    "C86_second_reference",
    "C86_text_for_reference",
    "C86_method",
    "C86_nothing_lost_refuted"
   ],
   "note": "The expectation is refuted; the exact meaning of a quiet log is proved."
  },
  {
   "property": "C87",
   "status": "proved",
   "theorems": [
    "C87_attribute",
    "C87_same",
    "C87_last"
   ],
   "note": ""
  },
  {
   "property": "C88",
   "status": "proved",
   "theorems": [
    "C88_stated",
    "C88_unstated",
    "C88_kept",
    "C88_collection",
    "C88_many"
   ],
   "note": ""
  },
  {
   "property": "C89",
   "status": "proved",
   "theorems": [
    "C89_order",
    "C89_reordered",
    "C89_returns",
    "C89_rivals_refuted",
    "C89_multiplicity_refuted"
   ],
   "note": "The unrestricted expectation is refuted; independence of the order is proved for coherent documents."
  },
  {
   "property": "C90",
   "status": "proved",
   "theorems": [
    "C90_returns",
    "C90_references"
   ],
   "note": ""
  },
  {
   "property": "C91",
   "status": "proved",
   "theorems": [
    "C91_same",
    "C91_exact",
    "C91_stable",
    "C91_same_refuted"
   ],
   "note": "The unrestricted expectation is refuted; equality is proved for dictionaries no reference leaves."
  },
  {
   "property": "C92",
   "status": "proved",
   "theorems": [
    "C92_parts",
    "C92_returns",
    "C92_order_refuted"
   ],
   "note": "Files of flat descriptions with distinct identifiers (no object described in two files); C37 and C74 cover repeated descriptions. The unrestricted expectation is refuted."
  },
  {
   "property": "C93",
   "status": "proved",
   "theorems": [
    "C93_taken_out",
    "C93_always_out_refuted"
   ],
   "note": "Ends are the four kinds with a maintained inverse; Equipment.OperationalLimitSet (C18) and attributes without property are not ends. The unrestricted expectation is refuted."
  },
  {
   "property": "C94",
   "status": "proved",
   "theorems": [
    "C94_alike",
    "C94_order",
    "C94_parts",
    "C94_profiles",
    "C94_text_refuted"
   ],
   "note": "For classes whose single references are association ends: all classes of the fourteen profiles (C94_profiles); compounds of the full tables are excluded. That the text itself is the same is refuted."
  },
  {
   "property": "C95",
   "status": "proved",
   "theorems": [
    "C95_graph",
    "C95_last",
    "C95_undo",
    "C95_undo_pair",
    "C95_undo_refuted"
   ],
   "note": "Constructors take attributes and single references as arguments, no collections; statements are the admissible ones of C06. That one-to-one assignments can always be undone is refuted."
  },
  {
   "property": "C96",
   "status": "proved",
   "theorems": [
    "C96_members",
    "C96_stated",
    "C96_round",
    "C96_kept_refuted"
   ],
   "note": "Doubled collections (PManyOneDbl) and references to objects outside the tables are not compatible statements. That the order survives a round trip is refuted."
  },
  {
   "property": "C97",
   "status": "proved",
   "theorems": [
    "C97_coherent"
   ],
   "note": "Portable as in C54."
  },
  {
   "property": "C98",
   "status": "proved",
   "theorems": [
    "C98_files",
    "C98_default",
    "C98_any_order_refuted"
   ],
   "note": "Portable as in C54; objects refer to each other by ends of associations only (only_ends). Many-to-many collections are not written at all (C55). That any order of the files does is refuted."
  },
  {
   "property": "C99",
   "status": "proved",
   "theorems": [
    "C99_moved",
    "C99_tables",
    "C99_default",
    "C99_any_tables_refuted"
   ],
   "note": "Portable as in C54; objects refer to each other by ends of associations only (only_ends). That it holds for all tables is refuted."
  },
  {
   "property": "C100",
   "status": "proved",
   "theorems": [
    "C100_one",
    "C100_many",
    "C100_follow",
    "C100_copies_refuted",
    "C100_keeps_refuted"
   ],
   "note": "For many-to-many the collection assigned to is empty (else see C12)."
  },
  {
   "property": "C101",
   "status": "proved",
   "theorems": [
    "C101_quiet",
    "C101_export",
    "C101_default",
    "C101_reported",
    "C101_message",
    "C101_success_refuted",
    "C101_always_refuted",
    "C101_count_refuted"
   ],
   "note": "Objects are closed as in every document the parser reads to its end."
  },
  {
   "property": "C102",
   "status": "proved",
   "theorems": [
    "C102_start",
    "C102_elsewhere",
    "C102_again",
    "C102_unseekable",
    "C102_written",
    "C102_sought",
    "C102_file_like_refuted",
    "C102_twice_refuted"
   ],
   "note": "The parser and the amount of text that it takes from the file in the search for namespaces are parameters."
  },
  {
   "property": "C103",
   "status": "proved",
   "theorems": [
    "C103_replaced",
    "C103_not_referred",
    "C103_in_place",
    "C103_ids",
    "C103_repointed",
    "C103_healed",
    "C103_merged_refuted",
    "C103_led_refuted",
    "C103_ignored_refuted"
   ],
   "note": "C103_ids and C103_repointed say of each successful write that it is one of the other graph, with the same output. C103_healed asks that the mended graph is Portable (C54)."
  },
  {
   "property": "C104",
   "status": "proved",
   "theorems": [
    "C104_moves",
    "C104_order",
    "C104_lists_refuted",
    "C104_pairs_refuted"
   ],
   "note": "Assignments of whole collections, many-to-many associations and constructors are not among the statements."
  },
  {
   "property": "C105",
   "status": "proved",
   "theorems": [
    "C105_import",
    "C105_wires_first",
    "C105_loads",
    "C105_names",
    "C105_first_refuted",
    "C105_class"
   ],
   "note": "Interpreters in which an import has failed before: see C107."
  },
  {
   "property": "C106",
   "status": "proved",
   "theorems": [
    "C106_timely",
    "C106_early",
    "C106_always",
    "C106_ready",
    "C106_refuted"
   ],
   "note": "Interpreters in which an import has failed before: see C107."
  },
  {
   "property": "C107",
   "status": "proved",
   "theorems": [
    "C107_import",
    "C107_names",
    "C107_class",
    "C107_reads",
    "C107_again_refuted"
   ],
   "note": "Which imports succeed after a failure is not characterised: by C105 it is in interpreters without failures."
  },
  {
   "property": "C108",
   "status": "proved",
   "theorems": [
    "C108_classes",
    "C108_only",
    "C108_extra",
    "C108_models",
    "C108_new"
   ],
   "note": "tools/gen_ecore.py reads the models."
  },
  {
   "property": "C109",
   "status": "proved",
   "theorems": [
    "C109_connect",
    "C109_inherited_refuted"
   ],
   "note": "Views (ACLineSegment.SequenceImpedance, PhaseImpedance) are excluded: C16, C17."
  },
  {
   "property": "C110",
   "status": "proved",
   "theorems": [
    "C110_typed",
    "C110_literal",
    "C110_integer_refuted"
   ],
   "note": ""
  },
  {
   "property": "C111",
   "status": "proved",
   "theorems": [
    "C111_exact",
    "C111_read",
    "C111_profiles"
   ],
   "note": "All class tables; C111_read for declared classes whose single references are ends of associations (all classes of the profiles, C94_profiles). Attributes holding objects or lists are excluded by holds_values (str() gives them a text with a memory address), and follow to be absent after reading."
  },
  {
   "property": "C112",
   "status": "proved",
   "theorems": [
    "C112_single",
    "C112_pair_value",
    "C112_pair",
    "C112_add",
    "C112_add_many",
    "C112_unchanged_refuted"
   ],
   "note": "All class tables. Lists assigned to single ends are not covered."
  },
  {
   "property": "C113",
   "status": "proved",
   "theorems": [
    "C113_portable",
    "C113_again",
    "C113_profiles",
    "C113_phase_refuted"
   ],
   "note": "All class tables; C113_portable and C113_again for documents whose classes have only references that are ends of associations (all classes of the profiles). repr_law is what Python guarantees of repr and float. Copies is the relation of C54: many-to-many collections are not part of it."
  },
  {
   "property": "C114",
   "status": "proved",
   "theorems": [
    "C114_tables",
    "C114_model",
    "C114_read",
    "C114_resource",
    "C114_declared_refuted"
   ],
   "note": "All class tables. C114_read leaves out classes whose constructor always raises and attributes given a resource starting with #. Values assigned by a program are not converted and not covered."
  },
  {
   "property": "C115",
   "status": "proved",
   "theorems": [
    "C115_assign",
    "C115_methods",
    "C115_add",
    "C115_remove",
    "C115_remove_missing",
    "C115_remove_more",
    "C115_absent",
    "C115_once_refuted"
   ],
   "note": "All class tables. Classes that inherit two references of the same name (C109) are left out."
  }
 ]
}