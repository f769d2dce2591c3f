c("C01", "C01_set_single", "Exact effect of the assignment and frame, for every class table and consistent graph.")
c("C02", "C02_set_pair", "Exact effect and frame.")
c("C03", "C03_add", "Exact effect for argument lists of any length, repetitions included.")
c("C04", "C04_remove", "Exact effect for argument lists of any length.")
c("C05", "C05_remove_foreign C05_own_collection_refuted", "The expectation is false of the code; the theorem gives the exact effect in both cases (unowned, owned by another object).")
c("C06", "C06_mutual C06_step C06_tables", "Client programs of any length; admissibility of each statement is stated in HistorySpec.v.")
c("C07", "C07_assign_collection", "Exact effect and frame.")
c("C08", "C08_assign_takes_nothing C08_takeover_refuted", "False of the code: the former owner keeps the member in every such graph.")
c("C09", "C09_add_many", "Exact effect and frame.")
c("C10", "C10_remove_many C10_remove_absent", "Exact effect and frame; ValueError without any change when absent.")
c("C11", "C11_add_again C11_once_refuted", "False of the code: a second add always duplicates.")
c("C12", "C12_reassign_many C12_assign_many C12_reassign_refuted", "False of the code: every non-empty collection makes the setter raise; the empty case is proved to work.")
c("C13", "C13_unshared C13_setter_keeps_list C13_shared_list C13_independent_refuted", "Holds while lists are unshared (an invariant of C06); false when a caller assigns one list to two objects.")
c("C15", "C15_failed_assignment C15_atomic_refuted", "False of the code; exact effect of every failing assignment to a single end.")
c("C16", "C16_views C16_assign C16_constructor", "For the CIM15 table.")
c("C17", "C17_set_line_segments C17_inverse_refuted", "False of the code for every graph with such an alias.")
c("C18", "C18_add C18_remove", "Exact effect and frame.")
c("C61", "C61_add_add_remove", "Adding a partner twice and removing it once always leaves the two ends in disagreement.")
c("C14","C14_blank","Every class of every table except the 20 listed as unconstructible; collections declared without a constructor parameter (one, in CIM14/ENTSOE/Dynamics/Thing.py) are never created.")
c("C19","C19_instantiable C19_exceptions","The exceptions are exactly the list unconstructible (TableSpec.v); they raise TypeError on every heap.")
c("C20","C20_inverse C20_exceptions","Exceptions: the four ends in dual_exceptions (TableSpec.v).")
c("C21","C21_metadata C21_exceptions","Exceptions: the three classes in meta_exceptions (TableSpec.v), each shown to deviate.")
c("C42","C42_text_escaping","All strings.")
c("C43","C43_attribute_escaping","All strings.")
c("C44","C44_well_formed","Against an independent XML 1.0 parser (XmlSpec.v). Data without carriage returns and attribute values without tabs and line ends; C62 says what becomes of those.")
c("C45","C45_close C45_close_start","All writer states, exact output.")
c("C46","C46_unbalanced_end","All writer states.")
c("C47","C47_keywords_ignored C47_element_keywords_ignored C47_keywords_written_refuted","False of the code: keyword attributes never have any effect.")
c("C48","C48_canonical_order","All dictionaries; also the order itself.")
c("C49","C49_py2_exact C49_py2_lossless_refuted","False of the code; exact condition. The Python 2 branch of escape_cdata.")
c("C50","C50_comment_exact C50_well_formed_refuted","False of the code; well formed exactly when the text contains no double hyphen.")
c("C62","C62_white_space","Exact condition for text and attribute values to survive.")
c("C22","C22_both_or_neither","All arguments; a source whose prolog does not parse raises ParseError first.")
c("C23","C23_cim14 C23_cim15 C23_given","All namespace maps.")
c("C24","C24_keys","All event streams with the root outside the CIM namespace; also the order of the keys.")
c("C25","C25_classes","All 16 class tables.")
c("C26","C26_reference","Every position of every compatible document (ReaderSpec.v: compatible_doc), starting from every sound graph.")
c("C27","C27_consistent","Whether the read succeeds or stops at an error, unless it meets one of the 20 unconstructible classes. Doubled collections (C20 exceptions) are not compatible ends.")
c("C28","C28_first_wins","Every position of every document. A property defined as an alias (CIM15 PhaseImpedance, SequenceImpedance) holds an object only when it is of the alias's class.")
c("C29","C29_conversion C29_total C29_none","float() is a parameter of the model. int of non-ASCII text is outside the model.")
c("C30","C30_empty_exact C30_empty_number C30_empty_string_refuted","False of the code; exact effect.")
c("C31","C31_malformed","Every position; the dictionary and heap at that point are also exact.")
c("C32","C32_dangling","Every position of every document; equality of whole results.")
c("C33","C33_unknown_class","Flat documents; equality of whole results.")
c("C34","C34_unknown_attribute C34_method","Every position of every document; equality of whole results.")
c("C35","C35_foreign","All event streams.")
c("C36","C36_others","cimread itself, all arguments and heaps.")
c("C37","C37_merge_exact C37_merge_refuted","False of the code; exact behaviour.")
c("C38","C38_inside C38_after_exact C38_nested_refuted","False of the code; exact behaviour.")
c("C39","C39_enum C39_no_dot","All resource strings.")
c("C40","C40_twice_exact C40_once_refuted","False of the code; exact behaviour.")
c("C41","C41_prefixes C41_errors","All event streams.")
c("C58","C58_content_preserved","All trees and levels. ElementTree's parse and tostring are not modelled.")
c("C59","C59_layout","All trees with data only in elements without children.")
c("C60","C60_idempotent","All trees and levels.")
c("C63","C63_canonical","All trees.")
c("C64","C64_reading","All trees whose elements with children are objects or foreign; namespaces given by the caller.")
c("C51","C51_document C51_returns C51_unique","All class tables, dictionaries and heaps. Attributes holding lists or CIM objects are outside the model (their text contains memory addresses).")
c("C52","C52_well_formed_exact C52_well_formed_refuted","False of the code; exact condition, against the independent XML parser of XmlSpec.v.")
c("C53","C53_read_only","All inputs, also when an exception is raised.")
c("C54","C54_round_trip C54_default","All class tables, graphs, and heaps of the reading process. Assumes that cimwrite returns (see C51) and that the graph is exportable (Portable in RoundSpec.v); the ElementTree parser is the XML parser of XmlSpec.v.")
c("C55","C55_collections_exact C55_survives_refuted","False of the code; exact behaviour.")
c("C56","C56_by_uuid_exact C56_merged C56_keeps_all_refuted","False of the code; exact behaviour, for any reading package map.")
c("C57","C57_cim15_exact C57_survives_refuted","False of the code; exact behaviour when the read returns.")
c("C65","C65_keyword_order","All schemas, also when the call raises.")
c("C66","C66_positional C66_too_many C66_twice C66_exceptions","All classes but the eight in repeats (ArgSpec.v), which are shown to be exceptions.")
c("C67","C67_unknown_raises C67_links_stay C67_clean_failure_refuted","False of the code that a failed construction leaves no trace; exact effect.")
c("C68","C68_argument_lost C68_argument_kept_refuted","False of the code that the argument is kept; exact effect. The members must exist and have the collection at the other end.")
c("C69","C69_object C69_property C69_resource C69_declared C69_order C69_last C69_owner","The vocabulary of the reader theorems, in terms of tags and attributes; the owner for documents whose properties have no element children (C38 says what nesting does).")
c("C70","C70_base_classes C70_lookup C70_getter C70_alias C70_set_get C70_set_get_pair","All class tables.")
c("C71","C71_default C71_no_hash C71_given","Documents without XML error that have at least one element; all class tables.")
c("C72","C72_unset C72_no_text C72_one_many C72_many_many C72_single C72_ignored_refuted","False of the code that the text is ignored; exact behaviour, except that which of the three outcomes a set single reference has depends on the constructor of its class.")
c("C73","C73_raises C73_unchanged C73_dictionary","All sources with an error, all arguments.")
c("C74","C74_unchanged C74_again","Also when the second read raises (C74_unchanged).")
c("C75","C75_reference C75_text C75_where","All documents; the list of classes checked over all tables.")
c("C76","C76_single C76_pair C76_collection C76_unchanged_refuted","False of the code that nothing ever changes; exact effect. For many-to-many collections C12 applies: the assignment raises unless the collection is empty.")
c("C77","C77_left C77_joined C77_many","Consistent graphs; the new value fits the association.")
c("C78","C78_one_many C78_many_many C78_endless C78_empties_refuted","False of the code for many-to-many collections; exact effect. The loop is Python's, looking at the list anew in every turn; an endless loop is one that exceeds any bound on the number of turns.")
c("C79","C79_lists C79_add C79_remove C79_keys C79_seen","C79_lists, C79_add, C79_remove and C79_keys also when cimwrite raises.")
c("C80","C80_unfinished C80_well_formed_iff","Encoding names the XML declaration allows (as in C51, C52).")
c("C81","C81_reported C81_unlocated C81_missing C81_twice","A root element in the CIM namespace is left out (as in C24).")
c("C82","C82_dangling C82_resolved","")
c("C83","C83_counted C83_once","")
c("C84","C84_summary C84_raises C84_number C84_end C84_created_refuted","The expectation about created objects is refuted; the exact number is proved.")
c("C85","C85_rdf C85_cim C85_version C85_given C85_cim16 C85_unsupported_refuted","The expectation is refuted; the exact conditions are proved.")
c("C86","C86_quiet C86_levels C86_second_reference C86_text_for_reference C86_method C86_nothing_lost_refuted","The expectation is refuted; the exact meaning of a quiet log is proved.")
c("C87","C87_attribute C87_same C87_last","")
c("C88","C88_stated C88_unstated C88_kept C88_collection C88_many","")
c("C89","C89_order C89_reordered C89_returns C89_rivals_refuted C89_multiplicity_refuted","The unrestricted expectation is refuted; independence of the order is proved for coherent documents.")
c("C90","C90_returns C90_references","")
c("C91","C91_same C91_exact C91_stable C91_same_refuted","The unrestricted expectation is refuted; equality is proved for dictionaries no reference leaves.")
c("C92","C92_parts C92_returns C92_order_refuted","Files of flat descriptions with distinct identifiers (no object described in two files); C37 and C74 cover repeated descriptions. The unrestricted expectation is refuted.")
c("C93","C93_taken_out C93_always_out_refuted","Ends are the four kinds with a maintained inverse; Equipment.OperationalLimitSet (C18) and attributes without property are not ends. The unrestricted expectation is refuted.")
c("C94","C94_alike C94_order C94_parts C94_profiles C94_text_refuted","For classes whose single references are association ends: all classes of the fourteen profiles (C94_profiles); compounds of the full tables are excluded. That the text itself is the same is refuted.")
c("C95","C95_graph C95_last C95_undo C95_undo_pair C95_undo_refuted","Constructors take attributes and single references as arguments, no collections; statements are the admissible ones of C06. That one-to-one assignments can always be undone is refuted.")
c("C96","C96_members C96_stated C96_round C96_kept_refuted","Doubled collections (PManyOneDbl) and references to objects outside the tables are not compatible statements. That the order survives a round trip is refuted.")
c("C97","C97_coherent","Portable as in C54.")
c("C98","C98_files C98_default C98_any_order_refuted","Portable as in C54; objects refer to each other by ends of associations only (only_ends). Many-to-many collections are not written at all (C55). That any order of the files does is refuted.")
c("C99","C99_moved C99_tables C99_default C99_any_tables_refuted","Portable as in C54; objects refer to each other by ends of associations only (only_ends). That it holds for all tables is refuted.")
c("C100","C100_one C100_many C100_follow C100_copies_refuted C100_keeps_refuted","For many-to-many the collection assigned to is empty (else see C12).")
c("C101","C101_quiet C101_export C101_default C101_reported C101_message C101_success_refuted C101_always_refuted C101_count_refuted","Objects are closed as in every document the parser reads to its end.")
c("C102","C102_start C102_elsewhere C102_again C102_unseekable C102_written C102_sought C102_file_like_refuted C102_twice_refuted","The parser and the amount of text that it takes from the file in the search for namespaces are parameters.")
c("C103","C103_replaced C103_not_referred C103_in_place C103_ids C103_repointed C103_healed C103_merged_refuted C103_led_refuted C103_ignored_refuted","C103_ids and C103_repointed say of each successful write that it is one of the other graph, with the same output. C103_healed asks that the mended graph is Portable (C54).")
c("C104","C104_moves C104_order C104_lists_refuted C104_pairs_refuted","Assignments of whole collections, many-to-many associations and constructors are not among the statements.")
c("C105","C105_import C105_wires_first C105_loads C105_names C105_first_refuted C105_class","Interpreters in which an import has failed before: see C107.")
c("C106","C106_timely C106_early C106_always C106_ready C106_refuted","Interpreters in which an import has failed before: see C107.")
c("C107","C107_import C107_names C107_class C107_reads C107_again_refuted","Which imports succeed after a failure is not characterised: by C105 it is in interpreters without failures.")
c("C108","C108_classes C108_only C108_extra C108_models C108_new","tools/gen_ecore.py reads the models.")
c("C109","C109_connect C109_inherited_refuted","Views (ACLineSegment.SequenceImpedance, PhaseImpedance) are excluded: C16, C17.")
c("C110","C110_typed C110_literal C110_integer_refuted","")
c("C111","C111_exact C111_read C111_profiles","All class tables; C111_read for declared classes whose single references are ends of associations (all classes of the profiles, C94_profiles). Attributes holding objects or lists are excluded by holds_values (str() gives them a text with a memory address), and follow to be absent after reading.")
c("C112","C112_single C112_pair_value C112_pair C112_add C112_add_many C112_unchanged_refuted","All class tables. Lists assigned to single ends are not covered.")
c("C113","C113_portable C113_again C113_profiles C113_phase_refuted","All class tables; C113_portable and C113_again for documents whose classes have only references that are ends of associations (all classes of the profiles). repr_law is what Python guarantees of repr and float. Copies is the relation of C54: many-to-many collections are not part of it.")
c("C114","C114_tables C114_model C114_read C114_resource C114_declared_refuted","All class tables. C114_read leaves out classes whose constructor always raises and attributes given a resource starting with #. Values assigned by a program are not converted and not covered.")
c("C115","C115_assign C115_methods C115_add C115_remove C115_remove_missing C115_remove_more C115_absent C115_once_refuted","All class tables. Classes that inherit two references of the same name (C109) are left out.")
