{
 "claims": [
  {
   "property": "C01",
   "status": "proved",
   "theorems": [
    "C01_attribute_order",
    "C01_attribute_order_transitive",
    "C01_nan_refuted",
    "C01_continuous_int_refuted"
   ],
   "note": "For attributes of one kind with values of the documented type, as stated; what happens outside (NaN, ints in continuous attributes) is shown by the refuted theorems."
  },
  {
   "property": "C02",
   "status": "proved",
   "theorems": [
    "C02_equality_asymmetry",
    "C02_equality_across_types"
   ],
   "note": "Exact characterisation of when a == b and b == a disagree, and of equality across attribute types."
  },
  {
   "property": "C03",
   "status": "proved",
   "theorems": [
    "C03_equal_attributes_hash_alike",
    "C03_collection",
    "C03_collection_refuted"
   ],
   "note": ""
  },
  {
   "property": "C04",
   "status": "proved",
   "theorems": [
    "C04_xid_roundtrip",
    "C04_xid_print_parse",
    "C04_xid_print_injective",
    "C04_xid_order"
   ],
   "note": ""
  },
  {
   "property": "C05",
   "status": "proved",
   "theorems": [
    "C05_timestamp_roundtrip",
    "C05_instant_within_a_millisecond",
    "C05_other_zones_refuted"
   ],
   "note": "Zones with a name of their own or with seconds in the offset are outside the statement; a refutation shows they are not read back."
  },
  {
   "property": "C06",
   "status": "proved",
   "theorems": [
    "C06_parsed_dates_are_valid",
    "C06_only_overflow_escapes",
    "C06_total_refuted"
   ],
   "note": "Includes the refutation of the documented 'None when not parsable'."
  },
  {
   "property": "C07",
   "status": "proved",
   "theorems": [
    "C07_well_formed_dates"
   ],
   "note": ""
  },
  {
   "property": "C08",
   "status": "proved",
   "theorems": [
    "C08_insert_ordered_inserts",
    "C08_insert_ordered_failure",
    "C08_insert_ordered_failure_unchanged"
   ],
   "note": ""
  },
  {
   "property": "C09",
   "status": "proved",
   "theorems": [
    "C09_insert_ordered_keeps_order",
    "C09_insert_all_is_a_stable_sort",
    "C09_untimed_events_refuted"
   ],
   "note": "The claim about untimed events is the refuted theorem."
  },
  {
   "property": "C10",
   "status": "proved",
   "theorems": [
    "C10_text",
    "C10_bounds_are_extremes",
    "C10_order_of_registration"
   ],
   "note": "For histories whose time stamps are all aware or all naive."
  },
  {
   "property": "C11",
   "status": "proved",
   "theorems": [
    "C11_is_within_interval",
    "C11_registered_is_within"
   ],
   "note": "For histories and probes whose time stamps are all aware or all naive."
  },
  {
   "property": "C12",
   "status": "proved",
   "theorems": [
    "C12_identity_depends_on_keys",
    "C12_same_event_class_equivalence"
   ],
   "note": "Equivalence is stated for events whose identity exists; an event raises only if printing one of its attributes does."
  },
  {
   "property": "C13",
   "status": "proved",
   "theorems": [
    "C13_one_key",
    "C13_two_keys",
    "C13_all_present",
    "C13_two_keys_ampersand_refuted",
    "C13_three_keys_missing_refuted"
   ],
   "note": "With the two collision cases as separate _refuted theorems."
  },
  {
   "property": "C14",
   "status": "proved",
   "theorems": [
    "C14_compare_to",
    "C14_total_order",
    "C14_operators",
    "C14_equal_hash"
   ],
   "note": "The hash is a function of the built-in hashes of the key tuple and of the name, which are parameters."
  },
  {
   "property": "C15",
   "status": "proved",
   "theorems": [
    "C15_and_classifier_empty",
    "C15_and_classifier",
    "C15_and_classifier_order_independent",
    "C15_and_classifier_agreement",
    "C15_and_logic",
    "C15_and_logic_refuted"
   ],
   "note": "In addition the documented AND of the parts: proved for events with all attributes and no '&', refuted in general."
  },
  {
   "property": "C16",
   "status": "proved",
   "theorems": [
    "C16_event_classes_defined",
    "C16_event_classes_undefined",
    "C16_event_classes_partition"
   ],
   "note": ""
  },
  {
   "property": "C17",
   "status": "proved",
   "theorems": [
    "C17_indices_dense",
    "C17_order_independent"
   ],
   "note": ""
  },
  {
   "property": "C18",
   "status": "proved",
   "theorems": [
    "C18_indices_always_dense",
    "C18_register_keeps_index",
    "C18_register_new"
   ],
   "note": "For every history of registrations and harmonize_indices calls starting from an empty set."
  },
  {
   "property": "C19",
   "status": "proved",
   "theorems": [
    "C19_counts",
    "C19_boundaries"
   ],
   "note": "Also the time boundaries, for logs whose event time stamps are all aware or all naive."
  },
  {
   "property": "C20",
   "status": "proved",
   "theorems": [
    "C20_exists_exactly"
   ],
   "note": "For logs with values of the documented types and time stamps that are all aware or all naive; a list or container under time:timestamp of an event is the second cause."
  },
  {
   "property": "C21",
   "status": "proved",
   "theorems": [
    "C21_frequencies",
    "C21_relative",
    "C21_prototypes",
    "C21_listing",
    "C21_summary_frequencies"
   ],
   "note": "C21_relative bounds the rounding of the quotient to a double; it is for fewer than 2^1000 registrations."
  },
  {
   "property": "C22",
   "status": "proved",
   "theorems": [
    "C22_queries_empty"
   ],
   "note": ""
  },
  {
   "property": "C23",
   "status": "proved",
   "theorems": [
    "C23_event_classes",
    "C23_classifiers",
    "C23_standard_classes"
   ],
   "note": ""
  },
  {
   "property": "C24",
   "status": "proved",
   "theorems": [
    "C24_cached",
    "C24_replaced",
    "C24_clone",
    "C24_up_to_date_refuted"
   ],
   "note": "With the refutation of the expectation that a returned summary is up to date."
  },
  {
   "property": "C25",
   "status": "proved",
   "theorems": [
    "C25_available_elements",
    "C25_default"
   ],
   "note": "For every equality on elements that is an equivalence; elements are not None."
  },
  {
   "property": "C26",
   "status": "proved",
   "theorems": [
    "C26_indices"
   ],
   "note": ""
  },
  {
   "property": "C27",
   "status": "proved",
   "theorems": [
    "C27_lookups",
    "C27_lookups_agree"
   ],
   "note": "The four lookups agree for an extension whose URI, name and prefix no other registered extension has."
  },
  {
   "property": "C28",
   "status": "proved",
   "theorems": [
    "C28_last_alias",
    "C28_frame"
   ],
   "note": ""
  },
  {
   "property": "C29",
   "status": "proved",
   "theorems": [
    "C29_map_safely",
    "C29_standard_mapping"
   ],
   "note": "For keys and attributes; any other first argument gives None."
  },
  {
   "property": "C30",
   "status": "proved",
   "theorems": [
    "C30_singletons"
   ],
   "note": "Calls of other singletons made inside an initialisation are treated as earlier calls."
  },
  {
   "property": "C31",
   "status": "proved",
   "theorems": [
    "C31_format_extract",
    "C31_round_trip",
    "C31_round_trip_refuted"
   ],
   "note": "With the refutation of the plain round trip."
  },
  {
   "property": "C32",
   "status": "proved",
   "theorems": [
    "C32_tokens",
    "C32_format"
   ],
   "note": ""
  },
  {
   "property": "C33",
   "status": "proved",
   "theorems": [
    "C33_attribute_roundtrip",
    "C33_extension",
    "C33_second_time"
   ],
   "note": "Readable values: those of the documented type; dates with a valid date-time and a whole-minute zone, floats whose text reads back. Element level; the textual layer is C40."
  },
  {
   "property": "C34",
   "status": "proved",
   "theorems": [
    "C34_log_roundtrip",
    "C34_document"
   ],
   "note": "Element level, for documents with any layout and foreign elements. Event ids are not in the file and are drawn anew. Extensions come back if registered under their prefix."
  },
  {
   "property": "C35",
   "status": "proved",
   "theorems": [
    "C35_stacks_restored",
    "C35_globals",
    "C35_global_ends",
    "C35_event_element",
    "C35_trace_element"
   ],
   "note": "The stacks for every element without unreadable dates; the complete parser state for attribute (C33), event and trace elements."
  },
  {
   "property": "C36",
   "status": "proved",
   "theorems": [
    "C36_globals_flat"
   ],
   "note": ""
  },
  {
   "property": "C37",
   "status": "proved",
   "theorems": [
    "C37_classifiers"
   ],
   "note": "For classifiers with non-empty name and non-empty list of trimmed keys without apostrophe."
  },
  {
   "property": "C38",
   "status": "proved",
   "theorems": [
    "C38_bad_date_fatal",
    "C38_bad_date_raises",
    "C38_bad_date_closes"
   ],
   "note": ""
  },
  {
   "property": "C39",
   "status": "proved",
   "theorems": [
    "C39_foreign_elements",
    "C39_tag_case",
    "C39_vocabulary_kept"
   ],
   "note": "A foreign element is transparent: its contents are read in its place."
  },
  {
   "property": "C40",
   "status": "proved",
   "theorems": [
    "C40_text",
    "C40_kept",
    "C40_illegal",
    "C40_xes",
    "C40_xes_round_trip",
    "C40_mxml",
    "C40_mxml_round_trip"
   ],
   "note": "The XML libraries are modelled (CPython 3.11: ElementTree, minidom, and expat on what those two write); encoding to bytes: C70."
  },
  {
   "property": "C41",
   "status": "proved",
   "theorems": [
    "C41_can_parse",
    "C41_ends_with",
    "C41_ignores_case_refuted"
   ],
   "note": "With the refutation of the expectation that letter case is ignored everywhere."
  },
  {
   "property": "C42",
   "status": "proved",
   "theorems": [
    "C42_one_parser",
    "C42_can_parse",
    "C42_can_parse_order",
    "C42_parse_order",
    "C42_parse_result",
    "C42_parse_refused",
    "C42_written_readable",
    "C42_every_format",
    "C42_xez_refused"
   ],
   "note": ""
  },
  {
   "property": "C43",
   "status": "proved",
   "theorems": [
    "C43_reading",
    "C43_instances"
   ],
   "note": "For every document whose elements with a meaning nest as in MXML; other elements only group, any blank text and any data in between."
  },
  {
   "property": "C44",
   "status": "proved",
   "theorems": [
    "C44_fields"
   ],
   "note": "For all entries with any subset of the four fields, whose time stamp does not make the date conversion raise."
  },
  {
   "property": "C45",
   "status": "proved",
   "theorems": [
    "C45_on_trace",
    "C45_elsewhere"
   ],
   "note": "For keys the parser does not use itself."
  },
  {
   "property": "C46",
   "status": "proved",
   "theorems": [
    "C46_round_trip"
   ],
   "note": "For every log that can be written; with the line breaks of the writer. Characters changed by the textual layer: C40."
  },
  {
   "property": "C47",
   "status": "proved",
   "theorems": [
    "C47_clone",
    "C47_edits_invisible",
    "C47_shared_values",
    "C47_set_value"
   ],
   "note": "Event ids are values delivered by uuid4; edits are arbitrary as long as nothing of the other element is inserted."
  },
  {
   "property": "C48",
   "status": "proved",
   "theorems": [
    "C48_trace",
    "C48_log",
    "C48_independent"
   ],
   "note": "The cached info is not copied. Edits of attribute objects themselves are shared (C47)."
  },
  {
   "property": "C49",
   "status": "proved",
   "theorems": [
    "C49_clone",
    "C49_collections"
   ],
   "note": ""
  },
  {
   "property": "C50",
   "status": "proved",
   "theorems": [
    "C50_creation",
    "C50_programs"
   ],
   "note": ""
  },
  {
   "property": "C51",
   "status": "proved",
   "theorems": [
    "C51_identity"
   ],
   "note": ""
  },
  {
   "property": "C52",
   "status": "proved",
   "theorems": [
    "C52_assign_extract",
    "C52_getters",
    "C52_passed_over",
    "C52_rejected",
    "C52_history",
    "C52_history_value",
    "C52_instance",
    "C52_instance_refuted",
    "C52_currency",
    "C52_type",
    "C52_parent",
    "C52_removed",
    "C52_timestamp",
    "C52_timestamp_equal",
    "C52_timestamp_number",
    "C52_timestamp_other"
   ],
   "note": "Time stamps for every local clock that can read its own seconds back (the clock is a parameter). The refuted theorem shows the instance setter breaking the general rule."
  },
  {
   "property": "C53",
   "status": "proved",
   "theorems": [
    "C53_decode",
    "C53_exact",
    "C53_unknown",
    "C53_round_trip",
    "C53_others",
    "C53_standard_model",
    "C53_template_refuted"
   ],
   "note": ""
  },
  {
   "property": "C54",
   "status": "proved",
   "theorems": [
    "C54_result",
    "C54_single",
    "C54_not_text",
    "C54_never",
    "C54_uris"
   ],
   "note": ""
  },
  {
   "property": "C55",
   "status": "proved",
   "theorems": [
    "C55_extract",
    "C55_extract_type_error",
    "C55_extract_children",
    "C55_assign",
    "C55_path",
    "C55_refused",
    "C55_nothing",
    "C55_by_key",
    "C55_types_by_key"
   ],
   "note": "Paths that run through the value's own key are excluded from the statement about many paths at once; the statement about one path has no such restriction."
  },
  {
   "property": "C56",
   "status": "proved",
   "theorems": [
    "C56_attribute",
    "C56_element"
   ],
   "note": "XLog overrides the method and is not meant."
  },
  {
   "property": "C57",
   "status": "proved",
   "theorems": [
    "C57_duration",
    "C57_float",
    "C57_days",
    "C57_other"
   ],
   "note": "C57_duration is for ints, C57_float for doubles; the text of a double (float_repr) is a parameter. Doubles from 2^53 milliseconds (about 285000 years) are covered by C57_days: the rest after the days is exact, the number of days is a rounded quotient."
  },
  {
   "property": "C58",
   "status": "proved",
   "theorems": [
    "C58_contents",
    "C58_none",
    "C58_cases",
    "C58_offline",
    "C58_alias",
    "C58_stray_alias"
   ],
   "note": "For every sequence of SAX events and every behaviour of the network."
  },
  {
   "property": "C59",
   "status": "proved",
   "theorems": [
    "C59_frozen",
    "C59_levels",
    "C59_later_refuted"
   ],
   "note": "Edits of the level sets are arbitrary; the returned set itself is not edited."
  },
  {
   "property": "C60",
   "status": "proved",
   "theorems": [
    "C60_lower",
    "C60_otherwise"
   ],
   "note": ""
  },
  {
   "property": "C61",
   "status": "proved",
   "theorems": [
    "C61_events",
    "C61_relations",
    "C61_partition"
   ],
   "note": "Sets are lists without repetition; the order in which a set is iterated is a parameter."
  },
  {
   "property": "C62",
   "status": "proved",
   "theorems": [
    "C62_pairs"
   ],
   "note": ""
  },
  {
   "property": "C63",
   "status": "proved",
   "theorems": [
    "C63_places"
   ],
   "note": ""
  },
  {
   "property": "C64",
   "status": "proved",
   "theorems": [
    "C64_text"
   ],
   "note": ""
  },
  {
   "property": "C65",
   "status": "proved",
   "theorems": [
    "C65_first_of_each",
    "C65_variants",
    "C65_idempotent"
   ],
   "note": ""
  },
  {
   "property": "C66",
   "status": "proved",
   "theorems": [
    "C66_groups",
    "C66_raises",
    "C66_events_lost",
    "C66_fields",
    "C66_rows",
    "C66_errors",
    "C66_titles",
    "C66_one_trace_per_case_refuted"
   ],
   "note": "strptime and the event identifiers are parameters; line ends are single newlines."
  },
  {
   "property": "C67",
   "status": "proved",
   "theorems": [
    "C67_anonymize",
    "C67_none_left",
    "C67_all_resources_refuted"
   ],
   "note": "No attribute object occurs twice in the log."
  },
  {
   "property": "C68",
   "status": "proved",
   "theorems": [
    "C68_vectors",
    "C68_clusters",
    "C68_outcome",
    "C68_all_traces"
   ],
   "note": "The k-means fit and prediction are parameters."
  },
  {
   "property": "C69",
   "status": "proved",
   "theorems": [
    "C69_stored",
    "C69_classes",
    "C69_summary",
    "C69_summary_exists",
    "C69_bounds",
    "C69_naive_refuted",
    "C69_lists_refuted"
   ],
   "note": "Composes the models of the serializer, the XML text, the parser, and the statistics; naive time stamps are refuted separately."
  },
  {
   "property": "C70",
   "status": "proved",
   "theorems": [
    "C70_encodings",
    "C70_save",
    "C70_save_mxml",
    "C70_outcome",
    "C70_bytes",
    "C70_other_files",
    "C70_xes",
    "C70_mxml",
    "C70_other_encoding_refuted"
   ],
   "note": "gzip is a parameter that must decompress what it compressed; line ends are those of POSIX."
  },
  {
   "property": "C71",
   "status": "proved",
   "theorems": [
    "C71_failed_save",
    "C71_illegal",
    "C71_load"
   ],
   "note": ""
  },
  {
   "property": "C72",
   "status": "proved",
   "theorems": [
    "C72_never_loads",
    "C72_never_stores",
    "C72_one_return",
    "C72_no_profile",
    "C72_download",
    "C72_first_load",
    "C72_in_the_way",
    "C72_bad_uri"
   ],
   "note": "Files disappear only through the library; everything may be written."
  },
  {
   "property": "C73",
   "status": "proved",
   "theorems": [
    "C73_events",
    "C73_traces",
    "C73_logs",
    "C73_kinds",
    "C73_index",
    "C73_index_fails",
    "C73_own_place",
    "C73_remove",
    "C73_remove_event",
    "C73_remove_found",
    "C73_event_found",
    "C73_log_count",
    "C73_count",
    "C73_contains",
    "C73_log_contains",
    "C73_copied_event",
    "C73_copied_trace",
    "C73_copied_log",
    "C73_empty_refuted"
   ],
   "note": "Hash values are not modelled (XTrace hashes a temporary object)."
  },
  {
   "property": "C74",
   "status": "proved",
   "theorems": [
    "C74_xes",
    "C74_mxml",
    "C74_different",
    "C74_stored"
   ],
   "note": "Ids are numbers delivered by a parameter; that uuid4 does not repeat itself is a hypothesis of C74_different only."
  },
  {
   "property": "C75",
   "status": "proved",
   "theorems": [
    "C75_names",
    "C75_setter",
    "C75_reads",
    "C75_asked",
    "C75_clone",
    "C75_equal",
    "C75_ids"
   ],
   "note": "A map given to set_attributes is one that nothing else refers to."
  },
  {
   "property": "C76",
   "status": "proved",
   "theorems": [
    "C76_histories",
    "C76_duration",
    "C76_running",
    "C76_stopped",
    "C76_elapsed_refuted"
   ],
   "note": "Clock readings and all arithmetic are doubles; C76_duration is for any readings, the bounds on rounding are for readings from one second to 2^33 seconds (about 270 years) after 1970."
  },
  {
   "property": "C77",
   "status": "proved",
   "theorems": [
    "C77_message",
    "C77_loggers",
    "C77_library",
    "C77_nothing",
    "C77_divert_refuted"
   ],
   "note": "Listeners other than the standard one are opaque receivers."
  },
  {
   "property": "C78",
   "status": "proved",
   "theorems": [
    "C78_reading",
    "C78_declared",
    "C78_outcome",
    "C78_register",
    "C78_register_again"
   ],
   "note": ""
  },
  {
   "property": "C79",
   "status": "proved",
   "theorems": [
    "C79_chart",
    "C79_totals",
    "C79_raises",
    "C79_survives"
   ],
   "note": ""
  },
  {
   "property": "C80",
   "status": "proved",
   "theorems": [
    "C80_legal",
    "C80_smooth",
    "C80_file",
    "C80_blanks",
    "C80_refused"
   ],
   "note": ""
  },
  {
   "property": "C81",
   "status": "proved",
   "theorems": [
    "C81_log",
    "C81_ids",
    "C81_sizes",
    "C81_file"
   ],
   "note": ""
  },
  {
   "property": "C82",
   "status": "proved",
   "theorems": [
    "C82_kept",
    "C82_found",
    "C82_own",
    "C82_answer",
    "C82_always_answers_refuted"
   ],
   "note": ""
  },
  {
   "property": "C83",
   "status": "proved",
   "theorems": [
    "C83_set_get",
    "C83_outside",
    "C83_get_set",
    "C83_floats",
    "C83_any_float",
    "C83_rounded_down_refuted",
    "C83_naive",
    "C83_aware",
    "C83_made",
    "C83_other",
    "C83_kinds",
    "C83_assign"
   ],
   "note": ""
  },
  {
   "property": "C84",
   "status": "proved",
   "theorems": [
    "C84_settles",
    "C84_first",
    "C84_first_refuted",
    "C84_apostrophe_refuted"
   ],
   "note": ""
  },
  {
   "property": "C85",
   "status": "proved",
   "theorems": [
    "C85_written",
    "C85_loaded",
    "C85_refused",
    "C85_kinds"
   ],
   "note": ""
  },
  {
   "property": "C86",
   "status": "proved",
   "theorems": [
    "C86_again",
    "C86_events",
    "C86_settles",
    "C86_third",
    "C86_blank_refuted"
   ],
   "note": ""
  },
  {
   "property": "C87",
   "status": "proved",
   "theorems": [
    "C87_converts",
    "C87_one_class",
    "C87_classes_refuted"
   ],
   "note": "The classes are proved kept for a classifier one keeps hold of; for the MXML Legacy Classifier of the logs themselves that is refuted by C87_classes_refuted."
  },
  {
   "property": "C88",
   "status": "proved",
   "theorems": [
    "C88_keys",
    "C88_same_key",
    "C88_boolean_and_number",
    "C88_one_sided_refuted",
    "C88_rounding_refuted"
   ],
   "note": ""
  },
  {
   "property": "C89",
   "status": "proved",
   "theorems": [
    "C89_first_fault",
    "C89_unreadable_dates",
    "C89_no_fault_survives",
    "C89_exceptions",
    "C89_stray_event",
    "C89_stray_trace",
    "C89_misplaced_refuted"
   ],
   "note": ""
  },
  {
   "property": "C90",
   "status": "proved",
   "theorems": [
    "C90_first_fault",
    "C90_no_fault_survives",
    "C90_exceptions",
    "C90_nested_process",
    "C90_nested_instance",
    "C90_stray_entry",
    "C90_misplaced_refuted"
   ],
   "note": ""
  },
  {
   "property": "C91",
   "status": "proved",
   "theorems": [
    "C91_first_fault",
    "C91_good",
    "C91_exceptions",
    "C91_nothing"
   ],
   "note": ""
  },
  {
   "property": "C92",
   "status": "proved",
   "theorems": [
    "C92_levels",
    "C92_defined",
    "C92_apart",
    "C92_labels",
    "C92_names",
    "C92_english",
    "C92_shown"
   ],
   "note": ""
  },
  {
   "property": "C93",
   "status": "proved",
   "theorems": [
    "C93_outcome",
    "C93_exceptions",
    "C93_simple"
   ],
   "note": ""
  },
  {
   "property": "C94",
   "status": "proved",
   "theorems": [
    "C94_document",
    "C94_texts",
    "C94_zone_refuted"
   ],
   "note": "The expectation that every written time carries its zone is refuted for UTC (C94_zone_refuted); the document theorem states what is written instead."
  },
  {
   "property": "C95",
   "status": "proved",
   "theorems": [
    "C95_names",
    "C95_mappings",
    "C95_texts"
   ],
   "note": ""
  },
  {
   "property": "C96",
   "status": "proved",
   "theorems": [
    "C96_classes",
    "C96_sets",
    "C96_length",
    "C96_sets_refuted"
   ],
   "note": "C96_sets_refuted proves that equal sets can have different classes"
  },
  {
   "property": "C97",
   "status": "proved",
   "theorems": [
    "C97_tests",
    "C97_exclude"
   ],
   "note": ""
  },
  {
   "property": "C98",
   "status": "proved",
   "theorems": [
    "C98_net",
    "C98_filter",
    "C98_stored_net",
    "C98_stored_filter",
    "C98_stored_clusters"
   ],
   "note": ""
  },
  {
   "property": "C99",
   "status": "proved",
   "theorems": [
    "C99_text",
    "C99_fails",
    "C99_alike",
    "C99_tells",
    "C99_tells_refuted"
   ],
   "note": "C99_tells_refuted proves that different lists can have the same text"
  },
  {
   "property": "C100",
   "status": "proved",
   "theorems": [
    "C100_lines",
    "C100_cells",
    "C100_formats",
    "C100_formats_refuted",
    "C100_line_end",
    "C100_same_value_refuted"
   ],
   "note": "C100_formats_refuted: MM directly before mm; C100_same_value_refuted: a text in the last column has the line end in its value"
  },
  {
   "property": "C101",
   "status": "proved",
   "theorems": [
    "C101_last",
    "C101_always",
    "C101_fresh",
    "C101_shared",
    "C101_equal",
    "C101_drawn",
    "C101_hash_refuted"
   ],
   "note": "C101_hash_refuted: set_uuid on the value of an attribute changes the hash of an event"
  },
  {
   "property": "C102",
   "status": "proved",
   "theorems": [
    "C102_xes",
    "C102_mxml",
    "C102_one_line",
    "C102_counts",
    "C102_one_line_refuted"
   ],
   "note": "C102_one_line_refuted: a value with a line break; the XML libraries are modelled (CPython 3.11)"
  },
  {
   "property": "C103",
   "status": "proved",
   "theorems": [
    "C103_type",
    "C103_apart",
    "C103_prototype",
    "C103_none",
    "C103_forgets",
    "C103_again",
    "C103_all_but_value_refuted"
   ],
   "note": "C103_all_but_value_refuted: an attribute with a nested attribute"
  },
  {
   "property": "C104",
   "status": "proved",
   "theorems": [
    "C104_xes",
    "C104_mxml",
    "C104_log",
    "C104_saved",
    "C104_keys_refuted"
   ],
   "note": "C104_keys_refuted: the keys of a classifier are not told by its file"
  },
  {
   "property": "C105",
   "status": "proved",
   "theorems": [
    "C105_file",
    "C105_times",
    "C105_names_refuted",
    "C105_saved"
   ],
   "note": "C105_names_refuted: names of traces and resources of events are not told by the file"
  },
  {
   "property": "C106",
   "status": "proved",
   "theorems": [
    "C106_balance",
    "C106_sequential",
    "C106_fit_refuted",
    "C106_precise_refuted"
   ],
   "note": "C106_fit_refuted: a net that does not replay its own log; C106_precise_refuted: one that replays more"
  },
  {
   "property": "C107",
   "status": "proved",
   "theorems": [
    "C107_set_get",
    "C107_twice",
    "C107_order",
    "C107_get_set",
    "C107_skipped",
    "C107_assign",
    "C107_fixed"
   ],
   "note": "Near the ends of the years 1 to 9999 nothing is said. The C library's mktime is any function that inverts the readings."
  },
  {
   "property": "C108",
   "status": "proved",
   "theorems": [
    "C108_live",
    "C108_new",
    "C108_harmonize",
    "C108_detached",
    "C108_fixed",
    "C108_map"
   ],
   "note": "Texts are registered; how events give their texts is C12 to C14."
  },
  {
   "property": "C109",
   "status": "proved",
   "theorems": [
    "C109_unchanged",
    "C109_answer",
    "C109_lost",
    "C109_back",
    "C109_cached",
    "C109_always_found_refuted"
   ],
   "note": "For logs that have a summary (C20). The expectation that a summary finds every classifier it was made for is refuted."
  },
  {
   "property": "C110",
   "status": "proved",
   "theorems": [
    "C110_available",
    "C110_factory",
    "C110_own_factory_refuted",
    "C110_standard",
    "C110_load",
    "C110_refused",
    "C110_first",
    "C110_error",
    "C110_order_refuted"
   ],
   "note": "The outcome of reading the bytes of a format with a factory is a parameter here; Model/Files.v has it for the standard factory. Two expectations are refuted: that a parser uses the factory it was given, and that the order of the set never matters."
  },
  {
   "property": "C111",
   "status": "proved",
   "theorems": [
    "C111_tells",
    "C111_replays",
    "C111_saved",
    "C111_files",
    "C111_quotes_refuted"
   ],
   "note": "The encoding of text files is a parameter, assumed to be undone by decoding in C111_files only. That names may contain anything is refuted by a name with quotation marks."
  },
  {
   "property": "C112",
   "status": "proved",
   "theorems": [
    "C112_swap",
    "C112_rearranged",
    "C112_causes",
    "C112_loop",
    "C112_exchange",
    "C112_relations",
    "C112_first_refuted"
   ],
   "note": "Replaying is the token game on the places of the net, as in C106. That replayed traces begin with a start activity is refuted by a log with a repetition."
  },
  {
   "property": "C113",
   "status": "proved",
   "theorems": [
    "C113_twice",
    "C113_filtered",
    "C113_mined",
    "C113_clustered",
    "C113_chart",
    "C113_stored",
    "C113_unreadable",
    "C113_unwritable",
    "C113_loads_refuted"
   ],
   "note": "That anonymising keeps a log loadable is refuted by a log whose resource is a number."
  },
  {
   "property": "C114",
   "status": "proved",
   "theorems": [
    "C114_effect",
    "C114_outcome",
    "C114_clone",
    "C114_again",
    "C114_other",
    "C114_clone_keeps_names_refuted",
    "C114_trees",
    "C114_shared_with_log_refuted",
    "C114_nested_refuted"
   ],
   "note": "That the names stay in a log whose clone is anonymised is refuted, and so is agreement with the tree model when a resource is also an attribute of the log or nested in another attribute."
  }
 ]
}
