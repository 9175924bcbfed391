{
 "claims": [
  {
   "property": "C01",
   "status": "proved",
   "theorems": [
    "C01_creates_exactly_one",
    "C01_failed_call_changes_nothing",
    "C01_view_is_complete",
    "C01_other_scopes_untouched"
   ],
   "note": "For every database (reachable or not). Objects are addressed by path; the view of all paths determines the tree."
  },
  {
   "property": "C02",
   "status": "proved",
   "theorems": [
    "C02_scopes",
    "C02_scopes_model"
   ],
   "note": "The index loop of the iterator is modelled; the loop ends and yields exactly the matching children."
  },
  {
   "property": "C03",
   "status": "proved",
   "theorems": [
    "C03_cover_items",
    "C03_cover_items_model"
   ],
   "note": "As C02, for cover items."
  },
  {
   "property": "C04",
   "status": "proved",
   "theorems": [
    "C04_iterator_in_use",
    "C04_passed_part_is_stable"
   ],
   "note": "All interleavings of next() with any API calls, for the three kinds of iterator."
  },
  {
   "property": "C05",
   "status": "proved",
   "theorems": [
    "C05_hit_counters",
    "C05_from_creation"
   ],
   "note": "For every history of modelled API calls. CoverData objects are stored by value: two bins sharing one CoverData object are not modelled."
  },
  {
   "property": "C06",
   "status": "proved",
   "theorems": [
    "C06_bin_stored_as_given",
    "C06_succeeds_on_points"
   ],
   "note": ""
  },
  {
   "property": "C07",
   "status": "proved",
   "theorems": [
    "C07_one_handle_per_name",
    "C07_always_returns_a_handle",
    "C07_handles_never_change"
   ],
   "note": ""
  },
  {
   "property": "C08",
   "status": "proved",
   "theorems": [
    "C08_history_nodes"
   ],
   "note": ""
  },
  {
   "property": "C09",
   "status": "proved",
   "theorems": [
    "C09_reads_back",
    "C09_other_variables",
    "C09_nothing_else_changes",
    "C09_supported",
    "C09_goal_has_two_names"
   ],
   "note": "All scope classes and all 32 properties; STMT_INDEX with Python index rules."
  },
  {
   "property": "C10",
   "status": "partial",
   "theorems": [
    "C10_comment_lost_refuted",
    "C10_strings_are_dropped"
   ],
   "note": "False of the code: string properties set on a scope are dropped. Refuted by a witness; the exact behaviour is proved for every scope, property and value."
  },
  {
   "property": "C11",
   "status": "proved",
   "theorems": [
    "C11_createScope_types"
   ],
   "note": ""
  },
  {
   "property": "C12",
   "status": "proved",
   "theorems": [
    "C12_references_resolve",
    "C12_references_resolve_from",
    "C12_scopes_keep_identity"
   ],
   "note": ""
  },
  {
   "property": "C13",
   "status": "partial",
   "theorems": [
    "C13_instance_items_invisible_refuted",
    "C13_where_items_go"
   ],
   "note": "False of the code: items created on an instance are kept in a list that coverItems does not read. Refuted by a witness; where items go is proved for every scope."
  },
  {
   "property": "C14",
   "status": "proved",
   "theorems": [
    "C14_merged_counts"
   ],
   "note": "Any destination, any number of sources."
  },
  {
   "property": "C15",
   "status": "proved",
   "theorems": [
    "C15_merged_structure",
    "C15_addresses",
    "C15_each_once"
   ],
   "note": "is_merge in MergeSpec.v spells out names, order, grouping and attributes at every level."
  },
  {
   "property": "C16",
   "status": "proved",
   "theorems": [
    "C16_order_of_sources",
    "C16_order_of_fit_sources"
   ],
   "note": "Without hypotheses on names when both merges succeed; databases fit for merging succeed in every order."
  },
  {
   "property": "C17",
   "status": "proved",
   "theorems": [
    "C17_stages"
   ],
   "note": "The databases are equal, not only names and counts; the merged one may stand anywhere in the source list."
  },
  {
   "property": "C18",
   "status": "proved",
   "theorems": [
    "C18_copy"
   ],
   "note": ""
  },
  {
   "property": "C19",
   "status": "proved",
   "theorems": [
    "C19_attributes_of_first",
    "C19_at_least_of_first"
   ],
   "note": "Scope attributes are part of is_merge (attrs_of_first, merged_cross, merged_pair)."
  },
  {
   "property": "C20",
   "status": "proved",
   "theorems": [
    "C20_merge_succeeds_iff",
    "C20_crosses_refer",
    "C20_fit_sources_merge"
   ],
   "note": "The exact success condition is mergeable in MergeSpec.v."
  },
  {
   "property": "C21",
   "status": "proved",
   "theorems": [
    "C21_destination_kept",
    "C21_handles_kept"
   ],
   "note": "Also for merges that raise."
  },
  {
   "property": "C22",
   "status": "partial",
   "theorems": [
    "C22_repeated_name_refuted",
    "C22_counts_used_partial"
   ],
   "note": "False of the code: of several instances, covergroups, covergroup instances or coverpoints of one name in one source only the last is merged (crosses and bins are all merged). Proved: exactly that."
  },
  {
   "property": "C23",
   "status": "proved",
   "theorems": [
    "C23_hit_bins_stay_hit"
   ],
   "note": ""
  },
  {
   "property": "C24",
   "status": "proved",
   "theorems": [
    "C24_point_percentages"
   ],
   "note": "Exact rational arithmetic; every report, every depth."
  },
  {
   "property": "C25",
   "status": "proved",
   "theorems": [
    "C25_covergroup_percentage"
   ],
   "note": "Exact rationals, non-negative weights; crosses enter with weight 1 (C32)."
  },
  {
   "property": "C26",
   "status": "proved",
   "theorems": [
    "C26_percentages_in_range"
   ],
   "note": "Exact rationals, non-negative weights."
  },
  {
   "property": "C27",
   "status": "proved",
   "theorems": [
    "C27_report_still_exists",
    "C27_more_hits_never_lower",
    "C27_increment_adds_hits"
   ],
   "note": "Exact rationals, non-negative weights; all percentages of the report at once."
  },
  {
   "property": "C28",
   "status": "proved",
   "theorems": [
    "C28_hundred_percent"
   ],
   "note": "Positive coverpoint weights; crosses always weigh 1."
  },
  {
   "property": "C29",
   "status": "proved",
   "theorems": [
    "C29_report_mirrors_database",
    "C29_lookup_by_name"
   ],
   "note": "For any arithmetic."
  },
  {
   "property": "C30",
   "status": "partial",
   "theorems": [
    "C30_overall_refuted",
    "C30_no_report_refuted",
    "C30_report_exists_iff_partial",
    "C30_overall_is_last_instance_partial"
   ],
   "note": "False of the code: the overall number is that of the last instance only, and an instance of total covergroup weight 0 makes the builder raise ZeroDivisionError. Proved: the exact success condition and the exact value."
  },
  {
   "property": "C31",
   "status": "partial",
   "theorems": [
    "C31_hit_flags_partial",
    "C31_cross_hit_flags_refuted"
   ],
   "note": "Holds for coverpoints; false for crosses, whose listed goal is the bin goal, not at_least. Proved for crosses whose bins have goal = at_least."
  },
  {
   "property": "C32",
   "status": "partial",
   "theorems": [
    "C32_cross_weight_refuted",
    "C32_weights_one_partial"
   ],
   "note": "False of the code: cross weights are ignored (always 1)."
  },
  {
   "property": "C33",
   "status": "proved",
   "theorems": [
    "C33_division",
    "C33_conversion",
    "C33_double_range",
    "C33_full_is_100",
    "C33_only_full_is_100",
    "C33_double_monotone",
    "C33_double_accuracy",
    "C33_heavy_weights_refuted"
   ],
   "note": "Rounding as in Flocq binary64; weights summing to at most 2^46 (beyond that a witness reports more than 100). Uses the axioms of the real numbers of the standard library."
  },
  {
   "property": "C34",
   "status": "proved",
   "theorems": [
    "C34_text_is_outline",
    "C34_text_on_failure",
    "C34_number_of_lines"
   ],
   "note": "For both text formatters; formatting of a percentage is a parameter."
  },
  {
   "property": "C35",
   "status": "proved",
   "theorems": [
    "C35_indentation_balanced",
    "C35_usable_after_failure"
   ],
   "note": "The stream may raise at any write."
  },
  {
   "property": "C36",
   "status": "proved",
   "theorems": [
    "C36_bins_by_hit"
   ],
   "note": ""
  },
  {
   "property": "C37",
   "status": "partial",
   "theorems": [
    "C37_json_cross_refuted",
    "C37_json_point_names_refuted",
    "C37_json_report_partial"
   ],
   "note": "False of the code: a report with a cross raises AttributeError, and coverpoint names are left out. Both refuted by witnesses; exact behaviour proved for every report."
  },
  {
   "property": "C38",
   "status": "proved",
   "theorems": [
    "C38_file_table"
   ],
   "note": "In addition: every file reference in the document is the placeholder, so ids other than 1 are never used."
  },
  {
   "property": "C39",
   "status": "proved",
   "theorems": [
    "C39_round_trip",
    "C39_round_trip_general",
    "C39_same_names_refuted"
   ],
   "note": "Serialising and parsing by lxml is assumed to be faithful (Xml.reparse). Without distinct names, instances of one name are put together, as C39_round_trip_general says. Crossed names must be non-empty and without surrounding blanks. float() is a parameter."
  },
  {
   "property": "C40",
   "status": "proved",
   "theorems": [
    "C40_type_coverage_is_sum",
    "C40_kinds_refuted"
   ],
   "note": "Every document that can be read. Bins of one name and different kinds are summed into one bin (witness)."
  },
  {
   "property": "C41",
   "status": "partial",
   "theorems": [
    "C41_stable_partial",
    "C41_files_settle",
    "C41_file_table_refuted",
    "C41_module_names_refuted"
   ],
   "note": "The scopes are the same after every further round trip if the document gives no module names. The file table and module names are lost (refuted by witnesses)."
  },
  {
   "property": "C42",
   "status": "partial",
   "theorems": [
    "C42_reports_agree_partial",
    "C42_report_after_round_trip",
    "C42_at_least_refuted",
    "C42_weight_refuted"
   ],
   "note": "The exact report after the round trip is proved for every database (C42_report_after_round_trip). Agreement with the report before is proved for weights 1, at_least 1 and normal cross bins, in any arithmetic; false in general (witnesses)."
  },
  {
   "property": "C43",
   "status": "partial",
   "theorems": [
    "C43_cross_bin_kinds_refuted",
    "C43_cross_bins_are_read_as_normal"
   ],
   "note": "False of the code: every cross bin is read as a normal bin."
  },
  {
   "property": "C44",
   "status": "partial",
   "theorems": [
    "C44_history_back_partial",
    "C44_plain_history_preserved",
    "C44_kind_refuted",
    "C44_status_refuted",
    "C44_dummy",
    "C44_unset_date_refuted"
   ],
   "note": "What comes back is stated field by field for every node; nodes of the types the reader makes come back unchanged. False in general: kind becomes a string, every test status becomes true, and a node whose date was not set cannot be written."
  },
  {
   "property": "C45",
   "status": "partial",
   "theorems": [
    "C45_dates",
    "C45_any_text",
    "C45_early_years_refuted",
    "C88_dates_survive_iff",
    "C88_skipped_hour_refuted",
    "C45_iso_texts",
    "C45_compact_texts"
   ],
   "note": "False of the code for times that the local clock skips when it is set forward; proved for all other dates (C88 gives the exact set). Years below 1000 lose leading zeros (witness)."
  },
  {
   "property": "C46",
   "status": "proved",
   "theorems": [
    "C46_readable_documents",
    "C46_malformed_rejected",
    "C46_unknown_file_rejected"
   ],
   "note": "As an equivalence: exactly the documents of good_doc are read."
  },
  {
   "property": "C47",
   "status": "proved",
   "theorems": [
    "C47_written_documents_valid_iff",
    "C47_read_back",
    "C47_sequences",
    "C47_own_files_rejected_refuted"
   ],
   "note": "Against the whole ucis.xsd, translated by tools/gen_xsd.py. The exact condition is complete_db and valid_hist in SchemaSpec.v."
  },
  {
   "property": "C48",
   "status": "proved",
   "theorems": [
    "C48_counts_survive_as_text"
   ],
   "note": ""
  },
  {
   "property": "C49",
   "status": "proved",
   "theorems": [
    "C49_instance_data",
    "C49_every_loaded_document"
   ],
   "note": "Documents as what yaml.load gives; the generated classes of python_jsonschema_objects are taken to behave like plain data."
  },
  {
   "property": "C50",
   "status": "proved",
   "theorems": [
    "C50_type_counts"
   ],
   "note": "Type level data of coverpoints without ignore and illegal bins, and of crosses."
  },
  {
   "property": "C51",
   "status": "partial",
   "theorems": [
    "C51_ignore_bins_refuted",
    "C51_type_bins_partial"
   ],
   "note": "The code violates the property (witness); the partial theorem says what the type level bins are."
  },
  {
   "property": "C52",
   "status": "partial",
   "theorems": [
    "C52_atleast_refuted",
    "C52_type_atleast_partial"
   ],
   "note": "The code violates the property (witness); the type level always requires one hit."
  },
  {
   "property": "C53",
   "status": "partial",
   "theorems": [
    "C53_own_instance_refuted",
    "C53_references_partial",
    "C53_own_instance"
   ],
   "note": "The code violates the property (witness); references go to the own instance when it has the coverpoint, else to an earlier one."
  },
  {
   "property": "C54",
   "status": "partial",
   "theorems": [
    "C54_schema",
    "C54_schema_file",
    "C54_documents_load_iff",
    "C54_invalid_rejected",
    "C54_allowed_documents_fail_refuted"
   ],
   "note": "The code violates the property (witnesses); the exact condition for loading is proved."
  },
  {
   "property": "C55",
   "status": "proved",
   "theorems": [
    "C55_registry_is_a_map",
    "C55_one_registry",
    "C55_listing"
   ],
   "note": ""
  },
  {
   "property": "C56",
   "status": "proved",
   "theorems": [
    "C56_unknown_formats"
   ],
   "note": ""
  },
  {
   "property": "C57",
   "status": "partial",
   "theorems": [
    "C57_merge_outcome_partial",
    "C57_convert_outcome_partial",
    "C57_merge_succeeds_iff",
    "C57_convert_succeeds_iff",
    "C57_report_outcome_partial",
    "C57_output_lost_refuted",
    "C57_report_lost_refuted"
   ],
   "note": "The code violates the property (witnesses): the output is truncated before the work that can fail. The partial theorems say exactly which files can change in which outcome."
  },
  {
   "property": "C58",
   "status": "proved",
   "theorems": [
    "C58_opened_by_content"
   ],
   "note": "gzip and lz4 decompression are parameters."
  },
  {
   "property": "C59",
   "status": "partial",
   "theorems": [
    "C59_bin_counts_partial",
    "C59_cover_data_partial",
    "C59_large_counts_refuted",
    "C59_at_least_refuted"
   ],
   "note": "The code violates the property for counts of 2^32 and more (witness); exact below, and at_least is not handed over. The shared library itself is not modelled."
  },
  {
   "property": "C60",
   "status": "partial",
   "theorems": [
    "C60_fields_partial",
    "C60_stored_partial",
    "C60_refused_partial",
    "C60_whole_times_partial",
    "C60_never_survives_refuted"
   ],
   "note": "The code violates the property for every well-typed record; the partial theorem gives the permutation of the fields."
  },
  {
   "property": "C61",
   "status": "proved",
   "theorems": [
    "C61_test_data_complete"
   ],
   "note": ""
  },
  {
   "property": "C62",
   "status": "proved",
   "theorems": [
    "C62_plus_arguments"
   ],
   "note": ""
  },
  {
   "property": "C63",
   "status": "proved",
   "theorems": [
    "C63_valid_documents_readable_iff",
    "C63_zone_refuted"
   ],
   "note": "float() is a parameter that must accept every xsd:double and xsd:decimal."
  },
  {
   "property": "C64",
   "status": "partial",
   "theorems": [
    "C64_exit_status_refuted",
    "C64_failures_printed_partial"
   ],
   "note": "The code violates the property (for every failing command): main prints the exception and returns. The partial theorem says that every failure is printed."
  },
  {
   "property": "C65",
   "status": "partial",
   "theorems": [
    "C65_directory_reports_refuted",
    "C65_old_report_removed_refuted"
   ],
   "note": "The code violates the property for every such format, and removes an existing destination directory before it fails."
  },
  {
   "property": "C66",
   "status": "partial",
   "theorems": [
    "C66_int_set_partial",
    "C66_string_set_partial",
    "C66_wrong_types_partial",
    "C66_test_data_set_partial",
    "C66_not_readable_refuted",
    "C66_test_data_wiped_refuted"
   ],
   "note": "The code violates the property for every object and property; what setting stores is proved."
  },
  {
   "property": "C67",
   "status": "partial",
   "theorems": [
    "C67_scopes_partial",
    "C67_history_refuted",
    "C67_history_nodes_refuted"
   ],
   "note": "Proved for scopes; the code violates the property for every list of history nodes."
  },
  {
   "property": "C68",
   "status": "proved",
   "theorems": [
    "C68_read_as_written",
    "C68_white_space",
    "C68_attributes"
   ],
   "note": ""
  },
  {
   "property": "C69",
   "status": "proved",
   "theorems": [
    "C69_writable_iff",
    "C69_writable_usually"
   ],
   "note": ""
  },
  {
   "property": "C70",
   "status": "proved",
   "theorems": [
    "C70_merge_files",
    "C70_counts",
    "C70_stages",
    "C70_order"
   ],
   "note": "From file to file. XML library, float parser and clock are parameters with the stated assumptions good_lxml and good_env; a concrete library meeting them is given."
  },
  {
   "property": "C71",
   "status": "proved",
   "theorems": [
    "C71_convert_file",
    "C71_counts",
    "C71_nothing_changes"
   ],
   "note": "Same assumptions as C70."
  },
  {
   "property": "C72",
   "status": "proved",
   "theorems": [
    "C72_written_says",
    "C72_written_clean"
   ],
   "note": ""
  },
  {
   "property": "C73",
   "status": "proved",
   "theorems": [
    "C73_merge_yaml",
    "C73_counts",
    "C73_convert_yaml"
   ],
   "note": "PyYAML is a parameter; same assumptions on the XML library as C70."
  },
  {
   "property": "C74",
   "status": "proved",
   "theorems": [
    "C74_initial_properties",
    "C74_initial_fields"
   ],
   "note": ""
  },
  {
   "property": "C75",
   "status": "partial",
   "theorems": [
    "C75_options_kept_refuted",
    "C75_bin_options_kept_refuted",
    "C75_options_reset"
   ],
   "note": "Refuted as intended behaviour: the merger creates fresh scopes and copies only name, source information and weight. C75_options_reset says exactly what the options of every added scope are."
  },
  {
   "property": "C76",
   "status": "proved",
   "theorems": [
    "C76_report_of_document",
    "C76_report_files",
    "C76_report_of_merge"
   ],
   "note": "Full equality of the report with a specification over what the document says; XML parser, file system and number formatting are parameters; the stream is assumed not to fail in C76_report_files."
  },
  {
   "property": "C77",
   "status": "proved",
   "theorems": [
    "C77_null_is_the_database",
    "C77_failed_call_changes_nothing",
    "C77_creates_exactly_one",
    "C77_other_objects_untouched",
    "C77_int_reads_back",
    "C77_time",
    "C77_instance",
    "C77_history_node",
    "C77_file_handle",
    "C77_cover_item",
    "C77_test_data",
    "C77_other_variables",
    "C77_reading_changes_nothing"
   ],
   "note": "All functions of ucis/__init__.py except ucis_Write (see C57, C71)."
  },
  {
   "property": "C78",
   "status": "partial",
   "theorems": [
    "C78_remove_refuted",
    "C78_real_and_handle_refuted",
    "C78_status_refuted",
    "C78_toggle_refuted",
    "C78_strings_refuted"
   ],
   "note": "False of the code, for every object; each theorem gives the exact behaviour."
  },
  {
   "property": "C79",
   "status": "proved",
   "theorems": [
    "C79_report_of_yaml",
    "C79_plain_totals",
    "C79_report_files"
   ],
   "note": "Full equality of the report with a specification over what the document says; the YAML parser, the file system and number formatting are parameters; the stream is assumed not to fail."
  },
  {
   "property": "C80",
   "status": "partial",
   "theorems": [
    "C80_json_of_xml_files",
    "C80_json_of_yaml_files",
    "C37_json_cross_refuted",
    "C37_json_point_names_refuted"
   ],
   "note": "False of the code: with a cross there is no JSON report at all, and coverpoint names are missing. The theorems give the outcome for every accepted file: which text is written and how the command ends."
  },
  {
   "property": "C81",
   "status": "partial",
   "theorems": [
    "C81_own_count_refuted",
    "C81_increment_exactly",
    "C81_assignment_exactly",
    "C81_careful",
    "C81_careful_increment",
    "C81_create_bin",
    "C81_objects"
   ],
   "note": "False of the code: createNextCover stores the object it is given, so bins created from one CoverData object share their count, and assignments to the object change it. Proved: exactly which items change, and that the property holds for histories that do not share objects (in particular those that only use createBin), where the database behaves as if data were stored by value."
  },
  {
   "property": "C82",
   "status": "proved",
   "theorems": [
    "C82_setter_sets_its_field",
    "C82_supported",
    "C82_read_as_property",
    "C82_other_properties"
   ],
   "note": "Added after a seeded bug in setAtLeast that no theorem noticed."
  },
  {
   "property": "C83",
   "status": "proved",
   "theorems": [
    "C83_create",
    "C83_set",
    "C83_kept"
   ],
   "note": "The creation time is a parameter. Setting test data at once is C61."
  },
  {
   "property": "C84",
   "status": "partial",
   "theorems": [
    "C84_shared",
    "C84_separate",
    "C84_readable",
    "C84_each_readable",
    "C84_second_reading_refuted"
   ],
   "note": "False of the code: the maps of instances and design units are never cleared, so the covergroups of an instance go into the database of the first document that named it. Proved: exactly what each database holds, which sequences can be read, and that the property holds for documents that name no instance and no design unit twice."
  },
  {
   "property": "C85",
   "status": "proved",
   "theorems": [
    "C85_itself_as_source",
    "C85_counts",
    "C85_references_resolve"
   ],
   "note": ""
  },
  {
   "property": "C86",
   "status": "proved",
   "theorems": [
    "C86_validation",
    "C86_schema_file",
    "C86_refused",
    "C86_read",
    "C86_written_documents",
    "C86_simple_types"
   ],
   "note": "The checker stands for the schema validation of lxml; the property says that the checker used in C47 and C63 decides the definitions of XML Schema. Years have four digits; attributes of the schema-instance namespace are left out."
  },
  {
   "property": "C87",
   "status": "proved",
   "theorems": [
    "C87_references_resolve",
    "C87_failing_merge",
    "C87_file_names"
   ],
   "note": "The set of obtainable databases is the inductive predicate obtained. A reader object used for a second document is outside it: see C84, where such references go to another database."
  },
  {
   "property": "C88",
   "status": "proved",
   "theorems": [
    "C88_calendar",
    "C88_written_as_is",
    "C88_dates_survive_iff",
    "C88_fixed_offset",
    "C88_skipped_times",
    "C88_skipped_hour_refuted",
    "C88_now",
    "C88_history_preserved"
   ],
   "note": "The time zone and the C library's mktime are parameters; of mktime it is assumed what the C standard says. The skipped hour refutes C45 for zones with such changes."
  },
  {
   "property": "C89",
   "status": "proved",
   "theorems": [
    "C89_merge_never_lowers",
    "C89_full_stays_full",
    "C89_order_of_runs",
    "C89_double_never_lowers",
    "C89_double_full_stays",
    "C89_same_numbers_any_order"
   ],
   "note": "The first three theorems use exact arithmetic, the next two the doubles of the program (weights of at most 2^46 in total, see C33), the last any arithmetic. Covergroup instances nested in covergroup instances are excluded (a merge drops them, C15). A witness beside the theorems shows that equal thresholds are needed."
  },
  {
   "property": "C90",
   "status": "proved",
   "theorems": [
    "C90_report_of_converted",
    "C90_same_report",
    "C90_what_stays",
    "C90_instances_never_lower"
   ],
   "note": "Examples beside the theorems show that each of the conditions is needed: weights, thresholds and ignore bins change the report."
  },
  {
   "property": "C91",
   "status": "partial",
   "theorems": [
    "C91_loop_partial",
    "C91_unchanged_partial",
    "C91_goals_lost_refuted",
    "C91_wide_masks_refuted",
    "C91_open_partial",
    "C91_source_info_partial",
    "C91_unreadable_refuted"
   ],
   "note": "The code violates it: every object made for a scope, also by a loop, sets the goal of the scope to 100, and the mask is cut to 32 bits. Proved: exactly what a loop and an open see and change."
  },
  {
   "property": "C92",
   "status": "partial",
   "theorems": [
    "C92_created_partial",
    "C92_refused_partial",
    "C92_refusal_unnoticed_refuted",
    "C92_orphans_refuted",
    "C92_wrong_partial",
    "C92_complete_partial",
    "C92_cover_partial",
    "C92_cover_unnoticed_refuted",
    "C92_bin_partial",
    "C92_file_partial",
    "C92_file_unnoticed_refuted",
    "C92_history_partial",
    "C92_history_parent_refuted",
    "C92_write_partial",
    "C92_write_scope_refuted",
    "C92_set_option_partial",
    "C92_set_weight_refuted"
   ],
   "note": "The code violates it: refusals go unnoticed by createCovergroup, createCross, createCoverInstance, createToggle, createNextCover and createFileHandle, and the options then go to the database itself; history nodes cannot have parents; a part of a database cannot be written. Proved: the effect of every call for every answer of the library."
  },
  {
   "property": "C93",
   "status": "partial",
   "theorems": [
    "C93_same_partial",
    "C93_defaults_refuted",
    "C93_cross_kind_refuted",
    "C93_scope_class_refuted",
    "C93_scope_types_refuted"
   ],
   "note": "The code violates it: new covergroups have other options, bins of crosses take no kind with the library, createScope returns a plain scope where the other back end returns a covergroup, and accepts types that the other refuses. Proved for all other programs whose numbers and names fit: same tree, fields, references, cover items, history nodes and set options."
  },
  {
   "property": "C94",
   "status": "partial",
   "theorems": [
    "C94_points",
    "C94_groups",
    "C94_decimals",
    "C94_monotone",
    "C94_texts_differ",
    "C94_hundred_refuted",
    "C94_hundred_points_partial",
    "C94_hundred_groups_partial",
    "C94_no_number"
   ],
   "note": "The last sentence is violated: 199 hits of 200 bins are printed as 100.000000%, and so is a covergroup at 99.995. Proved for points with fewer than 200 bins and for covergroups where bins times total weight stay below 20000. Points have at most 2^45 bins, weights are at most 2^46 in total as in C33, the older formatter is set to at most 13 decimals."
  },
  {
   "property": "C95",
   "status": "partial",
   "theorems": [
    "C95_schema_file",
    "C95_valid_refuted",
    "C95_body_valid_partial"
   ],
   "note": "The code violates it, for every database: the report object itself is written, the schema wants it as the value of \"covreport\" in an object that allows nothing else. Proved: put there, every report is valid."
  },
  {
   "property": "C96",
   "status": "partial",
   "theorems": [
    "C96_data_partial",
    "C96_options_refuted",
    "C96_cross_type_refuted",
    "C96_cross_indices_refuted",
    "C96_module_refuted",
    "C96_reads_only",
    "C96_read_options_refuted"
   ],
   "note": "The code violates parts of it. Written as documented, for every database: the sections, the covergroup names, the coverpoint bins with type and range, the names and counts of cross bins. Never written, for any database: any option, a documented type or documented indices of a cross bin (always type default and the one index -1); the module is given as the covergroup name. Reading depends on a list of attributes only: not on ranges, as documented, but not on any option either."
  },
  {
   "property": "C97",
   "status": "proved",
   "theorems": [
    "C97_one_bit_each",
    "C97_types_listed",
    "C97_scopes",
    "C97_all_scopes",
    "C97_items",
    "C97_design_units",
    "C97_constants",
    "C97_database_type",
    "C97_special_items",
    "C97_numbers"
   ],
   "note": "The enumerations are modelled with all members (Enums.v). C97_types_listed covers databases made by calls, XML and YAML files and merges (also failing ones and the database itself among the sources)."
  },
  {
   "property": "C98",
   "status": "partial",
   "theorems": [
    "C98_user",
    "C98_time",
    "C98_contents",
    "C98_instances",
    "C98_file_partial",
    "C98_file_refuted",
    "C98_read_partial",
    "C98_read_refuted"
   ],
   "note": "The last sentence is violated: a file names the user running the writer and the day of the writing (the lines that would use the database are comments), and reading a file gives a database of the reading user. Everything else is proved."
  },
  {
   "property": "C99",
   "status": "proved",
   "theorems": [
    "C99_well_formed",
    "C99_one_reading",
    "C99_reader",
    "C99_tells_coverage",
    "C99_different_texts",
    "C99_round_trip",
    "C99_library",
    "C99_library_exists",
    "C99_merge_texts"
   ],
   "note": "XmlTextSpec.v is the grammar of XML 1.0 without declarations, document types, comments, processing instructions and CDATA sections; the serialiser modelled is lxml's pretty printer on trees of the writer's shape. C99_tells_coverage and C99_different_texts are about databases without white space around the names of crossed coverpoints (see C68)."
  },
  {
   "property": "C100",
   "status": "proved",
   "theorems": [
    "C100_reader",
    "C100_one_reading",
    "C100_well_formed",
    "C100_bare",
    "C100_tells_one",
    "C100_different",
    "C100_database",
    "C100_report_of_xml_file",
    "C100_report_of_yaml_file"
   ],
   "note": "The names of coverpoints are not in JSON reports (C37) and reports with crosses cannot be written (C37); both are outside of this property. json.dump is modelled; float.__repr__ is a parameter assumed to read back."
  },
  {
   "property": "C101",
   "status": "proved",
   "theorems": [
    "C101_runs",
    "C101_one_meaning",
    "C101_otherwise",
    "C101_process",
    "C101_rejected",
    "C101_documented",
    "C101_inputs_together",
    "C101_merge_files",
    "C101_help"
   ],
   "note": "argparse of CPython 3.11 is modelled for parsers of this shape (options with one value, -h, at most one positional argument). What argparse prints to stderr is not modelled."
  },
  {
   "property": "C102",
   "status": "partial",
   "theorems": [
    "C102_libucis_refuted"
   ],
   "note": "False of the code: the option is read and never used; with and without it the same happens."
  },
  {
   "property": "C103",
   "status": "proved",
   "theorems": [
    "C103_convert",
    "C103_convert_yaml",
    "C103_merge",
    "C103_merge_yaml",
    "C103_report",
    "C103_report_json",
    "C103_report_yaml",
    "C103_report_yaml_json",
    "C103_merge_and_report"
   ],
   "note": "Inputs that give every name once (see C70); JSON reports without crosses (see C37); inputs that have a report (see C30, C76). The YAML parser is a parameter."
  },
  {
   "property": "C104",
   "status": "proved",
   "theorems": [
    "C104_report_reads",
    "C104_merge_reads",
    "C104_written_reads",
    "C104_report_unmoved",
    "C104_merge_unmoved",
    "C104_written_unmoved",
    "C104_nested_instances",
    "C104_outside_instances",
    "C104_deep_instances",
    "C104_every_count_matters_refuted"
   ],
   "note": "Stated as non-interference. Users may well expect the opposite (that all coverage counts): C104_every_count_matters_refuted and the examples C104_lost, C104_lost_outside. Merging is for databases whose references resolve (C12: all reachable ones)."
  },
  {
   "property": "C105",
   "status": "proved",
   "theorems": [
    "C105_calls",
    "C105_other_calls",
    "C105_merges",
    "C105_merges_of_made_databases",
    "C105_reports",
    "C105_formats"
   ],
   "note": "Merging is for databases whose references resolve (C12: all reachable ones)."
  },
  {
   "property": "C106",
   "status": "proved",
   "theorems": [
    "C106_reports_built",
    "C106_overflow",
    "C106_same",
    "C106_light",
    "C106_float"
   ],
   "note": "build_report_py is the builder with the int-to-float conversions that can raise; C106_light connects it to the theorems about doubles (C33 ff.)."
  },
  {
   "property": "C107",
   "status": "proved",
   "theorems": [
    "C107_writing",
    "C107_writing_kinds",
    "C107_reading",
    "C107_reading_kinds",
    "C107_valid_documents"
   ],
   "note": "Exceptions by class. Assumes, as C69, that the conversion to local time gives dates; float() is a parameter."
  },
  {
   "property": "C108",
   "status": "proved",
   "theorems": [
    "C108_loading",
    "C108_printed"
   ],
   "note": ""
  },
  {
   "property": "C109",
   "status": "partial",
   "theorems": [
    "C109_read_name",
    "C109_read_object",
    "C109_save",
    "C109_convert_merge",
    "C109_write_name",
    "C109_write_name_refuted",
    "C109_write_object",
    "C109_report"
   ],
   "note": "The code violates it: XmlFactory.write leaves the file open (and empty) for every database that cannot be written, and report leaves its output file open when the report raises. Proved for everything else, whatever the outcome, and exactly what is left open in these two cases."
  },
  {
   "property": "C110",
   "status": "partial",
   "theorems": [
    "C110_object",
    "C110_name",
    "C110_at_the_start",
    "C110_not_rewound_refuted",
    "C110_rewound",
    "C110_no_module_refuted"
   ],
   "note": "The code violates it for file objects: the document at the position is validated, then the one at the beginning is read, so that an object that was just written to is never accepted. A compressed file whose module cannot be imported ends in an AttributeError. Proved: the exact outcome for every name and object; it holds for names and for objects at their beginning."
  },
  {
   "property": "C111",
   "status": "partial",
   "theorems": [
    "C111_same_until",
    "C111_readable",
    "C111_outcomes",
    "C111_separate",
    "C111_only_added",
    "C111_retry_refuted",
    "C111_unfinished_refuted",
    "C111_unfinished_cross_refuted"
   ],
   "note": "False of the code: the instances of a document that raised stay in the reader's maps, so the corrected document gives a database without them, and the covergroups read before the exception stay in databases returned earlier. Proved: exactly which documents raise; a document that can be read alone never raises, its database is that of a new reader when it shares no names with the others, and earlier databases only gain covergroups in instances that a later document names."
  },
  {
   "property": "C112",
   "status": "proved",
   "theorems": [
    "C112_same",
    "C112_reuse",
    "C112_calls",
    "C112_left",
    "C112_references"
   ],
   "note": "The reader as a program of the modelled API calls; C112_same shows that it gives the databases and the exceptions of the model of the other YAML claims. Documents as what yaml.load gives; the tallies of the type coverpoints and crosses, which make no calls, are shared with that model."
  },
  {
   "property": "C113",
   "status": "proved",
   "theorems": [
    "C113_same",
    "C113_left",
    "C113_calls",
    "C113_references"
   ],
   "note": "For a new reader; readers used again are C84 and C111. The reader as a program of the modelled API calls; C113_same shows that it gives the databases and the exceptions of the model of the other XML claims. Elements and attributes are read by the functions of that model that make no calls; a source file without a name gets no handle. C113_left speaks of what a document that raises leaves: its scopes, bins, source files and history nodes. A node whose date was not set shows 0 for the time of the call."
  },
  {
   "property": "C114",
   "status": "proved",
   "theorems": [
    "C114_same",
    "C114_calls",
    "C114_obtained",
    "C114_same_as_C87",
    "C114_references"
   ],
   "note": "The merger as a program of the modelled API calls, for sources other than the destination (C85 reduces a destination that is also a source to that). What it collects from the sources before the calls is that of the model of the other merge claims. In C114_obtained the sources of a merge may be any databases, and among them the destination; readers are new ones."
  }
 ]
}
