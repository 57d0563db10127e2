{
 "claims": [
  {
   "property": "C01",
   "status": "proved",
   "theorems": [
    "C01_compare_lexicographic",
    "C01_compare_antisymmetric",
    "C01_less_strict_total_order"
   ],
   "note": ""
  },
  {
   "property": "C02",
   "status": "proved",
   "theorems": [
    "C02_equals_equivalence",
    "C02_equals_iff_same_words",
    "C02_equals_fixes_renderings",
    "C02_compare_zero_implies_equal_refuted"
   ],
   "note": ""
  },
  {
   "property": "C03",
   "status": "proved",
   "theorems": [
    "C03_join_after_split",
    "C03_split_words",
    "C03_split_after_join",
    "C03_directory_names_survive",
    "C03_directory_names_distinct"
   ],
   "note": ""
  },
  {
   "property": "C04",
   "status": "proved",
   "theorems": [
    "C04_parse_camel",
    "C04_adjacent_initialisms_refuted",
    "C04_short_word_refuted"
   ],
   "note": "The conditions of the statement are shown to be needed by the two _refuted theorems."
  },
  {
   "property": "C05",
   "status": "proved",
   "theorems": [
    "C05_camel_of_parse",
    "C05_parse_injective",
    "C05_lookup_key_injective",
    "C05_compare_distinguishes",
    "C05_lower_case_identifier_refuted",
    "C05_snake_injective_refuted"
   ],
   "note": "Also shows that lookup keys and comparison distinguish identifiers; lower case identifiers and snake case are refuted."
  },
  {
   "property": "C06",
   "status": "proved",
   "theorems": [
    "C06_cat_words",
    "C06_cat_associative",
    "C06_cat_unit",
    "C06_cat_camel",
    "C06_cat_snake",
    "C06_append_insert"
   ],
   "note": ""
  },
  {
   "property": "C07",
   "status": "proved",
   "theorems": [
    "C07_types_deterministic",
    "C07_resources_deterministic",
    "C07_versions_deterministic",
    "C07_services_deterministic",
    "C07_types_always_indexed",
    "C07_resources_always_indexed",
    "C07_versions_always_indexed",
    "C07_services_always_indexed",
    "C07_attributes_deterministic",
    "C07_enum_values_deterministic",
    "C07_parameters_deterministic",
    "C07_methods_deterministic",
    "C07_locators_deterministic",
    "C07_errors_refuted"
   ],
   "note": ""
  },
  {
   "property": "C08",
   "status": "proved",
   "theorems": [
    "C08_find_type_history",
    "C08_find_resource_history",
    "C08_find_error_history",
    "C08_find_version_history",
    "C08_find_service_history",
    "C08_maps_independent",
    "C08_find_in_slices"
   ],
   "note": ""
  },
  {
   "property": "C09",
   "status": "proved",
   "theorems": [
    "C09_builtins_present",
    "C09_nothing_else",
    "C09_predicates"
   ],
   "note": ""
  },
  {
   "property": "C10",
   "status": "proved",
   "theorems": [
    "C10_exactly_one_category",
    "C10_category_by_identifier"
   ],
   "note": ""
  },
  {
   "property": "C11",
   "status": "proved",
   "theorems": [
    "C11_model_iff_no_errors"
   ],
   "note": ""
  },
  {
   "property": "C12",
   "status": "proved",
   "theorems": [
    "C12_undefined_types_reported",
    "C12_declared_types_never_undefined",
    "C12_undefined_resources_reported",
    "C12_derived_names_refuted"
   ],
   "note": ""
  },
  {
   "property": "C13",
   "status": "proved",
   "theorems": [
    "C13_repeated_types_reported",
    "C13_builtin_types_cant_be_declared",
    "C13_repeated_resources_reported",
    "C13_repeated_errors_reported",
    "C13_first_type_kept",
    "C13_first_resource_kept",
    "C13_first_error_kept"
   ],
   "note": ""
  },
  {
   "property": "C14",
   "status": "proved",
   "theorems": [
    "C14_versions_independent_refuted",
    "C14_repeated_independent_refuted",
    "C14_loading_independent",
    "C14_versions_independent",
    "C14_versions_end",
    "C14_versions_same",
    "C14_reports_same"
   ],
   "note": ""
  },
  {
   "property": "C15",
   "status": "proved",
   "theorems": [
    "C15_list_types_added",
    "C15_every_type_has_list",
    "C15_single_version_lists",
    "C15_hijacked_list_refuted"
   ],
   "note": ""
  },
  {
   "property": "C16",
   "status": "proved",
   "theorems": [
    "C16_directions"
   ],
   "note": ""
  },
  {
   "property": "C17",
   "status": "proved",
   "theorems": [
    "C17_add_accepted_iff"
   ],
   "note": ""
  },
  {
   "property": "C18",
   "status": "proved",
   "theorems": [
    "C18_get_accepted_iff",
    "C18_delete_accepted_iff",
    "C18_update_accepted_iff"
   ],
   "note": ""
  },
  {
   "property": "C19",
   "status": "proved",
   "theorems": [
    "C19_list_accepted_iff",
    "C19_search_accepted_iff",
    "C19_warnings"
   ],
   "note": ""
  },
  {
   "property": "C20",
   "status": "proved",
   "theorems": [
    "C20_post_accepted_iff"
   ],
   "note": ""
  },
  {
   "property": "C21",
   "status": "proved",
   "theorems": [
    "C21_default_accepted_iff",
    "C21_actions_accepted_iff"
   ],
   "note": ""
  },
  {
   "property": "C22",
   "status": "proved",
   "theorems": [
    "C22_loops_detected_exactly",
    "C22_messages_describe_loops",
    "C22_every_loop_reported"
   ],
   "note": ""
  },
  {
   "property": "C23",
   "status": "proved",
   "theorems": [
    "C23_paths_complete",
    "C23_loops_dont_terminate",
    "C23_returned_models_have_paths"
   ],
   "note": ""
  },
  {
   "property": "C24",
   "status": "proved",
   "theorems": [
    "C24_request_parameters_split",
    "C24_response_parameters"
   ],
   "note": ""
  },
  {
   "property": "C25",
   "status": "proved",
   "theorems": [
    "C25_rest_methods",
    "C25_actions",
    "C25_every_method_has_a_category",
    "C25_docs_agree_with_clients",
    "C25_shared_verbs",
    "C25_method_segments"
   ],
   "note": ""
  },
  {
   "property": "C26",
   "status": "proved",
   "theorems": [
    "C26_attribute_names",
    "C26_query_parameter_names",
    "C26_body_parameter_names",
    "C26_enum_value_names",
    "C26_locator_segments",
    "C26_service_and_version_segments",
    "C26_numeric_names_refuted"
   ],
   "note": ""
  },
  {
   "property": "C27",
   "status": "proved",
   "theorems": [
    "C27_masks_are_distinct_bits",
    "C27_masks_avoid_reserved_bits",
    "C27_bitmap_is_wide_enough",
    "C27_too_many_attributes_rejected",
    "C27_accepted_masks_fit_refuted"
   ],
   "note": ""
  },
  {
   "property": "C28",
   "status": "proved",
   "theorems": [
    "C28_getters_of_present_attributes",
    "C28_getters_of_absent_attributes",
    "C28_getters_of_nil",
    "C28_identifier_and_link",
    "C28_kind",
    "C28_zero_values"
   ],
   "note": ""
  },
  {
   "property": "C29",
   "status": "proved",
   "theorems": [
    "C29_setters_in_memory",
    "C29_variadic_arguments",
    "C29_map_arguments_refuted",
    "C29_setters_set_their_attribute",
    "C29_setters_keep_the_rest",
    "C29_identifier_setters",
    "C29_link_false_refuted",
    "C29_nil_list_absent_refuted"
   ],
   "note": ""
  },
  {
   "property": "C30",
   "status": "proved",
   "theorems": [
    "C30_built_objects_are_independent",
    "C30_last_call_wins",
    "C30_last_identifier_wins",
    "C30_last_call_is_unique",
    "C30_build_succeeds",
    "C30_build_total_refuted"
   ],
   "note": ""
  },
  {
   "property": "C31",
   "status": "proved",
   "theorems": [
    "C31_copies_are_independent",
    "C31_copy_and_build",
    "C31_same_objects",
    "C31_copy_discards_previous_values",
    "C31_copy_and_build_succeeds",
    "C31_empty_map_refuted",
    "C31_list_link_refuted",
    "C31_nil_element_refuted",
    "C31_copy_of_nil_refuted"
   ],
   "note": ""
  },
  {
   "property": "C32",
   "status": "proved",
   "theorems": [
    "C32_empty_objects",
    "C32_empty_lists",
    "C32_built_objects_are_bounded"
   ],
   "note": ""
  },
  {
   "property": "C33",
   "status": "proved",
   "theorems": [
    "C33_slices_are_independent",
    "C33_list_setters_in_memory",
    "C33_items_are_shared_refuted",
    "C33_get_and_slice",
    "C33_each",
    "C33_range",
    "C33_list_properties",
    "C33_list_setters"
   ],
   "note": ""
  },
  {
   "property": "C34",
   "status": "proved",
   "theorems": [
    "C34_objects_are_well_formed_documents",
    "C34_objects_are_written",
    "C34_lists_are_well_formed_documents",
    "C34_lists_are_written",
    "C34_metadata_is_written",
    "C34_nil_elements_refuted"
   ],
   "note": ""
  },
  {
   "property": "C35",
   "status": "proved",
   "theorems": [
    "C35_objects_round_trip",
    "C35_lists_round_trip",
    "C35_metadata_round_trips",
    "C35_fractions_of_seconds_refuted",
    "C35_links_of_lists_refuted",
    "C35_nil_attributes_refuted",
    "C35_empty_keys_refuted"
   ],
   "note": ""
  },
  {
   "property": "C36",
   "status": "proved",
   "theorems": [
    "C36_unknown_members_are_ignored",
    "C36_order_is_irrelevant",
    "C36_present_iff_in_the_document",
    "C36_members_are_independent",
    "C36_last_member_wins",
    "C36_reading_ends",
    "C36_metadata_members"
   ],
   "note": ""
  },
  {
   "property": "C37",
   "status": "proved",
   "theorems": [
    "C37_maps_are_written_sorted",
    "C37_iteration_order_is_irrelevant",
    "C37_interface_maps_refuted"
   ],
   "note": ""
  },
  {
   "property": "C38",
   "status": "proved",
   "theorems": [
    "C38_missing_parameters",
    "C38_repeated_parameters",
    "C38_integers",
    "C38_floats",
    "C38_strings",
    "C38_booleans",
    "C38_dates",
    "C38_formatted_dates",
    "C38_sent_values_are_parsed"
   ],
   "note": ""
  },
  {
   "property": "C39",
   "status": "proved",
   "theorems": [
    "C39_request_paths",
    "C39_templates",
    "C39_identifiers_refuted",
    "C39_tree_sound",
    "C39_tree_complete",
    "C39_tree_generated",
    "C39_tree_refuted"
   ],
   "note": ""
  },
  {
   "property": "C40",
   "status": "proved",
   "theorems": [
    "C40_setters",
    "C40_absent_parameters",
    "C40_received_parameters",
    "C40_requests",
    "C40_outcomes",
    "C40_api_errors",
    "C40_empty_errors_refuted",
    "C40_decoded_values",
    "C40_decoded_members",
    "C40_field_names_refuted",
    "C40_bodies",
    "C40_action_bodies",
    "C40_nil_body_refuted",
    "C40_metadata",
    "C40_empty_metadata_refuted"
   ],
   "note": ""
  },
  {
   "property": "C41",
   "status": "proved",
   "theorems": [
    "C41_polling_stops_when_it_should",
    "C41_attempts_start_before_the_deadline",
    "C41_polling_terminates",
    "C41_wrong_arguments_are_rejected",
    "C41_accepted_on_success_refuted",
    "C41_poll_settings",
    "C41_polled_requests"
   ],
   "note": ""
  },
  {
   "property": "C42",
   "status": "proved",
   "theorems": [
    "C42_queries_are_copied",
    "C42_headers_are_copied",
    "C42_values_are_copied",
    "C42_nil_queries",
    "C42_values_are_added",
    "C42_headers_are_added",
    "C42_header_names",
    "C42_changes_are_local"
   ],
   "note": ""
  },
  {
   "property": "C43",
   "status": "proved",
   "theorems": [
    "C43_joined_segments_are_split",
    "C43_any_path_is_split"
   ],
   "note": ""
  },
  {
   "property": "C44",
   "status": "proved",
   "theorems": [
    "C44_documents",
    "C44_written",
    "C44_round_trip",
    "C44_reading",
    "C44_terminates",
    "C44_status_overridden",
    "C44_builder",
    "C44_build_and_copy",
    "C44_new",
    "C44_plain_getters",
    "C44_nil_timestamp_refuted"
   ],
   "note": ""
  },
  {
   "property": "C45",
   "status": "proved",
   "theorems": [
    "C45_messages",
    "C45_not_empty",
    "C45_panics",
    "C45_nil_timestamp_refuted"
   ],
   "note": ""
  },
  {
   "property": "C46",
   "status": "proved",
   "theorems": [
    "C46_status",
    "C46_not_numeric",
    "C46_panic_error",
    "C46_not_found",
    "C46_method_not_allowed",
    "C46_internal_server_error",
    "C46_invalid_status",
    "C46_status_is_identifier_refuted"
   ],
   "note": ""
  },
  {
   "property": "C47",
   "status": "proved",
   "theorems": [
    "C47_document",
    "C47_general_information",
    "C47_succeeds",
    "C47_returned_models",
    "C47_run_succeeds",
    "C47_run_fails",
    "C47_refused",
    "C47_different_names_refuted"
   ],
   "note": ""
  },
  {
   "property": "C48",
   "status": "proved",
   "theorems": [
    "C48_operations",
    "C48_different_segments",
    "C48_every_method_refuted",
    "C48_one_operation_refuted",
    "C48_body_names_refuted"
   ],
   "note": ""
  },
  {
   "property": "C49",
   "status": "proved",
   "theorems": [
    "C49_references",
    "C49_schemas",
    "C49_one_schema_refuted",
    "C49_different_properties_refuted"
   ],
   "note": ""
  },
  {
   "property": "C50",
   "status": "proved",
   "theorems": [
    "C50_kept_lines",
    "C50_any_text_has_lines",
    "C50_non_blank_lines",
    "C50_non_blank_lines_but_last",
    "C50_no_double_blank_lines",
    "C50_idempotent",
    "C50_failures",
    "C50_last_line_refuted"
   ],
   "note": ""
  },
  {
   "property": "C51",
   "status": "proved",
   "theorems": [
    "C51_refused",
    "C51_errors_kept",
    "C51_go_files",
    "C51_go_failures",
    "C51_damaged_file_refuted",
    "C51_other_files",
    "C51_markdown_files",
    "C51_no_other_errors",
    "C51_markdown_written",
    "C51_openapi_files",
    "C51_models"
   ],
   "note": ""
  },
  {
   "property": "C52",
   "status": "proved",
   "theorems": [
    "C52_names_are_not_keywords",
    "C52_other_words_are_kept",
    "C52_words_stay_distinct",
    "C52_public_name_of_identifier",
    "C52_object_names",
    "C52_private_names_distinct_refuted"
   ],
   "note": ""
  },
  {
   "property": "C53",
   "status": "proved",
   "theorems": [
    "C53_comments_stay_comments",
    "C53_comment_lines",
    "C53_documentation",
    "C53_documentation_found",
    "C53_documentation_unique",
    "C53_comment_added",
    "C53_blank_first_line_refuted"
   ],
   "note": ""
  },
  {
   "property": "C54",
   "status": "proved",
   "theorems": [
    "C54_no_dot",
    "C54_first_sentence",
    "C54_joined_words_refuted",
    "C54_several_lines_refuted"
   ],
   "note": ""
  },
  {
   "property": "C55",
   "status": "proved",
   "theorems": [
    "C55_cleaned_lines",
    "C55_idempotent",
    "C55_long_lines_refuted"
   ],
   "note": ""
  },
  {
   "property": "C56",
   "status": "proved",
   "theorems": [
    "C56_error_count"
   ],
   "note": ""
  },
  {
   "property": "C57",
   "status": "proved",
   "theorems": [
    "C57_version_packages_distinct",
    "C57_imports_distinct",
    "C57_selectors",
    "C57_metrics_import_refuted",
    "C57_package_statement"
   ],
   "note": ""
  },
  {
   "property": "C58",
   "status": "proved",
   "theorems": [
    "C58_declared_types_returned",
    "C58_declared_resources_returned",
    "C58_declared_errors_returned",
    "C58_nothing_else"
   ],
   "note": ""
  },
  {
   "property": "C59",
   "status": "proved",
   "theorems": [
    "C59_returned_model_sound",
    "C59_single_version_defined",
    "C59_kinds",
    "C59_all_defined_refuted"
   ],
   "note": ""
  },
  {
   "property": "C60",
   "status": "proved",
   "theorems": [
    "C60_returned_methods_accepted"
   ],
   "note": ""
  },
  {
   "property": "C61",
   "status": "proved",
   "theorems": [
    "C61_reports_name_the_culprit"
   ],
   "note": ""
  },
  {
   "property": "C62",
   "status": "proved",
   "theorems": [
    "C62_read_terminates"
   ],
   "note": ""
  },
  {
   "property": "C63",
   "status": "proved",
   "theorems": [
    "C63_byte_arrays"
   ],
   "note": ""
  },
  {
   "property": "C64",
   "status": "proved",
   "theorems": [
    "C64_texts_are_documents",
    "C64_documents_are_unambiguous",
    "C64_strings",
    "C64_objects",
    "C64_lists",
    "C64_tokens",
    "C64_readers"
   ],
   "note": ""
  },
  {
   "property": "C65",
   "status": "proved",
   "theorems": [
    "C65_queries",
    "C65_characters",
    "C65_server"
   ],
   "note": ""
  },
  {
   "property": "C66",
   "status": "proved",
   "theorems": [
    "C66_parse",
    "C66_errors",
    "C66_unique",
    "C66_unambiguous",
    "C66_ignored_text_refuted"
   ],
   "note": ""
  },
  {
   "property": "C67",
   "status": "proved",
   "theorems": [
    "C67_layouts",
    "C67_written",
    "C67_keywords_refuted"
   ],
   "note": ""
  },
  {
   "property": "C68",
   "status": "proved",
   "theorems": [
    "C68_string_literals",
    "C68_unique",
    "C68_escaped_quotes_refuted"
   ],
   "note": ""
  },
  {
   "property": "C69",
   "status": "proved",
   "theorems": [
    "C69_documentation",
    "C69_documentation_unique",
    "C69_faulty_comments",
    "C69_same_line_refuted",
    "C69_trailing_comment_refuted"
   ],
   "note": ""
  },
  {
   "property": "C70",
   "status": "proved",
   "theorems": [
    "C70_objects",
    "C70_lists",
    "C70_request_bodies",
    "C70_action_bodies",
    "C70_links_refuted",
    "C70_integers_refuted",
    "C70_enums_refuted",
    "C70_interfaces_refuted",
    "C70_exactly_refuted"
   ],
   "note": ""
  },
  {
   "property": "C71",
   "status": "proved",
   "theorems": [
    "C71_import_complete",
    "C71_import_names",
    "C71_import_only",
    "C71_links_declared",
    "C71_links_foreign",
    "C71_links_package_refuted",
    "C71_links_order_refuted",
    "C71_import_ends",
    "C71_import_loops",
    "C71_existing_attributes",
    "C71_path",
    "C71_unknown_type",
    "C71_crash",
    "C71_class"
   ],
   "note": ""
  },
  {
   "property": "C72",
   "status": "proved",
   "theorems": [
    "C72_go_names",
    "C72_lettered_names",
    "C72_object_members",
    "C72_builder_members",
    "C72_request_members",
    "C72_response_members",
    "C72_poll_members",
    "C72_client_members",
    "C72_parameter_fields",
    "C72_object_members_refuted",
    "C72_exchange_members_refuted",
    "C72_client_members_refuted",
    "C72_parameter_fields_refuted"
   ],
   "note": ""
  },
  {
   "property": "C73",
   "status": "proved",
   "theorems": [
    "C73_declarations_differ",
    "C73_files_differ",
    "C73_declarations_differ_refuted",
    "C73_files_differ_refuted"
   ],
   "note": ""
  },
  {
   "property": "C74",
   "status": "proved",
   "theorems": [
    "C74_pages",
    "C74_content_unique",
    "C74_all_pages",
    "C74_page_names",
    "C74_success",
    "C74_versions_clash",
    "C74_all_pages_refuted"
   ],
   "note": ""
  },
  {
   "property": "C75",
   "status": "proved",
   "theorems": [
    "C75_index",
    "C75_links",
    "C75_other_links",
    "C75_links_refuted"
   ],
   "note": ""
  },
  {
   "property": "C76",
   "status": "proved",
   "theorems": [
    "C76_rows",
    "C76_rows_refuted",
    "C76_names",
    "C76_names_refuted",
    "C76_fixed_attributes",
    "C76_fixed_attributes_refuted"
   ],
   "note": ""
  },
  {
   "property": "C77",
   "status": "proved",
   "theorems": [
    "C77_objects",
    "C77_lists",
    "C77_unique",
    "C77_typed",
    "C77_items_typed",
    "C77_written",
    "C77_items_written",
    "C77_conforming",
    "C77_conforming_lists",
    "C77_links",
    "C77_stable"
   ],
   "note": ""
  },
  {
   "property": "C78",
   "status": "proved",
   "theorems": [
    "C78_types_from_source",
    "C78_versions",
    "C78_together",
    "C78_names_refuted",
    "C78_lists_refuted",
    "C78_declared",
    "C78_accepted",
    "C78_read",
    "C78_written"
   ],
   "note": ""
  },
  {
   "property": "C79",
   "status": "proved",
   "theorems": [
    "C79_read",
    "C79_reports",
    "C79_contains_unique",
    "C79_order",
    "C79_every_file",
    "C79_extension_refuted",
    "C79_file_rejected",
    "C79_sub_directories_refuted"
   ],
   "note": ""
  },
  {
   "property": "C80",
   "status": "proved",
   "theorems": [
    "C80_check",
    "C80_check_code",
    "C80_docs_code",
    "C80_openapi_code",
    "C80_go_code",
    "C80_nothing_generated",
    "C80_docs",
    "C80_docs_succeeds",
    "C80_openapi",
    "C80_go",
    "C80_go_stops"
   ],
   "note": ""
  },
  {
   "property": "C81",
   "status": "proved",
   "theorems": [
    "C81_end_to_end"
   ],
   "note": ""
  },
  {
   "property": "C82",
   "status": "proved",
   "theorems": [
    "C82_attributes",
    "C82_unique",
    "C82_imports",
    "C82_requests",
    "C82_responses",
    "C82_map_requests_rejected",
    "C82_interface_responses_rejected",
    "C82_scalar_links_rejected",
    "C82_nested_reported"
   ],
   "note": ""
  },
  {
   "property": "C83",
   "status": "proved",
   "theorems": [
    "C83_json_code",
    "C83_empty_structs_rejected"
   ],
   "note": ""
  },
  {
   "property": "C84",
   "status": "proved",
   "theorems": [
    "C84_objects_run",
    "C84_objects_documents",
    "C84_nil_objects_panic",
    "C84_lists_run",
    "C84_lists_documents"
   ],
   "note": ""
  },
  {
   "property": "C85",
   "status": "proved",
   "theorems": [
    "C85_objects_read",
    "C85_lists_read",
    "C85_reading_ends",
    "C85_presence_after_reading",
    "C85_objects_return",
    "C85_lists_return"
   ],
   "note": ""
  },
  {
   "property": "C86",
   "status": "proved",
   "theorems": [
    "C86_requests_run",
    "C86_request_documents",
    "C86_action_documents"
   ],
   "note": ""
  },
  {
   "property": "C87",
   "status": "proved",
   "theorems": [
    "C87_responses_run",
    "C87_whole_responses",
    "C87_object_responses",
    "C87_errors_returned"
   ],
   "note": "The execution of the functions that read the bodies of responses, with the interpreter of JsonRunSpec, for all methods and inputs; the wrong documents end the execution with an error, as the iterators do."
  }
 ]
}