{
 "claims": [
  {
   "property": "C01",
   "status": "proved",
   "theorems": [
    "C01_attribute_escape_is_undone",
    "C01_reqif_escape_is_undone",
    "C01_html_escape_is_undone",
    "C01_escaped_text_is_clean",
    "C01_line_feed_refuted",
    "C01_html_escape_tab_refuted"
   ],
   "note": ""
  },
  {
   "property": "C02",
   "status": "proved",
   "theorems": [
    "C02_text_escape_is_undone",
    "C02_reqif_escape_is_undone",
    "C02_text_escape_in_context",
    "C02_carriage_return_refuted"
   ],
   "note": ""
  },
  {
   "property": "C03",
   "status": "proved",
   "theorems": [
    "C03_lxml_escape_is_one_substitution",
    "C03_reqif_escape_is_one_substitution",
    "C03_html_escape_is_one_substitution",
    "C03_escapes_are_injective",
    "C03_title_escape"
   ],
   "note": ""
  },
  {
   "property": "C04",
   "status": "proved",
   "theorems": [
    "C04_string_value_read_back",
    "C04_string_value_survives",
    "C04_line_feed_lost_refuted"
   ],
   "note": ""
  },
  {
   "property": "C05",
   "status": "proved",
   "theorems": [
    "C05_unindent_inverts_indent",
    "C05_trimmed_text_is_unique",
    "C05_indent_injective",
    "C05_indented_text",
    "C05_run_of_spaces_refuted"
   ],
   "note": ""
  },
  {
   "property": "C06",
   "status": "proved",
   "theorems": [
    "C06_documented_shape",
    "C06_fields_can_be_read_back",
    "C06_now",
    "C06_naive_refuted",
    "C06_offset_with_seconds_refuted",
    "C06_year_below_1000_refuted"
   ],
   "note": ""
  },
  {
   "property": "C07",
   "status": "proved",
   "theorems": [
    "C07_iteration_is_document_order",
    "C07_document_order_unique",
    "C07_foreign_specification_rejected",
    "C07_specification_iterator",
    "C07_specification_iterator_refuted"
   ],
   "note": "Also the second iterator (SpecificationIterator); it raises TypeError on a specification without CHILDREN (_refuted)."
  },
  {
   "property": "C08",
   "status": "proved",
   "theorems": [
    "C08_levels_equal_nesting_depth"
   ],
   "note": ""
  },
  {
   "property": "C09",
   "status": "proved",
   "theorems": [
    "C09_add_child_program",
    "C09_levels_preserved",
    "C09_rejected_call_changes_node_refuted"
   ],
   "note": "The side effect of a rejected call is exhibited by _refuted."
  },
  {
   "property": "C10",
   "status": "proved",
   "theorems": [
    "C10_conversion_passes_enclosing_section",
    "C10_conversion_calls_in_document_order",
    "C10_undisciplined_sections_refuted",
    "C10_undisciplined_levels_fail_refuted"
   ],
   "note": "Failure without the level discipline is exhibited by the two _refuted theorems."
  },
  {
   "property": "C11",
   "status": "proved",
   "theorems": [
    "C11_spec_object_lookup_finds_last",
    "C11_spec_object_lookup_fails_only_if_absent",
    "C11_spec_object_exists",
    "C11_data_type_lookup",
    "C11_spec_type_lookup"
   ],
   "note": ""
  },
  {
   "property": "C12",
   "status": "proved",
   "theorems": [
    "C12_parents_lookup_in_any_session",
    "C12_without_content"
   ],
   "note": ""
  },
  {
   "property": "C13",
   "status": "proved",
   "theorems": [
    "C13_type_lookup_finds_first",
    "C13_type_lookup_none",
    "C13_lookups_agree_on_unique_identifiers",
    "C13_lookups_disagree_on_duplicates_refuted"
   ],
   "note": ""
  },
  {
   "property": "C14",
   "status": "proved",
   "theorems": [
    "C14_spec_object_attribute_map",
    "C14_spec_object_type_attribute_map",
    "C14_spec_object_type_without_definitions",
    "C14_enumeration_values_map",
    "C14_specification_type_map"
   ],
   "note": ""
  },
  {
   "property": "C15",
   "status": "proved",
   "theorems": [
    "C15_faulty_relations_are_isolated",
    "C15_no_faults_no_reports",
    "C15_document",
    "C15_pi_in_faulty_relation_refuted",
    "C15_removed_from_the_text_refuted"
   ],
   "note": ""
  },
  {
   "property": "C16",
   "status": "proved",
   "theorems": [
    "C16_sections_are_images_of_their_elements",
    "C16_without_content_element"
   ],
   "note": ""
  },
  {
   "property": "C17",
   "status": "proved",
   "theorems": [
    "C17_unsupported_elements_are_rejected",
    "C17_look_alike_tag_refuted",
    "C17_later_relation_value_refuted"
   ],
   "note": ""
  },
  {
   "property": "C18",
   "status": "proved",
   "theorems": [
    "C18_empty_input",
    "C18_malformed_input",
    "C18_wrong_root",
    "C18_raised_only_then",
    "C18_wrong_root_with_pi_refuted"
   ],
   "note": ""
  },
  {
   "property": "C19",
   "status": "proved",
   "theorems": [
    "C19_parse_progress_exact",
    "C19_failed_parse_reports_prefix",
    "C19_parse_file_progress_exact"
   ],
   "note": ""
  },
  {
   "property": "C20",
   "status": "proved",
   "theorems": [
    "C20_parse_callback_has_no_influence",
    "C20_quiet_parse",
    "C20_unparse_callback_has_no_influence",
    "C20_quiet_unparse",
    "C20_no_callback_no_calls"
   ],
   "note": ""
  },
  {
   "property": "C21",
   "status": "proved",
   "theorems": [
    "C21_unparse_progress_exact",
    "C21_failed_unparse_reports_prefix"
   ],
   "note": ""
  },
  {
   "property": "C22",
   "status": "proved",
   "theorems": [
    "C22_header_round_trip",
    "C22_header_equal",
    "C22_header_needs_identifier",
    "C22_comment_not_escaped_refuted",
    "C22_title_section_end_refuted",
    "C22_empty_repository_id_refuted"
   ],
   "note": ""
  },
  {
   "property": "C23",
   "status": "proved",
   "theorems": [
    "C23_data_type_round_trip",
    "C23_integer_long_name_not_escaped_refuted",
    "C23_self_closed_enumeration_refuted"
   ],
   "note": ""
  },
  {
   "property": "C24",
   "status": "proved",
   "theorems": [
    "C24_attribute_definition_round_trip",
    "C24_spec_type_round_trip",
    "C24_multi_valued_dropped_refuted"
   ],
   "note": ""
  },
  {
   "property": "C25",
   "status": "proved",
   "theorems": [
    "C25_spec_object_round_trip",
    "C25_attribute_value_round_trip",
    "C25_long_name_not_escaped_refuted"
   ],
   "note": ""
  },
  {
   "property": "C26",
   "status": "proved",
   "theorems": [
    "C26_spec_relation_round_trip"
   ],
   "note": ""
  },
  {
   "property": "C27",
   "status": "proved",
   "theorems": [
    "C27_specification_round_trip",
    "C27_hierarchy_round_trip"
   ],
   "note": ""
  },
  {
   "property": "C28",
   "status": "proved",
   "theorems": [
    "C28_relation_group_round_trip"
   ],
   "note": ""
  },
  {
   "property": "C29",
   "status": "proved",
   "theorems": [
    "C29_document_round_trip",
    "C29_lookups_rebuilt"
   ],
   "note": ""
  },
  {
   "property": "C30",
   "status": "proved",
   "theorems": [
    "C30_passthrough_fixpoint"
   ],
   "note": ""
  },
  {
   "property": "C31",
   "status": "proved",
   "theorems": [
    "C31_output_well_formed",
    "C31_written_back_malformed_refuted",
    "C31_title_written_back_malformed_refuted"
   ],
   "note": ""
  },
  {
   "property": "C32",
   "status": "proved",
   "theorems": [
    "C32_opening_tag_kept",
    "C32_declarations_and_attributes_kept",
    "C32_tag_from_fields",
    "C32_fields_read_back",
    "C32_empty_root_drops_tag_refuted",
    "C32_ampersand_in_a_namespace_refuted"
   ],
   "note": ""
  },
  {
   "property": "C33",
   "status": "proved",
   "theorems": [
    "C33_nodes_are_determined",
    "C33_warnings_are_exactly_the_dangling_references",
    "C33_no_false_alarm"
   ],
   "note": ""
  },
  {
   "property": "C34",
   "status": "proved",
   "theorems": [
    "C34_report",
    "C34_exit_code_zero",
    "C34_path_is_determined",
    "C34_path_exists",
    "C34_exit_codes",
    "C34_declaration_warnings",
    "C34_messages",
    "C34_checked_file_is_validated_refuted",
    "C34_empty_root_refuted",
    "C34_report_crash_refuted",
    "C34_command_line",
    "C34_command_output"
   ],
   "note": ""
  },
  {
   "property": "C35",
   "status": "proved",
   "theorems": [
    "C35_working_directory_restored",
    "C35_removed_directory_refuted"
   ],
   "note": ""
  },
  {
   "property": "C36",
   "status": "proved",
   "theorems": [
    "C36_members_are_partitioned",
    "C36_progress_per_member"
   ],
   "note": ""
  },
  {
   "property": "C37",
   "status": "proved",
   "theorems": [
    "C37_all_failures_wrapped",
    "C37_reading_succeeds_iff",
    "C37_reading_without_callback_succeeds_iff"
   ],
   "note": ""
  },
  {
   "property": "C38",
   "status": "proved",
   "theorems": [
    "C38_printable_archive_round_trip",
    "C38_written_members",
    "C38_write_progress",
    "C38_archive_round_trip",
    "C38_other_extension_refuted"
   ],
   "note": ""
  },
  {
   "property": "C39",
   "status": "proved",
   "theorems": [
    "C39_digest",
    "C39_header_texts_replaced",
    "C39_specification_names_replaced",
    "C39_string_values_replaced",
    "C39_xhtml_values_replaced",
    "C39_text_after_a_child_survives_refuted",
    "C39_fails_on_valid_documents_refuted"
   ],
   "note": ""
  },
  {
   "property": "C40",
   "status": "proved",
   "theorems": [
    "C40_same_nodes",
    "C40_other_nodes_unchanged",
    "C40_targets_keep_the_rest",
    "C40_equal_values_stay_equal",
    "C40_spec_object_names_survive_refuted"
   ],
   "note": ""
  },
  {
   "property": "C41",
   "status": "proved",
   "theorems": [
    "C41_only_the_output_file_changes",
    "C41_nothing_changes_on_failure",
    "C41_output_file",
    "C41_success",
    "C41_unwritable_output",
    "C41_passthrough_refused",
    "C41_missing_input",
    "C41_missing_directory",
    "C41_current_directory_is_never_missing",
    "C41_write_is_atomic_refuted",
    "C41_in_place_crash_refuted"
   ],
   "note": ""
  },
  {
   "property": "C42",
   "status": "proved",
   "theorems": [
    "C42_construction_succeeds_iff_complete",
    "C42_construction_fails_with_assertion",
    "C42_heading_type_decides",
    "C42_chapter_name_decides",
    "C42_no_heading_otherwise",
    "C42_tables"
   ],
   "note": ""
  },
  {
   "property": "C43",
   "status": "proved",
   "theorems": [
    "C43_unique_field_names",
    "C43_unique_field_names_distinct_identifiers"
   ],
   "note": ""
  },
  {
   "property": "C44",
   "status": "proved",
   "theorems": [
    "C44_xhtml_value_faithful",
    "C44_xhtml_value_injective",
    "C44_prefixed_attribute_refuted",
    "C44_comment_refuted",
    "C44_empty_object_refuted"
   ],
   "note": ""
  },
  {
   "property": "C45",
   "status": "proved",
   "theorems": [
    "C45_unprefixed_children_exact",
    "C45_correct_without_tails",
    "C45_tail_twice_refuted",
    "C45_leading_text_not_escaped_refuted"
   ],
   "note": ""
  },
  {
   "property": "C46",
   "status": "proved",
   "theorems": [
    "C46_only_outlines_matter",
    "C46_nested_objects_do_not_matter",
    "C46_every_field_shown",
    "C46_injective_refuted"
   ],
   "note": ""
  },
  {
   "property": "C47",
   "status": "proved",
   "theorems": [
    "C47_dispatch",
    "C47_version",
    "C47_request_is_unique",
    "C47_other_commands_rejected",
    "C47_two_paths"
   ],
   "note": ""
  },
  {
   "property": "C48",
   "status": "proved",
   "theorems": [
    "C48_page_shows_the_document",
    "C48_dump_succeeds",
    "C48_failures",
    "C48_values_are_escaped_refuted",
    "C48_missing_section_refuted"
   ],
   "note": ""
  },
  {
   "property": "C49",
   "status": "proved",
   "theorems": [
    "C49_second_pass_changes_nothing",
    "C49_passthrough_output_is_stable",
    "C49_absent_references_are_written_as_None",
    "C49_present_references_stay",
    "C49_unescaped_text_refuted",
    "C49_unknown_elements_only_refuted"
   ],
   "note": ""
  },
  {
   "property": "C50",
   "status": "proved",
   "theorems": [
    "C50_writable_exactly_when_the_tree_is",
    "C50_writable_exactly_when"
   ],
   "note": ""
  },
  {
   "property": "C51",
   "status": "proved",
   "theorems": [
    "C51_line_ends_do_not_matter",
    "C51_crlf_documents",
    "C51_file_is_its_text",
    "C51_passthrough_ignores_line_ends"
   ],
   "note": ""
  },
  {
   "property": "C52",
   "status": "proved",
   "theorems": [
    "C52_accepted_exactly_when",
    "C52_root_found_exactly_when",
    "C52_numbers",
    "C52_items_are_independent"
   ],
   "note": ""
  },
  {
   "property": "C53",
   "status": "proved",
   "theorems": [
    "C53_edits_are_local",
    "C53_header_edits_are_local",
    "C53_lookup_and_errors_are_not_written",
    "C53_lookup_follows_edits_refuted"
   ],
   "note": ""
  },
  {
   "property": "C54",
   "status": "proved",
   "theorems": [
    "C54_layout_does_not_matter",
    "C54_conversion_ignores_layout",
    "C54_all_layout_ignored_refuted"
   ],
   "note": ""
  },
  {
   "property": "C55",
   "status": "proved",
   "theorems": [
    "C55_reads_the_grammar",
    "C55_one_tree_per_text",
    "C55_names_are_resolved",
    "C55_what_is_read",
    "C55_the_rest_is_rejected"
   ],
   "note": ""
  },
  {
   "property": "C56",
   "status": "proved",
   "theorems": [
    "C56_raises_exactly",
    "C56_succeeds_exactly",
    "C56_element_parsers"
   ],
   "note": ""
  },
  {
   "property": "C57",
   "status": "proved",
   "theorems": [
    "C57_page_is_html",
    "C57_plain_values",
    "C57_page_is_html_refuted"
   ],
   "note": ""
  },
  {
   "property": "C58",
   "status": "proved",
   "theorems": [
    "C58_raises_exactly",
    "C58_succeeds_exactly",
    "C58_element_writers",
    "C58_unread_elements"
   ],
   "note": ""
  },
  {
   "property": "C59",
   "status": "proved",
   "theorems": [
    "C59_definition",
    "C59_written_definition",
    "C59_value",
    "C59_written_value"
   ],
   "note": ""
  },
  {
   "property": "C60",
   "status": "proved",
   "theorems": [
    "C60_formatting_keeps_the_document",
    "C60_same_document",
    "C60_format_command",
    "C60_unreadable_input_is_refused",
    "C60_encodings",
    "C60_undecodable_input_is_refused",
    "C60_all_documents_refuted"
   ],
   "note": ""
  },
  {
   "property": "C61",
   "status": "proved",
   "theorems": [
    "C61_formatting_settles",
    "C61_formatted_documents_are_indented",
    "C61_once_is_enough_refuted"
   ],
   "note": ""
  },
  {
   "property": "C62",
   "status": "proved",
   "theorems": [
    "C62_formatting_keeps_the_bundle",
    "C62_formatting_without_xhtml_elements",
    "C62_format_command",
    "C62_values_stay_refuted"
   ],
   "note": ""
  },
  {
   "property": "C63",
   "status": "proved",
   "theorems": [
    "C63_output_is_the_anonymized_document",
    "C63_failure",
    "C63_values_in_the_output",
    "C63_anonymize_command",
    "C63_refused",
    "C63_all_documents_refuted"
   ],
   "note": ""
  },
  {
   "property": "C64",
   "status": "proved",
   "theorems": [
    "C64_anonymized_text_is_parsed",
    "C64_anonymize_command",
    "C64_anonymized_files_can_be_parsed_refuted",
    "C64_all_specifications_are_hidden_refuted"
   ],
   "note": ""
  },
  {
   "property": "C65",
   "status": "proved",
   "theorems": [
    "C65_writing_announces_the_lost_children",
    "C65_nothing_is_announced_before_the_objects",
    "C65_announcements_stop_at_the_object_that_fails",
    "C65_lost_children_leave_no_trace",
    "C65_document_losses_are_announced",
    "C65_passthrough_announces_the_losses",
    "C65_passthrough_announces_nothing_else",
    "C65_archive_losses_are_announced",
    "C65_every_loss_is_announced_refuted"
   ],
   "note": ""
  },
  {
   "property": "C66",
   "status": "proved",
   "theorems": [
    "C66_exactly_when",
    "C66_exceptions",
    "C66_command",
    "C66_every_parsed_document_refuted"
   ],
   "note": ""
  },
  {
   "property": "C67",
   "status": "proved",
   "theorems": [
    "C67_unparse_keeps_the_document",
    "C67_passthrough_keeps_the_document",
    "C67_flag_spelled_one_refuted",
    "C67_further_default_values_refuted",
    "C67_further_relation_values_refuted",
    "C67_tool_extensions_refuted",
    "C67_alternative_id_refuted",
    "C67_incomplete_relation_refuted",
    "C67_escaped_markup_refuted",
    "C67_namespace_changed_refuted"
   ],
   "note": ""
  },
  {
   "property": "C68",
   "status": "proved",
   "theorems": [
    "C68_one_reading",
    "C68_files_are_read_as_utf8",
    "C68_passthrough_writes_utf8",
    "C68_commands_write_utf8"
   ],
   "note": ""
  },
  {
   "property": "C69",
   "status": "proved",
   "theorems": [
    "C69_what_is_looked_at",
    "C69_the_rest_does_not_matter",
    "C69_what_is_seen_of_an_element"
   ],
   "note": ""
  },
  {
   "property": "C70",
   "status": "proved",
   "theorems": [
    "C70_texts_are_xml_characters",
    "C70_writing_keeps_xml_characters",
    "C70_passthrough_can_encode",
    "C70_archive_can_be_written",
    "C70_page_can_be_encoded",
    "C70_failing_commands_change_nothing",
    "C70_built_bundle_refuted"
   ],
   "note": ""
  },
  {
   "property": "C71",
   "status": "proved",
   "theorems": [
    "C71_attribute",
    "C71_objects",
    "C71_specifications",
    "C71_idempotent",
    "C71_written_objects_hide_texts",
    "C71_written_specifications_hide_texts",
    "C71_stripped_copy_survives_refuted",
    "C71_result_can_be_read_refuted",
    "C71_some_objects_in_place",
    "C71_objects_in_place",
    "C71_lookup_in_place",
    "C71_written_in_place"
   ],
   "note": ""
  },
  {
   "property": "C72",
   "status": "proved",
   "theorems": [
    "C72_built_documents_are_read_as_asked_for",
    "C72_empty_bundle",
    "C72_any_identifier_refuted",
    "C72_the_text"
   ],
   "note": ""
  },
  {
   "property": "C73",
   "status": "proved",
   "theorems": [
    "C73_html_to_xhtml",
    "C73_html_accepted",
    "C73_xhtml_to_html",
    "C73_there_and_back",
    "C73_leading_blank_refuted",
    "C73_adjacent_elements_refuted",
    "C73_comment_refuted"
   ],
   "note": ""
  },
  {
   "property": "C74",
   "status": "proved",
   "theorems": [
    "C74_member_by_member",
    "C74_nothing_is_lost",
    "C74_documents_are_kept",
    "C74_second_pass_changes_nothing",
    "C74_command"
   ],
   "note": ""
  },
  {
   "property": "C75",
   "status": "proved",
   "theorems": [
    "C75_format",
    "C75_anonymize",
    "C75_passthrough",
    "C75_object_called_None_refuted",
    "C75_errors_survive_refuted",
    "C75_format_then_validate",
    "C75_anonymize_then_validate",
    "C75_passthrough_then_validate"
   ],
   "note": ""
  },
  {
   "property": "C76",
   "status": "proved",
   "theorems": [
    "C76_same_document",
    "C76_spec_objects",
    "C76_spec_types",
    "C76_data_types",
    "C76_found_objects_are_in_the_lists",
    "C76_found_objects_are_the_last",
    "C76_edits_are_saved",
    "C76_appending",
    "C76_lookup_follows_identifiers_refuted",
    "C76_map_follows_appends_refuted"
   ],
   "note": ""
  },
  {
   "property": "C77",
   "status": "proved",
   "theorems": [
    "C77_walk",
    "C77_walk_refused",
    "C77_children_when_left",
    "C77_children_added_ahead",
    "C77_children_added_behind",
    "C77_walk_ends",
    "C77_untouched",
    "C77_preorder_unique",
    "C77_walk_always_ends_refuted",
    "C77_late_children_refuted"
   ],
   "note": ""
  },
  {
   "property": "C78",
   "status": "proved",
   "theorems": [
    "C78_conventional_documents_can_be_read_back",
    "C78_conventional_files_pass_through",
    "C78_passthrough_succeeds_exactly_when",
    "C78_unconventional_documents_refuted",
    "C78_conventional_archives_pass_through"
   ],
   "note": ""
  },
  {
   "property": "C79",
   "status": "proved",
   "theorems": [
    "C79_formatted_files_are_conventional",
    "C79_formatting_makes_no_difference",
    "C79_format_then_passthrough",
    "C79_formatting_makes_no_difference_refuted"
   ],
   "note": ""
  },
  {
   "property": "C80",
   "status": "proved",
   "theorems": [
    "C80_anonymized_files_are_conventional",
    "C80_anonymize_then_passthrough",
    "C80_anonymized_files_are_conventional_refuted"
   ],
   "note": ""
  },
  {
   "property": "C81",
   "status": "proved",
   "theorems": [
    "C81_after_passthrough",
    "C81_after_format",
    "C81_after_anonymize",
    "C81_empty_enumeration_reference_refuted",
    "C81_page_needs_passthrough_refuted"
   ],
   "note": ""
  },
  {
   "property": "C82",
   "status": "proved",
   "theorems": [
    "C82_lists_are_unambiguous",
    "C82_different_references_differ",
    "C82_references_on_the_page"
   ],
   "note": ""
  },
  {
   "property": "C83",
   "status": "proved",
   "theorems": [
    "C83_independent_jobs_do_not_disturb_each_other",
    "C83_started_again",
    "C83_can_be_finished",
    "C83_order_does_not_matter",
    "C83_at_once_as_in_turn",
    "C83_same_output_file_refuted",
    "C83_output_as_input_refuted"
   ],
   "note": ""
  },
  {
   "property": "C84",
   "status": "proved",
   "theorems": [
    "C84_passed_through_again_and_again",
    "C84_any_order",
    "C84_last_output",
    "C84_any_order_refuted",
    "C84_formatted_first",
    "C84_anonymized_first"
   ],
   "note": ""
  }
 ]
}