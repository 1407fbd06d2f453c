{
 "claims": [
  {
   "property": "C01",
   "status": "proved",
   "theorems": [
    "C01_split_of_compose_with_base",
    "C01_compose_total",
    "C01_split_of_compose_no_base",
    "C01_single_empty_token_refuted"
   ],
   "note": ""
  },
  {
   "property": "C02",
   "status": "proved",
   "theorems": [
    "C02_split_is_rfc6901",
    "C02_compose_of_split"
   ],
   "note": ""
  },
  {
   "property": "C03",
   "status": "proved",
   "theorems": [
    "C03_compose_assoc",
    "C03_compose_injective",
    "C03_compose_injective_no_base"
   ],
   "note": ""
  },
  {
   "property": "C04",
   "status": "proved",
   "theorems": [
    "C04_compose_assoc",
    "C04_absent_is_neutral",
    "C04_split_of_compose",
    "C04_split_overlap_refuted"
   ],
   "note": ""
  },
  {
   "property": "C05",
   "status": "proved",
   "theorems": [
    "C05_exact",
    "C05_unique_suffix",
    "C05_unique_last_name",
    "C05_ambiguous",
    "C05_missing",
    "C05_order_independent"
   ],
   "note": ""
  },
  {
   "property": "C06",
   "status": "proved",
   "theorems": [
    "C06_deref_total",
    "C06_deref_finite_chain",
    "C06_deref_cycle_iff",
    "C06_deref_guarded"
   ],
   "note": ""
  },
  {
   "property": "C07",
   "status": "proved",
   "theorems": [
    "C07_absolute_unchanged",
    "C07_local_attached_to_base",
    "C07_relative_resolved",
    "C07_normalising_again_is_identity",
    "C07_root_document",
    "C07_root_document_refuted"
   ],
   "note": ""
  },
  {
   "property": "C08",
   "status": "proved",
   "theorems": [
    "C08_dot_segments_removed",
    "C08_removal_exists",
    "C08_removal_unique",
    "C08_plain_unchanged",
    "C08_idempotent",
    "C08_cancels_parent"
   ],
   "note": ""
  },
  {
   "property": "C09",
   "status": "proved",
   "theorems": [
    "C09_split_reference",
    "C09_split_no_fragment",
    "C09_split_local"
   ],
   "note": ""
  },
  {
   "property": "C10",
   "status": "proved",
   "theorems": [
    "C10_exactly_one_slash"
   ],
   "note": ""
  },
  {
   "property": "C11",
   "status": "proved",
   "theorems": [
    "C11_other_unchanged",
    "C11_file_name_dropped",
    "C11_root_file_name_dropped"
   ],
   "note": ""
  },
  {
   "property": "C12",
   "status": "proved",
   "theorems": [
    "C12_loadable_extension",
    "C12_idempotent"
   ],
   "note": ""
  },
  {
   "property": "C13",
   "status": "proved",
   "theorems": [
    "C13_precedence",
    "C13_other_keys_irrelevant"
   ],
   "note": ""
  },
  {
   "property": "C14",
   "status": "proved",
   "theorems": [
    "C14_filters",
    "C14_booleans_are_integers",
    "C14_no_difference_means_equal",
    "C14_reordered_documents_are_equal",
    "C14_reflexive",
    "C14_mixed_list_refuted"
   ],
   "note": ""
  },
  {
   "property": "C15",
   "status": "proved",
   "theorems": [
    "C15_read",
    "C15_last_write_wins",
    "C15_other_fields_unchanged",
    "C15_readonly_write_raises",
    "C15_internal_last_write_wins",
    "C15_internal_unwritten"
   ],
   "note": ""
  },
  {
   "property": "C16",
   "status": "proved",
   "theorems": [
    "C16_load_dump"
   ],
   "note": ""
  },
  {
   "property": "C17",
   "status": "proved",
   "theorems": [
    "C17_v2_reload",
    "C17_reload",
    "C17_v3_reload_refuted"
   ],
   "note": ""
  },
  {
   "property": "C18",
   "status": "proved",
   "theorems": [
    "C18_dump_entries",
    "C18_boolean_child",
    "C18_header_content_lost"
   ],
   "note": ""
  },
  {
   "property": "C19",
   "status": "proved",
   "theorems": [
    "C19_resolve_is_pointer_evaluation",
    "C19_resolve_into_field",
    "C19_resolve_below_field_missing",
    "C19_string_elements_raise"
   ],
   "note": ""
  },
  {
   "property": "C20",
   "status": "proved",
   "theorems": [
    "C20_own_pointer"
   ],
   "note": ""
  },
  {
   "property": "C21",
   "status": "proved",
   "theorems": [
    "C21_merge",
    "C21_raises",
    "C21_other_unchanged"
   ],
   "note": ""
  },
  {
   "property": "C22",
   "status": "proved",
   "theorems": [
    "C22_reflexive",
    "C22_positive_answer",
    "C22_string_lists_refuted",
    "C22_raw_lists_refuted",
    "C22_required_field_refuted"
   ],
   "note": ""
  },
  {
   "property": "C23",
   "status": "proved",
   "theorems": [
    "C23_listing_exact",
    "C23_listing_stale"
   ],
   "note": ""
  },
  {
   "property": "C24",
   "status": "proved",
   "theorems": [
    "C24_override",
    "C24_override_total",
    "C24_escaped_pointer_refuted"
   ],
   "note": ""
  },
  {
   "property": "C25",
   "status": "proved",
   "theorems": [
    "C25_construct_iff_shaped",
    "C25_boolean_additional_properties"
   ],
   "note": ""
  },
  {
   "property": "C26",
   "status": "proved",
   "theorems": [
    "C26_terminates",
    "C26_every_object_once",
    "C26_every_object_once_v1_v2",
    "C26_mixed_refuted"
   ],
   "note": ""
  },
  {
   "property": "C27",
   "status": "proved",
   "theorems": [
    "C27_paths",
    "C27_paths_v2",
    "C27_nested_refuted"
   ],
   "note": ""
  },
  {
   "property": "C28",
   "status": "proved",
   "theorems": [
    "C28_calls",
    "C28_scanner_calls",
    "C28_exception_ends_scan",
    "C28_register_checks",
    "C28_no_root"
   ],
   "note": ""
  },
  {
   "property": "C29",
   "status": "proved",
   "theorems": [
    "C29_nothing_cached",
    "C29_prefix_answers",
    "C29_descendant",
    "C29_boundary_refuted"
   ],
   "note": ""
  },
  {
   "property": "C30",
   "status": "proved",
   "theorems": [
    "C30_other_urls",
    "C30_other_versions",
    "C30_entries_by_version",
    "C30_history",
    "C30_replace",
    "C30_replace_only",
    "C30_two_matches_refuted"
   ],
   "note": ""
  },
  {
   "property": "C31",
   "status": "proved",
   "theorems": [
    "C31_found",
    "C31_exact",
    "C31_exact_distinct",
    "C31_none",
    "C31_removed",
    "C31_kept",
    "C31_empty_pointer",
    "C31_collision_refuted"
   ],
   "note": ""
  },
  {
   "property": "C32",
   "status": "proved",
   "theorems": [
    "C32_newest",
    "C32_unknown_version",
    "C32_unknown_bound"
   ],
   "note": ""
  },
  {
   "property": "C33",
   "status": "proved",
   "theorems": [
    "C33_unmatched",
    "C33_longest",
    "C33_default",
    "C33_total",
    "C33_determined",
    "C33_never_raises",
    "C33_order",
    "C33_boundary_refuted"
   ],
   "note": ""
  },
  {
   "property": "C34",
   "status": "proved",
   "theorems": [
    "C34_compose",
    "C34_not_newer",
    "C34_never_raises",
    "C34_without_routes",
    "C34_unknown_version",
    "C34_step"
   ],
   "note": ""
  },
  {
   "property": "C35",
   "status": "proved",
   "theorems": [
    "C35_fetched_once",
    "C35_evaluates",
    "C35_nothing_else",
    "C35_retried",
    "C35_failure_passed_on",
    "C35_empty_rejected",
    "C35_first_answer",
    "C35_getter_choice",
    "C35_negative_index_refuted"
   ],
   "note": ""
  },
  {
   "property": "C36",
   "status": "proved",
   "theorems": [
    "C36_table",
    "C36_raises",
    "C36_same_wire",
    "C36_parameter",
    "C36_parameter_total",
    "C36_tsv_refuted",
    "C36_default_refuted"
   ],
   "note": ""
  },
  {
   "property": "C37",
   "status": "proved",
   "theorems": [
    "C37_schema",
    "C37_every_depth"
   ],
   "note": ""
  },
  {
   "property": "C38",
   "status": "proved",
   "theorems": [
    "C38_validation",
    "C38_images"
   ],
   "note": ""
  },
  {
   "property": "C39",
   "status": "proved",
   "theorems": [
    "C39_kept",
    "C39_form_in_body",
    "C39_body",
    "C39_loop"
   ],
   "note": ""
  },
  {
   "property": "C40",
   "status": "proved",
   "theorems": [
    "C40_forms",
    "C40_no_error",
    "C40_duplicate",
    "C40_default_types_refuted"
   ],
   "note": ""
  },
  {
   "property": "C41",
   "status": "proved",
   "theorems": [
    "C41_body_second",
    "C41_form_after",
    "C41_errors"
   ],
   "note": ""
  },
  {
   "property": "C42",
   "status": "proved",
   "theorems": [
    "C42_one_body",
    "C42_shared",
    "C42_independent",
    "C42_same_name"
   ],
   "note": ""
  },
  {
   "property": "C43",
   "status": "proved",
   "theorems": [
    "C43_file",
    "C43_form",
    "C43_body",
    "C43_not_empty"
   ],
   "note": ""
  },
  {
   "property": "C44",
   "status": "proved",
   "theorems": [
    "C44_response",
    "C44_total",
    "C44_header",
    "C44_file_refuted"
   ],
   "note": ""
  },
  {
   "property": "C45",
   "status": "proved",
   "theorems": [
    "C45_scheme",
    "C45_no_flow",
    "C45_visible_flow",
    "C45_no_scopes",
    "C45_basic"
   ],
   "note": ""
  },
  {
   "property": "C46",
   "status": "proved",
   "theorems": [
    "C46_names",
    "C46_operations",
    "C46_extension_path"
   ],
   "note": ""
  },
  {
   "property": "C47",
   "status": "proved",
   "theorems": [
    "C47_definitions",
    "C47_responses",
    "C47_schemes",
    "C47_below_response_refuted"
   ],
   "note": ""
  },
  {
   "property": "C48",
   "status": "proved",
   "theorems": [
    "C48_merged",
    "C48_kept",
    "C48_path_merged",
    "C48_path_kept",
    "C48_prefix_refuted",
    "C48_escape_refuted",
    "C48_shifted_refuted"
   ],
   "note": ""
  },
  {
   "property": "C49",
   "status": "proved",
   "theorems": [
    "C49_server",
    "C49_operation",
    "C49_host_only_refuted"
   ],
   "note": ""
  },
  {
   "property": "C50",
   "status": "proved",
   "theorems": [
    "C50_rejected",
    "C50_not_migrated"
   ],
   "note": ""
  },
  {
   "property": "C51",
   "status": "proved",
   "theorems": [
    "C51_trace",
    "C51_unsupported",
    "C51_steps",
    "C51_steps_unique",
    "C51_stored_at",
    "C51_failure",
    "C51_supported"
   ],
   "note": ""
  },
  {
   "property": "C52",
   "status": "proved",
   "theorems": [
    "C52_terminates",
    "C52_nearest",
    "C52_raises",
    "C52_unresolved"
   ],
   "note": ""
  },
  {
   "property": "C53",
   "status": "proved",
   "theorems": [
    "C53_strings",
    "C53_kept",
    "C53_clash",
    "C53_last_wins",
    "C53_nothing_else",
    "C53_text",
    "C53_twice",
    "C53_too_late_refuted"
   ],
   "note": ""
  },
  {
   "property": "C54",
   "status": "proved",
   "theorems": [
    "C54_operations",
    "C54_two_hosts_refuted"
   ],
   "note": ""
  },
  {
   "property": "C55",
   "status": "proved",
   "theorems": [
    "C55_definitions",
    "C55_injective",
    "C55_collision_refuted"
   ],
   "note": ""
  },
  {
   "property": "C56",
   "status": "proved",
   "theorems": [
    "C56_datatype",
    "C56_total",
    "C56_bound_raises"
   ],
   "note": ""
  },
  {
   "property": "C57",
   "status": "proved",
   "theorems": [
    "C57_no_prefix",
    "C57_iff",
    "C57_collision_refuted"
   ],
   "note": ""
  },
  {
   "property": "C58",
   "status": "proved",
   "theorems": [
    "C58_authorizations"
   ],
   "note": ""
  },
  {
   "property": "C59",
   "status": "proved",
   "theorems": [
    "C59_tags",
    "C59_order"
   ],
   "note": ""
  },
  {
   "property": "C60",
   "status": "proved",
   "theorems": [
    "C60_terminates",
    "C60_null_refuted"
   ],
   "note": ""
  },
  {
   "property": "C61",
   "status": "proved",
   "theorems": [
    "C61_parser_ignored",
    "C61_by_version",
    "C61_other_version",
    "C61_no_version",
    "C61_no_parser",
    "C61_no_dict",
    "C61_cached",
    "C61_loaded_once",
    "C61_listing_refuted"
   ],
   "note": ""
  },
  {
   "property": "C62",
   "status": "proved",
   "theorems": [
    "C62_in_order",
    "C62_every_getter",
    "C62_text",
    "C62_no_urls"
   ],
   "note": ""
  },
  {
   "property": "C63",
   "status": "proved",
   "theorems": [
    "C63_operation",
    "C63_info",
    "C63_license",
    "C63_contact",
    "C63_tag",
    "C63_xml",
    "C63_external_docs",
    "C63_no_security_refuted"
   ],
   "note": ""
  },
  {
   "property": "C64",
   "status": "proved",
   "theorems": [
    "C64_file",
    "C64_directory",
    "C64_json_added",
    "C64_yaml_added",
    "C64_missing",
    "C64_existing_file_refuted",
    "C64_yml_refuted"
   ],
   "note": ""
  },
  {
   "property": "C65",
   "status": "proved",
   "theorems": [
    "C65_empty",
    "C65_cached",
    "C65_own_document",
    "C65_no_source",
    "C65_migrates"
   ],
   "note": ""
  },
  {
   "property": "C66",
   "status": "proved",
   "theorems": [
    "C66_info"
   ],
   "note": ""
  },
  {
   "property": "C67",
   "status": "proved",
   "theorems": [
    "C67_parameter",
    "C67_total",
    "C67_ref_raises"
   ],
   "note": ""
  },
  {
   "property": "C68",
   "status": "proved",
   "theorems": [
    "C68_total",
    "C68_models_refuted",
    "C68_scope_refuted"
   ],
   "note": ""
  },
  {
   "property": "C69",
   "status": "proved",
   "theorems": [
    "C69_references_20",
    "C69_references_30",
    "C69_references_converted",
    "C69_root_reference_refuted"
   ],
   "note": ""
  },
  {
   "property": "C70",
   "status": "proved",
   "theorems": [
    "C70_opened",
    "C70_same_20",
    "C70_same_30",
    "C70_20_to_30",
    "C70_12_to_20",
    "C70_12_to_30"
   ],
   "note": ""
  },
  {
   "property": "C71",
   "status": "proved",
   "theorems": [
    "C71_only_schema_errors",
    "C71_migrates",
    "C71_opens"
   ],
   "note": ""
  },
  {
   "property": "C72",
   "status": "proved",
   "theorems": [
    "C72_rewritten_30",
    "C72_rewritten_converted",
    "C72_location"
   ],
   "note": ""
  },
  {
   "property": "C73",
   "status": "proved",
   "theorems": [
    "C73_opens_20",
    "C73_opens_30",
    "C73_opens_migrated",
    "C73_media_examples_refuted"
   ],
   "note": ""
  },
  {
   "property": "C74",
   "status": "proved",
   "theorems": [
    "C74_opens"
   ],
   "note": ""
  },
  {
   "property": "C75",
   "status": "proved",
   "theorems": [
    "C75_opens",
    "C75_noted",
    "C75_deref"
   ],
   "note": ""
  },
  {
   "property": "C76",
   "status": "proved",
   "theorems": [
    "C76_license",
    "C76_info",
    "C76_schema",
    "C76_path_item",
    "C76_no_others",
    "C76_reuse",
    "C76_reuse_total",
    "C76_path_item_reuse_refuted",
    "C76_path_item_media_refuted",
    "C76_path_item_server_refuted",
    "C76_alias_refuted"
   ],
   "note": ""
  },
  {
   "property": "C77",
   "status": "proved",
   "theorems": [
    "C77_reads",
    "C77_names",
    "C77_security_refuted",
    "C77_deprecated_refuted",
    "C77_examples_refuted",
    "C77_link_refuted",
    "C77_vendor_refuted",
    "C77_names_refuted"
   ],
   "note": ""
  },
  {
   "property": "C78",
   "status": "proved",
   "theorems": [
    "C78_opens",
    "C78_prefix_refuted",
    "C78_dangling_refuted"
   ],
   "note": ""
  },
  {
   "property": "C79",
   "status": "proved",
   "theorems": [
    "C79_opens",
    "C79_prefix_refuted",
    "C79_dangling_refuted"
   ],
   "note": ""
  },
  {
   "property": "C80",
   "status": "proved",
   "theorems": [
    "C80_listed",
    "C80_names",
    "C80_attribute",
    "C80_tables",
    "C80_header_refuted",
    "C80_redeclared_refuted"
   ],
   "note": ""
  },
  {
   "property": "C81",
   "status": "proved",
   "theorems": [
    "C81_one_group",
    "C81_asking",
    "C81_read",
    "C81_references_read",
    "C81_final",
    "C81_final_20"
   ],
   "note": ""
  },
  {
   "property": "C82",
   "status": "proved",
   "theorems": [
    "C82_tree",
    "C82_parents",
    "C82_ancestors",
    "C82_unshared",
    "C82_located",
    "C82_overrides",
    "C82_attach",
    "C82_merge",
    "C82_merge_refuted"
   ],
   "note": ""
  },
  {
   "property": "C83",
   "status": "proved",
   "theorems": [
    "C83_opens",
    "C83_undefined_refuted",
    "C83_slash_refuted"
   ],
   "note": ""
  },
  {
   "property": "C84",
   "status": "proved",
   "theorems": [
    "C84_opens"
   ],
   "note": ""
  },
  {
   "property": "C85",
   "status": "proved",
   "theorems": [
    "C85_opens",
    "C85_response_refuted"
   ],
   "note": ""
  },
  {
   "property": "C86",
   "status": "proved",
   "theorems": [
    "C86_opens",
    "C86_opens_with_path_items"
   ],
   "note": ""
  },
  {
   "property": "C87",
   "status": "proved",
   "theorems": [
    "C87_opens",
    "C87_opens_with_path_items",
    "C87_noted",
    "C87_deref",
    "C87_items_normalized"
   ],
   "note": ""
  }
 ]
}