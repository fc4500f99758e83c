{
 "claims": [
  {
   "property": "C01",
   "status": "proved",
   "theorems": [
    "C01_components_are_reachable"
   ],
   "note": ""
  },
  {
   "property": "C02",
   "status": "proved",
   "theorems": [
    "C02_top_level"
   ],
   "note": ""
  },
  {
   "property": "C03",
   "status": "proved",
   "theorems": [
    "C03_dependency_section"
   ],
   "note": ""
  },
  {
   "property": "C04",
   "status": "proved",
   "theorems": [
    "C04_terminates",
    "C04_succeeds"
   ],
   "note": ""
  },
  {
   "property": "C05",
   "status": "proved",
   "theorems": [
    "C05_strongest_kind",
    "C05_scope"
   ],
   "note": ""
  },
  {
   "property": "C06",
   "status": "proved",
   "theorems": [
    "C06_no_build_deps"
   ],
   "note": ""
  },
  {
   "property": "C07",
   "status": "proved",
   "theorems": [
    "C07_order_independent",
    "C07_member_order",
    "C07_components_in_id_order",
    "C07_dependency_order"
   ],
   "note": ""
  },
  {
   "property": "C08",
   "status": "proved",
   "theorems": [
    "C08_reproducible",
    "C08_no_serial_fixed_time"
   ],
   "note": ""
  },
  {
   "property": "C09",
   "status": "proved",
   "theorems": [
    "C09_references_unique_and_resolvable",
    "C09_validator_agrees"
   ],
   "note": "uniqueness and resolvability over the generated references; C09_validator_agrees shows the library validator reports no reference problem"
  },
  {
   "property": "C10",
   "status": "proved",
   "theorems": [
    "C10_component_contents"
   ],
   "note": ""
  },
  {
   "property": "C11",
   "status": "proved",
   "theorems": [
    "C11_per_artifact"
   ],
   "note": ""
  },
  {
   "property": "C12",
   "status": "proved",
   "theorems": [
    "C12_output_files",
    "C12_target_path_in_name_refuted"
   ],
   "note": "the 'beside the manifest' clause needs names without '/'; C12_target_path_in_name_refuted shows a --target path with a separator escapes"
  },
  {
   "property": "C13",
   "status": "partial",
   "theorems": [
    "C13_cli_precedence_refuted",
    "C13_target_choice_partial"
   ],
   "note": "the claim is false of the code (C13_cli_precedence_refuted); C13_target_choice_partial gives the exact precedence the code implements"
  },
  {
   "property": "C14",
   "status": "proved",
   "theorems": [
    "C14_merge_laws",
    "C14_merge_fields"
   ],
   "note": ""
  },
  {
   "property": "C15",
   "status": "proved",
   "theorems": [
    "C15_features_split",
    "C15_features_kept"
   ],
   "note": ""
  },
  {
   "property": "C16",
   "status": "proved",
   "theorems": [
    "C16_nearest_lockfile"
   ],
   "note": ""
  },
  {
   "property": "C17",
   "status": "proved",
   "theorems": [
    "C17_vcs_url",
    "C17_vcs_query"
   ],
   "note": ""
  },
  {
   "property": "C18",
   "status": "proved",
   "theorems": [
    "C18_authors",
    "C18_author_dropped_only_for_email",
    "C18_white_space",
    "C18_trim",
    "C18_trim_nothing"
   ],
   "note": ""
  },
  {
   "property": "C19",
   "status": "proved",
   "theorems": [
    "C19_external_references"
   ],
   "note": ""
  },
  {
   "property": "C20",
   "status": "proved",
   "theorems": [
    "C20_targets"
   ],
   "note": ""
  },
  {
   "property": "C21",
   "status": "proved",
   "theorems": [
    "C21_new_flattens",
    "C21_new_is_valid",
    "C21_valid_unchanged",
    "C21_idempotent",
    "C21_validation"
   ],
   "note": ""
  },
  {
   "property": "C22",
   "status": "proved",
   "theorems": [
    "C22_duplicates_reported"
   ],
   "note": ""
  },
  {
   "property": "C23",
   "status": "proved",
   "theorems": [
    "C23_dangling_reported",
    "C23_no_dangling_no_error"
   ],
   "note": ""
  },
  {
   "property": "C24",
   "status": "proved",
   "theorems": [
    "C24_validation_returns",
    "C24_default_version",
    "C24_other_entry_points"
   ],
   "note": ""
  },
  {
   "property": "C25",
   "status": "proved",
   "theorems": [
    "C25_passes_iff_valid",
    "C25_validate_uses_own_version",
    "C25_unreached_structures"
   ],
   "note": "exact characterisation of the structures Bom validation reaches; structures it does not reach are named in C25_unreached_structures"
  },
  {
   "property": "C26",
   "status": "proved",
   "theorems": [
    "C26_list_errors"
   ],
   "note": ""
  },
  {
   "property": "C27",
   "status": "proved",
   "theorems": [
    "C27_unique_lists",
    "C27_no_repetition"
   ],
   "note": ""
  },
  {
   "property": "C28",
   "status": "proved",
   "theorems": [
    "C28_validation",
    "C28_constructor",
    "C28_generated"
   ],
   "note": ""
  },
  {
   "property": "C29",
   "status": "partial",
   "theorems": [
    "C29_hash_checked_in_full_refuted",
    "C29_hash_accepted_partial",
    "C29_well_formed_accepted_partial"
   ],
   "note": "false of the code: the hash pattern is not anchored as intended (refuted); the partial theorems characterise exactly what is accepted"
  },
  {
   "property": "C30",
   "status": "partial",
   "theorems": [
    "C30_cpe_checked_in_full_refuted",
    "C30_cpe_accepted_partial",
    "C30_cpe_names_accepted_partial"
   ],
   "note": "false of the code: the CPE pattern is unanchored (refuted); the partial theorems give the exact accepted set"
  },
  {
   "property": "C31",
   "status": "partial",
   "theorems": [
    "C31_confidence_range_refuted",
    "C31_confidence_accepted_partial",
    "C31_in_range_accepted_partial"
   ],
   "note": "false of the code: only negative confidences are rejected (refuted); the partial theorems give the exact accepted set"
  },
  {
   "property": "C32",
   "status": "partial",
   "theorems": [
    "C32_last_updated_checked_refuted",
    "C32_first_issued_checked_partial",
    "C32_last_updated_ignored_partial"
   ],
   "note": "false of the code: the last_updated check reads first_issued (refuted)"
  },
  {
   "property": "C33",
   "status": "partial",
   "theorems": [
    "C33_faithful_texts_partial",
    "C33_reading_is_stable_partial",
    "C33_catch_all_partial",
    "C33_aggregate_refuted",
    "C33_aggregate_partial",
    "C33_external_reference_refuted",
    "C33_external_reference_partial",
    "C33_identity_field_refuted",
    "C33_identity_field_partial",
    "C33_algorithm_refuted",
    "C33_algorithm_partial"
   ],
   "note": "false for four enumerations (refuted by witness); proved for all values of the other 22, and exactly characterised for the four"
  },
  {
   "property": "C34",
   "status": "partial",
   "theorems": [
    "C34_version_specific_values_partial",
    "C34_aggregate_types_refuted",
    "C34_values_stay_accepted_partial",
    "C34_boms_stay_valid_refuted"
   ],
   "note": "false for the aggregate types (refuted); proved for every other version-specific enumeration; whole-BOM monotonicity is refuted"
  },
  {
   "property": "C35",
   "status": "proved",
   "theorems": [
    "C35_patterns"
   ],
   "note": ""
  },
  {
   "property": "C36",
   "status": "proved",
   "theorems": [
    "C36_constructors_agree",
    "C36_constructors_keep_text"
   ],
   "note": ""
  },
  {
   "property": "C37",
   "status": "proved",
   "theorems": [
    "C37_json_round_trip",
    "C37_rewriting_settles",
    "C37_first_rewriting_refuted",
    "C37_always_kept"
   ],
   "note": "kept_bom in JsonSpec.v spells out what the version keeps; C37_first_rewriting_refuted shows that the first rewriting can still change a reference type; C37_rewriting_settles and C37_always_kept hold for every version"
  },
  {
   "property": "C38",
   "status": "proved",
   "theorems": [
    "C38_json_round_trip"
   ],
   "note": "see C37 for the theorems on rewriting, stated for every version"
  },
  {
   "property": "C39",
   "status": "proved",
   "theorems": [
    "C39_json_round_trip",
    "C39_confidence_refuted"
   ],
   "note": "C39_confidence_refuted shows that the condition on confidences is needed: the document is written but cannot be read"
  },
  {
   "property": "C40",
   "status": "proved",
   "theorems": [
    "C40_xml_round_trip",
    "C40_always_kept",
    "C40_unreadable_refuted"
   ],
   "note": "kx_bom in XmlSpec.v spells out what the document carries and which documents are refused; C40_unreadable_refuted shows that some documents the library writes it cannot read"
  },
  {
   "property": "C41",
   "status": "proved",
   "theorems": [
    "C41_xml_round_trip"
   ],
   "note": "under float_text_ok (the text of an f32 reads back as the same f32), which sample_floats_ok shows satisfiable"
  },
  {
   "property": "C42",
   "status": "proved",
   "theorems": [
    "C42_xml_round_trip",
    "C42_lossy_refuted"
   ],
   "note": "as C41; C42_lossy_refuted shows that the XML of 1.5 loses things 1.5 can represent"
  },
  {
   "property": "C43",
   "status": "proved",
   "theorems": [
    "C43_json_output_fails_iff",
    "C43_json_output_error",
    "C43_xml_output_fails_iff",
    "C43_xml_output_error"
   ],
   "note": "JSON and XML; BOM links and tool objects are dropped or written, not refused"
  },
  {
   "property": "C44",
   "status": "proved",
   "theorems": [
    "C44_declared_version_selects",
    "C44_otherwise_rejected",
    "C44_version_of_result",
    "C44_output_version"
   ],
   "note": ""
  },
  {
   "property": "C45",
   "status": "partial",
   "theorems": [
    "C45_json_version_refuted",
    "C45_json_declares_some_version_partial",
    "C45_xml_namespace",
    "C45_xml_other_version"
   ],
   "note": "false of the JSON parsers (C45_json_version_refuted): they take whichever version the document declares; the partial theorem states what is checked; the XML parsers check the namespace (C45_xml_namespace, C45_xml_other_version)"
  },
  {
   "property": "C46",
   "status": "partial",
   "theorems": [
    "C46_skip_exact",
    "C46_foreign_elements_ignored_partial",
    "C46_foreign_elements_ignored_1_3",
    "C46_open_refuted"
   ],
   "note": "every place where a lax reader is at work, also below the elements whose readers look through unknown elements (passed_places lists the ways through them); all documents of version 1.3, those of version 1.4 with plain signatures, tidy ones of version 1.5; C46_open_refuted shows that as direct children of elements with open readers foreign elements are not ignored"
  },
  {
   "property": "C47",
   "status": "partial",
   "theorems": [
    "C47_unknown_members_ignored_partial",
    "C47_repeated_members_rejected_partial",
    "C47_flattened_members_partial",
    "C47_tagged_members_refuted",
    "C47_repeated_members_refuted"
   ],
   "note": "proved struct by struct for every object of the format, and at any depth by C58; false for alternatives named by their only member (C47_tagged_members_refuted) and for repeated members read through a Value (C47_repeated_members_refuted)"
  },
  {
   "property": "C48",
   "status": "partial",
   "theorems": [
    "C48_document_exact_partial",
    "C48_document_exact_1_3",
    "C48_document_exact_refuted",
    "C48_reader_exact_partial",
    "C48_reader_inside_1_3",
    "C48_signature_exact",
    "C48_parse_returns",
    "C48_bound",
    "C48_always_exact_refuted"
   ],
   "note": "false of the code for the readers that look through unknown elements (C48_always_exact_refuted, C48_document_exact_refuted); proved for every reader and every tidy element, for signatures, for whole documents that are read: all of version 1.3 and orderly ones of 1.4 and 1.5; C48_parse_returns: parsing always returns"
  },
  {
   "property": "C49",
   "status": "proved",
   "theorems": [
    "C49_modules",
    "C49_selection_unique",
    "C49_errors",
    "C49_unversioned",
    "C49_module_names",
    "C49_version_text",
    "C49_members_refuted",
    "C49_conjunction_refuted"
   ],
   "note": "for modules in which the attribute is used where the macro looks for it; C49_members_refuted: on members of impls it is left in place; C49_conjunction_refuted: of several attributes on one element the last one decides"
  },
  {
   "property": "C50",
   "status": "proved",
   "theorems": [
    "C50_generated_sboms_are_valid",
    "C50_bom_links_refuted"
   ],
   "note": "under same_libraries (the oracles of generator and validator agree) and no_bom_links; C50_bom_links_refuted shows the second condition is needed"
  },
  {
   "property": "C51",
   "status": "proved",
   "theorems": [
    "C51_package_urls",
    "C51_location_independent"
   ],
   "note": ""
  },
  {
   "property": "C52",
   "status": "proved",
   "theorems": [
    "C52_bom_findings",
    "C52_structure_findings"
   ],
   "note": ""
  },
  {
   "property": "C53",
   "status": "proved",
   "theorems": [
    "C53_findings_accumulate",
    "C53_field_messages_kept"
   ],
   "note": ""
  },
  {
   "property": "C54",
   "status": "proved",
   "theorems": [
    "C54_validated_output_conforms",
    "C54_conforming_is_not_violating",
    "C54_generated_sboms_conform",
    "C54_composition_bom_ref",
    "C54_author_bom_ref",
    "C54_supplier_bom_ref",
    "C54_license_bom_ref",
    "C54_license_expression_bom_ref",
    "C54_model_card_bom_ref",
    "C54_occurrence_bom_ref",
    "C54_data_set_bom_ref",
    "C54_analysis_responses",
    "C54_codified_infrastructure",
    "C54_governance_parties",
    "C54_confidence_interval",
    "C54_volume_size",
    "C54_component_data",
    "C54_signature_list",
    "C54_data_set_reference",
    "C54_sensitive_data",
    "C54_licensing_null",
    "C54_validation_alone_refuted",
    "C54_unchecked_rules_refuted"
   ],
   "note": "tame_bom in SchemaSpec.v lists the additional conditions; C54_validation_alone_refuted and C54_unchecked_rules_refuted show that validation alone does not suffice; the schemas are a mechanical translation of the files in the repository (tools/schema2coq.py)"
  },
  {
   "property": "C55",
   "status": "partial",
   "theorems": [
    "C55_xml_required_parts_partial",
    "C55_xml_required_parts_1_3",
    "C55_signature_refuted",
    "C55_untidy_refuted"
   ],
   "note": "for all documents of version 1.3 and orderly ones of 1.4 and 1.5 (XmlSpec3.orderly); C55_signature_refuted and C55_untidy_refuted: false for others; every row of the table is about elements that are read (C55_rows_reached, C55_rows_all)"
  },
  {
   "property": "C56",
   "status": "proved",
   "theorems": [
    "C56_read_with_version",
    "C56_read_value_with_version",
    "C56_read_as_declared",
    "C56_members"
   ],
   "note": "the text layer (bytes to JSON values) is serde_json, outside the model; C56_grammar_closed: every name the grammar mentions has a kind"
  },
  {
   "property": "C57",
   "status": "proved",
   "theorems": [
    "C57_json_read_back",
    "C57_xml_read_back",
    "C57_empty_license_refuted"
   ],
   "note": "both formats; the condition for XML (no blank license) is needed: C57_empty_license_refuted"
  },
  {
   "property": "C58",
   "status": "proved",
   "theorems": [
    "C58_read_alike",
    "C58_values_read_alike",
    "C58_read_alike_as_declared",
    "C58_order_of_members",
    "C58_entry_points_agree",
    "C58_unknown_member",
    "C58_member_order",
    "C58_null_member",
    "C58_array_form"
   ],
   "note": "for all kinds of the grammar at any depth; the conditions on order are needed: C58_order_needed"
  },
  {
   "property": "C59",
   "status": "proved",
   "theorems": [
    "C59_formula_passes_iff_valid",
    "C59_parts_pass_iff_valid",
    "C59_validation_returns",
    "C59_findings",
    "C59_findings_in_parts",
    "C59_not_before_1_5",
    "C59_bom_ignores_formulas",
    "C59_different_is_nodup",
    "C59_all_parts_checked_refuted"
   ],
   "note": "parts the code does not look at are named: C59_all_parts_checked_refuted"
  },
  {
   "property": "C60",
   "status": "proved",
   "theorems": [
    "C60_resave",
    "C60_resave_declared",
    "C60_unchanged",
    "C60_saved_is_stable",
    "C60_respelled",
    "C60_any_number_refuted",
    "C60_earlier_version_refuted"
   ],
   "note": "the three respelled names are spelled out in ResaveSpec.v and C60_respelled; the condition on numbers and the order of versions are needed: C60_any_number_refuted, C60_earlier_version_refuted"
  },
  {
   "property": "C61",
   "status": "proved",
   "theorems": [
    "C61_xml_settles",
    "C61_any_number",
    "C61_one_round_refuted"
   ],
   "note": "two rounds are needed: C61_one_round_refuted"
  },
  {
   "property": "C62",
   "status": "proved",
   "theorems": [
    "C62_saves",
    "C62_saved_is_readable",
    "C62_settles",
    "C62_always_readable_refuted",
    "C62_earlier_refuted"
   ],
   "note": "the conditions on the document are in XmlResaveSpec.v; each is needed: C62_always_readable_refuted, C62_earlier_refuted"
  },
  {
   "property": "C63",
   "status": "proved",
   "theorems": [
    "C63_saves",
    "C63_converted",
    "C63_unchanged",
    "C63_changes",
    "C63_always_unchanged_refuted",
    "C63_always_readable_refuted",
    "C63_earlier_refuted"
   ],
   "note": "finite confidences of methods are needed in 1.5: C63_always_readable_refuted"
  },
  {
   "property": "C64",
   "status": "proved",
   "theorems": [
    "C64_readable_iff",
    "C64_unreadable"
   ],
   "note": "an equivalence; the parts are listed in XmlFitSpec.v"
  },
  {
   "property": "C65",
   "status": "proved",
   "theorems": [
    "C65_saves",
    "C65_saved_is_readable_iff",
    "C65_no_flows",
    "C65_result",
    "C65_always_readable_refuted",
    "C65_task_refuted"
   ],
   "note": "the conditions are needed: C65_always_readable_refuted, C65_task_refuted"
  },
  {
   "property": "C66",
   "status": "proved",
   "theorems": [
    "C66_reads_the_format",
    "C66_model_card_refuted",
    "C66_unreadable_refuted"
   ],
   "note": "XmlForm.v is the format; the parts that are not read are C66_model_card_refuted and C66_unreadable_refuted"
  },
  {
   "property": "C67",
   "status": "proved",
   "theorems": [
    "C67_writes_the_format",
    "C67_attachment_refuted",
    "C67_task_refuted",
    "C67_resource_refuted",
    "C67_dataset_refuted",
    "C67_flow_refuted"
   ],
   "note": "the five parts that are written in another form are the refutations; the form is that of C66"
  },
  {
   "property": "C68",
   "status": "proved",
   "theorems": [
    "C68_writes_the_dialect",
    "C68_reads_the_dialect",
    "C68_always_read_refuted",
    "C68_always_read_right_refuted"
   ],
   "note": "in the dialect of the library for every BOM, in that of the standard where they agree; the refutations show every difference"
  },
  {
   "property": "C69",
   "status": "proved",
   "theorems": [
    "C69_order_independent",
    "C69_member_order",
    "C69_at_every_point",
    "C69_only_announced_files",
    "C69_success",
    "C69_made_once",
    "C69_starts",
    "C69_ends",
    "C69_succeeds",
    "C69_each_file",
    "C69_json_files_are_read",
    "C69_xml_files_are_read",
    "C69_reproducible",
    "C69_old_files_survive_refuted"
   ],
   "note": "the refutation concerns files that were there before, which are truncated first"
  },
  {
   "property": "C70",
   "status": "proved",
   "theorems": [
    "C70_host_platform",
    "C70_target",
    "C70_rustc_unneeded",
    "C70_asks_cargo",
    "C70_log_level"
   ],
   "note": ""
  },
  {
   "property": "C71",
   "status": "partial",
   "theorems": [
    "C71_constructors",
    "C71_attached_text",
    "C71_carried",
    "C71_component_assignments",
    "C71_service_assignments",
    "C71_vulnerability_assignments",
    "C71_metadata_assignments",
    "C71_bom_assignments",
    "C71_service_refuted",
    "C71_entity_refuted",
    "C71_service_partial",
    "C71_entity_partial",
    "C71_validation",
    "C71_json",
    "C71_xml"
   ],
   "note": "false of Service::new and OrganizationalEntity::new with line breaks or tabs in the name (C71_service_refuted, C71_entity_refuted); made_bom therefore asks for single-line names there, and the partial theorems say exactly when what they make is valid"
  },
  {
   "property": "C72",
   "status": "proved",
   "theorems": [
    "C72_dependencies_described",
    "C72_member_described",
    "C72_nothing_else"
   ],
   "note": ""
  },
  {
   "property": "C73",
   "status": "proved",
   "theorems": [
    "C73_settings",
    "C73_files",
    "C73_refused",
    "C73_values"
   ],
   "note": ""
  },
  {
   "property": "C74",
   "status": "proved",
   "theorems": [
    "C74_logged",
    "C74_purl",
    "C74_links",
    "C74_licenses",
    "C74_license_file",
    "C74_authors",
    "C74_lock_not_found",
    "C74_lock_unreadable",
    "C74_odd_targets",
    "C74_sources_outside",
    "C74_unknown_source",
    "C74_source_without_kind",
    "C74_levels",
    "C74_accept_named"
   ],
   "note": ""
  },
  {
   "property": "C75",
   "status": "proved",
   "theorems": [
    "C75_stops_iff",
    "C75_same",
    "C75_refuted",
    "C75_same_url"
   ],
   "note": "C75_refuted: without the restriction to members inside the root a debug build can panic (finding)."
  },
  {
   "property": "C76",
   "status": "proved",
   "theorems": [
    "C76_wording",
    "C76_wording_rest",
    "C76_wording_formulas",
    "C76_parts"
   ],
   "note": "together with C52, which says under which names there are entries"
  },
  {
   "property": "C77",
   "status": "proved",
   "theorems": [
    "C77_results_are_proper",
    "C77_queries",
    "C77_merge_keeps_last",
    "C77_decides_one",
    "C77_merge_order",
    "C77_merge_proper",
    "C77_merge_passes",
    "C77_merge_keeps_all_refuted",
    "C77_merge_disjoint",
    "C77_validate_parts_as_1_3"
   ],
   "note": "C77_merge_keeps_all_refuted: of two findings under one name only the later is kept (finding)"
  },
  {
   "property": "C78",
   "status": "proved",
   "theorems": [
    "C78_epoch",
    "C78_reasons",
    "C78_ends"
   ],
   "note": "for answers of cargo that describe a workspace as cargo does (well_formed)"
  },
  {
   "property": "C79",
   "status": "proved",
   "theorems": [
    "C79_parse_lax",
    "C79_parse_lax_result",
    "C79_parse_lax_keeps",
    "C79_valid",
    "C79_purl_from_str_refuted",
    "C79_purl_from_str_keeps",
    "C79_bom_links",
    "C79_bom_link_refuted"
   ],
   "note": "C79_purl_from_str_refuted, C79_bom_link_refuted: package URLs read from text are not checked, and URIs that only begin like a BOM link are taken for one (finding)"
  },
  {
   "property": "C80",
   "status": "proved",
   "theorems": [
    "C80_command_line",
    "C80_one_meaning",
    "C80_accepted",
    "C80_any_order",
    "C80_spellings",
    "C80_once"
   ],
   "note": "the rules of clap 4 are modelled from its documentation"
  },
  {
   "property": "C81",
   "status": "proved",
   "theorems": [
    "C81_nulls",
    "C81_no_null_1_3",
    "C81_names_once",
    "C81_terms",
    "C81_numbers",
    "C81_generated"
   ],
   "note": "licensing writes null for terms that are missing (finding 24)"
  },
  {
   "property": "C82",
   "status": "proved",
   "theorems": [
    "C82_no_run",
    "C82_touched",
    "C82_others_stay",
    "C82_success",
    "C82_same_effect",
    "C82_ends",
    "C82_succeeds",
    "C82_reproducible"
   ],
   "note": "an SBOM file that was there before may be lost when the program is interrupted (C69_old_files_survive_refuted)"
  },
  {
   "property": "C83",
   "status": "proved",
   "theorems": [
    "C83_only_sboms",
    "C83_nothing_removed",
    "C83_overwrites",
    "C83_again"
   ],
   "note": "one invocation at a time; C84 is about two at once"
  },
  {
   "property": "C84",
   "status": "proved",
   "theorems": [
    "C84_any_schedule",
    "C84_one_after_the_other",
    "C84_formats"
   ],
   "note": "two invocations that write the same file at the same time: C85"
  },
  {
   "property": "C85",
   "status": "proved",
   "theorems": [
    "C85_alone",
    "C85_apart",
    "C85_same_sboms",
    "C85_same_request",
    "C85_mixture_refuted"
   ],
   "note": "holds for the same SBOMs; for different ones C85_mixture_refuted shows a schedule that mixes them (finding 9a)"
  },
  {
   "property": "C86",
   "status": "proved",
   "theorems": [
    "C86_refused",
    "C86_refused_1_3",
    "C86_untidy_refuted"
   ],
   "note": "for the documents C48 is exact for; C86_untidy_refuted shows that the condition is needed"
  },
  {
   "property": "C87",
   "status": "proved",
   "theorems": [
    "C87_passed",
    "C87_passed_1_3"
   ],
   "note": "for the documents C48 is exact for"
  },
  {
   "property": "C88",
   "status": "proved",
   "theorems": [
    "C88_only_sboms",
    "C88_nothing_removed",
    "C88_any_number",
    "C88_any_order",
    "C88_same_sboms",
    "C88_same_request",
    "C88_then",
    "C88_histories",
    "C88_two"
   ],
   "note": "the condition on shared files is needed: C85_mixture_refuted"
  },
  {
   "property": "C89",
   "status": "proved",
   "theorems": [
    "C89_attributes",
    "C89_attributes_1_3"
   ],
   "note": "for the documents C48 is exact for; directly inside signatures only the attributes of expected elements"
  },
  {
   "property": "C90",
   "status": "proved",
   "theorems": [
    "C90_order",
    "C90_order_1_3"
   ],
   "note": "for the documents C48 is exact for"
  },
  {
   "property": "C91",
   "status": "partial",
   "theorems": [
    "C91_cdata_partial",
    "C91_cdata_1_3",
    "C91_attachment_refuted"
   ],
   "note": "false of attachments of version 1.5, which are not read from CDATA sections (C91_attachment_refuted); proved for everything else, for the documents C48 is exact for"
  },
  {
   "property": "C92",
   "status": "proved",
   "theorems": [
    "C92_says_same",
    "C92_both",
    "C92_says_same_1_3"
   ],
   "note": "for the documents C48 is exact for; the alternatives of C90 and the attachments of C91 are not among the differences"
  },
  {
   "property": "C93",
   "status": "proved",
   "theorems": [
    "C93_journey",
    "C93_single",
    "C93_earliest",
    "C93_any_way",
    "C93_there_and_back",
    "C93_goes_on"
   ],
   "note": "JSON only; the confidences of 1.5 have to be finite at the first stop (see C39, C60)"
  },
  {
   "property": "C94",
   "status": "proved",
   "theorems": [
    "C94_stays_valid",
    "C94_misspelt_type_refuted",
    "C94_misspelt_aggregate_refuted",
    "C94_link_refuted",
    "C94_vulnerability_refuted"
   ],
   "note": "the _refuted theorems show that each condition of the statement is needed; confidences of 1.5 have to be finite (C39)"
  },
  {
   "property": "C95",
   "status": "proved",
   "theorems": [
    "C95_later",
    "C95_from_1_3_to_1_4",
    "C95_upgraded"
   ],
   "note": "the exact form of what C34_boms_stay_valid_refuted shows"
  },
  {
   "property": "C96",
   "status": "proved",
   "theorems": [
    "C96_same",
    "C96_valid"
   ],
   "note": "end to end: generator, writer, readers and validator"
  },
  {
   "property": "C97",
   "status": "proved",
   "theorems": [
    "C97_journey",
    "C97_own"
   ],
   "note": "whole journeys of C93, with the conditions of C94 and C95 once"
  },
  {
   "property": "C98",
   "status": "proved",
   "theorems": [
    "C98_same"
   ],
   "note": "C96 for both formats; blanks around texts are lost in XML"
  }
 ]
}