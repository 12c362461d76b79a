{
 "claims": [
  {
   "property": "C01",
   "status": "proved",
   "theorems": [
    "C01_lookup",
    "C01_delete",
    "C01_enumeration",
    "C01_recreate_keeps_order",
    "C01_classes_independent",
    "C01_base_class_isolation_refuted"
   ],
   "note": "Histories may use any subclass; using the base class itself as a registry breaks isolation (finding, C01_base_class_isolation_refuted)."
  },
  {
   "property": "C02",
   "status": "proved",
   "theorems": [
    "C02_known_bases",
    "C02_known_translators_of_eft",
    "C02_known_translators_from",
    "C02_known_translators_to",
    "C02_untouched"
   ],
   "note": "Also proved: AttributeError before anything was ever registered."
  },
  {
   "property": "C03",
   "status": "proved",
   "theorems": [
    "C03_rejected_iff",
    "C03_failure_state",
    "C03_no_side_effect_refuted",
    "C03_failed_str"
   ],
   "note": ""
  },
  {
   "property": "C04",
   "status": "proved",
   "theorems": [
    "C04_sectors_of_family",
    "C04_family_shares_sectors",
    "C04_child_effect",
    "C04_only_children_change_sectors",
    "C04_delete",
    "C04_unchanged_iff",
    "C04_isolation_refuted"
   ],
   "note": ""
  },
  {
   "property": "C05",
   "status": "proved",
   "theorems": [
    "C05_first_read",
    "C05_read_is_stable",
    "C05_agrees_without_later_children",
    "C05_agreement_refuted",
    "C05_null_sector"
   ],
   "note": ""
  },
  {
   "property": "C06",
   "status": "proved",
   "theorems": [
    "C06_accepts_iff",
    "C06_rejects"
   ],
   "note": ""
  },
  {
   "property": "C07",
   "status": "proved",
   "theorems": [
    "C07_accepts_iff",
    "C07_errors",
    "C07_defined_coefficient_accepted_refuted"
   ],
   "note": ""
  },
  {
   "property": "C08",
   "status": "proved",
   "theorems": [
    "C08_values_roundtrip",
    "C08_read_mapping",
    "C08_read_plain",
    "C08_read_invalid",
    "C08_read_real",
    "C08_read",
    "C08_plain_iff_real",
    "C08_normalise_idempotent",
    "C08_normalise_same_number",
    "C08_distinct_numbers_distinct_values"
   ],
   "note": ""
  },
  {
   "property": "C09",
   "status": "proved",
   "theorems": [
    "C09_dump_load",
    "C09_formats",
    "C09_private_not_written",
    "C09_written"
   ],
   "note": "The theorems about texts assume that the YAML package returns each printable document with its keys in the same order. PyYAML sorts the keys of plain dicts when it writes (as documented: sort_keys), so for the real package this assumption fails for every coefficient file; the theorems then hold only for a printer that keeps the order. C75 has the theorems with only the same document up to the order of the keys. See DESIGN.md section 3."
  },
  {
   "property": "C10",
   "status": "proved",
   "theorems": [
    "C10_snapshot",
    "C10_before_first_read",
    "C10_failed_read"
   ],
   "note": ""
  },
  {
   "property": "C11",
   "status": "proved",
   "theorems": [
    "C11_translate",
    "C11_match",
    "C11_nonzero_entries",
    "C11_input_unchanged",
    "C11_registries"
   ],
   "note": ""
  },
  {
   "property": "C12",
   "status": "proved",
   "theorems": [
    "C12_translator_decorator",
    "C12_matcher_decorator",
    "C12_decorated_is_used"
   ],
   "note": ""
  },
  {
   "property": "C13",
   "status": "proved",
   "theorems": [
    "C13_exact",
    "C13_unregistered",
    "C13_chain",
    "C13_idempotent"
   ],
   "note": ""
  },
  {
   "property": "C14",
   "status": "proved",
   "theorems": [
    "C14_real_any_shape",
    "C14_symmetrize_symmetric"
   ],
   "note": ""
  },
  {
   "property": "C15",
   "status": "proved",
   "theorems": [
    "C15_symmetrize_fixes",
    "C15_idempotent"
   ],
   "note": ""
  },
  {
   "property": "C16",
   "status": "proved",
   "theorems": [
    "C16_reads_kept_entries",
    "C16_symmetric_arrays_determined",
    "C16_parameter_count"
   ],
   "note": ""
  },
  {
   "property": "C17",
   "status": "proved",
   "theorems": [
    "C17_symmetrize_dictionary",
    "C17_one_class"
   ],
   "note": ""
  },
  {
   "property": "C18",
   "status": "proved",
   "theorems": [
    "C18_arrays_roundtrip",
    "C18_no_name_twice",
    "C18_entry_names",
    "C18_names_roundtrip"
   ],
   "note": ""
  },
  {
   "property": "C19",
   "status": "proved",
   "theorems": [
    "C19_unknown_operator",
    "C19_index_outcome",
    "C19_one_bad_name",
    "C19_zero_is_three",
    "C19_truncated_index",
    "C19_scalar_index",
    "C19_scalar_index_dropped",
    "C19_all_illformed_rejected_refuted"
   ],
   "note": ""
  },
  {
   "property": "C20",
   "status": "proved",
   "theorems": [
    "C20_identity",
    "C20_compose",
    "C20_inverse",
    "C20_linear",
    "C20_fields",
    "C20_operator_unchanged"
   ],
   "note": ""
  },
  {
   "property": "C21",
   "status": "proved",
   "theorems": [
    "C21_rotation_keeps_symmetry"
   ],
   "note": ""
  },
  {
   "property": "C22",
   "status": "proved",
   "theorems": [
    "C22_up_down",
    "C22_down_up",
    "C22_total",
    "C22_restores",
    "C22_up_fields",
    "C22_down_fields"
   ],
   "note": ""
  },
  {
   "property": "C23",
   "status": "proved",
   "theorems": [
    "C23_parameters_ignored",
    "C23_parameters_used_refuted"
   ],
   "note": ""
  },
  {
   "property": "C24",
   "status": "proved",
   "theorems": [
    "C24_bad_index",
    "C24_one_bad_index",
    "C24_other_names",
    "C24_neutrino",
    "C24_warsawmass",
    "C24_recover"
   ],
   "note": ""
  },
  {
   "property": "C25",
   "status": "proved",
   "theorems": [
    "C25_nothing_from_nothing",
    "C25_defined",
    "C25_needed"
   ],
   "note": ""
  },
  {
   "property": "C26",
   "status": "proved",
   "theorems": [
    "C26_symmetric",
    "C26_nothing_lost",
    "C26_fierz_refuted"
   ],
   "note": ""
  },
  {
   "property": "C27",
   "status": "proved",
   "theorems": [
    "C27_rotated",
    "C27_defined",
    "C27_undone",
    "C27_same_names",
    "C27_unrotated_refuted",
    "C27_dipole_refuted"
   ],
   "note": ""
  },
  {
   "property": "C28",
   "status": "proved",
   "theorems": [
    "C28_detour",
    "C28_together",
    "C28_eos",
    "C28_errors",
    "C28_listing"
   ],
   "note": ""
  },
  {
   "property": "C29",
   "status": "proved",
   "theorems": [
    "C29_total",
    "C29_listed",
    "C29_completed",
    "C29_ignored",
    "C29_wrong_rank",
    "C29_scalar_and_indexed"
   ],
   "note": ""
  },
  {
   "property": "C30",
   "status": "proved",
   "theorems": [
    "C30_direct_equals_detour"
   ],
   "note": ""
  },
  {
   "property": "C31",
   "status": "proved",
   "theorems": [
    "C31_restored",
    "C31_sd_neutrinos_refuted"
   ],
   "note": ""
  },
  {
   "property": "C32",
   "status": "proved",
   "theorems": [
    "C32_restored",
    "C32_tensor_refuted"
   ],
   "note": ""
  },
  {
   "property": "C33",
   "status": "proved",
   "theorems": [
    "C33_JMS_additive",
    "C33_JMS_real",
    "C33_Bern_flavio_complex",
    "C33_zero"
   ],
   "note": ""
  },
  {
   "property": "C34",
   "status": "proved",
   "theorems": [
    "C34_JMS_flavour",
    "C34_Bern_flavio_flavour",
    "C34_formflavor_refuted"
   ],
   "note": ""
  },
  {
   "property": "C35",
   "status": "proved",
   "theorems": [
    "C35_same_names"
   ],
   "note": ""
  },
  {
   "property": "C36",
   "status": "proved",
   "theorems": [
    "C36_dipoles",
    "C36_neutrinos",
    "C36_average_refuted",
    "C36_charge_refuted"
   ],
   "note": ""
  },
  {
   "property": "C37",
   "status": "proved",
   "theorems": [
    "C37_equal",
    "C37_scalars",
    "C37_dipoles"
   ],
   "note": ""
  },
  {
   "property": "C38",
   "status": "proved",
   "theorems": [
    "C38_parity"
   ],
   "note": ""
  },
  {
   "property": "C39",
   "status": "proved",
   "theorems": [
    "C39_round_trip",
    "C39_values",
    "C39_no_collision",
    "C39_unknown",
    "C39_back",
    "C39_stale_mass_refuted",
    "C39_diagonal_refuted",
    "C39_indices"
   ],
   "note": ""
  },
  {
   "property": "C40",
   "status": "proved",
   "theorems": [
    "C40_ckm_mass",
    "C40_ckm_up",
    "C40_ckm_down",
    "C40_smeft_uses",
    "C40_matching_uses",
    "C40_ckm_wet",
    "C40_running",
    "C40_nothing_changed",
    "C40_defaults_kept",
    "C40_result",
    "C40_errors",
    "C40_total",
    "C40_unknown_ignored",
    "C40_translators",
    "C40_bad_scale"
   ],
   "note": ""
  },
  {
   "property": "C41",
   "status": "proved",
   "theorems": [
    "C41_meaning",
    "C41_bad_scale",
    "C41_bad_flavours",
    "C41_good",
    "C41_at_input",
    "C41_only_value_error",
    "C41_negative_scale_refuted",
    "C41_any_flavours_refuted",
    "C41_nan_scale_refuted"
   ],
   "note": ""
  },
  {
   "property": "C42",
   "status": "proved",
   "theorems": [
    "C42_transparent",
    "C42_no_wrong_number",
    "C42_size",
    "C42_float_flavours_refuted"
   ],
   "note": ""
  },
  {
   "property": "C43",
   "status": "proved",
   "theorems": [
    "C43_not_mapping",
    "C43_plain",
    "C43_real_part",
    "C43_imaginary_part",
    "C43_charged_current",
    "C43_no_coefficient",
    "C43_output",
    "C43_value",
    "C43_errors",
    "C43_relevant",
    "C43_sm_files",
    "C43_sm_fails",
    "C43_sm_no_metadata",
    "C43_tau_refuted"
   ],
   "note": ""
  },
  {
   "property": "C44",
   "status": "proved",
   "theorems": [
    "C44_labels",
    "C44_numbers",
    "C44_once",
    "C44_nothing_missing",
    "C44_phase"
   ],
   "note": ""
  },
  {
   "property": "C45",
   "status": "proved",
   "theorems": [
    "C45_determines",
    "C45_sign_lost",
    "C45_sign_refuted"
   ],
   "note": ""
  },
  {
   "property": "C46",
   "status": "proved",
   "theorems": [
    "C46_key_error",
    "C46_blocks",
    "C46_zero_dropped"
   ],
   "note": ""
  },
  {
   "property": "C47",
   "status": "proved",
   "theorems": [
    "C47_dispatch",
    "C47_status",
    "C47_help",
    "C47_other_files",
    "C47_failure_empties_output",
    "C47_attribute_error_refuted",
    "C47_formats",
    "C47_unknown_format_refuted",
    "C47_unparsable_refuted",
    "C47_validate_type_refuted",
    "C47_eos",
    "C47_eos_conflict",
    "C47_eos_no_directory",
    "C47_smeftsim_written",
    "C47_smeftsim",
    "C47_smeftsim_confirmed",
    "C47_smeftsim_no_answer",
    "C47_smeftsim_declined_refuted"
   ],
   "note": ""
  },
  {
   "property": "C48",
   "status": "proved",
   "theorems": [
    "C48_success",
    "C48_log",
    "C48_block",
    "C48_block_unique",
    "C48_block_empty",
    "C48_lines",
    "C48_document",
    "C48_terminates",
    "C48_no_log_refuted",
    "C48_directory_left_refuted",
    "C48_document_determines_formula"
   ],
   "note": ""
  },
  {
   "property": "C49",
   "status": "proved",
   "theorems": [
    "C49_tree_level",
    "C49_no_ckm",
    "C49_defined"
   ],
   "note": ""
  },
  {
   "property": "C50",
   "status": "proved",
   "theorems": [
    "C50_muon_decay"
   ],
   "note": ""
  },
  {
   "property": "C51",
   "status": "proved",
   "theorems": [
    "C51_missing_field",
    "C51_self",
    "C51_read_only",
    "C51_bad_scale",
    "C51_scale_kinds",
    "C51_eft",
    "C51_wc",
    "C51_basis",
    "C51_child",
    "C51_truth_scale",
    "C51_truth_value"
   ],
   "note": ""
  },
  {
   "property": "C52",
   "status": "proved",
   "theorems": [
    "C52_value",
    "C52_value_rest",
    "C52_defined",
    "C52_couplings"
   ],
   "note": ""
  },
  {
   "property": "C53",
   "status": "proved",
   "theorems": [
    "C53_start",
    "C53_charge",
    "C53_angle",
    "C53_z"
   ],
   "note": ""
  },
  {
   "property": "C54",
   "status": "proved",
   "theorems": [
    "C54_amplitudes",
    "C54_uniform_refuted"
   ],
   "note": ""
  },
  {
   "property": "C55",
   "status": "proved",
   "theorems": [
    "C55_amplitudes",
    "C55_tensor_refuted"
   ],
   "note": ""
  },
  {
   "property": "C56",
   "status": "proved",
   "theorems": [
    "C56_Bern_flavio",
    "C56_flavio_Bern"
   ],
   "note": ""
  },
  {
   "property": "C57",
   "status": "proved",
   "theorems": [
    "C57_amplitudes"
   ],
   "note": ""
  },
  {
   "property": "C58",
   "status": "proved",
   "theorems": [
    "C58_leptons",
    "C58_mixing",
    "C58_mixing_no_octets",
    "C58_mixing_refuted"
   ],
   "note": ""
  },
  {
   "property": "C59",
   "status": "proved",
   "theorems": [
    "C59_trajectory",
    "C59_charm_refuted"
   ],
   "note": ""
  },
  {
   "property": "C60",
   "status": "proved",
   "theorems": [
    "C60_Bern",
    "C60_flavio",
    "C60_EOS",
    "C60_formflavor_quarks",
    "C60_formflavor_leptons",
    "C60_Bern_flavio",
    "C60_flavio_Bern",
    "C60_leptons_refuted",
    "C60_generators"
   ],
   "note": ""
  },
  {
   "property": "C61",
   "status": "proved",
   "theorems": [
    "C61_means",
    "C61_coefficients",
    "C61_amplitudes_refuted",
    "C61_charm_only_refuted",
    "C61_ckm_weights_refuted",
    "C61_onto"
   ],
   "note": ""
  },
  {
   "property": "C62",
   "status": "proved",
   "theorems": [
    "C62_rows",
    "C62_all_wcs",
    "C62_fails_iff",
    "C62_validated_refuted",
    "C62_values",
    "C62_values_fails",
    "C62_document",
    "C62_file",
    "C62_determines",
    "C62_file_determines"
   ],
   "note": ""
  },
  {
   "property": "C63",
   "status": "proved",
   "theorems": [
    "C63_translations",
    "C63_matchings",
    "C63_detour",
    "C63_flavio_and_back",
    "C63_Bern_and_back",
    "C63_FlavorKit_flavio",
    "C63_FlavorKit_and_back"
   ],
   "note": ""
  },
  {
   "property": "C64",
   "status": "proved",
   "theorems": [
    "C64_same_fields",
    "C64_stays_light",
    "C64_fewer_flavio",
    "C64_fewer_Bern",
    "C64_fewer_Bern_flavio"
   ],
   "note": ""
  },
  {
   "property": "C65",
   "status": "proved",
   "theorems": [
    "C65_through_JMS",
    "C65_through_up",
    "C65_up_and_back",
    "C65_down_and_back",
    "C65_ckm_refuted"
   ],
   "note": ""
  },
  {
   "property": "C66",
   "status": "proved",
   "theorems": [
    "C66_compound_name",
    "C66_compound_eft",
    "C66_command",
    "C66_command_fails",
    "C66_unknown_format",
    "C66_chain",
    "C66_chain_text",
    "C66_in_place_refuted",
    "C66_dict_entry_refuted",
    "C66_method_entry",
    "C66_values_list_refuted",
    "C66_convert_json",
    "C66_convert_yaml",
    "C66_convert_and_back",
    "C66_convert_json_refuted",
    "C66_validate",
    "C66_detour",
    "C66_match"
   ],
   "note": "The theorems about texts assume that the YAML package returns each printable document with its keys in the same order. PyYAML sorts the keys of plain dicts when it writes (as documented: sort_keys), so for the real package this assumption fails for every coefficient file; the theorems then hold only for a printer that keeps the order. C75 has the theorems with only the same document up to the order of the keys. See DESIGN.md section 3."
  },
  {
   "property": "C67",
   "status": "proved",
   "theorems": [
    "C67_any_order",
    "C67_validation_any_order",
    "C67_sectors",
    "C67_always_imports_iff",
    "C67_only_value_error",
    "C67_conflicting_children",
    "C67_own_file_refuted",
    "C67_session_any_order",
    "C67_session_without_latex",
    "C67_runs_any_order"
   ],
   "note": ""
  },
  {
   "property": "C68",
   "status": "proved",
   "theorems": [
    "C68_eos",
    "C68_eos_stops",
    "C68_any_order",
    "C68_wrong_basis_refuted",
    "C68_home_in_prefix_refuted",
    "C68_smeftsim",
    "C68_from_JMS",
    "C68_from_SMEFT",
    "C68_translated_refuted",
    "C68_files",
    "C68_eoshome",
    "C68_names"
   ],
   "note": "The theorems about texts assume that the YAML package returns each printable document with its keys in the same order. PyYAML sorts the keys of plain dicts when it writes (as documented: sort_keys), so for the real package this assumption fails for every coefficient file; the theorems then hold only for a printer that keeps the order. C75 has the theorems with only the same document up to the order of the keys. See DESIGN.md section 3."
  },
  {
   "property": "C69",
   "status": "proved",
   "theorems": [
    "C69_defined",
    "C69_entries_once",
    "C69_blocks_once",
    "C69_blocks",
    "C69_same_parameters",
    "C69_same_values",
    "C69_strong_coupling_refuted",
    "C69_partners",
    "C69_yukawa",
    "C69_w_mass",
    "C69_reading",
    "C69_equal_numbers"
   ],
   "note": ""
  },
  {
   "property": "C70",
   "status": "proved",
   "theorems": [
    "C70_number",
    "C70_complex_number",
    "C70_printed",
    "C70_real",
    "C70_read_back",
    "C70_same_card",
    "C70_readable",
    "C70_pair_refuted",
    "C70_pairs",
    "C70_written",
    "C70_files"
   ],
   "note": ""
  },
  {
   "property": "C71",
   "status": "proved",
   "theorems": [
    "C71_accepted",
    "C71_any",
    "C71_unnamed_files",
    "C71_unknown",
    "C71_no_file",
    "C71_rejected_refuted",
    "C71_file_last_refuted",
    "C71_bare_output_refuted",
    "C71_nothing",
    "C71_eos",
    "C71_eos_any",
    "C71_smeftsim",
    "C71_smeftsim_any",
    "C71_smeftsim_no_file",
    "C71_smeftsim_braces_refuted",
    "C71_typed",
    "C71_typed_line",
    "C71_eos_help",
    "C71_smeftsim_help",
    "C71_converter_help_value",
    "C71_converter_dashed",
    "C71_help",
    "C71_command_help",
    "C71_help_value",
    "C71_command_help_value",
    "C71_dashed"
   ],
   "note": "The theorems about texts assume that the YAML package returns each printable document with its keys in the same order. PyYAML sorts the keys of plain dicts when it writes (as documented: sort_keys), so for the real package this assumption fails for every coefficient file; the theorems then hold only for a printer that keeps the order. C75 has the theorems with only the same document up to the order of the keys. See DESIGN.md section 3."
  },
  {
   "property": "C72",
   "status": "proved",
   "theorems": [
    "C72_hidden",
    "C72_basis_passes_iff",
    "C72_outcomes",
    "C72_unparsable",
    "C72_unknown_sector",
    "C72_duplicates",
    "C72_formulas",
    "C72_unknown_eft",
    "C72_unknown_parent",
    "C72_child_sectors",
    "C72_sectors_refuted",
    "C72_sector_refuted",
    "C72_entry_refuted",
    "C72_eft_passes_iff",
    "C72_eft_entries_refuted",
    "C72_basis_name_refuted",
    "C72_same_as_object",
    "C72_passed_is_usable"
   ],
   "note": ""
  },
  {
   "property": "C73",
   "status": "proved",
   "theorems": [
    "C73_validate",
    "C73_chain",
    "C73_chain_stops",
    "C73_chain_validate",
    "C73_chain_eos",
    "C73_chain_smeftsim"
   ],
   "note": "The theorems about texts assume that the YAML package returns each printable document with its keys in the same order. PyYAML sorts the keys of plain dicts when it writes (as documented: sort_keys), so for the real package this assumption fails for every coefficient file; the theorems then hold only for a printer that keeps the order. C75 has the theorems with only the same document up to the order of the keys. See DESIGN.md section 3."
  },
  {
   "property": "C74",
   "status": "proved",
   "theorems": [
    "C74_roundtrip",
    "C74_injective",
    "C74_ascii",
    "C74_escapes",
    "C74_cut_off",
    "C74_errors",
    "C74_fallback",
    "C74_numbers",
    "C74_grammar",
    "C74_block_yaml",
    "C74_duplicates",
    "C74_dump_load",
    "C74_chain"
   ],
   "note": "C74_chain only: the theorems about texts assume that the YAML package returns each printable document with its keys in the same order. PyYAML sorts the keys of plain dicts when it writes (as documented: sort_keys), so for the real package this assumption fails for every coefficient file; the theorems then hold only for a printer that keeps the order. C75 has the theorems with only the same document up to the order of the keys. See DESIGN.md section 3."
  },
  {
   "property": "C75",
   "status": "proved",
   "theorems": [
    "C75_alias_refuted",
    "C75_chain",
    "C75_chain_stops",
    "C75_chain_validate",
    "C75_chain_eos",
    "C75_chain_smeftsim",
    "C75_translate",
    "C75_match",
    "C75_package",
    "C75_fails",
    "C75_order_refuted",
    "C75_sorting"
   ],
   "note": "The theorems about chains suppose that each method called does not depend on the order of the coefficients (order_free); C75_package proves this for the installed translators and matchers. C75_order_refuted is the finding for FlavorKit names that the translator does not know."
  },
  {
   "property": "C76",
   "status": "proved",
   "theorems": [
    "C76_exact",
    "C76_terms",
    "C76_uniform",
    "C76_zero",
    "C76_detour",
    "C76_restored_flavio",
    "C76_restored_Bern",
    "C76_double",
    "C76_EOS",
    "C76_EOS_uniform",
    "C76_real_sub",
    "C76_FlavorKit",
    "C76_FlavorKit_copied",
    "C76_FlavorKit_restored",
    "C76_FlavorKit_flavio"
   ],
   "note": "Relative errors only: no overflow or underflow. The parameters at the scale and the CKM matrix are the same numbers on both sides, so their own errors are not counted (C77_rounded counts them). A square x**2 counts as a product. Not covered: SMEFT, matching."
  },
  {
   "property": "C77",
   "status": "proved",
   "theorems": [
    "C77_EOS_uniform",
    "C77_FlavorKit",
    "C77_terms",
    "C77_rounded",
    "C77_EOS",
    "C77_uniform",
    "C77_proportional"
   ],
   "note": "Changes of the input parameters enter through the parameters at the scale and the CKM elements they give; how those depend on the input parameters is not part of it."
  },
  {
   "property": "C78",
   "status": "proved",
   "theorems": [
    "C78_identifies",
    "C78_stable",
    "C78_identifies_refuted",
    "C78_values",
    "C78_values_refuted"
   ],
   "note": ""
  },
  {
   "property": "C79",
   "status": "proved",
   "theorems": [
    "C79_dump_load",
    "C79_rounds",
    "C79_coefficients",
    "C79_fields",
    "C79_registry",
    "C79_laws_met",
    "C79_order_refuted"
   ],
   "note": ""
  }
 ]
}