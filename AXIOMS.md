# Axioms used by each theorem

Written by `tools/mkaxioms.py` from `Print Assumptions`.

## none (closed under the global context)

C01_base_class_isolation_refuted, C01_classes_independent, C01_delete, C01_enumeration, C01_lookup, C01_recreate_keeps_order, C02_known_bases, C02_known_translators_from, C02_known_translators_of_eft, C02_known_translators_to, C02_untouched, C03_failed_str, C03_failure_state, C03_no_side_effect_refuted, C03_rejected_iff, C04_child_effect, C04_delete, C04_family_shares_sectors, C04_isolation_refuted, C04_only_children_change_sectors, C04_sectors_of_family, C04_unchanged_iff, C05_agreement_refuted, C05_agrees_without_later_children, C05_first_read, C05_null_sector, C05_read_is_stable, C06_accepts_iff, C06_rejects, C07_accepts_iff, C07_defined_coefficient_accepted_refuted, C07_errors, C09_formats, C09_private_not_written, C09_written, C11_registries, C12_matcher_decorator, C12_translator_decorator, C13_chain, C13_exact, C13_idempotent, C13_unregistered, C17_one_class, C39_indices, C44_once, C47_attribute_error_refuted, C47_dispatch, C47_eos, C47_eos_conflict, C47_eos_no_directory, C47_failure_empties_output, C47_formats, C47_help, C47_other_files, C47_smeftsim, C47_smeftsim_confirmed, C47_smeftsim_declined_refuted, C47_smeftsim_no_answer, C47_smeftsim_written, C47_status, C47_unknown_format_refuted, C47_unparsable_refuted, C47_validate_type_refuted, C48_block, C48_block_empty, C48_block_unique, C48_directory_left_refuted, C48_document, C48_document_determines_formula, C48_lines, C48_log, C48_no_log_refuted, C48_success, C48_terminates, C62_all_wcs, C62_determines, C62_document, C62_fails_iff, C62_rows, C62_validated_refuted, C67_always_imports_iff, C67_any_order, C67_conflicting_children, C67_only_value_error, C67_own_file_refuted, C67_sectors, C67_validation_any_order, C68_eoshome, C68_files, C68_names, C69_blocks, C69_defined, C69_entries_once, C69_partners, C69_reading, C69_same_parameters, C69_same_values, C69_strong_coupling_refuted, C69_yukawa, C71_accepted, C71_any, C71_bare_output_refuted, C71_command_help, C71_command_help_value, C71_dashed, C71_eos, C71_eos_any, C71_file_last_refuted, C71_help, C71_help_value, C71_no_file, C71_nothing, C71_rejected_refuted, C71_unknown, C71_unnamed_files, C74_ascii, C74_block_yaml, C74_cut_off, C74_duplicates, C74_errors, C74_escapes, C74_fallback, C74_grammar, C74_injective, C74_numbers, C74_roundtrip, C75_sorting, C78_identifies, C78_identifies_refuted, C78_stable, C78_values, C79_laws_met, C79_registry

## `ClassicalDedekindReals.sig_forall_dec`

C08_read, C08_read_invalid, C08_read_mapping, C08_read_plain, C08_read_real, C09_dump_load, C10_before_first_read, C10_failed_read, C10_snapshot, C14_real_any_shape, C18_entry_names, C18_no_name_twice, C19_all_illformed_rejected_refuted, C19_index_outcome, C19_one_bad_name, C19_scalar_index, C19_truncated_index, C19_unknown_operator, C19_zero_is_three, C27_defined, C27_same_names, C29_completed, C29_ignored, C29_listed, C29_scalar_and_indexed, C29_total, C29_wrong_rank, C43_tau_refuted, C51_bad_scale, C51_basis, C51_child, C51_eft, C51_missing_field, C51_read_only, C51_scale_kinds, C51_self, C51_truth_scale, C51_truth_value, C51_wc, C62_file, C62_file_determines, C62_values, C62_values_fails, C70_pairs, C71_converter_dashed, C71_converter_help_value, C71_eos_help, C71_smeftsim, C71_smeftsim_any, C71_smeftsim_braces_refuted, C71_smeftsim_help, C71_smeftsim_no_file, C74_dump_load, C78_values_refuted, C79_coefficients, C79_dump_load, C79_fields, C79_order_refuted, C79_rounds

## `ClassicalDedekindReals.sig_forall_dec`, `ClassicalDedekindReals.sig_not_dec`, `Classical_Prop.classic`, `FunctionalExtensionality.functional_extensionality_dep`

C44_labels, C44_numbers, C44_phase, C45_determines, C45_sign_lost, C45_sign_refuted, C46_blocks, C46_key_error, C46_zero_dropped, C68_smeftsim, C68_translated_refuted, C69_blocks_once, C69_w_mass, C70_complex_number, C70_files, C70_number, C70_pair_refuted, C70_printed, C70_read_back, C70_readable, C70_same_card, C73_chain, C73_chain_eos, C73_chain_smeftsim, C73_chain_stops, C73_chain_validate, C73_validate, C74_chain, C75_chain, C75_chain_eos, C75_chain_smeftsim, C75_chain_stops, C75_chain_validate

## `ClassicalDedekindReals.sig_forall_dec`, `ClassicalDedekindReals.sig_not_dec`, `Classical_Prop.classic`, `functional_extensionality_dep`

C67_runs_any_order, C67_session_any_order, C67_session_without_latex

## `ClassicalDedekindReals.sig_forall_dec`, `ClassicalDedekindReals.sig_not_dec`, `FunctionalExtensionality.functional_extensionality_dep`

C25_defined, C25_needed, C25_nothing_from_nothing, C26_fierz_refuted, C26_nothing_lost, C26_symmetric, C27_dipole_refuted, C28_detour, C28_eos, C28_errors, C28_listing, C28_together, C30_direct_equals_detour, C31_restored, C31_sd_neutrinos_refuted, C32_restored, C32_tensor_refuted, C33_Bern_flavio_complex, C33_JMS_additive, C33_JMS_real, C33_zero, C34_Bern_flavio_flavour, C34_JMS_flavour, C34_formflavor_refuted, C35_same_names, C36_average_refuted, C36_charge_refuted, C36_dipoles, C36_neutrinos, C37_dipoles, C37_equal, C37_scalars, C38_parity, C39_back, C39_diagonal_refuted, C39_no_collision, C39_round_trip, C39_stale_mass_refuted, C39_unknown, C39_values, C49_defined, C49_no_ckm, C49_tree_level, C50_muon_decay, C52_couplings, C52_defined, C52_value, C52_value_rest, C53_angle, C53_charge, C53_start, C53_z, C54_amplitudes, C54_uniform_refuted, C55_amplitudes, C55_tensor_refuted, C56_Bern_flavio, C56_flavio_Bern, C57_amplitudes, C58_leptons, C58_mixing, C58_mixing_no_octets, C58_mixing_refuted, C60_Bern, C60_Bern_flavio, C60_EOS, C60_flavio, C60_flavio_Bern, C60_formflavor_leptons, C60_formflavor_quarks, C60_generators, C60_leptons_refuted, C61_amplitudes_refuted, C61_charm_only_refuted, C61_ckm_weights_refuted, C61_coefficients, C61_means, C61_onto, C63_Bern_and_back, C63_FlavorKit_and_back, C63_FlavorKit_flavio, C63_detour, C63_flavio_and_back, C63_matchings, C63_translations, C64_fewer_Bern, C64_fewer_Bern_flavio, C64_fewer_flavio, C64_same_fields, C64_stays_light, C65_ckm_refuted, C65_down_and_back, C65_through_JMS, C65_through_up, C65_up_and_back, C66_detour, C66_match, C68_from_JMS, C68_from_SMEFT, C75_fails, C75_match, C75_order_refuted, C75_package, C75_translate, C76_EOS, C76_EOS_case, C76_EOS_uniform, C76_FlavorKit, C76_FlavorKit_case, C76_FlavorKit_copied, C76_FlavorKit_flavio, C76_FlavorKit_restored, C76_case, C76_detour, C76_double, C76_exact, C76_real_sub, C76_restored_Bern, C76_restored_flavio, C76_terms, C76_uniform, C76_zero, C77_EOS, C77_EOS_case, C77_EOS_uniform, C77_FlavorKit, C77_case, C77_proportional, C77_rounded, C77_terms, C77_uniform

## `ClassicalDedekindReals.sig_forall_dec`, `ClassicalDedekindReals.sig_not_dec`, `functional_extensionality_dep`

C40_matching_uses, C75_alias_refuted

## `ClassicalDedekindReals.sig_forall_dec`, `FunctionalExtensionality.functional_extensionality_dep`

C08_distinct_numbers_distinct_values, C08_normalise_idempotent, C08_normalise_same_number, C08_plain_iff_real, C08_values_roundtrip, C11_input_unchanged, C11_match, C11_nonzero_entries, C11_translate, C12_decorated_is_used, C14_symmetrize_symmetric, C15_idempotent, C15_symmetrize_fixes, C16_parameter_count, C16_reads_kept_entries, C16_symmetric_arrays_determined, C17_symmetrize_dictionary, C18_arrays_roundtrip, C18_names_roundtrip, C19_scalar_index_dropped, C20_compose, C20_fields, C20_identity, C20_inverse, C20_linear, C20_operator_unchanged, C21_rotation_keeps_symmetry, C22_down_fields, C22_down_up, C22_restores, C22_total, C22_up_down, C22_up_fields, C23_parameters_ignored, C23_parameters_used_refuted, C24_recover, C24_warsawmass, C27_rotated, C27_undone, C27_unrotated_refuted, C40_bad_scale, C40_defaults_kept, C40_errors, C40_nothing_changed, C40_result, C40_total, C40_translators, C40_unknown_ignored, C41_any_flavours_refuted, C41_at_input, C41_bad_flavours, C41_bad_scale, C41_good, C41_meaning, C41_nan_scale_refuted, C41_negative_scale_refuted, C41_only_value_error, C42_float_flavours_refuted, C42_no_wrong_number, C42_size, C42_transparent, C43_charged_current, C43_errors, C43_imaginary_part, C43_no_coefficient, C43_not_mapping, C43_output, C43_plain, C43_real_part, C43_relevant, C43_sm_fails, C43_sm_files, C43_sm_no_metadata, C43_value, C44_nothing_missing, C59_charm_refuted, C59_trajectory, C66_chain, C66_chain_text, C66_command, C66_command_fails, C66_compound_eft, C66_compound_name, C66_convert_and_back, C66_convert_json, C66_convert_json_refuted, C66_convert_yaml, C66_dict_entry_refuted, C66_in_place_refuted, C66_method_entry, C66_unknown_format, C66_validate, C66_values_list_refuted, C68_any_order, C68_eos, C68_eos_stops, C68_home_in_prefix_refuted, C68_wrong_basis_refuted, C69_equal_numbers, C70_real, C70_written, C71_typed, C71_typed_line, C72_basis_name_refuted, C72_basis_passes_iff, C72_child_sectors, C72_duplicates, C72_eft_entries_refuted, C72_eft_passes_iff, C72_entry_refuted, C72_formulas, C72_outcomes, C72_passed_is_usable, C72_same_as_object, C72_sector_refuted, C72_sectors_refuted, C72_unknown_eft, C72_unknown_parent, C72_unknown_sector, C72_unparsable

## `ClassicalDedekindReals.sig_forall_dec`, `functional_extensionality_dep`

C24_bad_index, C24_neutrino, C24_one_bad_index, C24_other_names, C40_ckm_down, C40_ckm_mass, C40_ckm_up, C40_ckm_wet, C40_running, C40_smeft_uses, C72_hidden
