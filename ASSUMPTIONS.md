# What `Print Assumptions` lists for each theorem

Generated by `tools/assumptions.py` (389 theorems).

## Closed under the global context (no axiom)

`C01_last_write_wins`, `C01_written_value_is_kept`, `C02_one_row_per_position`, `C02_rows_never_lost`, `C02_nan_position_refuted`, `C03_columns_aligned`, `C04_csv_faithful_or_refused`, `C04_refused_export_leaves_first_rows`, `C05_fresh_runner_is_isolated`, `C05_reused_runner_refuted`, `C06_run_is_exportable`, `C06_fresh_run_never_fails_to_export`, `C07_step_bookkeeping`, `C08_early_stop_changes_nothing`, `C08_why_a_step_stops`, `C08_no_velocity_no_step`, `C08_finished_stays_finished`, `C09_unfinished_within_thresholds`, `C10_row_is_entry_state`, `C10_other_rows_untouched`, `C17_depth_and_flux_constant`, `C17_effusion_rate_constant`, `C17_first_step_sets_effusion_rate`, `C18_mass_mode_needs_effusion_rate`, `C28_product_any_arithmetic`, `C32_stop_criterion_any_arithmetic`, `C32_basal_stress_any_arithmetic`, `C34_melts_table_keeps_the_rest`, `C35_constant`, `C42_budget_is_the_sum`, `C42_logged_fluxes_add_up`, `C42_row_of_a_step`, `C44_no_flux_overwrites_another`, `C44_hand_made_budget_overwrites`, `C46_profile_filter`, `C46_malformed_slope`, `C46_malformed_kept_row`, `C46_dropped_rows_not_checked`, `C49_accepted_names_select_their_model`, `C49_accepted_names_select_their_fluxes`, `C49_other_names_refused`, `C49_documented_names_accepted`, `C49_name_error`, `C49_missing_sections`, `C49_only_name_errors`, `C49_undocumented_is_name_error`, `C49_snyder_conflict_is_name_error`, `C49_missing_selector`, `C49_missing_budget_section`, `C50_factory_budget`, `C51_missing_keys_reported`, `C51_nothing_happens_before_the_configuration_is_accepted`, `C51_failed_runs_write_nothing`, `C52_run_mode`, `C52_main_flowgo_mode`, `C52_entry_points_disagree`, `C53_written_where_announced`, `C53_paths_identify_runs`, `C53_different_integer_rates`, `C53_different_float_rates`, `C53_names_spelled`, `C53_main_flowgo_file`, `C54_rates_run`, `C54_rates_exist`, `C54_last_included`, `C54_stops_at_last_refuted`, `C54_other_files_untouched`, `C54_sweep_is_independent_runs`, `C54_template_in_output_folder`, `C54_template_preserved_refuted`, `C55_save_reads_every_field`, `C55_other_fields_untouched`, `C55_unedited_save_preserves_iff`, `C55_numbers_survive`, `C55_string_survives_iff`, `C55_others_become_text`, `C55_booleans_become_text`, `C55_unedited_save_preserves`, `C55_saving_switches_smoothing_off`, `C55_flat_document_cannot_be_edited`, `C55_new_entry_saved`, `C55_new_entry_effect`, `C55_new_entry_echoed_refuted`, `C55_new_entry_blocks_saving`, `C55_new_entry_meets_a_text`, `C55_text_blocks_saving`, `C55_dotted_key_collides`, `C55_save_writes_only_the_file`, `C55_new_entries_saved`, `C55_new_entries_effect`, `C55_second_save_changes_nothing`, `C55_value_kept_or_becomes_its_text`, `C55_saving_settles`, `C56_factory_never_loads_the_table`, `C59_models_agree`, `C59_configured_solidus`, `C60_run_outs_file`, `C60_run_outs_lines`, `C60_missing_file_named`, `C61_new_json_changes_two_keys`, `C61_refused_only_for_bad_templates`, `C65_parameters_come_from_their_keys`, `C66_other_entries_do_not_matter`, `C66_extra_top_level_entries`, `C66_melts_table_path_is_ignored`, `C66_crust_temperature_file_is_ignored`, `C66_crust_temperature_1_is_ignored`, `C67_limit_only_cuts`, `C68_drawable`, `C68_drawn_content`, `C68_one_bad_file_blocks_all`, `C68_label`, `C68_drawn_profile`, `C69_error_box_means_nothing_done`, `C69_sweep_success`, `C69_empty_range_is_not_reported_refuted`, `C69_success_means_a_rate`, `C69_single_success`, `C69_zero_step_is_not_reported_refuted`, `C69_not_a_number`, `C70_logger_is_write_only`, `C70_run_logs_the_same_calls`, `C70_replay_changes_nothing`, `C71_start_time_is_irrelevant`, `C71_configured_time_is_irrelevant`, `C71_editing_the_time_changes_nothing`, `C81_nothing_before_the_end`, `C81_template_can_be_lost`, `C81_editor_save_atomic_refuted`, `C83_same_while_inside`, `C84_csv_round_trip`, `C84_carriage_return_survives_refuted`, `C84_result_file_reads_back`, `C84_run_reads_back`, `C84_model_reads_the_text`, `C84_cut_short`, `C84_run_outs_read_back`, `C93_saved_text_is_ascii`

## `ClassicalDedekindReals.sig_forall_dec`

`C41_rain_flux`

## `FunctionalExtensionality.functional_extensionality_dep`

`C81_left_alone`, `C81_killed_run`, `C81_run_again`, `C81_sweep_left_alone`, `C81_killed_sweep`, `C81_sweep_again`, `C81_killed_editor`, `C82_concurrent_runs`, `C82_concurrent_sweeps`

## `Classical_Prop.classic`

`C92_reads_exactly_json`, `C92_one_meaning`, `C92_what_a_field_becomes`, `C92_text_kept_iff`, `C93_saved_value_reads_back`, `C93_text_determines_value`, `C93_loaded_value_is_writable`, `C93_resaved_file_reads_the_same`, `C93_template_with_entries_reads_back`, `C93_unicode_file_resaved`, `C93_edited_file_reads_back`

## `ClassicalDedekindReals.sig_forall_dec`, `FunctionalExtensionality.functional_extensionality_dep`

`C38_two_emissivities_between`, `C38_cont_in_range`, `C38_cont_negative_when_hot`, `C38_lin_formula`, `C41_effective_temperature_between`, `C47_even_window`, `C60_rounding_error`, `C75_bll_regime`

## `ClassicalDedekindReals.sig_forall_dec`, `ClassicalDedekindReals.sig_not_dec`, `FunctionalExtensionality.functional_extensionality_dep`

`C76_radiance_between`

## `ClassicalDedekindReals.sig_forall_dec`, `ClassicalDedekindReals.sig_not_dec`, `Classical_Prop.classic`, `FunctionalExtensionality.functional_extensionality_dep`

`C11_run_terminates`, `C11_bound_known_in_advance`, `C11_run_always_ends`, `C12_step_grows_crystals`, `C12_crystals_only_grow`, `C13_increment_is_rate_times_cooling`, `C13_constant_rate_invariant`, `C13_crystals_bounded_while_unfinished`, `C14_energy_balance`, `C15_volume_conservation`, `C15_volume_conserved_along_run`, `C16_mass_conservation`, `C16_mass_conserved_along_run`, `C19_depth_grid`, `C19_last_depth`, `C19_search_result`, `C19_no_search_without_target`, `C19_depth_where_lava_cannot_flow_refuted`, `C20_velocity_is_jeffreys`, `C20_velocity_only_if`, `C20_never_fails_to_converge`, `C20_state_after`, `C21_consistent_when_strain_free`, `C21_which_models_are_strain_free`, `C21_strain_dependent_refuted`, `C22_velocity_sign`, `C22_moves_above_yield_refuted`, `C23_velocity_monotone`, `C23_deeper_is_faster`, `C24_relative_viscosity`, `C24_mader_newtonian`, `C24_bll_newtonian`, `C25_er_sound`, `C25_sound_off_the_limit`, `C25_packing_limit_refuted`, `C25_bll_sound_with_bubbles`, `C25_bll_bubble_free_refuted`, `C25_mader_defined`, `C25_mader_beyond_packing_refuted`, `C26_melt_viscosity`, `C26_melt_formulas`, `C26_singular_temperature`, `C27_bubbles_direction`, `C27_bubbles_monotone`, `C27_mader_switch`, `C27_all_bubbles`, `C28_bulk_viscosity_product`, `C28_bulk_viscosity_positive`, `C28_bulk_viscosity_undefined`, `C29_vesicles_defined`, `C29_vesicles_not_negative`, `C29_variable`, `C29_variable_range`, `C29_poly`, `C29_poly_range`, `C29_bimodal`, `C29_variable_bimodal`, `C29_variable_bimodal_refuted`, `C30_density_range`, `C30_density_decreasing`, `C30_density_downstream`, `C31_yield_formulas`, `C31_yield_grows_with_crystals`, `C31_yield_grows_with_cooling`, `C31_negative_crystals`, `C31_bll_ignores_configured_bubbles`, `C32_basal_stress`, `C32_stop_criterion`, `C32_no_slope_no_flow`, `C33_costa_other_parameter`, `C33_costa_defined`, `C33_costa_no_crystals`, `C34_basic_rate`, `C34_basic_degenerate`, `C34_bimodal_rate`, `C34_bimodal_f_temp_rate`, `C34_melts_rate`, `C34_melts_rate_on_segment`, `C34_basic_total_growth`, `C34_melts_table`, `C35_hon`, `C35_hon_decreasing`, `C35_hon_after_one_hour`, `C35_bimodal`, `C35_field`, `C35_hon_first_step_fails`, `C35_hr2001`, `C36_cover_formula`, `C36_cover_is_a_fraction`, `C36_cover_decreases_with_velocity`, `C37_radiative_flux`, `C37_radiative_flux_undefined`, `C37_radiative_flux_nonneg`, `C38_logged_emissivity`, `C39_conv_temperature_is_a_mean_refuted`, `C39_conv_temperature_bounds`, `C39_convective_flux`, `C40_conductive_flux`, `C40_conductive_flux_undefined`, `C40_sign`, `C40_monotone`, `C41_snyder_flux`, `C41_snyder_positive_and_increasing`, `C43_viscous_term`, `C43_viscous_heating_warms_refuted`, `C45_flux_linear_in_width`, `C45_budget_linear_in_width`, `C46_profile_exact`, `C47_running_mean`, `C47_mean_between`, `C47_constant_profile`, `C47_small_window_identity`, `C47_negative_window_refuted`, `C47_file_to_smoothed_slope`, `C47_smoothing_switch`, `C48_between_neighbours`, `C48_before_first`, `C48_from_last_on`, `C48_through_points`, `C48_within_bounds`, `C48_defined_everywhere`, `C48_file_to_slope`, `C48_extrapolation_refuted`, `C56_melts_step_is_nan`, `C56_melts_run_is_nan`, `C56_melts_at_most_one_step`, `C56_first_step_divides_by_zero`, `C56_no_result`, `C57_fails_only_when_packed`, `C57_valid_run`, `C57_configuration_fails_only_when_packed`, `C57_valid_configuration_runs`, `C58_positions_never_decrease`, `C58_table_in_order`, `C58_absorbed_step`, `C58_run_terminates`, `C58_table_exportable`, `C58_endless_run_is_nan`, `C58_loop_ends_or_nan`, `C58_nan_raises`, `C58_every_run_ends`, `C60_run_out_line`, `C60_needs_two_complete_rows`, `C60_run_out_of_a_run`, `C60_from_the_vent_run_out_is_sound`, `C60_reported_run_out_was_reached_refuted`, `C60_lines_of_a_sweep`, `C62_table_of_a_run`, `C62_positions_increase`, `C63_stops_for_a_reason_or_packed`, `C63_flow_stops_for_a_reason`, `C64_initial_state`, `C67_shorter_channel_is_a_prefix`, `C67_shorter_csv_is_a_prefix`, `C68_drawable_run`, `C68_run_and_plot`, `C68_no_plot_without_convection`, `C68_short_run_blocks_sweep`, `C68_sweep_complete`, `C68_drawn_and_simulated_profile`, `C69_fractions_dropped`, `C69_small_steps_refuted`, `C69_overflowing_entry_not_reported_refuted`, `C70_rows_of_other_positions`, `C70_second_run_is_idempotent`, `C72_every_row_balances`, `C72_rows_follow_one_another`, `C72_fluxes_add_up_in_every_row`, `C73_cooling_adds_up`, `C73_energy_balance`, `C73_energy_balance_constant_density`, `C73_energy_balance_constant_vesicles`, `C73_travel_time`, `C74_wider_simulation`, `C74_columns`, `C74_rest_of_the_world`, `C74_wider_configuration`, `C75_newtonian_models`, `C75_crystals_and_bubbles`, `C75_costa_models`, `C75_mader`, `C75_mader_shear_thinning`, `C75_bll`, `C75_bll_against_newtonian`, `C75_bll_all_gas`, `C76_every_column_recomputed`, `C76_planck_increasing`, `C76_radiance_at_most_that_of_lava_refuted`, `C77_resume`, `C77_resume_from_the_row_alone`, `C78_row_balances`, `C78_step_advances`, `C78_temperature_accumulates`, `C78_positions_exact`, `C79_refining_the_step`, `C79_error_proportional_to_step`, `C80_smaller_losses_flow_further`, `C80_milder_conditions_flow_further`, `C82_shared_folder_refuted`, `C83_downstream_does_not_matter`, `C83_slope_before_the_change`, `C83_slope_file_downstream`, `C84_cut_is_noticed_refuted`, `C85_far_settings_apply_far`, `C86_larger_rate_deeper_channel`, `C86_deeper_channel_flows_further`, `C86_larger_rate_flows_further`, `C87_finer_steps_flow_as_far`, `C87_results_converge`, `C88_more_mobile_flows_further`, `C88_steeper_ground_flows_further`, `C88_steeper_profile_flows_further`, `C88_thinner_melt_flows_further`, `C89_fewer_crystals_flow_further`, `C90_small_errors_stay_small`, `C90_small_errors_in_the_file`, `C90_slightly_other_vent_flows_as_far`, `C91_small_errors_in_the_losses`, `C91_small_errors_in_the_parameters`, `C91_slightly_other_losses_flow_as_far`, `C91_slightly_other_parameters_flow_as_far`
