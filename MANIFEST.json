{
 "claims": [
  {
   "property": "C01",
   "status": "proved",
   "theorems": [
    "C01_emf_pH_mutually_inverse",
    "C01_refuted_at_absolute_zero",
    "C01_nernst"
   ],
   "note": "Nernst equation plus all four round trips; C01_refuted_at_absolute_zero only shows that the temperature hypothesis is needed."
  },
  {
   "property": "C02",
   "status": "proved",
   "theorems": [
    "C02_pH_decreasing_and_offset_free"
   ],
   "note": ""
  },
  {
   "property": "C03",
   "status": "proved",
   "theorems": [
    "C03_f_factor_is_emf0_shift"
   ],
   "note": ""
  },
  {
   "property": "C04",
   "status": "proved",
   "theorems": [
    "C04_dilution_factor",
    "C04_dilution_composes"
   ],
   "note": ""
  },
  {
   "property": "C05",
   "status": "proved",
   "theorems": [
    "C05_dilution_conserves_moles",
    "C05_H2SO4_adds_exactly_the_sulfate"
   ],
   "note": ""
  },
  {
   "property": "C06",
   "status": "proved",
   "theorems": [
    "C06_H2SO4_is_dilution_plus_titrant_sulfate"
   ],
   "note": ""
  },
  {
   "property": "C07",
   "status": "proved",
   "theorems": [
    "C07_pyco2_dilutes_exactly_the_ten_salts"
   ],
   "note": ""
  },
  {
   "property": "C08",
   "status": "partial",
   "theorems": [
    "C08_refuted",
    "C08_seven_salts_partial",
    "C08_other_three_never_diluted"
   ],
   "note": "False of the code for total_alpha, total_beta and total_calcium: C08_refuted, and for every titration C08_other_three_never_diluted. The seven other salts: C08_seven_salts_partial."
  },
  {
   "property": "C09",
   "status": "proved",
   "theorems": [
    "C09_titrant_units_interchangeable"
   ],
   "note": ""
  },
  {
   "property": "C10",
   "status": "proved",
   "theorems": [
    "C10_mass_takes_precedence",
    "C10_neither_raises",
    "C10_bad_unit_or_titrant_raises",
    "C10_mass_from_volume"
   ],
   "note": ""
  },
  {
   "property": "C11",
   "status": "proved",
   "theorems": [
    "C11_temperature_override"
   ],
   "note": ""
  },
  {
   "property": "C12",
   "status": "proved",
   "theorems": [
    "C12_HCl_NaCl_density",
    "C12_defaults",
    "C12_zero_raises"
   ],
   "note": ""
  },
  {
   "property": "C13",
   "status": "proved",
   "theorems": [
    "C13_seawater_warnings",
    "C13_seawater_density_range",
    "C13_unesco_check_values"
   ],
   "note": "Warnings, range and agreement with the published UNESCO check values."
  },
  {
   "property": "C14",
   "status": "proved",
   "theorems": [
    "C14_H2SO4_warning",
    "C14_H2SO4_density_increasing"
   ],
   "note": ""
  },
  {
   "property": "C15",
   "status": "proved",
   "theorems": [
    "C15_carbonate_speciation"
   ],
   "note": ""
  },
  {
   "property": "C16",
   "status": "proved",
   "theorems": [
    "C16_species_bounds"
   ],
   "note": ""
  },
  {
   "property": "C17",
   "status": "proved",
   "theorems": [
    "C17_monoprotic",
    "C17_phosphate"
   ],
   "note": ""
  },
  {
   "property": "C18",
   "status": "proved",
   "theorems": [
    "C18_alkalinity_increases_with_pH"
   ],
   "note": ""
  },
  {
   "property": "C19",
   "status": "proved",
   "theorems": [
    "C19_unique_pH"
   ],
   "note": ""
  },
  {
   "property": "C20",
   "status": "proved",
   "theorems": [
    "C20_components_do_not_depend_on_scale"
   ],
   "note": ""
  },
  {
   "property": "C21",
   "status": "partial",
   "theorems": [
    "C21_scale_difference_partial",
    "C21_scales_disagree_refuted"
   ],
   "note": "False of the code in general: C21_scales_disagree_refuted (total and free scale use different HSO4 conventions). The exact size of the disagreement: C21_scale_difference_partial."
  },
  {
   "property": "C22",
   "status": "proved",
   "theorems": [
    "C22_zero_totals_can_be_dropped"
   ],
   "note": ""
  },
  {
   "property": "C23",
   "status": "proved",
   "theorems": [
    "C23_raises_exactly_when",
    "C23_multipliers_complete",
    "C23_which_exception"
   ],
   "note": ""
  },
  {
   "property": "C24",
   "status": "proved",
   "theorems": [
    "C24_extra_acids"
   ],
   "note": ""
  },
  {
   "property": "C25",
   "status": "proved",
   "theorems": [
    "C25_gran_alkalinity_exact"
   ],
   "note": ""
  },
  {
   "property": "C26",
   "status": "proved",
   "theorems": [
    "C26_gran_emf0_and_pH_exact"
   ],
   "note": ""
  },
  {
   "property": "C27",
   "status": "proved",
   "theorems": [
    "C27_points_used",
    "C27_legacy_subset_of_default",
    "C27_raises"
   ],
   "note": ""
  },
  {
   "property": "C28",
   "status": "proved",
   "theorems": [
    "C28_gran_emf_offset"
   ],
   "note": ""
  },
  {
   "property": "C29",
   "status": "partial",
   "theorems": [
    "C29_double_solve_refuted",
    "C29_calibration_ignores_gran_logic",
    "C29_single_solve_uses_requested_logic_partial",
    "C29_double_solve_reports_default_logic",
    "C29_files_solve_partial"
   ],
   "note": "False of the code when double=True: the second solve drops gran_logic (C29_double_solve_refuted; what is reported instead: C29_double_solve_reports_default_logic). With a single solve the requested logic is used: C29_single_solve_uses_requested_logic_partial, and through files.solve C29_files_solve_partial. A calibration has no such setting and always uses the default: C29_calibration_ignores_gran_logic."
  },
  {
   "property": "C30",
   "status": "proved",
   "theorems": [
    "C30_solve_pH_exact"
   ],
   "note": ""
  },
  {
   "property": "C31",
   "status": "proved",
   "theorems": [
    "C31_used_is_closed_window",
    "C31_other_points_are_irrelevant",
    "C31_gran_other_points_are_irrelevant",
    "C31_window_must_be_ordered",
    "C31_window_in_binary64"
   ],
   "note": ""
  },
  {
   "property": "C32",
   "status": "proved",
   "theorems": [
    "C32_alkalinity_is_mean_of_used"
   ],
   "note": ""
  },
  {
   "property": "C33",
   "status": "proved",
   "theorems": [
    "C33_one_molinity_fits",
    "C33_self_calibration"
   ],
   "note": ""
  },
  {
   "property": "C34",
   "status": "proved",
   "theorems": [
    "C34_pH_gran_exact",
    "C34_pH_gran_proportional",
    "C34_self_calibration"
   ],
   "note": ""
  },
  {
   "property": "C35",
   "status": "proved",
   "theorems": [
    "C35_truth_zeroes_residual"
   ],
   "note": ""
  },
  {
   "property": "C36",
   "status": "proved",
   "theorems": [
    "C36_zero_residual_means_agreement"
   ],
   "note": ""
  },
  {
   "property": "C37",
   "status": "proved",
   "theorems": [
    "C37_double_is_two_single_solves"
   ],
   "note": ""
  },
  {
   "property": "C38",
   "status": "proved",
   "theorems": [
    "C38_used_is_window_at_start",
    "C38_used_can_differ_from_returned_pH"
   ],
   "note": ""
  },
  {
   "property": "C39",
   "status": "proved",
   "theorems": [
    "C39_residual_offset_invariant",
    "C39_solve_emf_offset"
   ],
   "note": ""
  },
  {
   "property": "C40",
   "status": "proved",
   "theorems": [
    "C40_solve_pH_mass_scaling",
    "C40_solve_pH_gran_mass_scaling",
    "C40_solve_emf_mass_scaling"
   ],
   "note": ""
  },
  {
   "property": "C41",
   "status": "proved",
   "theorems": [
    "C41_amounts_added",
    "C41_bad_names_raise",
    "C41_which_exception"
   ],
   "note": ""
  },
  {
   "property": "C42",
   "status": "proved",
   "theorems": [
    "C42_any_solver",
    "C42_calibrations_restore_totals"
   ],
   "note": ""
  },
  {
   "property": "C43",
   "status": "partial",
   "theorems": [
    "C43_drift_is_bounded_partial",
    "C43_totals_drift_refuted",
    "C43_no_titrant_totals_partial"
   ],
   "note": "False of the code: adding the titrant's contribution to the totals and then subtracting it does not restore binary64 values, so a calibration leaves other totals behind (C43_totals_drift_refuted). How far they can move, for every history of the optimiser (4 N 2^-53 (A + B) after N evaluations): C43_drift_is_bounded_partial. Without titrant totals nothing is written, in binary64 too: C43_no_titrant_totals_partial."
  },
  {
   "property": "C44",
   "status": "partial",
   "theorems": [
    "C44_failed_calibration_refuted",
    "C44_no_titrant_totals_partial",
    "C44_what_a_failure_leaves_partial",
    "C44_empty_window_leaves_titrant"
   ],
   "note": "False of the code with titrant totals: C44_failed_calibration_refuted, and with an empty window always (C44_empty_window_leaves_titrant). What a failure can leave behind: C44_what_a_failure_leaves_partial. True when no titrant_total_* is given: C44_no_titrant_totals_partial."
  },
  {
   "property": "C45",
   "status": "partial",
   "theorems": [
    "C45_total_scale_refuted",
    "C45_without_sulfate_partial"
   ],
   "note": "False of the code on the Total scale with sulfate: C45_total_scale_refuted. True without sulfate: C45_without_sulfate_partial."
  },
  {
   "property": "C46",
   "status": "proved",
   "theorems": [
    "C46_solve_uses_chosen_settings",
    "C46_calibrate_uses_chosen_settings",
    "C46_row_value_wins",
    "C46_kwarg_fills_null_cell",
    "C46_null_cell_is_no_cell",
    "C46_unrecognised_kwarg_has_no_effect",
    "C46_default_values"
   ],
   "note": ""
  },
  {
   "property": "C47",
   "status": "partial",
   "theorems": [
    "C47_pH_range",
    "C47_read_dat_kwargs",
    "C47_read_dat_method",
    "C47_read_dat_method_in_row",
    "C47_null_read_dat_method_refuted"
   ],
   "note": "Proved for pH_range, read_dat_kwargs and given methods; false of the code for a null read_dat_method in the row: C47_null_read_dat_method_refuted."
  },
  {
   "property": "C48",
   "status": "proved",
   "theorems": [
    "C48_extra_columns_ignored"
   ],
   "note": ""
  },
  {
   "property": "C49",
   "status": "partial",
   "theorems": [
    "C49_gran_logic_is_reported",
    "C49_gran_logic_refuted",
    "C49_reported_is_ignored_partial",
    "C49_unreported_is_recognised",
    "C49_read_dat_method_refuted"
   ],
   "note": "False of the code: keywords reported as not recognised may be used (C49_read_dat_method_refuted, C49_gran_logic_refuted; gran_logic is always reported, C49_gran_logic_is_reported). Keywords outside the lists are indeed ignored (C49_reported_is_ignored_partial) and none goes unreported (C49_unreported_is_recognised)."
  },
  {
   "property": "C50",
   "status": "proved",
   "theorems": [
    "C50_mode_is_case_insensitive",
    "C50_other_modes_raise",
    "C50_pH_adjust_ignores_emf0_init",
    "C50_mode_selects_solver",
    "C50_mode_selects_calibrator"
   ],
   "note": ""
  },
  {
   "property": "C51",
   "status": "proved",
   "theorems": [
    "C51_rows_independent",
    "C51_split",
    "C51_permute",
    "C51_solve_never_raises"
   ],
   "note": ""
  },
  {
   "property": "C52",
   "status": "proved",
   "theorems": [
    "C52_solve_ignores_bad_files",
    "C52_calibrate_ignores_bad_files"
   ],
   "note": ""
  },
  {
   "property": "C53",
   "status": "proved",
   "theorems": [
    "C53_batch_mean",
    "C53_batch_mean_real",
    "C53_other_batches_irrelevant"
   ],
   "note": ""
  },
  {
   "property": "C54",
   "status": "partial",
   "theorems": [
    "C54_calibrate_completes_partial",
    "C54_null_batch_stops_everything",
    "C54_null_batch_refuted"
   ],
   "note": "False of the code when analysis_batch is null: C54_null_batch_refuted. Otherwise calibrate completes: C54_calibrate_completes_partial."
  },
  {
   "property": "C55",
   "status": "proved",
   "theorems": [
    "C55_solve_idempotent",
    "C55_calibrate_idempotent",
    "C55_calkulate_is_calibrate"
   ],
   "note": ""
  },
  {
   "property": "C56",
   "status": "proved",
   "theorems": [
    "C56_total_salts",
    "C56_prepare"
   ],
   "note": ""
  },
  {
   "property": "C57",
   "status": "partial",
   "theorems": [
    "C57_history_irrelevant_partial",
    "C57_stale_totals_refuted",
    "C57_totals_of_the_first_solve"
   ],
   "note": "False of the code: salt totals computed by an earlier call are kept after salinity is edited (C57_stale_totals_refuted; for every table and history, a total not given stays that of the salinity at the first solve: C57_totals_of_the_first_solve). True for edits of columns from which nothing is derived: C57_history_irrelevant_partial."
  },
  {
   "property": "C58",
   "status": "proved",
   "theorems": [
    "C58_other_columns_untouched"
   ],
   "note": ""
  },
  {
   "property": "C59",
   "status": "proved",
   "theorems": [
    "C59_offset_real",
    "C59_offset_null",
    "C59_offset_in_binary64",
    "C59_offset"
   ],
   "note": ""
  },
  {
   "property": "C60",
   "status": "proved",
   "theorems": [
    "C60_file_solved_at_certified",
    "C60_single_reference_exact"
   ],
   "note": "Proved per file (C60_file_solved_at_certified) and for a dataset whose batch has one good reference (C60_single_reference_exact), for an optimiser that ends at an exact root, with gran_logic at its default (calibrate ignores that setting)."
  },
  {
   "property": "C61",
   "status": "partial",
   "theorems": [
    "C61_titration_is_row_partial",
    "C61_null_pH_min_refuted",
    "C61_file_good_refuted"
   ],
   "note": "False of the code: a null optional column that a dataset ignores makes the Titration raise (see C61_*_refuted). Equality is proved when no such column is null, the row is marked good and keywords do not contradict the row: C61_titration_is_row_partial."
  },
  {
   "property": "C62",
   "status": "partial",
   "theorems": [
    "C62_solved_volume_row_is_nan",
    "C62_unsolved_volume_row_raises",
    "C62_with_mass_partial",
    "C62_refuted"
   ],
   "note": "False of the code: with a volume only, the three columns are NaN after dataset.solve (C62_solved_volume_row_is_nan for every such row, C62_refuted the witness) and the Titration cannot be made at all from an unsolved row (C62_unsolved_volume_row_raises). With a mass the columns are finite: C62_with_mass_partial (not stated for alkalinity_estimate, which depends on PyCO2SYS)."
  },
  {
   "property": "C63",
   "status": "partial",
   "theorems": [
    "C63_estimate_vs_solver",
    "C63_normality_one_partial",
    "C63_normality_refuted"
   ],
   "note": "False of the code for titrants whose normality is not 1: C63_estimate_vs_solver gives the exact difference for every normality, C63_normality_refuted a witness; equality for normality 1 is C63_normality_one_partial."
  },
  {
   "property": "C64",
   "status": "partial",
   "theorems": [
    "C64_with_file_path_partial",
    "C64_without_file_path_raises",
    "C64_refuted"
   ],
   "note": "False of the code without file_path: C64_without_file_path_raises, C64_refuted. With file_path: C64_with_file_path_partial."
  },
  {
   "property": "C65",
   "status": "proved",
   "theorems": [
    "C65_write_then_read"
   ],
   "note": ""
  },
  {
   "property": "C66",
   "status": "partial",
   "theorems": [
    "C66_two_rows_partial",
    "C66_single_row_refuted"
   ],
   "note": "False of the code for a file with one data row: C66_single_row_refuted. Two rows or more: C66_two_rows_partial."
  },
  {
   "property": "C67",
   "status": "proved",
   "theorems": [
    "C67_no_overwrite",
    "C67_history"
   ],
   "note": ""
  },
  {
   "property": "C68",
   "status": "proved",
   "theorems": [
    "C68_first_block",
    "C68_rest_ignored"
   ],
   "note": ""
  },
  {
   "property": "C69",
   "status": "partial",
   "theorems": [
    "C69_negative_dropped_refuted",
    "C69_unsigned_kept_partial"
   ],
   "note": "False of the code: C69_negative_dropped_refuted. Unsigned measurements are kept: C69_unsigned_kept_partial."
  },
  {
   "property": "C70",
   "status": "partial",
   "theorems": [
    "C70_fallback_partial",
    "C70_warning_refuted"
   ],
   "note": "The fallback holds (C70_fallback_partial) but the warning names the replacement and not the unknown method: C70_warning_refuted."
  },
  {
   "property": "C71",
   "status": "proved",
   "theorems": [
    "C71_tiamo_offset"
   ],
   "note": ""
  },
  {
   "property": "C72",
   "status": "proved",
   "theorems": [
    "C72_bottle_names"
   ],
   "note": ""
  },
  {
   "property": "C73",
   "status": "partial",
   "theorems": [
    "C73_same_width_partial",
    "C73_names_collide_refuted",
    "C73_collide_exactly"
   ],
   "note": "False of the code: batch and bottle are joined without a separator (C73_names_collide_refuted; exactly when names are equal: C73_collide_exactly). True for batches of the same width: C73_same_width_partial."
  },
  {
   "property": "C74",
   "status": "proved",
   "theorems": [
    "C74_file_good",
    "C74_other_run_types_blank"
   ],
   "note": ""
  },
  {
   "property": "C75",
   "status": "proved",
   "theorems": [
    "C75_dates",
    "C75_missing_date",
    "C75_stamps_differ"
   ],
   "note": ""
  },
  {
   "property": "C76",
   "status": "proved",
   "theorems": [
    "C76_no_loss_is_dilution"
   ],
   "note": ""
  },
  {
   "property": "C77",
   "status": "proved",
   "theorems": [
    "C77_affine_in_k",
    "C77_nonincreasing_in_k"
   ],
   "note": ""
  },
  {
   "property": "C78",
   "status": "proved",
   "theorems": [
    "C78_fCO2_is_CO2_over_k0",
    "C78_fCO2_equilibrium",
    "C78_fCO2_falls_with_pH"
   ],
   "note": ""
  },
  {
   "property": "C79",
   "status": "partial",
   "theorems": [
    "C79_one_crossing_partial",
    "C79_alignment_refuted"
   ],
   "note": "False of the code: the mask picks scattered points while the arrays are joined by position (C79_alignment_refuted, for every shape-preserving interpolation). True when the pH crosses the split once: C79_one_crossing_partial."
  },
  {
   "property": "C80",
   "status": "partial",
   "theorems": [
    "C80_later_steps_partial",
    "C80_first_step_refuted",
    "C80_first_step_uses_start",
    "C80_first_step_too_low"
   ],
   "note": "False of the code for the first forecast step: C80_first_step_refuted; it is always computed with the starting pH and constants (C80_first_step_uses_start), so it is too low when the pH falls (C80_first_step_too_low). All later steps: C80_later_steps_partial."
  },
  {
   "property": "C81",
   "status": "partial",
   "theorems": [
    "C81_mixture",
    "C81_truth_zeroes_residual",
    "C81_zero_loss_partial",
    "C81_start_not_diluted",
    "C81_start_refuted"
   ],
   "note": "Alkalinity, totals and DIC of the mixture and consistency with the solver are proved (C81_mixture, C81_truth_zeroes_residual). With k_dic_loss=0 the result equals the no-loss result when the titration starts at titrant mass 0 (C81_zero_loss_partial); it does not for other starting masses (C81_start_refuted, C81_start_not_diluted)."
  },
  {
   "property": "C82",
   "status": "partial",
   "theorems": [
    "C82_titration_refuted"
   ],
   "note": "False of the code: simulate.titration refers to an undefined name, whatever the arguments (C82_titration_refuted)."
  },
  {
   "property": "C83",
   "status": "proved",
   "theorems": [
    "C83_key_order_irrelevant",
    "C83_kwarg_order_irrelevant"
   ],
   "note": ""
  },
  {
   "property": "C84",
   "status": "partial",
   "theorems": [
    "C84_pH_modes_partial",
    "C84_emf_mode_refuted",
    "C84_emf_mode_never_blank"
   ],
   "note": "False of the code in emf mode: C84_emf_mode_refuted, where no result with given starting values is ever blank (C84_emf_mode_never_blank). The pH modes: C84_pH_modes_partial."
  },
  {
   "property": "C85",
   "status": "partial",
   "theorems": [
    "C85_orgalk_excel_refuted",
    "C85_other_types_partial"
   ],
   "note": "False of the code for orgalk_excel: C85_orgalk_excel_refuted. All other file types: C85_other_types_partial."
  },
  {
   "property": "C86",
   "status": "proved",
   "theorems": [
    "C86_history_irrelevant",
    "C86_same_call_same_result",
    "C86_earlier_results_stay"
   ],
   "note": "Heap model of files.solve: arrays and dictionaries are cells of a heap, and results may be mutated by callers between calls."
  },
  {
   "property": "C87",
   "status": "proved",
   "theorems": [
    "C87_pyco2_H2SO4"
   ],
   "note": ""
  },
  {
   "property": "C88",
   "status": "partial",
   "theorems": [
    "C88_supplied_totals_reach_solver",
    "C88_supplied_constants_reach_solver",
    "C88_k_fluoride_total_scale_refuted"
   ],
   "note": "Supplied totals and constants reach the solver unchanged, except k_fluoride on the Total scale, which calkulate multiplies by 1 + TSO4/k_bisulfate: C88_k_fluoride_total_scale_refuted."
  },
  {
   "property": "C89",
   "status": "partial",
   "theorems": [
    "C89_changes_by_the_total_partial",
    "C89_extra_acid_depends_on_scale_refuted"
   ],
   "note": "False of the code: the pK threshold 4.5 is compared without regard to the scale (C89_extra_acid_depends_on_scale_refuted). C89_changes_by_the_total_partial says exactly what happens: nothing changes when the pK stays on one side of the threshold, otherwise the contribution changes by the acid's total."
  },
  {
   "property": "C90",
   "status": "proved",
   "theorems": [
    "C90_unique_best_fit"
   ],
   "note": ""
  },
  {
   "property": "C91",
   "status": "proved",
   "theorems": [
    "C91_read_dbs"
   ],
   "note": ""
  },
  {
   "property": "C92",
   "status": "proved",
   "theorems": [
    "C92_alkalinity_is_acceptors_minus_donors"
   ],
   "note": ""
  },
  {
   "property": "C93",
   "status": "proved",
   "theorems": [
    "C93_constants_come_from_pyco2",
    "C93_salts_come_from_pyco2"
   ],
   "note": ""
  },
  {
   "property": "C94",
   "status": "proved",
   "theorems": [
    "C94_higher_pH_higher_alkalinity"
   ],
   "note": ""
  },
  {
   "property": "C95",
   "status": "proved",
   "theorems": [
    "C95_alkalinity_follows_contents"
   ],
   "note": ""
  },
  {
   "property": "C96",
   "status": "proved",
   "theorems": [
    "C96_solve_pH_order",
    "C96_solve_pH_gran_order",
    "C96_legacy_gran_order",
    "C96_default_gran_depends_on_order"
   ],
   "note": ""
  },
  {
   "property": "C97",
   "status": "proved",
   "theorems": [
    "C97_solve_emf_product",
    "C97_solve_pH_product",
    "C97_solve_pH_gran_product"
   ],
   "note": ""
  },
  {
   "property": "C98",
   "status": "proved",
   "theorems": [
    "C98_alkalinity_near_weighted_mean",
    "C98_best_fit_is_weighted_mean",
    "C98_residual_of_a_point"
   ],
   "note": ""
  },
  {
   "property": "C99",
   "status": "proved",
   "theorems": [
    "C99_every_point_drawn_once",
    "C99_gran_points_drawn_once"
   ],
   "note": "Smooth curves of the component plot are not modelled."
  },
  {
   "property": "C100",
   "status": "proved",
   "theorems": [
    "C100_available_plots"
   ],
   "note": "Includes that the DIC-loss and fCO2-loss plots always raise."
  },
  {
   "property": "C101",
   "status": "proved",
   "theorems": [
    "C101_gran_line"
   ],
   "note": ""
  },
  {
   "property": "C102",
   "status": "partial",
   "theorems": [
    "C102_title_spread_partial",
    "C102_title_spread_refuted"
   ],
   "note": "False of the code: the solver's alkalinity_std divides by N, the plot's title by N-1 (C102_title_spread_refuted). For normality 1, finite estimates and N >= 2 the exact ratio sqrt(N/(N-1)) is C102_title_spread_partial."
  },
  {
   "property": "C103",
   "status": "proved",
   "theorems": [
    "C103_band_is_the_window"
   ],
   "note": ""
  },
  {
   "property": "C104",
   "status": "proved",
   "theorems": [
    "C104_every_analysis_drawn_once"
   ],
   "note": ""
  },
  {
   "property": "C105",
   "status": "proved",
   "theorems": [
    "C105_batch_lines",
    "C105_can_draw_after_calibrate"
   ],
   "note": ""
  },
  {
   "property": "C106",
   "status": "partial",
   "theorems": [
    "C106_without_flags_partial",
    "C106_batches_need_flags",
    "C106_default_call_refuted"
   ],
   "note": "False of the code with show_batches=True, its default (C106_default_call_refuted; C106_batches_need_flags for every table). With show_batches=False: C106_without_flags_partial."
  },
  {
   "property": "C107",
   "status": "proved",
   "theorems": [
    "C107_profile"
   ],
   "note": ""
  },
  {
   "property": "C108",
   "status": "partial",
   "theorems": [
    "C108_points_on_profile_partial",
    "C108_last_point_refuted"
   ],
   "note": "False of the code for the last titration point: the profile stops short of the largest titrant mass in every run (C108_last_point_refuted), so its values are extrapolated. Proved for the points on the profile: C108_points_on_profile_partial."
  },
  {
   "property": "C109",
   "status": "partial",
   "theorems": [
    "C109_deleting_points_pH_partial",
    "C109_deleting_points_pH_gran_partial",
    "C109_missing_emf_raises",
    "C109_missing_emf_refuted"
   ],
   "note": "False in the emf modes: one missing reading makes the whole solve raise (C109_missing_emf_raises, for all inputs; C109_missing_emf_refuted). Proved in the pH modes, for missing readings and for all points outside the window: C109_deleting_points_pH_partial, C109_deleting_points_pH_gran_partial."
  },
  {
   "property": "C110",
   "status": "partial",
   "theorems": [
    "C110_titrant_share_partial",
    "C110_absent_phosphate_raises",
    "C110_phosphate_refuted"
   ],
   "note": "False when the sample has no phosphate, which is the default: titrant_total_phosphate then makes every solve fail (C110_absent_phosphate_raises; C110_phosphate_refuted). Proved otherwise, over any numbers: C110_titrant_share_partial."
  },
  {
   "property": "C111",
   "status": "proved",
   "theorems": [
    "C111_rows_report_solutions",
    "C111_rows_report_calibrations",
    "C111_spread_real"
   ],
   "note": ""
  },
  {
   "property": "C112",
   "status": "proved",
   "theorems": [
    "C112_text_columns",
    "C112_pclims_columns",
    "C112_n_cols_needs_pclims"
   ],
   "note": ""
  },
  {
   "property": "C113",
   "status": "proved",
   "theorems": [
    "C113_one_file_is_read",
    "C113_missing_file_raises"
   ],
   "note": ""
  },
  {
   "property": "C114",
   "status": "proved",
   "theorems": [
    "C114_perfect_fit_is_the_truth",
    "C114_two_additions_do_not_suffice"
   ],
   "note": ""
  },
  {
   "property": "C115",
   "status": "partial",
   "theorems": [
    "C115_history_irrelevant_partial",
    "C115_first_calibration_decides",
    "C115_flags_are_kept",
    "C115_late_certificate_refuted"
   ],
   "note": "False for a table without a reference_good column: the first calibration stores which rows count as references and later ones keep it, so a certified value entered afterwards is ignored in the batch mean (C115_first_calibration_decides, C115_flags_are_kept; C115_late_certificate_refuted). Proved for every table with a reference_good column: C115_history_irrelevant_partial. Assigning salinity or opt_total_borate is covered only when the user supplies the totals (see C57)."
  },
  {
   "property": "C116",
   "status": "proved",
   "theorems": [
    "C116_calibrate_permute"
   ],
   "note": ""
  },
  {
   "property": "C117",
   "status": "proved",
   "theorems": [
    "C117_no_reference_no_result"
   ],
   "note": ""
  },
  {
   "property": "C118",
   "status": "proved",
   "theorems": [
    "C118_factor_in_binary64",
    "C118_totals_in_binary64"
   ],
   "note": ""
  },
  {
   "property": "C119",
   "status": "proved",
   "theorems": [
    "C119_best_fit_exists"
   ],
   "note": ""
  },
  {
   "property": "C120",
   "status": "partial",
   "theorems": [
    "C120_best_quadratic_partial",
    "C120_molinity_is_not_molality_refuted"
   ],
   "note": "False of the code: the curve was fitted against molality (mol per kg of water, density_estimator.py) but is given a molinity (mol per kg of solution); at the molinity of the strongest tabulated solution the density is more than 2% low, without a warning (C120_molinity_is_not_molality_refuted). As a function of molality it is the best quadratic: C120_best_quadratic_partial."
  },
  {
   "property": "C121",
   "status": "proved",
   "theorems": [
    "C121_unused_settings",
    "C121_volume_to_mass"
   ],
   "note": ""
  },
  {
   "property": "C122",
   "status": "partial",
   "theorems": [
    "C122_sulfuric_settings_partial",
    "C122_name_alone_is_too_low"
   ],
   "note": "False of the code: titrant='H2SO4' is used only for the density of volumes, so alone it gives a lower alkalinity than with the normality and the sulfate of the acid, in every titration to which acid was added (C122_name_alone_is_too_low). With titrant_normality=2 and titrant_total_sulfate=1: C122_sulfuric_settings_partial."
  },
  {
   "property": "C123",
   "status": "proved",
   "theorems": [
    "C123_temperature_only",
    "C123_same_at_equal_temperature"
   ],
   "note": ""
  },
  {
   "property": "C124",
   "status": "partial",
   "theorems": [
    "C124_volume_counts_as_mass_partial",
    "C124_volume_of_a_weighed_sample",
    "C124_column_is_not_filled",
    "C124_refuted"
   ],
   "note": "The column is not filled: after Dataset.solve the masses are as given, NaN where only the volume was given, although the row is solved (C124_column_is_not_filled for all tables, C124_refuted). The rest holds: C124_volume_counts_as_mass_partial, C124_volume_of_a_weighed_sample."
  },
  {
   "property": "C125",
   "status": "proved",
   "theorems": [
    "C125_buffering_limits_alkalinity",
    "C125_pH_error_bound"
   ],
   "note": ""
  },
  {
   "property": "C126",
   "status": "proved",
   "theorems": [
    "C126_accuracy",
    "C126_written_file"
   ],
   "note": ""
  },
  {
   "property": "C127",
   "status": "proved",
   "theorems": [
    "C127_molinity_error",
    "C127_certified_error",
    "C127_gran_certified_error"
   ],
   "note": ""
  },
  {
   "property": "C128",
   "status": "proved",
   "theorems": [
    "C128_true_values"
   ],
   "note": ""
  },
  {
   "property": "C129",
   "status": "proved",
   "theorems": [
    "C129_perfect_fit_fixes_the_titrant",
    "C129_wrong_certified_value_shows"
   ],
   "note": ""
  },
  {
   "property": "C130",
   "status": "proved",
   "theorems": [
    "C130_spelling_does_not_matter",
    "C130_always_named",
    "C130_missing_number_stops"
   ],
   "note": ""
  },
  {
   "property": "C131",
   "status": "proved",
   "theorems": [
    "C131_only_truth_of_flag_matters",
    "C131_how_missing_flags_count"
   ],
   "note": ""
  },
  {
   "property": "C132",
   "status": "proved",
   "theorems": [
    "C132_mass_error",
    "C132_heavier_is_less_alkaline"
   ],
   "note": ""
  },
  {
   "property": "C133",
   "status": "proved",
   "theorems": [
    "C133_line_ends",
    "C133_blank_lines_and_comments"
   ],
   "note": ""
  },
  {
   "property": "C134",
   "status": "proved",
   "theorems": [
    "C134_offset",
    "C134_offsets_cancel"
   ],
   "note": ""
  },
  {
   "property": "C135",
   "status": "proved",
   "theorems": [
    "C135_mean_in_binary64",
    "C135_batch_molinity_in_binary64",
    "C135_one_reference_in_binary64",
    "C135_alkalinity_in_binary64"
   ],
   "note": ""
  },
  {
   "property": "C136",
   "status": "proved",
   "theorems": [
    "C136_only_its_batch",
    "C136_leave_one_out"
   ],
   "note": ""
  },
  {
   "property": "C137",
   "status": "proved",
   "theorems": [
    "C137_only_its_batch",
    "C137_shared"
   ],
   "note": ""
  },
  {
   "property": "C138",
   "status": "proved",
   "theorems": [
    "C138_drop_rows"
   ],
   "note": ""
  },
  {
   "property": "C139",
   "status": "partial",
   "theorems": [
    "C139_documented_defaults_partial",
    "C139_rows_partial",
    "C139_carbonic_default_is_10",
    "C139_refuted"
   ],
   "note": "opt_k_carbonic is missing: the guide names 16 and the code uses 10 (C139_carbonic_default_is_10 for all inputs, C139_refuted). All other documented defaults hold: C139_documented_defaults_partial for files.solve and files.calibrate, C139_rows_partial for rows. The last part of C139_rows_partial, on a default that stands in the row, assumes that the number is not null, as it is not for real and floating-point numbers."
  },
  {
   "property": "C140",
   "status": "proved",
   "theorems": [
    "C140_solve_stacked",
    "C140_calibrate_stacked"
   ],
   "note": ""
  },
  {
   "property": "C141",
   "status": "partial",
   "theorems": [
    "C141_excess",
    "C141_curves_meet",
    "C141_acid_balance_partial",
    "C141_normality_left_out"
   ],
   "note": "C141_excess and C141_curves_meet cover the meeting of the curves. Missing in C141_acid_balance_partial: the normality of the titrant, which the code leaves out of the curve from the acid (C141_normality_left_out, for every normality other than 1). Real numbers; the sample mass is positive and the titrant mass not negative."
  },
  {
   "property": "C142",
   "status": "partial",
   "theorems": [
    "C142_pH_partial",
    "C142_emf_understates",
    "C142_emf_never_exact"
   ],
   "note": "C142_pH_partial covers solve_pH. Missing: solve_emf, whose alkalinity_std is taken from the residuals, which are diluted. At a best fit it is at most M/(m0+M) times the standard deviation, m0 being the smallest titrant mass used (C142_emf_understates), and so never equal to it unless the estimates agree or no titrant was added (C142_emf_never_exact). Tables report the true standard deviation in both modes (C111)."
  },
  {
   "property": "C143",
   "status": "proved",
   "theorems": [
    "C143_spread_bounds_points"
   ],
   "note": ""
  },
  {
   "property": "C144",
   "status": "partial",
   "theorems": [
    "C144_attributes_are_items_partial",
    "C144_taken_names",
    "C144_copies_fail",
    "C144_given_values_partial",
    "C144_refuted"
   ],
   "note": "Missing: columns with the name of an attribute of the object (t, sr, row, kwargs, titration, the methods) are hidden when read as attributes (C144_taken_names, C144_refuted), and copying always ends in a RecursionError, because __getattr__ reads self.row of an instance that has no row yet (C144_copies_fail, for every titration and recursion limit). Proved for all other names: C144_attributes_are_items_partial, C144_given_values_partial (the latter without keyword arguments and old column names)."
  },
  {
   "property": "C145",
   "status": "proved",
   "theorems": [
    "C145_same_outcome",
    "C145_solve_again",
    "C145_calibrate_again",
    "C145_calkulate_again",
    "C145_nothing_lost"
   ],
   "note": ""
  },
  {
   "property": "C146",
   "status": "partial",
   "theorems": [
    "C146_first_points_partial",
    "C146_short_refuted",
    "C146_again",
    "C146_complete",
    "C146_old_content_refuted",
    "C146_cut_number_refuted"
   ],
   "note": "Missing: the file is written in place, so an interruption leaves a beginning of it. For every titration and every n >= 2 there is a point after which read_dat returns the first n points without complaint (C146_short_refuted), the last temperature read can be one that was never measured (C146_cut_number_refuted), and mode 'w' gives up the old content first (C146_old_content_refuted). Proved: whatever can be read from the remains is the first n points, apart from the last temperature, and other files are untouched (C146_first_points_partial); mode 'w' can be repeated, the default mode refuses once the file exists (C146_again); the complete call is the last of the modelled points (C146_complete)."
  },
  {
   "property": "C147",
   "status": "partial",
   "theorems": [
    "C147_never_mixed_partial",
    "C147_plain_headers_partial",
    "C147_other_files",
    "C147_comments_refuted"
   ],
   "note": "Proved for the default header lines, any number of titrations and any values: read_dat raises ValueError, because the repeated headers have different numbers of fields (C147_never_mixed_partial); other files are untouched (C147_other_files). The same holds for any header lines of which one is plain text (not blank, no tab, no comment sign) once a point has been written (C147_plain_headers_partial). Missing: the remaining headers. It is false for headers that are comments: the file then reads as one long titration, the points of all of them in turn (C147_comments_refuted)."
  },
  {
   "property": "C148",
   "status": "proved",
   "theorems": [
    "C148_each_value_from_its_field",
    "C148_only_its_value",
    "C148_damaged_is_nan"
   ],
   "note": ""
  }
 ]
}