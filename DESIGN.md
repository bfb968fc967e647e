# Formal model of ocbpy in Rocq: design

Source modelled: `/repo/ocbpy` (read as text, never run).  Tool: Coq 8.16.1.
All Coq files are in `rocq/theories` (logical prefix `Verif`).

## 1. Approach

* **Shallow, function-by-function model.**  Each Python function is a Gallina
  function with the same branches in the same order.  Exceptions are values
  (`Err e`); a mutated object is returned as a new state (also by a call that
  raises, where that state is observable); a mutated caller array is an extra
  result; loops are structural recursions with explicit fuel and an `OutOfFuel`
  error which the theorems exclude.  Calls to other packages are arguments of
  the model's functions, so the theorems hold for every behaviour of them.
* **Two numeric models.**
  * *Discrete part* (cycling, matching, pairing, file choice, parsers, output
    files, calendar): exact integers and rationals, times are integer
    microseconds; comparisons of finite binary64 numbers are comparisons of
    rationals, so nothing is lost; NaN and infinities are explicit constructors
    with IEEE comparison rules (`num` in PyBase.v).  No axioms are needed.
  * *Geometric part* (range fixing, coordinates, vectors, corrections): exact
    real arithmetic (stdlib `Reals`), NaN = `None` (`fl` in RangeModel.v).
    Rounding is **not** modelled there, except in `FloatModel.v`, `FtimeModel.v`, `FradModel.v`
and `FmatchModel.v`, where
    `fix_range` is modelled on IEEE binary64 (Flocq's `BinarySingleNaN`) to
    state what rounding breaks.
* **Specification separate from model.**  `*Spec.v` files state the English
  property in elementary terms (indices, sets, distances, 3-D dot products,
  words and lines of text); `*Proofs.v` hold lemmas; `Properties*.v` hold the
  final theorems `Cnn_...`, a concrete case `Cnn_case` meeting their hypotheses,
  and `Print Assumptions`.
* **False properties are refuted.**  Where the user-level property is false of
  the code, the strongest true conditional version is proved (suffix
  `_partial`, with a comment saying what is missing) and a `..._refuted`
  theorem gives a run of the model in which the full statement fails.  Such
  properties have status `partial` in `MANIFEST.json`; the note says when the
  property is false.
* **Wrong programs.**  `seeded/LOG.jsonl` records edits of the model that
  imitate realistic bugs, with the theorems that stopped proving and those that
  were tightened because they had not.

## 2. Model files, the code they model, and properties

| model file | code | properties |
|---|---|---|
| CycleModel | `_boundary.py` `OCBoundary.get_next_good_ocb_ind`; `cycle_boundary.py` `retrieve_all_good_indices`, `match_data_ocb` | C01-C08 |
| DriverModel | the loops pairing data with boundaries in `vort2ascii_ocb`, `supermag2ascii_ocb`, `add_ocb_to_data` | C09, C10 |
| DualModel | `DualBoundary` pairing, `rec_ind`, cycling; `match_data_ocb` on it | C11-C14, C73, C84 |
| RangeModel | `ocb_time.py` `fix_range`, `deg2hr`, `hr2deg`, `hr2rad`, `rad2hr`, `datetime2hr`, `slt2glon`, `glon2slt` over the reals | C15, C16, C18-C21, C75 |
| FloatModel | `fix_range` in binary64 | C17 |
| TimeModel | `get_datetime_fmt_len`, `year_soy_to_datetime`, `yyddd_to_date`, `convert_time`, the parts of `strptime` they use | C22-C26, C76-C78 |
| CoordModel | `OCBoundary.normal_coord`, `revert_coord`, `get_aacgm_boundary_lat`, parts of `__init__` and `load` | C27-C36, C43, C45, C79, C80, C161, C162 |
| DualCoordModel | the same for `DualBoundary`, `calc_r` | C37-C42, C81, C161 |
| LoadModel | constructors, `inst_defaults`, `load`, `_set_default_rfunc` of the three classes, subscripts of `__repr__` | C44, C92-C97 |
| VectorModel | `vectors.py` | C46-C53, C82, C83 |
| ScalingModel | `ocb_scaling.py` `set_ocb`, `scale_vector`, `calc_vec_pole_angle`, `normal_evar`, `normal_curl_evar`, `hav`, `archav`, shape tests | C54-C56, C74, C85-C90 |
| LocModel | `ocb_scaling.py` `_test_coords`, `update_loc_coords`, `update_vect_coords_to_mag` | C127-C132 |
| VdataModel | `VectorData.__init__`, `__setattr__`, setters, `clear_data` | C133-C138 |
| BreprModel | `OCBoundary.__repr__` and its evaluation, `OCBoundary.__str__` | C139, C140 |
| VtextModel | `VectorData.__repr__` and its evaluation, `VectorData.__str__` | C141, C142 |
| PcoordModel | `add_ocb_to_data` for data, locations and heights with several coordinates | C143-C147 |
| VdualModel | `VectorData.set_ocb` with a DualBoundary | C148-C150 |
| FtimeModel | `deg2hr`, `hr2deg`, `datetime2hr`, `slt2glon`, `glon2slt` in binary64 | C151-C153 |
| PscaleModel | `add_ocb_to_data`: selection and scaling of variables with several coordinates | C154, C155 |
| PmetaModel | `add_ocb_to_metadata` and its calls by `add_ocb_to_data` | C156-C160 |
| SsjModel | text of boundary files as read by `OCBoundary.load`; `format_ssj_boundary_files` from text to text | C163-C165 |
| FetchModel | `fetch_format_ssj_boundary_files`; loaded DMSP boundaries with `normal_coord` | C166, C167 |
| DgeoModel | `DualBoundary.normal_coord` and `revert_coord` with geographic coordinates | C168 |
| PloadModel | names collected by `add_ocb_to_data` and the boundaries it loads | C169-C171 |
| DcritProofs | no new code; `match_data_ocb` with criteria on a `DualBoundary` (DualModel) and histories of calls | C172, C173 |
| PdualModel | `supermag2ascii_ocb` and `add_ocb_to_data` given a DualBoundary: matching, values of the samples, keyword arguments | C174-C176 |
| DstrModel | `DualBoundary.__str__`, evaluation of its `__repr__` | C177, C178 |
| FradModel | `hr2rad`, `rad2hr` in binary64 | C179, C180 |
| FmatchModel | `match_data_ocb` with the floats of `total_seconds()` | C181 |
| FsoyModel | `year_soy_to_datetime` and the seconds of `convert_time` in binary64 | C182, C183 |
| FvortModel | the hours of `load_vorticity_ascii_data` in binary64 | C184 |
| FmidModel | `timedelta(seconds=...)` of a float and the middle times of `format_ssj_boundary_files` in binary64 | C185 |
| FtolModel | `match_data_ocb` with a float as tolerance | C186 |
| FdualModel | the pairing of `DualBoundary.set_good_ind` with a float as maximum difference | C187 |
| CorrectionModel | `ocb_correction.py` | C57, C91 |
| FilesModel | `boundaries/files.py`, `evaluate_dmsp_boundary_file` | C58-C60, C98, C99 |
| DmspModel | `boundaries/dmsp_ssj_files.py` `fetch_ssj_boundary_files`, `format_ssj_boundary_files` | C61, C100-C105 |
| SmagModel | `supermag.py` `load_supermag_ascii_data`; `general.py` `test_file` | C62, C63, C66, C106, C107 |
| VortModel | `vort.py` `load_vorticity_ascii_data` | C64, C65 |
| GeneralModel | `general.py` `load_ascii_data` | C67, C108-C111 |
| TrackModel | `cycle_boundary.py` `satellite_track` | C68, C69 |
| PysatModel | `pysat_instruments.py` `add_ocb_to_data`, `reshape_pad_mask_flatten` | C70-C72, C112-C117 |
| OutputModel | `supermag2ascii_ocb`, `vort2ascii_ocb`, from input lines to output lines | C118-C126 |

PyBase.v (exceptions, `num`, indexing) and PyString.v (strings) are shared.
`properties.jsonl` names files and symbols of each property, `MANIFEST.json` its
theorems.  The head of each model file says how data is represented and what is
left out; each definition cites the lines it models.

## 3. Not modelled

* aacgmv2 (magnetic coordinates): arbitrary functions in the model.  Its own
  shapes of results are not modelled.
* numpy: `genfromtxt` is modelled for white space separated columns (GeneralModel;
  SsjModel for boundary files, LoadModel starts from its result), `loadtxt` for
  numbers separated by commas.  Arrays have rank 0 or 1, except in the shape tests (ScalingModel),
  `satellite_track` (rank 2) and the masks of PysatModel.
* Rounding outside FloatModel, FtimeModel, FradModel, FmatchModel, FsoyModel, FvortModel,
FmidModel, FtolModel and FdualModel; infinities in the geometric part; integer
  overflow except where 64-bit integers are named.
* Log messages and warnings, except where FtolModel has the error of formatting one.
* The formats of numbers and times in texts.
* File system and network: directory listings and file contents are inputs, the
  download is a parameter.
* pysat: instrument objects are their times and columns.  Scaled
  values of data with several coordinates when only one variable is used.  pysat's own handling
of metadata names and
  defaults.
* Scalar vectors with several times in
  `update_vect_coords_to_mag`.

## 4. Trusted base

* Coq's kernel.
* The axioms that `Print Assumptions` prints for each theorem, all of the
  standard library and listed in section 5.  No axiom, parameter or hypothesis
  outside a section is declared in this development.
* The reading of the Python and numpy semantics written beside each definition;
  nothing was run to confirm it.
* That the reals stand for binary64 numbers in the geometric part.

## 5. Axioms

The four axioms are those of the standard library behind `Reals` and
`Classical`:

* `ClassicalDedekindReals.sig_forall_dec`
* `ClassicalDedekindReals.sig_not_dec`
* `FunctionalExtensionality.functional_extensionality_dep`
* `Classical_Prop.classic`

(Flocq, used in the Float and Ftime files, declares none.)

**No axioms ("Closed under the global context")**

C01_next_good_record, C02_criterion_meaning, C02_finite_comparisons, C02_order_irrelevant,
C02_unknown_never_rejects, C02_nan_merit_never_good, C02_nan_value_fails_only_equal,
C03_retrieve_all_good, C04_match_terminates, C05_match_is_real, C06_no_match_skipped,
C07_match_is_closest, C08_closest_with_repeated_times_refuted, C07_match_is_closest,
C09_vort_pairs_exact, C09_supermag_pairs_exact, C09_every_matchable_measurement_processed,
C09_vort_pairs_exact_dual, C10_crash_iff_disjoint, C10_no_crash_refuted, C11_pairs_valid,
C12_one_to_one_when_spaced_partial, C12_one_to_one_refuted, C13_assignment_in_step,
C13_cycling_visits_in_order, C14_out_of_range_partial, C14_far_out_of_range,
C14_out_of_range_refuted, C22_year_soy, C22_year_soy_rejects, C22_rolls_over,
C23_fractional_seconds_partial, C23_last_half_second_rejected, C23_fractional_seconds_refuted,
C24_yyddd, C24_yyddd_rejects, C24_not_a_string, C24_short, C25_date_and_seconds,
C25_yyddd_and_seconds, C26_format_length_partial, C26_prefix_keeps_time,
C26_format_length_refuted, C26_iso_year_not_counted, C57_circular, C58_default_file_partial,
C58_answers_partial, C59_last_listed, C59_unknown_instrument_refuted, C59_stray_file_refuted,
C59_dates_ignored_refuted, C60_dmsp_selection, C60_path_refuted, C62_every_line_loaded,
C62_file_refused, C62_no_rule, C62_blank_line_raises, C63_last_block_partial,
C63_empty_block_refuted, C64_every_entry_loaded, C64_file_refused, C64_count_too_large,
C64_count_too_small, C64_count_not_one_word, C64_blank_line_raises, C64_terminates,
C65_cut_entries_partial, C65_cut_block_refuted, C66_size_gate, C67_column_types_partial,
C67_list_kept_partial, C67_positions_refuted, C67_list_changed_refuted,
C70_boundary_from_name_partial, C70_default_refuted, C71_pandas, C71_xarray_north_partial,
C71_xarray_south_all_kept, C71_xarray_south_refuted, C72_leading_dimensions_partial,
C72_same_dimensions_partial, C72_different_shapes, C72_second_dimension_refused,
C72_second_dimension_refuted, C72_same_dimensions_refuted,
C73_radius_when_indices_agree_partial, C73_matched_radius_refuted, C74_shapes_partial,
C74_refuted_two_dimensional, C74_refuted_boundary_values, C76_year_soy_only_value_error_partial,
C76_value_error_refuted, C77_seconds_kept_partial, C77_seconds_kept_refuted,
C78_date_and_time_text, C84_rec_ind_selects_pair, C84_out_of_range_partial,
C98_instrument_overrides_partial, C98_times_still_used_refuted, C99_days_in_request_partial,
C99_midday_refuted, C100_streams_restored_partial, C100_failed_download_refuted,
C100_redirected_refuted, C101_archive_found_partial, C101_no_archive_hangs_refuted,
C102_temporary_files_partial, C102_left_behind_refuted, C103_requested_files,
C103_bad_arguments_refused, C104_passes_written_partial, C104_single_pass_refuted,
C104_hemisphere_refused, C105_output_names_partial, C105_directory_refuted,
C106_fill_replaced_partial, C106_latitude_refuted, C107_cut_line_partial,
C107_cut_block_refuted, C108_date_and_time_of_day, C108_date_and_seconds,
C108_year_and_seconds_partial, C67_column_types_partial, C67_positions_refuted,
C109_single_row_refuted, C109_single_row_times_refuted, C110_file_refused, C110_no_rows,
C110_ragged_rows, C111_names_taken, C67_column_types_partial, C112_given, C112_detected_partial,
C112_south_and_equator, C112_both_refused, C112_north_and_equator_refuted,
C113_rows_converted_partial, C113_some_row_converts, C113_no_match_refuted,
C114_own_description_partial, C114_inherited_refuted, C115_scaling_chosen, C115_scaling_missing,
C115_repeat_partial, C115_repeat_refuted, C115_lists_changed_refuted, C116_names_partial,
C116_ocb_names, C116_distinct_partial, C116_missing_name_refuted, C116_shared_name_refuted,
C117_combined_partial, C117_unchanged, C117_common_coordinate_refuted,
C118_supermag_lines_partial, C118_supermag_apart_refuted, C119_number_of_stations,
C120_supermag_columns, C120_vort_columns, C121_vort_lines_partial, C121_other_hemisphere,
C121_vort_apart_refuted, C122_local_time_partial, C122_local_time_refuted,
C123_period_loses_nothing, C124_usable_partial, C124_missing_latitude_refuted,
C124_hemisphere_refuted, C125_no_file, C125_no_records, C125_vort_no_records,
C125_vort_no_entries, C125_no_rule_refuted, C125_no_stations_refuted,
C126_supermag_read_back_partial, C126_vort_read_back_partial, C126_one_line_refuted, C126_reads,
C131_names_accepted, C142_text_partial, C143_one_height_partial, C143_times_only_refuted,
C143_pandas_refuted, C144_combined_partial, C144_same_size_refuted, C144_height_layout_refuted,
C144_height_shape_refuted, C145_repeated_partial, C145_two_coordinates_refuted,
C146_own_boundary_partial, C146_some_sample_converts, C147_same_order_partial,
C147_same_order_times, C147_latitude_variable_refuted, C154_own_values_partial,
C154_two_coordinates, C154_not_a_box_refuted, C154_second_coordinate_refuted,
C155_same_order_partial, C155_same_order_times, C155_other_order_refuted, C156_kept,
C156_overwrite, C157_variable_partial, C157_no_metadata_partial, C157_other_boundary_refuted,
C158_notes_partial, C158_scaling_partial, C158_second_call_refuted, C159_own_metadata_partial,
C159_other_variable_refuted, C160_vector_partial, C160_alike_refuted, C160_radius_refuted,
C160_no_component, C164_no_files, C165_reads, C170_names_checked, C170_variables_needed,
C170_vectors_checked, C171_outputs_complete, C171_outputs_distinct_partial,
C171_collision_refuted, C172_criteria_select_pairs_partial, C172_pair_times_differ,
C172_no_default_pair_refuted, C173_criteria_forget_history_partial,
C173_criteria_persist_refuted, C174_default_pairs_partial, C174_criteria_pairs_partial,
C174_early_refuted, C175_samples_converted_partial, C175_criteria_partial,
C175_single_height_refuted, C176_keywords_go_one_way, C177_pairs_ordered, C177_text,
C178_evaluates_partial, C178_unloaded, C178_criteria_refuted

**`sig_forall_dec`**

C84_beyond_last_refuted

**`sig_forall_dec`, `functional_extensionality_dep`**

C15_fix_range_normalises, C15_default_range_unique, C15_fix_range_rejects,
C15_fix_range_elementwise, C16_any_range_partial, C16_any_range_refuted, C18_degrees_hours,
C20_local_time_longitude, C21_hours_of_day, C36_mlt_normalised_partial,
C41_dual_construction_partial, C41_supplied_boundaries_refuted, C43_reference_latitude,
C43_none_rejected, C46_vector_quadrants, C46_pole_quadrants, C47_dest_angle_nan,
C47_undefined_quadrants_raise, C55_scaling_laws, C75_argument_kept_partial,
C75_argument_kept_refuted, C127_locations_converted_partial, C127_between_systems_as_magnetic,
C128_round_trip_partial, C129_repeat_partial, C182_value

**`sig_forall_dec`, `sig_not_dec`, `functional_extensionality_dep`**

C19_radians_hours, C19_hours_radians, C35_stored_boundaries, C35_kept_over_any_history,
C35_only_requested, C36_stored_mlt_partial, C36_mlt_normalised_refuted, C42_region_radii,
C47_dest_angle_range, C53_pole_always_northern_refuted, C57_elliptical, C57_elliptical_extremes,
C57_harmonic, C57_unknown_names, C68_points_on_track_partial, C68_bad_request,
C68_vertical_track, C68_number_never_accepted, C68_grid_rows, C68_other_hemisphere_refuted,
C68_number_refuted, C68_grid_refuted, C69_crossings_on_track_partial,
C69_steep_track_rejects_all, C69_steep_track_refuted, C79_mlt_values_accepted_partial,
C79_mlt_values_accepted_refuted, C91_corrected_radius, C127_between_systems_refuted,
C128_capitals_refuted, C129_capitals_refuted, C133_values_kept_partial, C133_location_refuted,
C133_results_refuted, C134_rejected_partial, C134_index_refuted, C134_coordinates_refuted,
C134_components_refuted, C135_boundary_index_partial, C135_one_index_refuted,
C137_value_assigned_partial, C137_magnitude_refuted, C137_results_refuted, C137_count_refuted,
C138_magnitude_partial, C138_given_refuted, C138_shape_refuted, C138_one_element_refuted,
C141_evaluates_partial, C141_nan_refuted, C141_digits_refuted, C141_name_refuted,
C141_magnitude_refuted, C141_results_refuted, C142_constructed, C142_magnitude_refuted,
C142_coordinates_refuted, C142_height_refuted, C142_repeated_refuted,
C164_passes_written_partial, C164_single_pass_refuted, C167_fetch_format_partial,
C167_nothing_asked, C167_download_fails, C167_left_behind_refuted

**`sig_forall_dec`, `sig_not_dec`, `classic`, `functional_extensionality_dep`**

C17_binary64_partial, C17_local_time_partial, C17_nan, C17_binary64_refuted,
C27_boundary_to_reference, C28_normal_then_revert, C28_normal_then_revert_arrays,
C29_revert_then_normal, C30_normal_ranges, C30_revert_ranges, C31_undefined_is_nan_partial,
C31_mixed_input_partial, C31_mixed_input_refuted, C31_integer_arrays_fail,
C32_elementwise_partial, C32_revert_elementwise_partial, C32_elementwise_refuted,
C33_arguments_kept_partial, C33_arguments_kept_refuted, C34_on_boundary,
C37_dual_normal_regions_partial, C37_dual_normal_monotone_partial, C37_equator_refuted,
C38_dual_round_trip, C39_dual_stores_kept_partial, C39_failed_call_refuted, C39_unset_refuted,
C40_dual_revert_undefined_partial, C40_before_first_refuted, C40_past_last_refuted,
C42_radii_are_scale, C44_records_kept_partial, C44_loads_partial, C44_single_record_refuted,
C44_times_needed, C44_can_be_cycled, C45_cartesian_centre, C48_adjust_is_rotation,
C49_magnitude_preserved_partial, C49_vertical_kept_refuted, C50_pole_angle_partial,
C50_pole_angle_aligned_partial, C50_pole_angle_refuted, C50_other_hemisphere_refuted,
C51_components_along_pole_direction, C52_aligned_poles_partial, C52_beyond_pole_refuted,
C52_opposite_refuted, C53_southern_vectors_refuted, C54_single_vector_partial,
C54_scaled_refuted, C56_haversine, C61_circle_through_crossings, C61_rounded,
C80_geographic_round_trip, C81_points_independent_partial, C81_points_independent_refuted,
C82_arrays_elementwise, C83_one_vector_many_poles_partial, C83_aligned_pole_dropped_refuted,
C85_arrays_elementwise_partial, C85_matched_refuted, C86_scaled_components_partial,
C86_magnitude_partial, C54_scaled_refuted, C87_geographic_vectors_partial, C87_southern_refuted,
C87_meridian_refuted, C88_coordinates_from_boundary_partial, C88_other_boundary_refuted,
C89_inputs_kept_partial, C89_latitude_lost_refuted, C90_repeated_partial,
C90_invalid_index_refuted, C92_correction_per_record, C92_misfit_refused, C93_centre_from_xy,
C94_unloaded_without_file, C94_readable_is_loaded, C94_bad_hemisphere, C94_default_file,
C94_default_eab_file, C95_eab_instruments_partial, C95_documented_refuted, C95_case_refuted,
C96_dual_poleward_partial, C96_objects_refuted, C96_dual_refused, C97_repr_partial,
C97_empty_refuted, C97_eab_refuted, C130_vector_rotated_partial, C130_arrays_partial,
C130_repeat, C130_no_magnetic_location, C130_no_pole_raises, C130_not_magnetic_refuted,
C132_time_of_record_partial, C132_other_record_refuted, C132_trace_method_refuted,
C136_new_index_partial, C136_old_coordinates, C136_old_coordinates_refuted,
C139_evaluates_partial, C139_dual, C139_order_refuted, C139_digits_refuted,
C139_unloaded_refuted, C140_text_partial, C140_modules_refuted, C148_as_open_closed_partial,
C148_outside_circle, C148_undefined_refuted, C148_no_pair, C149_radii_partial,
C149_other_regions_refuted, C150_inputs_kept, C151_whole, C151_exact_partial, C151_any_partial,
C151_longitude, C151_exact_refuted, C152_hours_to_degrees, C152_hours_to_degrees_limits,
C152_degrees_to_hours_partial, C152_hours_back_partial, C152_degrees_back_partial,
C152_any_back_partial, C152_back_refuted, C153_hours_of_day, C153_longitude, C153_local_time,
C153_back_partial, C153_back_refuted, C161_single, C161_dual, C162_turned, C162_dawn_and_dusk,
C163_table_read, C163_ragged_refused, C163_no_times, C165_loaded_back_partial,
C165_single_pass_refuted, C166_crossings_at_reference_partial, C165_single_pass_refuted,
C168_geographic_round_trip_partial, C168_both_sides_refuted, C168_heights_refuted,
C169_period_suffices_partial, C169_same_values, C169_period_loaded, C169_unsorted_refuted,
C179_pi, C179_range, C179_day_partial, C179_turns_partial, C179_signed_partial,
C179_maximum_refuted, C180_radians_to_hours_partial, C180_hours_back_partial,
C180_radians_back_partial, C180_back_refuted, C181_order, C181_exact_times_partial,
C181_any_cycle_partial, C181_closest_partial, C181_far_refuted, C182_exact, C182_whole_seconds,
C182_nearest_second_partial, C182_rejected, C183_microseconds_partial, C183_no_seconds,
C183_written_microseconds_partial, C183_written_microseconds_refuted, C183_rounded_up_refuted,
C184_order, C184_times_partial, C184_written_partial, C184_written_refuted, C185_middle_partial,
C185_between, C185_written, C185_exact_partial, C185_second, C185_rejected,
C185_six_decimals_refuted, C186_same_or_error, C186_from_the_start, C186_any_cycle,
C186_never_moves, C186_within, C186_int_float_refuted, C187_one_ocb, C187_same_or_error,
C187_int_float_refuted
