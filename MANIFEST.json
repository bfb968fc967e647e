{
 "claims": [
  {
   "property": "C01",
   "status": "proved",
   "theorems": [
    "C01_next_good_record"
   ],
   "note": ""
  },
  {
   "property": "C02",
   "status": "proved",
   "theorems": [
    "C02_criterion_meaning",
    "C02_finite_comparisons",
    "C02_order_irrelevant",
    "C02_unknown_never_rejects",
    "C02_nan_merit_never_good",
    "C02_nan_value_fails_only_equal"
   ],
   "note": ""
  },
  {
   "property": "C03",
   "status": "proved",
   "theorems": [
    "C03_retrieve_all_good"
   ],
   "note": ""
  },
  {
   "property": "C04",
   "status": "proved",
   "theorems": [
    "C04_match_terminates"
   ],
   "note": "Any tolerance, including negative, and unsorted times."
  },
  {
   "property": "C05",
   "status": "proved",
   "theorems": [
    "C05_match_is_real"
   ],
   "note": ""
  },
  {
   "property": "C06",
   "status": "proved",
   "theorems": [
    "C06_no_match_skipped"
   ],
   "note": ""
  },
  {
   "property": "C07",
   "status": "proved",
   "theorems": [
    "C07_match_is_closest"
   ],
   "note": ""
  },
  {
   "property": "C08",
   "status": "partial",
   "theorems": [
    "C08_closest_with_repeated_times_refuted",
    "C07_match_is_closest"
   ],
   "note": "False as stated: with repeated boundary times the search stops at the first non-improving record. The strictly sorted case is C07."
  },
  {
   "property": "C09",
   "status": "proved",
   "theorems": [
    "C09_vort_pairs_exact",
    "C09_supermag_pairs_exact",
    "C09_every_matchable_measurement_processed",
    "C09_vort_pairs_exact_dual"
   ],
   "note": "Proved for the vort, SuperMAG and pysat loops (the pysat loop is the vort loop on the distinct accepted times), and for DualBoundary objects with distinct pair times, whenever the loop does not hit the C10 failure."
  },
  {
   "property": "C10",
   "status": "partial",
   "theorems": [
    "C10_crash_iff_disjoint",
    "C10_no_crash_refuted"
   ],
   "note": "False as stated: the loops raise TypeError exactly when the data and boundary periods are disjoint in the sense of disjoint_periods."
  },
  {
   "property": "C11",
   "status": "proved",
   "theorems": [
    "C11_pairs_valid"
   ],
   "note": ""
  },
  {
   "property": "C12",
   "status": "partial",
   "theorems": [
    "C12_one_to_one_when_spaced_partial",
    "C12_one_to_one_refuted"
   ],
   "note": "False as stated (C12_one_to_one_refuted). Proved one-to-one when good EABs are more than 2 max_delta apart and complete when the OCBs are too."
  },
  {
   "property": "C13",
   "status": "proved",
   "theorems": [
    "C13_assignment_in_step",
    "C13_cycling_visits_in_order"
   ],
   "note": ""
  },
  {
   "property": "C14",
   "status": "partial",
   "theorems": [
    "C14_out_of_range_partial",
    "C14_far_out_of_range",
    "C14_out_of_range_refuted"
   ],
   "note": "Holds for negative indices and for rec_ind = records; false further out of range, where the components are set inside their records."
  },
  {
   "property": "C15",
   "status": "proved",
   "theorems": [
    "C15_fix_range_normalises",
    "C15_default_range_unique",
    "C15_fix_range_rejects",
    "C15_fix_range_elementwise"
   ],
   "note": "Exact real arithmetic; binary64 is C17."
  },
  {
   "property": "C16",
   "status": "partial",
   "theorems": [
    "C16_any_range_partial",
    "C16_any_range_refuted"
   ],
   "note": "False as stated: a val_range wider than max-min can leave the result at or above max. Proved: min <= result < max(max, min+val_range)."
  },
  {
   "property": "C17",
   "status": "partial",
   "theorems": [
    "C17_binary64_partial",
    "C17_local_time_partial",
    "C17_nan",
    "C17_binary64_refuted"
   ],
   "note": "False as stated: infinities and 2^60 never terminate and tiny negatives become 24.0. Proved for binary64 inputs up to 2^50 ranges: terminates in [min,max], below max unless the input was below min."
  },
  {
   "property": "C18",
   "status": "proved",
   "theorems": [
    "C18_degrees_hours"
   ],
   "note": ""
  },
  {
   "property": "C19",
   "status": "proved",
   "theorems": [
    "C19_radians_hours",
    "C19_hours_radians"
   ],
   "note": ""
  },
  {
   "property": "C20",
   "status": "proved",
   "theorems": [
    "C20_local_time_longitude"
   ],
   "note": ""
  },
  {
   "property": "C21",
   "status": "proved",
   "theorems": [
    "C21_hours_of_day"
   ],
   "note": ""
  },
  {
   "property": "C22",
   "status": "proved",
   "theorems": [
    "C22_year_soy",
    "C22_year_soy_rejects",
    "C22_rolls_over"
   ],
   "note": "Years 1000-9999 accepted; other years raise ValueError."
  },
  {
   "property": "C23",
   "status": "partial",
   "theorems": [
    "C23_fractional_seconds_partial",
    "C23_last_half_second_rejected",
    "C23_fractional_seconds_refuted"
   ],
   "note": "False as stated: the last half second of every minute raises ValueError. Proved within half a second elsewhere."
  },
  {
   "property": "C24",
   "status": "proved",
   "theorems": [
    "C24_yyddd",
    "C24_yyddd_rejects",
    "C24_not_a_string",
    "C24_short"
   ],
   "note": ""
  },
  {
   "property": "C25",
   "status": "proved",
   "theorems": [
    "C25_date_and_seconds",
    "C25_yyddd_and_seconds"
   ],
   "note": "Exact rational seconds; also for YYDDD dates in the formats ocbpy uses."
  },
  {
   "property": "C26",
   "status": "partial",
   "theorems": [
    "C26_format_length_partial",
    "C26_prefix_keeps_time",
    "C26_format_length_refuted",
    "C26_iso_year_not_counted"
   ],
   "note": "False as stated: repeated directives and ISO week-year directives are undercounted. Proved when each lengthening directive is used at most once."
  },
  {
   "property": "C27",
   "status": "proved",
   "theorems": [
    "C27_boundary_to_reference"
   ],
   "note": "For positive corrected radius."
  },
  {
   "property": "C28",
   "status": "proved",
   "theorems": [
    "C28_normal_then_revert",
    "C28_normal_then_revert_arrays"
   ],
   "note": "Scalars and arrays of any length; at the pole itself the MLT is arbitrary."
  },
  {
   "property": "C29",
   "status": "proved",
   "theorems": [
    "C29_revert_then_normal"
   ],
   "note": ""
  },
  {
   "property": "C30",
   "status": "proved",
   "theorems": [
    "C30_normal_ranges",
    "C30_revert_ranges"
   ],
   "note": ""
  },
  {
   "property": "C31",
   "status": "partial",
   "theorems": [
    "C31_undefined_is_nan_partial",
    "C31_mixed_input_partial",
    "C31_mixed_input_refuted",
    "C31_integer_arrays_fail"
   ],
   "note": "False for integer latitude arrays with both hemispheres: ValueError. Proved otherwise."
  },
  {
   "property": "C32",
   "status": "partial",
   "theorems": [
    "C32_elementwise_partial",
    "C32_revert_elementwise_partial",
    "C32_elementwise_refuted"
   ],
   "note": "Proved for the coordinates from normal_coord and for revert_coord arrays in one hemisphere. False for the returned r_corr and for revert_coord in mixed arrays."
  },
  {
   "property": "C33",
   "status": "partial",
   "theorems": [
    "C33_arguments_kept_partial",
    "C33_arguments_kept_refuted"
   ],
   "note": "False: normal_coord writes NaN into a mixed ndarray, get_aacgm_boundary_lat wraps the caller's MLT ndarray. Unchanged otherwise."
  },
  {
   "property": "C34",
   "status": "proved",
   "theorems": [
    "C34_on_boundary"
   ],
   "note": ""
  },
  {
   "property": "C35",
   "status": "proved",
   "theorems": [
    "C35_stored_boundaries",
    "C35_kept_over_any_history",
    "C35_only_requested"
   ],
   "note": ""
  },
  {
   "property": "C36",
   "status": "partial",
   "theorems": [
    "C36_mlt_normalised_partial",
    "C36_stored_mlt_partial",
    "C36_mlt_normalised_refuted"
   ],
   "note": "False beyond one period: 150 h is stored as 126 h. Proved for [-24, 48)."
  },
  {
   "property": "C37",
   "status": "partial",
   "theorems": [
    "C37_dual_normal_regions_partial",
    "C37_dual_normal_monotone_partial",
    "C37_equator_refuted"
   ],
   "note": "Proved off the equator: the boundaries, strict monotonicity and Lipschitz continuity. False at the equator itself, which gives NaN."
  },
  {
   "property": "C38",
   "status": "proved",
   "theorems": [
    "C38_dual_round_trip"
   ],
   "note": "For the radii and configuration in which both boundaries meet the meridian."
  },
  {
   "property": "C39",
   "status": "partial",
   "theorems": [
    "C39_dual_stores_kept_partial",
    "C39_failed_call_refuted",
    "C39_unset_refuted"
   ],
   "note": "Proved when both boundaries have stored latitudes and the call succeeds. False after a failed call and when nothing was stored for the record."
  },
  {
   "property": "C40",
   "status": "partial",
   "theorems": [
    "C40_dual_revert_undefined_partial",
    "C40_before_first_refuted",
    "C40_past_last_refuted"
   ],
   "note": "False: before the first record the call fails, and past the last one it can return numbers."
  },
  {
   "property": "C41",
   "status": "partial",
   "theorems": [
    "C41_dual_construction_partial",
    "C41_supplied_boundaries_refuted"
   ],
   "note": "False for boundary objects supplied by the caller."
  },
  {
   "property": "C42",
   "status": "proved",
   "theorems": [
    "C42_region_radii",
    "C42_radii_are_scale"
   ],
   "note": ""
  },
  {
   "property": "C43",
   "status": "proved",
   "theorems": [
    "C43_reference_latitude",
    "C43_none_rejected"
   ],
   "note": "Also: boundary_lat=None raises TypeError."
  },
  {
   "property": "C44",
   "status": "partial",
   "theorems": [
    "C44_records_kept_partial",
    "C44_loads_partial",
    "C44_single_record_refuted",
    "C44_times_needed",
    "C44_can_be_cycled"
   ],
   "note": "Proved for files of zero or more than one data row, from the table genfromtxt returns. A single record raises IndexError."
  },
  {
   "property": "C45",
   "status": "proved",
   "theorems": [
    "C45_cartesian_centre"
   ],
   "note": ""
  },
  {
   "property": "C46",
   "status": "proved",
   "theorems": [
    "C46_vector_quadrants",
    "C46_pole_quadrants"
   ],
   "note": ""
  },
  {
   "property": "C47",
   "status": "proved",
   "theorems": [
    "C47_dest_angle_range",
    "C47_dest_angle_nan",
    "C47_undefined_quadrants_raise"
   ],
   "note": ""
  },
  {
   "property": "C48",
   "status": "proved",
   "theorems": [
    "C48_adjust_is_rotation"
   ],
   "note": ""
  },
  {
   "property": "C49",
   "status": "partial",
   "theorems": [
    "C49_magnitude_preserved_partial",
    "C49_vertical_kept_refuted"
   ],
   "note": "False for a vector without horizontal part: its vertical component is set to zero unless the poles are aligned."
  },
  {
   "property": "C50",
   "status": "partial",
   "theorems": [
    "C50_pole_angle_partial",
    "C50_pole_angle_aligned_partial",
    "C50_pole_angle_refuted",
    "C50_other_hemisphere_refuted"
   ],
   "note": "Proved in general position (both hemispheres, scalars and arrays) and for the aligned positions where it holds. False for data beyond the pole on the opposite meridian."
  },
  {
   "property": "C51",
   "status": "proved",
   "theorems": [
    "C51_components_along_pole_direction"
   ],
   "note": ""
  },
  {
   "property": "C52",
   "status": "partial",
   "theorems": [
    "C52_aligned_poles_partial",
    "C52_beyond_pole_refuted",
    "C52_opposite_refuted"
   ],
   "note": "False for every vector poleward of the boundary pole on its meridian (returned unchanged) and at the pole's latitude on the opposite one (reversed)."
  },
  {
   "property": "C53",
   "status": "partial",
   "theorems": [
    "C53_pole_always_northern_refuted",
    "C53_southern_vectors_refuted"
   ],
   "note": "False: get_pole_loc places every pole in the north. Only the refutations are proved."
  },
  {
   "property": "C54",
   "status": "partial",
   "theorems": [
    "C54_single_vector_partial",
    "C54_scaled_refuted"
   ],
   "note": "Proved without a scaling function. False with one: the scalar code scales the unrotated components."
  },
  {
   "property": "C55",
   "status": "proved",
   "theorems": [
    "C55_scaling_laws"
   ],
   "note": ""
  },
  {
   "property": "C56",
   "status": "proved",
   "theorems": [
    "C56_haversine"
   ],
   "note": ""
  },
  {
   "property": "C57",
   "status": "proved",
   "theorems": [
    "C57_elliptical",
    "C57_elliptical_extremes",
    "C57_harmonic",
    "C57_unknown_names",
    "C57_circular"
   ],
   "note": ""
  },
  {
   "property": "C58",
   "status": "partial",
   "theorems": [
    "C58_default_file_partial",
    "C58_answers_partial"
   ],
   "note": "Proved for directories holding only boundary files with the documented names. With other files or several files of one unknown instrument see C59."
  },
  {
   "property": "C59",
   "status": "partial",
   "theorems": [
    "C59_last_listed",
    "C59_unknown_instrument_refuted",
    "C59_stray_file_refuted",
    "C59_dates_ignored_refuted"
   ],
   "note": "False: several files of an unknown instrument raise ValueError, a stray file with the extension raises, and of several files of one instrument the last listed one is returned even if its own dates miss the request."
  },
  {
   "property": "C60",
   "status": "partial",
   "theorems": [
    "C60_dmsp_selection",
    "C60_path_refuted"
   ],
   "note": "Proved for file names without directory, which is how the archive lists them. With an underscore in a directory name parsing raises."
  },
  {
   "property": "C61",
   "status": "proved",
   "theorems": [
    "C61_circle_through_crossings",
    "C61_rounded"
   ],
   "note": "Also bounds the effect of writing three decimals."
  },
  {
   "property": "C62",
   "status": "proved",
   "theorems": [
    "C62_every_line_loaded",
    "C62_file_refused",
    "C62_no_rule",
    "C62_blank_line_raises"
   ],
   "note": "For files of blocks with at least one station; values read by float are a parameter. A blank line raises IndexError."
  },
  {
   "property": "C63",
   "status": "partial",
   "theorems": [
    "C63_last_block_partial",
    "C63_empty_block_refuted"
   ],
   "note": "False for a block followed by another: its date line is taken for a station. True for the last block."
  },
  {
   "property": "C64",
   "status": "proved",
   "theorems": [
    "C64_every_entry_loaded",
    "C64_file_refused",
    "C64_count_too_large",
    "C64_count_too_small",
    "C64_count_not_one_word",
    "C64_blank_line_raises",
    "C64_terminates"
   ],
   "note": "Values read by float and the truncation of hours to seconds are parameters. A wrong count raises IOError when the block is followed by another (at the end of the file see C65); a blank line raises IOError."
  },
  {
   "property": "C65",
   "status": "partial",
   "theorems": [
    "C65_cut_entries_partial",
    "C65_cut_block_refuted"
   ],
   "note": "False for files cut after the date line or the number of entries of a block, which is silently dropped; true for files cut inside the entries."
  },
  {
   "property": "C66",
   "status": "proved",
   "theorems": [
    "C66_size_gate"
   ],
   "note": ""
  },
  {
   "property": "C67",
   "status": "partial",
   "theorems": [
    "C67_column_types_partial",
    "C67_list_kept_partial",
    "C67_positions_refuted",
    "C67_list_changed_refuted"
   ],
   "note": "True when the whole-number parts of the time (YEAR, SOY) are in the columns of their positions in the format; otherwise other columns are read as integers. The caller's list of integer columns (and header list) is extended when the format has YEAR or SOY. Values read by float are a parameter; columns are separated by white space."
  },
  {
   "property": "C68",
   "status": "partial",
   "theorems": [
    "C68_points_on_track_partial",
    "C68_bad_request",
    "C68_vertical_track",
    "C68_number_never_accepted",
    "C68_grid_rows",
    "C68_other_hemisphere_refuted",
    "C68_number_refuted",
    "C68_grid_refuted"
   ],
   "note": "Proved for finite and NaN points of the requested hemisphere in 1-D arrays; 2-D arrays and 0-D input are characterised exactly. False for points of the other hemisphere (the size of the latitude is compared), for numbers on the track (IndexError) and for rows of 2-D arrays. Crossings with the same x raise ZeroDivisionError."
  },
  {
   "property": "C69",
   "status": "partial",
   "theorems": [
    "C69_crossings_on_track_partial",
    "C69_steep_track_rejects_all",
    "C69_steep_track_refuted"
   ],
   "note": "True when the rise of the line times del_x is at most del_y; otherwise every point is rejected."
  },
  {
   "property": "C70",
   "status": "partial",
   "theorems": [
    "C70_boundary_from_name_partial",
    "C70_default_refuted"
   ],
   "note": "Exact behaviour for all file names: refuted for the documented defaults 'ocb' and 'eab' (ValueError), and for every name that starts with the type."
  },
  {
   "property": "C71",
   "status": "partial",
   "theorems": [
    "C71_pandas",
    "C71_xarray_north_partial",
    "C71_xarray_south_all_kept",
    "C71_xarray_south_refuted"
   ],
   "note": "Proved for pandas instruments, and for xarray instruments with hemisphere 1; with hemisphere -1 an xarray instrument has its northern samples converted. One time coordinate."
  },
  {
   "property": "C72",
   "status": "partial",
   "theorems": [
    "C72_leading_dimensions_partial",
    "C72_same_dimensions_partial",
    "C72_different_shapes",
    "C72_second_dimension_refused",
    "C72_second_dimension_refuted",
    "C72_same_dimensions_refuted"
   ],
   "note": "Proved for data on the leading dimensions of the mask in any order, and for the same dimensions with a box mask; refuted for data on another dimension of the same size (wrong values) and for masks that are not boxes (extra values); the remaining sizes raise ValueError."
  },
  {
   "property": "C73",
   "status": "partial",
   "theorems": [
    "C73_radius_when_indices_agree_partial",
    "C73_matched_radius_refuted"
   ],
   "note": "False as stated: vort.py uses the pair index into the OCB radii. True when every pair index equals its OCB index."
  },
  {
   "property": "C74",
   "status": "partial",
   "theorems": [
    "C74_shapes_partial",
    "C74_refuted_two_dimensional",
    "C74_refuted_boundary_values"
   ],
   "note": "The exact set of accepted shapes is proved; it excludes equal two-dimensional index arrays and includes boundary values of unrelated length."
  },
  {
   "property": "C75",
   "status": "partial",
   "theorems": [
    "C75_argument_kept_partial",
    "C75_argument_kept_refuted"
   ],
   "note": "False for ndarrays (changed in place to the result), true for other sequences."
  },
  {
   "property": "C76",
   "status": "partial",
   "theorems": [
    "C76_year_soy_only_value_error_partial",
    "C76_value_error_refuted"
   ],
   "note": "False for YYDDD: days 367-999 raise UnboundLocalError. True for year and seconds of year."
  },
  {
   "property": "C77",
   "status": "partial",
   "theorems": [
    "C77_seconds_kept_partial",
    "C77_seconds_kept_refuted"
   ],
   "note": "False as stated: with text after the date the seconds are ignored. True for well formed dates."
  },
  {
   "property": "C78",
   "status": "proved",
   "theorems": [
    "C78_date_and_time_text"
   ],
   "note": ""
  },
  {
   "property": "C79",
   "status": "partial",
   "theorems": [
    "C79_mlt_values_accepted_partial",
    "C79_mlt_values_accepted_refuted"
   ],
   "note": "False: every integer MLT array raises TypeError. Floats are accepted."
  },
  {
   "property": "C80",
   "status": "proved",
   "theorems": [
    "C80_geographic_round_trip"
   ],
   "note": "aacgmv2 is an arbitrary pair of functions assumed mutually inverse."
  },
  {
   "property": "C81",
   "status": "partial",
   "theorems": [
    "C81_points_independent_partial",
    "C81_points_independent_refuted"
   ],
   "note": "False for a point in no region: whether it becomes NaN depends on the other points."
  },
  {
   "property": "C82",
   "status": "proved",
   "theorems": [
    "C82_arrays_elementwise"
   ],
   "note": ""
  },
  {
   "property": "C83",
   "status": "partial",
   "theorems": [
    "C83_one_vector_many_poles_partial",
    "C83_aligned_pole_dropped_refuted"
   ],
   "note": "False as soon as one pole is aligned and another is not: the aligned ones are missing from the result."
  },
  {
   "property": "C84",
   "status": "partial",
   "theorems": [
    "C84_rec_ind_selects_pair",
    "C84_out_of_range_partial",
    "C84_beyond_last_refuted"
   ],
   "note": "False beyond the number of pairs, where a valid record can be selected."
  },
  {
   "property": "C85",
   "status": "partial",
   "theorems": [
    "C85_arrays_elementwise_partial",
    "C85_matched_refuted"
   ],
   "note": "False for vectors outside the hemisphere when each vector has its own record: they get finite components."
  },
  {
   "property": "C86",
   "status": "partial",
   "theorems": [
    "C86_scaled_components_partial",
    "C86_magnitude_partial",
    "C54_scaled_refuted"
   ],
   "note": "Proved for arrays with any scaling function and for scalars without one, off the pole's meridian. The pole is the one the code uses, which is always northern (C53)."
  },
  {
   "property": "C87",
   "status": "partial",
   "theorems": [
    "C87_geographic_vectors_partial",
    "C87_southern_refuted",
    "C87_meridian_refuted"
   ],
   "note": "Proved for northern poles off the meridian. False for southern poles and, on the meridian, when the magnetic latitude exceeds the pole's geographic latitude."
  },
  {
   "property": "C88",
   "status": "partial",
   "theorems": [
    "C88_coordinates_from_boundary_partial",
    "C88_other_boundary_refuted"
   ],
   "note": "False for a vector whose coordinates were set from another boundary."
  },
  {
   "property": "C89",
   "status": "partial",
   "theorems": [
    "C89_inputs_kept_partial",
    "C89_latitude_lost_refuted"
   ],
   "note": "False for arrays with one record: latitudes outside the hemisphere become NaN."
  },
  {
   "property": "C90",
   "status": "partial",
   "theorems": [
    "C90_repeated_partial",
    "C90_invalid_index_refuted"
   ],
   "note": "False for an index past the records, where the repeated call raises IndexError."
  },
  {
   "property": "C91",
   "status": "proved",
   "theorems": [
    "C91_corrected_radius"
   ],
   "note": ""
  },
  {
   "property": "C92",
   "status": "proved",
   "theorems": [
    "C92_correction_per_record",
    "C92_misfit_refused"
   ],
   "note": "For files accepted by load (see C44)."
  },
  {
   "property": "C93",
   "status": "proved",
   "theorems": [
    "C93_centre_from_xy"
   ],
   "note": "For files accepted by load (see C44)."
  },
  {
   "property": "C94",
   "status": "proved",
   "theorems": [
    "C94_unloaded_without_file",
    "C94_readable_is_loaded",
    "C94_bad_hemisphere",
    "C94_default_file",
    "C94_default_eab_file"
   ],
   "note": ""
  },
  {
   "property": "C95",
   "status": "partial",
   "theorems": [
    "C95_eab_instruments_partial",
    "C95_documented_refuted",
    "C95_case_refuted"
   ],
   "note": "False for the documented names si12, si13 and wic, and for names in another case."
  },
  {
   "property": "C96",
   "status": "partial",
   "theorems": [
    "C96_dual_poleward_partial",
    "C96_objects_refuted",
    "C96_dual_refused"
   ],
   "note": "False when the boundaries are passed as objects: the arguments are compared instead."
  },
  {
   "property": "C97",
   "status": "partial",
   "theorems": [
    "C97_repr_partial",
    "C97_empty_refuted",
    "C97_eab_refuted"
   ],
   "note": "False for a window without records and for EABoundary objects without a file."
  },
  {
   "property": "C98",
   "status": "partial",
   "theorems": [
    "C98_instrument_overrides_partial",
    "C98_times_still_used_refuted"
   ],
   "note": "False when both times are given: they still restrict the files."
  },
  {
   "property": "C99",
   "status": "partial",
   "theorems": [
    "C99_days_in_request_partial",
    "C99_midday_refuted"
   ],
   "note": "Proved for requests starting at midnight. False for requests starting later in the day: that day's file is rejected."
  },
  {
   "property": "C100",
   "status": "partial",
   "theorems": [
    "C100_streams_restored_partial",
    "C100_failed_download_refuted",
    "C100_redirected_refuted"
   ],
   "note": "False when the download raises (output stays captured) and when the caller had redirected stdout."
  },
  {
   "property": "C101",
   "status": "partial",
   "theorems": [
    "C101_archive_found_partial",
    "C101_no_archive_hangs_refuted"
   ],
   "note": "False for links without archive: the search does not end."
  },
  {
   "property": "C102",
   "status": "partial",
   "theorems": [
    "C102_temporary_files_partial",
    "C102_left_behind_refuted"
   ],
   "note": "False after an exception: the archive remains."
  },
  {
   "property": "C103",
   "status": "proved",
   "theorems": [
    "C103_requested_files",
    "C103_bad_arguments_refused"
   ],
   "note": "For archives of plain files; names are relative to the output directory."
  },
  {
   "property": "C104",
   "status": "partial",
   "theorems": [
    "C104_passes_written_partial",
    "C104_single_pass_refuted",
    "C104_hemisphere_refused"
   ],
   "note": "False for a file with a single pass, which is taken for a bad file."
  },
  {
   "property": "C105",
   "status": "partial",
   "theorems": [
    "C105_output_names_partial",
    "C105_directory_refuted"
   ],
   "note": "False when -f occurs in the directory name: the files are written elsewhere."
  },
  {
   "property": "C106",
   "status": "partial",
   "theorems": [
    "C106_fill_replaced_partial",
    "C106_latitude_refuted"
   ],
   "note": "False for the magnetic latitude, which keeps its fill value."
  },
  {
   "property": "C107",
   "status": "partial",
   "theorems": [
    "C107_cut_line_partial",
    "C107_cut_block_refuted"
   ],
   "note": "False for files cut between lines; true for files cut inside a station line (except after two words)."
  },
  {
   "property": "C108",
   "status": "partial",
   "theorems": [
    "C108_date_and_time_of_day",
    "C108_date_and_seconds",
    "C108_year_and_seconds_partial",
    "C67_column_types_partial",
    "C67_positions_refuted"
   ],
   "note": "Proved for dates with times of day or seconds of day in any columns, and for YEAR SOY in the first two columns; YEAR SOY elsewhere: see C67. Any other format: C67_column_types_partial in terms of convert_time."
  },
  {
   "property": "C109",
   "status": "partial",
   "theorems": [
    "C109_single_row_refuted",
    "C109_single_row_times_refuted"
   ],
   "note": "False: every column gets all the texts of the row, and with times the call raises."
  },
  {
   "property": "C110",
   "status": "proved",
   "theorems": [
    "C110_file_refused",
    "C110_no_rows",
    "C110_ragged_rows"
   ],
   "note": "For the separator white space and the default comment sign."
  },
  {
   "property": "C111",
   "status": "proved",
   "theorems": [
    "C111_names_taken",
    "C67_column_types_partial"
   ],
   "note": ""
  },
  {
   "property": "C112",
   "status": "partial",
   "theorems": [
    "C112_given",
    "C112_detected_partial",
    "C112_south_and_equator",
    "C112_both_refused",
    "C112_north_and_equator_refuted"
   ],
   "note": "Northern data touching the equator is refused, southern data touching it is not."
  },
  {
   "property": "C113",
   "status": "partial",
   "theorems": [
    "C113_rows_converted_partial",
    "C113_some_row_converts",
    "C113_no_match_refuted"
   ],
   "note": "Proved whenever one sample can be converted; when none can, TypeError may be raised instead (see C10). The height must be an array (see C143)."
  },
  {
   "property": "C114",
   "status": "partial",
   "theorems": [
    "C114_own_description_partial",
    "C114_inherited_refuted"
   ],
   "note": "Proved when later vectors give every key earlier ones gave; otherwise a vector inherits values from an earlier one."
  },
  {
   "property": "C115",
   "status": "partial",
   "theorems": [
    "C115_scaling_chosen",
    "C115_scaling_missing",
    "C115_repeat_partial",
    "C115_repeat_refuted",
    "C115_lists_changed_refuted"
   ],
   "note": "Scaling proved; repeated calls proved unless a vector is in both lists. The caller's lists and descriptions are changed by the call."
  },
  {
   "property": "C116",
   "status": "partial",
   "theorems": [
    "C116_names_partial",
    "C116_ocb_names",
    "C116_distinct_partial",
    "C116_missing_name_refuted",
    "C116_shared_name_refuted"
   ],
   "note": "Proved for vector names without 'ocb'; refuted otherwise."
  },
  {
   "property": "C117",
   "status": "partial",
   "theorems": [
    "C117_combined_partial",
    "C117_unchanged",
    "C117_common_coordinate_refuted"
   ],
   "note": "Proved for coordinates without overlap and for equal coordinates; with a common coordinate and another one the call raises ValueError. Latitudes and local times of equal shape are never combined (see C144)."
  },
  {
   "property": "C118",
   "status": "partial",
   "theorems": [
    "C118_supermag_lines_partial",
    "C118_supermag_apart_refuted"
   ],
   "note": "Proved when the periods of boundary and data overlap or no station is usable; otherwise the call raises TypeError (see C10) after opening the file. The boundary loader, the conversion of one station and text-to-number are parameters; decimals are those of exact rationals."
  },
  {
   "property": "C119",
   "status": "proved",
   "theorems": [
    "C119_number_of_stations"
   ],
   "note": ""
  },
  {
   "property": "C120",
   "status": "proved",
   "theorems": [
    "C120_supermag_columns",
    "C120_vort_columns"
   ],
   "note": ""
  },
  {
   "property": "C121",
   "status": "partial",
   "theorems": [
    "C121_vort_lines_partial",
    "C121_other_hemisphere",
    "C121_vort_apart_refuted"
   ],
   "note": "As C118."
  },
  {
   "property": "C122",
   "status": "partial",
   "theorems": [
    "C122_local_time_partial",
    "C122_local_time_refuted"
   ],
   "note": "True unless the value is within half a unit of the last decimal of 24, where it is written as 24."
  },
  {
   "property": "C123",
   "status": "proved",
   "theorems": [
    "C123_period_loses_nothing"
   ],
   "note": ""
  },
  {
   "property": "C124",
   "status": "partial",
   "theorems": [
    "C124_usable_partial",
    "C124_missing_latitude_refuted",
    "C124_hemisphere_refuted"
   ],
   "note": "True of local times and fields; the fill value of a missing latitude counts as northern, and makes hemisphere detection fail for southern files."
  },
  {
   "property": "C125",
   "status": "partial",
   "theorems": [
    "C125_no_file",
    "C125_no_records",
    "C125_vort_no_records",
    "C125_vort_no_entries",
    "C125_no_rule_refuted",
    "C125_no_stations_refuted"
   ],
   "note": "SuperMAG files without the rule ending the header raise KeyError, with a header only IndexError, instead of ValueError."
  },
  {
   "property": "C126",
   "status": "partial",
   "theorems": [
    "C126_supermag_read_back_partial",
    "C126_vort_read_back_partial",
    "C126_one_line_refuted",
    "C126_reads"
   ],
   "note": "Proved for two or more lines, station names without a hash and not longer than max_str_length, and integers of 64 bits (vorticity: save_all false). A file with one line is refused (C109). float() is taken to read decimals exactly (C126_reads shows this can be met)."
  },
  {
   "property": "C127",
   "status": "partial",
   "theorems": [
    "C127_locations_converted_partial",
    "C127_between_systems_as_magnetic",
    "C127_between_systems_refuted"
   ],
   "note": "aacgmv2 is a parameter. A change between geodetic and geocentric treats the numbers as magnetic coordinates."
  },
  {
   "property": "C128",
   "status": "partial",
   "theorems": [
    "C128_round_trip_partial",
    "C128_capitals_refuted"
   ],
   "note": "Local times in [0, 24), names in small letters. A system given in capitals loses the geocentric method on the way back."
  },
  {
   "property": "C129",
   "status": "partial",
   "theorems": [
    "C129_repeat_partial",
    "C129_capitals_refuted"
   ],
   "note": "Names in small letters; with capitals each call converts again."
  },
  {
   "property": "C130",
   "status": "partial",
   "theorems": [
    "C130_vector_rotated_partial",
    "C130_arrays_partial",
    "C130_repeat",
    "C130_no_magnetic_location",
    "C130_no_pole_raises",
    "C130_not_magnetic_refuted"
   ],
   "note": "For a northern magnetic pole off the meridian of the vector (see C87). Arrays: own times, no missing values. Locations without magnetic coordinates leave the vectors geographic; a pole without longitude raises UnboundLocalError."
  },
  {
   "property": "C131",
   "status": "proved",
   "theorems": [
    "C131_names_accepted"
   ],
   "note": "Letters A to Z only are lowered."
  },
  {
   "property": "C132",
   "status": "partial",
   "theorems": [
    "C132_time_of_record_partial",
    "C132_other_record_refuted",
    "C132_trace_method_refuted"
   ],
   "note": "A scalar record index is ignored in favour of the record the boundary object is set to, and the trace method of set_ocb is not handed on."
  },
  {
   "property": "C133",
   "status": "partial",
   "theorems": [
    "C133_values_kept_partial",
    "C133_location_refuted",
    "C133_results_refuted"
   ],
   "note": "Locations given for one data index stay scalars when several data indices are assigned, and after going from several boundary indices to one the (unset) results keep the old number."
  },
  {
   "property": "C134",
   "status": "partial",
   "theorems": [
    "C134_rejected_partial",
    "C134_index_refuted",
    "C134_coordinates_refuted",
    "C134_components_refuted"
   ],
   "note": "False: the index is stored before it is tested, boundary coordinates are lost, and components may be repeated so that the old index is no longer accepted."
  },
  {
   "property": "C135",
   "status": "partial",
   "theorems": [
    "C135_boundary_index_partial",
    "C135_one_index_refuted"
   ],
   "note": "For one boundary index after several the coordinates stay those of several."
  },
  {
   "property": "C136",
   "status": "partial",
   "theorems": [
    "C136_new_index_partial",
    "C136_old_coordinates",
    "C136_old_coordinates_refuted"
   ],
   "note": "One vector with one boundary index. Holds if a boundary coordinate is unset; otherwise the coordinates of the old record stay."
  },
  {
   "property": "C137",
   "status": "partial",
   "theorems": [
    "C137_value_assigned_partial",
    "C137_magnitude_refuted",
    "C137_results_refuted",
    "C137_count_refuted"
   ],
   "note": "The value is stored and nothing else changes, so magnitude and results become stale; the number of values is not tested."
  },
  {
   "property": "C138",
   "status": "partial",
   "theorems": [
    "C138_magnitude_partial",
    "C138_given_refuted",
    "C138_shape_refuted",
    "C138_one_element_refuted"
   ],
   "note": "A given magnitude is replaced when the data index is assigned; three scalar components with several data indices give one scalar magnitude; a given magnitude of one element is kept for several vectors."
  },
  {
   "property": "C139",
   "status": "partial",
   "theorems": [
    "C139_evaluates_partial",
    "C139_dual",
    "C139_order_refuted",
    "C139_digits_refuted",
    "C139_unloaded_refuted"
   ],
   "note": "Holds when the first and last loaded time bound the others, the latitude has at most six decimals and the corrections are written by their module and name; otherwise records, digits or unloaded corrections are lost."
  },
  {
   "property": "C140",
   "status": "partial",
   "theorems": [
    "C140_text_partial",
    "C140_modules_refuted"
   ],
   "note": "Two functions of the same name in different modules are each shown with the keyword arguments of both."
  },
  {
   "property": "C141",
   "status": "partial",
   "theorems": [
    "C141_evaluates_partial",
    "C141_nan_refuted",
    "C141_digits_refuted",
    "C141_name_refuted",
    "C141_magnitude_refuted",
    "C141_results_refuted"
   ],
   "note": "Holds when the texts of the numbers and the function are read back as they are, no name has the word 'array' and the magnitude has the shape of the data; NaN, digits after the eighth, the word 'array' in a name, magnitudes of another shape and the results are lost."
  },
  {
   "property": "C142",
   "status": "partial",
   "theorems": [
    "C142_text_partial",
    "C142_constructed",
    "C142_magnitude_refuted",
    "C142_coordinates_refuted",
    "C142_height_refuted",
    "C142_repeated_refuted"
   ],
   "note": "Proved for one vector and one boundary, several vectors with all values for each, and one vector with several boundaries, where each vector line is repeated and results accumulate. Scalar components with several data indices raise TypeError, scalar boundary coordinates with several vectors IndexError, several heights for one vector TypeError."
  },
  {
   "property": "C143",
   "status": "partial",
   "theorems": [
    "C143_one_height_partial",
    "C143_times_only_refuted",
    "C143_pandas_refuted"
   ],
   "note": "Proved when locations have to be combined or the data have more coordinates than the locations; otherwise (also with the default height) the call raises IndexError at the first sample near a boundary."
  },
  {
   "property": "C144",
   "status": "partial",
   "theorems": [
    "C144_combined_partial",
    "C144_same_size_refuted",
    "C144_height_layout_refuted",
    "C144_height_shape_refuted"
   ],
   "note": "Proved for latitudes and local times without common coordinates (or with the same ones) that differ in shape or do not start with the number of times, and one height or one for each combination. As many latitudes as times are taken for latitudes of the times; heights on their own coordinate are misplaced, and on the time and their own coordinate refused."
  },
  {
   "property": "C145",
   "status": "partial",
   "theorems": [
    "C145_repeated_partial",
    "C145_two_coordinates_refuted"
   ],
   "note": "Proved for locations on the time only; latitudes and local times both on the time and a second coordinate are refused."
  },
  {
   "property": "C146",
   "status": "partial",
   "theorems": [
    "C146_own_boundary_partial",
    "C146_some_sample_converts"
   ],
   "note": "Proved for the inputs of C144 and C145 with the time as first coordinate and a mask with the coordinates of the output; when no sample can be converted, TypeError may be raised instead (see C10). The conversion of one location is a parameter."
  },
  {
   "property": "C147",
   "status": "partial",
   "theorems": [
    "C147_same_order_partial",
    "C147_same_order_times",
    "C147_latitude_variable_refuted"
   ],
   "note": "Proved for latitudes that are coordinates of the instrument and local times that are not, and for locations on the time only; refuted for latitudes that are a data variable on their own coordinate."
  },
  {
   "property": "C148",
   "status": "partial",
   "theorems": [
    "C148_as_open_closed_partial",
    "C148_outside_circle",
    "C148_undefined_refuted",
    "C148_no_pair"
   ],
   "note": "Proved for vectors in the polar cap, between the boundaries or equatorward of both. A vector poleward of the open-closed boundary on its meridian but outside its circle gets no latitude and nothing is normalised, though the open-closed boundary alone gives a result. Indices that are no pair leave the vector as it was. Magnetic coordinates."
  },
  {
   "property": "C149",
   "status": "partial",
   "theorems": [
    "C149_radii_partial",
    "C149_other_regions_refuted"
   ],
   "note": "Holds in the polar cap. Between the boundaries and equatorward of both, set_ocb uses the radii of the polar cap for every vector, while calc_r gives those of the region."
  },
  {
   "property": "C150",
   "status": "proved",
   "theorems": [
    "C150_inputs_kept"
   ],
   "note": "For dual boundaries whose pairs are records of both boundaries; magnetic coordinates."
  },
  {
   "property": "C151",
   "status": "partial",
   "theorems": [
    "C151_whole",
    "C151_exact_partial",
    "C151_any_partial",
    "C151_longitude",
    "C151_exact_refuted"
   ],
   "note": "Exact if the value is not below the minimum or the minimum is at most minus half a period (-180 to 360 always). Otherwise one rounding of at most 2^-53 of the period, and the maximum may be reached."
  },
  {
   "property": "C152",
   "status": "partial",
   "theorems": [
    "C152_hours_to_degrees",
    "C152_hours_to_degrees_limits",
    "C152_degrees_to_hours_partial",
    "C152_hours_back_partial",
    "C152_degrees_back_partial",
    "C152_any_back_partial",
    "C152_back_refuted"
   ],
   "note": "Limits and error bounds are proved; deg2hr of a negative double may be 24, and a round trip may change the last digit."
  },
  {
   "property": "C153",
   "status": "partial",
   "theorems": [
    "C153_hours_of_day",
    "C153_longitude",
    "C153_local_time",
    "C153_back_partial",
    "C153_back_refuted"
   ],
   "note": "All proved but the exact round trip, which holds only within the stated error."
  },
  {
   "property": "C154",
   "status": "partial",
   "theorems": [
    "C154_own_values_partial",
    "C154_two_coordinates",
    "C154_not_a_box_refuted",
    "C154_second_coordinate_refuted"
   ],
   "note": "Proved for variables on the first coordinates and for variables on all of them with a box of samples at each time, if the order of C155 holds; refused for other samples of three coordinates and for a variable on the second coordinate alone."
  },
  {
   "property": "C155",
   "status": "partial",
   "theorems": [
    "C155_same_order_partial",
    "C155_same_order_times",
    "C155_other_order_refuted"
   ],
   "note": "Proved for locations on the time only, and for latitudes that are one coordinate of the instrument with data on the coordinates of the locations. Refuted for data with a further coordinate before that of the latitudes."
  },
  {
   "property": "C156",
   "status": "proved",
   "theorems": [
    "C156_kept",
    "C156_overwrite"
   ],
   "note": ""
  },
  {
   "property": "C157",
   "status": "partial",
   "theorems": [
    "C157_variable_partial",
    "C157_no_metadata_partial",
    "C157_other_boundary_refuted"
   ],
   "note": "Proved for variables none of whose name pieces is a word for a boundary; otherwise the output may be described as one of another boundary."
  },
  {
   "property": "C158",
   "status": "partial",
   "theorems": [
    "C158_notes_partial",
    "C158_scaling_partial",
    "C158_second_call_refuted"
   ],
   "note": "Proved for outputs without metadata before the call. A second call with another boundary leaves the notes of the first."
  },
  {
   "property": "C159",
   "status": "partial",
   "theorems": [
    "C159_own_metadata_partial",
    "C159_other_variable_refuted"
   ],
   "note": "Proved for variables whose name does not have the boundary in it; otherwise metadata of another variable are used."
  },
  {
   "property": "C160",
   "status": "partial",
   "theorems": [
    "C160_vector_partial",
    "C160_alike_refuted",
    "C160_radius_refuted",
    "C160_no_component"
   ],
   "note": "Units, limits, fill value and the boundary are proved; all outputs of a vector have the same name, radii have the units of the vector, and with the open closed boundary no boundary and no units. A vector of which no component is a variable is refused."
  },
  {
   "property": "C161",
   "status": "proved",
   "theorems": [
    "C161_single",
    "C161_dual"
   ],
   "note": "Vectors are not mirror images: C53."
  },
  {
   "property": "C162",
   "status": "proved",
   "theorems": [
    "C162_turned",
    "C162_dawn_and_dusk"
   ],
   "note": "Single boundaries; arrays by C32."
  },
  {
   "property": "C163",
   "status": "proved",
   "theorems": [
    "C163_table_read",
    "C163_ragged_refused",
    "C163_no_times"
   ],
   "note": "Composed with C44 and C92-C93 this gives the loaded records from the text."
  },
  {
   "property": "C164",
   "status": "partial",
   "theorems": [
    "C164_passes_written_partial",
    "C164_no_files",
    "C164_single_pass_refuted"
   ],
   "note": "Proved for files of two or more passes; the pass of a file with one is not written. Hemispheres are 1 and -1, times must be dates."
  },
  {
   "property": "C165",
   "status": "partial",
   "theorems": [
    "C165_loaded_back_partial",
    "C165_single_pass_refuted",
    "C165_reads"
   ],
   "note": "Proved unless the file written has exactly one pass, which load refuses."
  },
  {
   "property": "C166",
   "status": "partial",
   "theorems": [
    "C166_crossings_at_reference_partial",
    "C165_single_pass_refuted"
   ],
   "note": "Proved unless the file written has exactly one pass, which load refuses (C165)."
  },
  {
   "property": "C167",
   "status": "partial",
   "theorems": [
    "C167_fetch_format_partial",
    "C167_nothing_asked",
    "C167_download_fails",
    "C167_left_behind_refuted"
   ],
   "note": "Proved when formatting succeeds; when it raises, the downloaded files stay. Output directories with -f in their name: C105."
  },
  {
   "property": "C168",
   "status": "partial",
   "theorems": [
    "C168_geographic_round_trip_partial",
    "C168_both_sides_refuted",
    "C168_heights_refuted"
   ],
   "note": "Proved for arrays at one height with all positions equatorward of the OCB, or all in the polar cap. Positions on both sides of the OCB in one call are a ValueError although their magnetic coordinates are reverted; with an array of heights, positions equatorward of the OCB may be converted with the heights of others."
  },
  {
   "property": "C169",
   "status": "partial",
   "theorems": [
    "C169_period_suffices_partial",
    "C169_same_values",
    "C169_period_loaded",
    "C169_unsorted_refuted"
   ],
   "note": "Proved for samples and boundaries in order of time and one boundary; samples not in order may lose values. max_sdiff is a whole number, as the code makes it."
  },
  {
   "property": "C170",
   "status": "proved",
   "theorems": [
    "C170_names_checked",
    "C170_variables_needed",
    "C170_vectors_checked"
   ],
   "note": "Lists without repeated names for the scaling (distinct_names)."
  },
  {
   "property": "C171",
   "status": "partial",
   "theorems": [
    "C171_outputs_complete",
    "C171_outputs_distinct_partial",
    "C171_collision_refuted"
   ],
   "note": "Complete; distinct when no name is used twice. A variable scaled both ways, a scaled latitude or a variable named r_corr share one output."
  },
  {
   "property": "C172",
   "status": "partial",
   "theorems": [
    "C172_criteria_select_pairs_partial",
    "C172_pair_times_differ",
    "C172_no_default_pair_refuted"
   ],
   "note": "Proved when some pair is selected before the call and the times of the selected pairs differ (C12; C172_pair_times_differ says when). If every selected pair precedes the first measurement the driver raises TypeError (C10). When no pair met the default limits, or the pairs were used up, criteria are not applied at all."
  },
  {
   "property": "C173",
   "status": "partial",
   "theorems": [
    "C173_criteria_forget_history_partial",
    "C173_criteria_persist_refuted"
   ],
   "note": "Proved for calls with criteria while the record index is below the number of records. A call without criteria uses the pairs of the last criteria."
  },
  {
   "property": "C174",
   "status": "partial",
   "theorems": [
    "C174_default_pairs_partial",
    "C174_criteria_pairs_partial",
    "C174_early_refuted"
   ],
   "note": "Proved for pairs at different times (C12) and, with criteria, when some pair is selected before the call (C172). If every pair precedes the first station, or follows the last while no record is current, the driver raises TypeError (C10)."
  },
  {
   "property": "C175",
   "status": "partial",
   "theorems": [
    "C175_samples_converted_partial",
    "C175_criteria_partial",
    "C175_single_height_refuted"
   ],
   "note": "Proved for data with one time coordinate, several heights, and pairs at different times (C12). With one number as height IndexError is raised when a sample matches (C143)."
  },
  {
   "property": "C176",
   "status": "proved",
   "theorems": [
    "C176_keywords_go_one_way"
   ],
   "note": ""
  },
  {
   "property": "C177",
   "status": "proved",
   "theorems": [
    "C177_pairs_ordered",
    "C177_text"
   ],
   "note": ""
  },
  {
   "property": "C178",
   "status": "partial",
   "theorems": [
    "C178_evaluates_partial",
    "C178_unloaded",
    "C178_criteria_refuted"
   ],
   "note": "Proved for the pairs of a new object. Criteria given to set_good_ind or match_data_ocb and the record index are not part of the representation. The two boundaries themselves come back as in C139."
  },
  {
   "property": "C179",
   "status": "partial",
   "theorems": [
    "C179_pi",
    "C179_range",
    "C179_day_partial",
    "C179_turns_partial",
    "C179_signed_partial",
    "C179_maximum_refuted"
   ],
   "note": "The range is proved for every double up to 2^40, the accuracy for ten days either way. A negative time just before midnight gives 2.0 * np.pi itself, below 2 pi but not below the maximum of the call."
  },
  {
   "property": "C180",
   "status": "partial",
   "theorems": [
    "C180_radians_to_hours_partial",
    "C180_hours_back_partial",
    "C180_radians_back_partial",
    "C180_back_refuted"
   ],
   "note": "Limits and error bounds are proved; rad2hr of a negative double may be 24, and a round trip may change the last digit."
  },
  {
   "property": "C181",
   "status": "partial",
   "theorems": [
    "C181_order",
    "C181_exact_times_partial",
    "C181_any_cycle_partial",
    "C181_closest_partial",
    "C181_far_refuted"
   ],
   "note": "Proved for boundary and data times at most 2^33 - 1 seconds (272 years) apart and tolerances up to 2^53 s. Beyond, records one microsecond apart can tie."
  },
  {
   "property": "C182",
   "status": "partial",
   "theorems": [
    "C182_exact",
    "C182_value",
    "C182_whole_seconds",
    "C182_nearest_second_partial",
    "C182_rejected"
   ],
   "note": "Equality with the exact time is proved for all doubles from 0 to 2^50; as in C23, the last half second of a minute is a ValueError. Negative numbers are refused, proved down to 2^-1000 in size."
  },
  {
   "property": "C183",
   "status": "partial",
   "theorems": [
    "C183_microseconds_partial",
    "C183_no_seconds",
    "C183_written_microseconds_partial",
    "C183_written_microseconds_refuted",
    "C183_rounded_up_refuted"
   ],
   "note": "The time is the value of the double rounded up, except that an excess below 2^-33 microseconds may be dropped. A written number of microseconds may give one microsecond more: 3.000001 s gives 3000002 microseconds."
  },
  {
   "property": "C184",
   "status": "partial",
   "theorems": [
    "C184_order",
    "C184_times_partial",
    "C184_written_partial",
    "C184_written_refuted"
   ],
   "note": "Hours whose double is exactly a whole number of seconds give it, and the order is kept. Other written hours may give the second before: 2.050 hours (02:03:00) are read as 02:02:59."
  },
  {
   "property": "C185",
   "status": "partial",
   "theorems": [
    "C185_middle_partial",
    "C185_between",
    "C185_written",
    "C185_exact_partial",
    "C185_second",
    "C185_rejected",
    "C185_six_decimals_refuted"
   ],
   "note": "Exact when the middle of the written times is a whole number of microseconds, otherwise one of its two neighbours: not always the one nearest to the middle of the two doubles."
  },
  {
   "property": "C186",
   "status": "partial",
   "theorems": [
    "C186_same_or_error",
    "C186_from_the_start",
    "C186_any_cycle",
    "C186_never_moves",
    "C186_within",
    "C186_int_float_refuted"
   ],
   "note": "The same where the index of the data stays where it is; where the integer moves on to later data or finds no match, the float raises ValueError, as the message formats it as an integer. The documentation asks for an integer. Times as in C181."
  },
  {
   "property": "C187",
   "status": "partial",
   "theorems": [
    "C187_one_ocb",
    "C187_same_or_error",
    "C187_int_float_refuted"
   ],
   "note": "The pairs are those of the integer or a ValueError is raised (C186), and it always is when pairs with different OCB records exist: whatever the float, no two pairs have different OCB records. The documentation asks for an integer. Times as in C181."
  }
 ]
}