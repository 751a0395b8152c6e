{
 "claims": [
  {
   "property": "C01",
   "status": "proved",
   "theorems": [
    "trapezoid_indexing_is_bijective",
    "stored_elements_never_alias"
   ],
   "note": "all shapes"
  },
  {
   "property": "C02",
   "status": "proved",
   "theorems": [
    "rowwise_indexing_is_bijective",
    "columnwise_indexing_is_bijective",
    "stored_elements_never_alias"
   ],
   "note": "all shapes"
  },
  {
   "property": "C03",
   "status": "proved",
   "theorems": [
    "matrix_behaves_as_independent_cells"
   ],
   "note": "construction, element writes, slice writes, fill; copy construction/assignment do not compile when instantiated and are not modelled"
  },
  {
   "property": "C04",
   "status": "partial",
   "theorems": [
    "trapezoid_admitted_accesses_refuted",
    "trapezoid_upper_access_aliases_partial"
   ],
   "note": "the property is false of the code (element_offset tests column<=rows instead of column<=row); witness given, extent of the failure characterised for cols<=rows+1"
  },
  {
   "property": "C05",
   "status": "proved",
   "theorems": [
    "harmonic_cells_disjoint_in_bounds_and_covering",
    "harmonic_allocation_is_square"
   ],
   "note": "all degrees"
  },
  {
   "property": "C06",
   "status": "proved",
   "theorems": [
    "harmonic_coefficients_are_independent",
    "J2_is_minus_C20_coefficient"
   ],
   "note": "all histories of C/S writes"
  },
  {
   "property": "C07",
   "status": "partial",
   "theorems": [
    "coefficient_histories_memory_safe_partial",
    "degree_is_last_requested",
    "careful_histories_do_not_leak_partial",
    "coefficient_ownership_refuted"
   ],
   "note": "memory safety of all histories; no leak only for histories that never shrink-then-free or move-assign over an owner; the full ownership claim is refuted"
  },
  {
   "property": "C08",
   "status": "proved",
   "theorems": [
    "denormalize_scales_each_coefficient_once",
    "denormalize_unnormalized_is_noop",
    "denormalize_twice_is_noop",
    "denormalize_rejects_large_order"
   ],
   "note": "exact reals"
  },
  {
   "property": "C09",
   "status": "partial",
   "theorems": [
    "normalized_flag_full_order_partial",
    "normalized_flag_refuted"
   ],
   "note": "truncated order leaves normalised coefficients behind a cleared flag: refuted; full order proved"
  },
  {
   "property": "C10",
   "status": "partial",
   "theorems": [
    "factorial_table_is_exact",
    "factorial_ratio_exact_partial",
    "factorial_ratio_reciprocal",
    "factorial_ratio_refuted"
   ],
   "note": "table proved; the ratio is the documented N!/D! only for D<=N"
  },
  {
   "property": "C11",
   "status": "proved",
   "theorems": [
    "flag_sets_behave_as_finite_sets",
    "flag_set_from_list",
    "flag_set_equality_is_extensional"
   ],
   "note": "enumerators are distinct single bits"
  },
  {
   "property": "C12",
   "status": "proved",
   "theorems": [
    "eop_table_behaves_as_independent_columns",
    "eop_columns_are_disjoint_and_in_bounds"
   ],
   "note": "Any history of writes (rows below capacity) and resizes, eight columns; no undefined access."
  },
  {
   "property": "C13",
   "status": "partial",
   "theorems": [
    "eop_move_preserves_contents_partial",
    "eop_copy_keeps_an_eighth_partial",
    "eop_copy_assignment_partial",
    "eop_copy_refuted",
    "eop_copy_after_move_refuted"
   ],
   "note": "Moves preserve everything. Copies pass the record count as a byte count to memcpy, so only the first size/8 rows arrive; the full claim is refuted."
  },
  {
   "property": "C14",
   "status": "partial",
   "theorems": [
    "c04_reader_stores_requested_days_partial",
    "c04_reader_stores_records_in_file_order_partial",
    "c04_reader_ends",
    "c04_repeated_day_overflow_refuted",
    "c04_missing_day_accepted_refuted"
   ],
   "note": "Proved for chronological files (and any order with at most one record per requested day); refuted for files that repeat a day."
  },
  {
   "property": "C15",
   "status": "partial",
   "theorems": [
    "icgem_data_complete_partial",
    "icgem_data_success_partial",
    "icgem_malformed_field_fails",
    "icgem_bad_request_fails",
    "icgem_data_reader_ends",
    "gravity_model_file_partial",
    "gravity_model_codes_partial",
    "gravity_model_malformed_fails",
    "icgem_repeated_line_refuted",
    "icgem_absent_s11_refuted",
    "icgem_absent_zonal_refuted",
    "icgem_degree_zero_refuted",
    "icgem_last_line_refuted"
   ],
   "note": "Proved for files without repeated coefficient lines and degree >= 1. Refuted: repeated lines, absent S(1,1), absent degree-1 terms with order 0, degree 0, unterminated last line."
  },
  {
   "property": "C16",
   "status": "partial",
   "theorems": [
    "icgem_header_partial",
    "icgem_header_bad_number_fails",
    "icgem_header_needs_end_mark",
    "gravity_model_file_partial",
    "gravity_model_codes_partial",
    "icgem_trailing_blank_refuted"
   ],
   "note": "Proved for values followed directly by the line end. Refuted: a blank behind a text value is copied into it and changes the normalisation flag."
  },
  {
   "property": "C17",
   "status": "proved",
   "theorems": [
    "lines_per_beacon_least"
   ],
   "note": "Least number of five-field lines, for every observable count."
  },
  {
   "property": "C18",
   "status": "proved",
   "theorems": [
    "skip_equals_read"
   ],
   "note": "Whenever read_data_block returns 0, skip_data_block leaves the identical stream."
  },
  {
   "property": "C19",
   "status": "proved",
   "theorems": [
    "data_block_roundtrip"
   ],
   "note": "Any number of beacons and observables, any previous buffer content, any file remainder; doubles are exact rationals."
  },
  {
   "property": "C20",
   "status": "partial",
   "theorems": [
    "missing_marker_partial",
    "missing_marker_refuted"
   ],
   "note": "Holds where the scale factor is 1; for other factors the marker itself is divided (refuted)."
  },
  {
   "property": "C21",
   "status": "partial",
   "theorems": [
    "own_lines_only_partial",
    "own_lines_only_refuted"
   ],
   "note": "Holds when every line is as long as its own fields; stripped lines pick up values of the previous beacon (refuted)."
  },
  {
   "property": "C22",
   "status": "proved",
   "theorems": [
    "epoch_line_roundtrip",
    "epoch_line_accepted_is_readable"
   ],
   "note": "strptime_ymd_hms (ggdatetime) is a parameter."
  },
  {
   "property": "C23",
   "status": "partial",
   "theorems": [
    "block_iterator_partial",
    "block_iterator_codes",
    "block_iterator_refuted"
   ],
   "note": "Delivery of well-formed files and return codes proved; a file truncated inside a beacon is delivered with code 0 (refuted)."
  },
  {
   "property": "C24",
   "status": "partial",
   "theorems": [
    "scale_factors_partial",
    "scale_factors_refuted",
    "scale_all_observables_refuted"
   ],
   "note": "The last line wins and resets earlier factors (refuted); the blank-count form is rejected (refuted)."
  },
  {
   "property": "C25",
   "status": "proved",
   "theorems": [
    "observation_letters_round_trip",
    "observation_code_construction",
    "observation_code_strings_are_unique"
   ],
   "note": "all types, characters, frequencies"
  },
  {
   "property": "C26",
   "status": "proved",
   "theorems": [
    "observation_lookup",
    "beacon_id_lookup",
    "beacon_code_lookup",
    "beacon_station_lookup",
    "beacon_shift_lookup"
   ],
   "note": "First match or absence, for all tables and keys."
  },
  {
   "property": "C27",
   "status": "proved",
   "theorems": [
    "filter_layout_is_bijective",
    "linear_offset_estimate_reads_offset_and_drift"
   ],
   "note": "all Np, n, both models"
  },
  {
   "property": "C28",
   "status": "partial",
   "theorems": [
    "set_tropo_one_beacon",
    "set_tropo_all_beacons_partial",
    "set_tropo_single_station_linear_partial",
    "set_tropo_all_beacons_linear_refuted",
    "set_tropo_all_beacons_linear_overwrites",
    "set_rfoff_all_beacons_linear",
    "set_rfoff_one_beacon_linear",
    "set_rfoff_all_beacons_none",
    "set_rfoff_one_beacon_none",
    "set_drag_touches_only_drag"
   ],
   "note": "all-beacons setter of the Linear model uses stride 2 instead of 3: refuted; everything else proved"
  },
  {
   "property": "C29",
   "status": "proved",
   "theorems": [
    "ekf_covariance_invariant",
    "ekf_observation_update",
    "ekf_observation_information",
    "ekf_sequential_is_batch",
    "ekf_time_update",
    "ekf_updates_accumulate"
   ],
   "note": "For every number of parameters, over the rationals (exact arithmetic)."
  },
  {
   "property": "C30",
   "status": "proved",
   "theorems": [
    "rfo_filter_is_least_squares",
    "rfo_covariance_is_inverse_normal",
    "rfo_prediction"
   ],
   "note": "LinearKalman over R; the surrounding file-reading loop is not modelled."
  },
  {
   "property": "C31",
   "status": "partial",
   "theorems": [
    "polynomial_histories_partial",
    "polynomial_ownership_refuted",
    "linear_model_value"
   ],
   "note": "Value and independence proved for histories without moves; moves double free and order-0 objects leak (refuted)."
  },
  {
   "property": "C32",
   "status": "partial",
   "theorems": [
    "doppler_latest_record_partial",
    "doppler_latest_unique",
    "doppler_latest_record_refuted"
   ],
   "note": "Holds when the byte after the id arrays is NUL; strcmp on the unterminated array is UB (refuted)."
  },
  {
   "property": "C33",
   "status": "partial",
   "theorems": [
    "latest_correction_partial",
    "correction_scan_partial",
    "mass_cog_adds_corrections",
    "correction_unreadable_fails",
    "correction_file_missing_fails",
    "mass_cog_fails_with_corrections",
    "correction_scan_ends",
    "correction_first_character_lost_refuted",
    "correction_of_next_day_refuted",
    "correction_at_epoch_refuted",
    "correction_empty_line_refuted"
   ],
   "note": "Proved for files whose fields carry one padding character and in which later days do not have fewer seconds. Refuted otherwise, with witnesses."
  },
  {
   "property": "C34",
   "status": "partial",
   "theorems": [
    "attitude_lookup_partial",
    "attitude_lookup_succeeds",
    "attitude_history_partial",
    "attitude_lookup_ends",
    "attitude_uninitialised_refuted",
    "attitude_mixed_record_refuted"
   ],
   "note": "Holds once the five-entry buffer has been filled with readable records, for every later lookup. The full statement is false: the constructor initialises two of five entries, and a record that fails to parse leaves its epoch with the previous quaternion."
  },
  {
   "property": "C35",
   "status": "partial",
   "theorems": [
    "quaternion_count_partial",
    "quaternion_zero_partial",
    "quaternion_none_read_refuted"
   ],
   "note": "Holds for files with at least one record; false when the first record cannot be read, where 0 is returned with nothing read."
  },
  {
   "property": "C36",
   "status": "partial",
   "theorems": [
    "csv_line_sound",
    "csv_line_complete_partial",
    "csv_short_line_refuted",
    "csv_empty_cp_refuted"
   ],
   "note": "Accepted lines deliver the columns' values, full lines are accepted. False of the code: a line without the columns is read past its end, an empty CP column shifts the flux columns."
  },
  {
   "property": "C37",
   "status": "partial",
   "theorems": [
    "retrieval_days_partial",
    "retrieval_ends",
    "retrieval_table",
    "retrieval_end_of_file_refuted"
   ],
   "note": "Days delivered are those of consecutive lines of the file, all of them unless the file ends inside the span; when it does, 0 is returned with days missing (refuted)."
  },
  {
   "property": "C38",
   "status": "proved",
   "theorems": [
    "ap_history"
   ],
   "note": "Every second of the day, every window of four days."
  },
  {
   "property": "C39",
   "status": "partial",
   "theorems": [
    "feed_constructed",
    "feed_update_partial",
    "feed_update_defined",
    "feed_history_partial",
    "feed_last_day_refuted",
    "feed_failed_jump_refuted",
    "feed_jump_past_end_refuted"
   ],
   "note": "Proved for histories of updates on a table of consecutive days that avoid the three days after its end; failed jumps on other files and jumps just past the end break the claim (refuted)."
  },
  {
   "property": "C40",
   "status": "partial",
   "theorems": [
    "pcv_interpolates_partial",
    "interpolation_between_neighbours",
    "interpolation_at_nodes",
    "interpolation_unique",
    "pcv_reads_past_table_refuted"
   ],
   "note": "Proved on [0,90). At exactly 90 degrees the table is read out of bounds."
  },
  {
   "property": "C41",
   "status": "partial",
   "theorems": [
    "pcv_flags_out_of_range_partial",
    "alcatel_out_of_range_refuted",
    "alcatel_flag_always_zero_refuted"
   ],
   "note": "Proved for Starec antennas and for frequency 2. Refuted for Alcatel on frequency 1."
  },
  {
   "property": "C42",
   "status": "proved",
   "theorems": [
    "nominal_frequencies_ratio_base_and_growth",
    "nominal_frequencies_value"
   ],
   "note": "exact rationals"
  },
  {
   "property": "C43",
   "status": "proved",
   "theorems": [
    "iono_correction_removes_dispersive_delay",
    "iono_free_phase_centre_weights"
   ],
   "note": "exact rationals"
  },
  {
   "property": "C44",
   "status": "proved",
   "theorems": [
    "kepler_contract",
    "kepler_accuracy",
    "kepler_solution_unique",
    "kepler_vallado_contract"
   ],
   "note": "Real arithmetic; accuracy of a successful result bounded."
  },
  {
   "property": "C45",
   "status": "proved",
   "theorems": [
    "state_on_conic",
    "conic_directions"
   ],
   "note": "Real arithmetic."
  },
  {
   "property": "C46",
   "status": "partial",
   "theorems": [
    "propagation_agrees_partial",
    "eigen_overload_partial",
    "equatorial_agrees_partial",
    "eigen_overload_refuted",
    "perifocal2equatorial_refuted",
    "equatorial2perifocal_refuted"
   ],
   "note": "elements2state and propagate_state agree; the Eigen overload exchanges node and perigee and the perifocal matrix has a wrong last row (both refuted)."
  },
  {
   "property": "C47",
   "status": "proved",
   "theorems": [
    "positions_round_trip",
    "states_round_trip",
    "terrestrial_velocity",
    "earth_fixed_point",
    "rotation_rate"
   ],
   "note": "Over the reals, for orthogonal rc2i and rpom (computed by the external SOFA routines). gcrs2itrs itself, which calls them, is not modelled."
  },
  {
   "property": "C48",
   "status": "partial",
   "theorems": [
    "drag_acceleration",
    "drag_of_date",
    "drag_overloads_refuted",
    "drag_partials_exact",
    "drag_coefficient_times_partial_derivative"
   ],
   "note": "Drag acceleration and its partials with respect to position (through the density), velocity and coefficient are proved as derivatives along every curve; the two overloads are shown to disagree once the true pole is tilted, so the clause that they compute the same acceleration is refuted."
  },
  {
   "property": "C49",
   "status": "partial",
   "theorems": [
    "third_body_acceleration",
    "third_body_partials_partial",
    "third_body_partials_refuted"
   ],
   "note": "The acceleration is proved for every geometry. The matrix of partials is proved to be what the code computes and is shown not to be the derivative (refuted) in general."
  },
  {
   "property": "C50",
   "status": "partial",
   "theorems": [
    "de_terminates",
    "de_outcomes",
    "de_codes_partial",
    "de_flag_refuted",
    "de_zero_tolerance_refuted",
    "de_continue_refuted"
   ],
   "note": "For every right-hand side and every routine in the place of step (that returns) a call of de ends within 500 steps; every outcome is characterised (steps taken, flag, time, values, tolerances, 5 exactly after fifty consecutive steps of order at most four). The codes are the documented ones for flags up to 5; flags beyond 5 are kept when the time equals the last one, two zero tolerances are not refused, and the call after an extrapolated arrival always fails."
  },
  {
   "property": "C51",
   "status": "partial",
   "theorems": [
    "step_in_bounds_partial",
    "de_sessions_defined_partial",
    "step_rounding_undefined",
    "de_defined_refuted"
   ],
   "note": "For every sequence of calls of step (any right-hand side, any changes of step size and weights in between) and of de: order 1..12, all array accesses inside the documented sizes, no undefined behaviour, except first steps whose tolerance is within a factor 100 of the rounding error, where the code evaluates an Eigen expression of dead temporaries (refuted for a position of 7000 km and a tolerance of 1e-7 m)."
  },
  {
   "property": "C52",
   "status": "partial",
   "theorems": [
    "one_layer",
    "density_published_partial",
    "published_density_unique",
    "density_published_refuted",
    "density_defined",
    "density_positive",
    "density_below_ground",
    "density_falls"
   ],
   "note": "The layer 180-200 km has scale height 29740 instead of 29.740 km (refuted there); all other layers agree with the published table."
  },
  {
   "property": "C53",
   "status": "proved",
   "theorems": [
    "splint_interval",
    "splint_interval_unique",
    "splint_at_nodes",
    "splini_is_integral",
    "spline_total",
    "spline_is_smooth",
    "splint_two_nodes_refuted"
   ],
   "note": "Over real numbers, strictly increasing nodes, n >= 3 (or two nodes and x not below the first; with two nodes and x below the first the function returns 1e-30, refuted)."
  },
  {
   "property": "C54",
   "status": "partial",
   "theorems": [
    "gtd7_history_free_partial",
    "gtd7_two_instances_refuted",
    "gtd7_close_latitudes_refuted"
   ],
   "note": "One instance, inputs whose latitudes and local times are equal or further apart than the cache tolerance: proved for all histories. False for two instances (shared function statics) and for closer latitudes: refuted with the coefficients of the code."
  },
  {
   "property": "C55",
   "status": "partial",
   "theorems": [
    "table_rows_partial",
    "table_errors",
    "table_total_calls",
    "table_stale_errno",
    "table_errno_refuted",
    "table_overlong_refuted",
    "table_short_refuted"
   ],
   "note": "Complete rows read with a clear error number: exactly the rows whose span holds the epoch; the independence from errno is false (refuted), as are overlong and short rows."
  },
  {
   "property": "C56",
   "status": "partial",
   "theorems": [
    "coordinates_sound",
    "coordinates_complete_partial",
    "coordinates_errors",
    "coordinates_tolerant_refuted",
    "coordinates_no_velocity_refuted",
    "coordinates_duplicate_refuted",
    "beacon_codes"
   ],
   "note": "Every returned coordinate is the extrapolation of estimates of the right solution, and complete when every site has all its estimates once; missing velocities are UB, duplicates and tolerated misses are refuted. The SINEX parser itself is external."
  },
  {
   "property": "C57",
   "status": "partial",
   "theorems": [
    "download_skipped",
    "download_codes",
    "download_failure_partial",
    "download_failure_refuted",
    "failed_transfer_destroys",
    "download_directory_refuted",
    "download_content_refuted"
   ],
   "note": "Skipping, return codes and the effect on the disk are proved for every transfer; that failures leave an existing file alone is false (refuted). libcurl and the file system are oracles."
  },
  {
   "property": "C58",
   "status": "partial",
   "theorems": [
    "kernel_loaded_partial",
    "kernels_kept",
    "kernel_prefix_refuted",
    "kernel_text_pck_refuted",
    "kernel_long_name_refuted"
   ],
   "note": "Loading a kernel of a known kind puts it into the pool once and keeps the others; a name that is a prefix, a text PCK and an overlong name are the refuted cases. The CSPICE pool is modelled as an append-only list of names."
  },
  {
   "property": "C59",
   "status": "proved",
   "theorems": [
    "lagrange_polynomials_right",
    "lagrange_order_refused",
    "longitude_of_every_point",
    "lagrange_degree_zero_refuted"
   ],
   "note": "For every point but the centre and tables with at least two rows: the degree-one row is always written, so one-row tables for degree zero are overrun (refuted)."
  },
  {
   "property": "C60",
   "status": "proved",
   "theorems": [
    "ecliptic_distance",
    "sun_montenbruck_position",
    "sun_vallado_position",
    "sun_curtis_position",
    "moon_montenbruck_position",
    "moon_vallado_position"
   ],
   "note": "The low-precision Sun and Moon positions equal the published series, for every date."
  },
  {
   "property": "C61",
   "status": "partial",
   "theorems": [
    "station_record_round_trip_partial",
    "station_record_error_number_refuted",
    "station_short_line_rejected",
    "antenna_type_is_last_id_letter"
   ],
   "note": "round trip proved for a clear errno; a stale errno makes valid lines fail: refuted"
  },
  {
   "property": "C62",
   "status": "partial",
   "theorems": [
    "station_description_fits_partial",
    "station_description_refuted"
   ],
   "note": "30-character names are not NUL terminated: refuted; shorter names proved"
  },
  {
   "property": "C63",
   "status": "proved",
   "theorems": [
    "l1_epoch_correction",
    "l12_epoch_agrees"
   ],
   "note": "Over exact rationals."
  },
  {
   "property": "C64",
   "status": "proved",
   "theorems": [
    "observation_types_roundtrip"
   ],
   "note": "Up to the asserted limit of 12 codes."
  },
  {
   "property": "C65",
   "status": "partial",
   "theorems": [
    "elements_of_state_partial",
    "elements_round_trip",
    "equatorial_orbit_refuted",
    "vallado_elements",
    "curtis_elements",
    "montenbruck_elements_partial",
    "montenbruck_elements_refuted"
   ],
   "note": "Proved for bound states off the equator and for elements in range; equatorial orbits and the Montenbruck variant are refuted."
  },
  {
   "property": "C66",
   "status": "proved",
   "theorems": [
    "ascension_declination"
   ],
   "note": ""
  },
  {
   "property": "C67",
   "status": "partial",
   "theorems": [
    "partials_exact",
    "partials_returned",
    "partials_equator_refuted",
    "elements_by_state",
    "transition_matrix_partial",
    "transition_returned"
   ],
   "note": "Partials proved to be the derivative along every differentiable change of the elements, for all elliptic orbits with inclination strictly between 0 and 180 degrees; for equatorial orbits the code divides by zero (refuted). The transition matrix is proved the derivative of the propagated state for orbits that are not circular, equatorial or exactly polar; those three divide by zero in the code's Poisson brackets."
  },
  {
   "property": "C68",
   "status": "proved",
   "theorems": [
    "radiation_acceleration",
    "radiation_partials"
   ],
   "note": "Radiation pressure acceleration and both its partials, as derivatives along every curve of positions."
  },
  {
   "property": "C69",
   "status": "partial",
   "theorems": [
    "sun_moon_partial",
    "sun_acceleration_scale",
    "sun_acceleration_refuted"
   ],
   "note": "Unit handling proved for the Moon; the Sun acceleration is a million times too small (sunmoon.cpp:32), refuted."
  },
  {
   "property": "C70",
   "status": "partial",
   "theorems": [
    "cylinder_shadow",
    "flattened_shadow",
    "conical_fraction",
    "lens_is_common_area",
    "conical_fraction_refuted",
    "cone_shadow_partial",
    "cone_shadow_refuted"
   ],
   "note": "Cylindrical, flattened and conical shadow functions against geometric definitions; vallado_shadow reports penumbra as full light (refuted)."
  },
  {
   "property": "C71",
   "status": "proved",
   "theorems": [
    "acceleration_is_gradient",
    "acceleration_at_is_gradient",
    "acceleration_small_tables"
   ],
   "note": "Doubles as reals; Re not zero."
  },
  {
   "property": "C72",
   "status": "partial",
   "theorems": [
    "gravity_partials_partial",
    "gravity_jacobian_unique",
    "gravity_partials_last_row_partial",
    "gravity_partials_last_row_refuted",
    "gravity_partials_upper_refuted",
    "gravity_partials_zonal_undefined"
   ],
   "note": "Four elements are right for order >= 1. The elements above the diagonal are assigned to themselves (caller's values kept), the elements (2,0), (2,1) lack the order-one terms, and order zero reads outside the tables."
  },
  {
   "property": "C73",
   "status": "proved",
   "theorems": [
    "gtd7_mass_density",
    "gtd7d_mass_density",
    "gtd7_units_si",
    "gtd7_densities_positive"
   ],
   "note": "Over real numbers. Units below 72.5 km for mass 48 with the turbopause switch on."
  },
  {
   "property": "C74",
   "status": "proved",
   "theorems": [
    "gtd7_legendre"
   ],
   "note": "Rodrigues definition of the Legendre functions; calls on latitudes not closer than the cache tolerance."
  },
  {
   "property": "C75",
   "status": "partial",
   "theorems": [
    "gtd7_history_free_partial",
    "gtd7_unset_node",
    "gtd7_unset_node_refuted",
    "gtd7_caller_value_refuted",
    "layer_left_over",
    "layer_output_refuted"
   ],
   "note": "Holds at and above 72.5 km and, for mass 48, above 32.5 km. False: tn3[0] is never assigned, and d[0], d[5] keep the caller's value below 72.5 km for other masses (d[1] is cleared twice, d[0] never)."
  },
  {
   "property": "C76",
   "status": "partial",
   "theorems": [
    "adams_pass_partial",
    "adams_polynomials",
    "adams_error_test_partial",
    "adams_first_step",
    "adams_next_step",
    "adams_coefficients_refuted"
   ],
   "note": "Proved for every pass reachable by accepted and rejected passes with any step sizes, except where the order is raised at a step size at which it was lowered before (there the code uses a wrong coefficient: 499/1440 instead of 251/720) and repeated passes of order one that return to the last step size."
  },
  {
   "property": "C77",
   "status": "partial",
   "theorems": [
    "interpolation_polynomial",
    "adams_pass_partial",
    "interpolation_refuted"
   ],
   "note": "intrp evaluates the polynomial through the accepted points for every state whose differences and spacings belong to them, which holds after every accepted pass covered by C76; after a repeated pass of order one that returns to the last step size the spacing is stale and the interpolated values are wrong."
  },
  {
   "property": "C78",
   "status": "partial",
   "theorems": [
    "failed_pass_retries_partial",
    "step_ends_partial",
    "step_passes_partial",
    "step_ends_refuted",
    "failures_reset_order",
    "failure_step_refuted",
    "step_uninitialised_refuted"
   ],
   "note": "Failed passes restore time, state and history and at least halve the step; away from time zero a step ends, with an explicit bound on the number of passes. At time zero only underflow ends it, the policy is applied the wrong way round (first failure: order one and optimal step), and the failure count is uninitialised after the first step."
  },
  {
   "property": "C79",
   "status": "partial",
   "theorems": [
    "equations_of_motion_partial",
    "inertial_gravity_gradient",
    "projected_area",
    "projected_area_turning",
    "density_epoch_partial",
    "density_epoch_refuted",
    "density_place_refuted",
    "failure_stops"
   ],
   "note": "State derivative, gravity in inertial coordinates, facing area and failures proved. False of the code and refuted: the Sun a million times too weak (see C69), the density taken at the inertial position, and on the day before with more seconds than a day has."
  },
  {
   "property": "C80",
   "status": "partial",
   "theorems": [
    "transition_partial",
    "transition_rotation_refuted",
    "transition_density_refuted",
    "transition_sun_refuted",
    "density_differences_partial"
   ],
   "note": "The columns are the derivative when the Earth's rotation commutes with the gravity gradient, without the Sun, across the direction of the Moon, with a density gradient equal to its differences and a constant facing area. Refuted: gradient turned the wrong way, density gradient without z component, no partials of the Sun."
  },
  {
   "property": "C81",
   "status": "partial",
   "theorems": [
    "clock_correction_central",
    "clock_correction_oblate_partial",
    "clock_correction_sphere",
    "clock_correction_equator",
    "clock_correction_oblate_refuted",
    "clock_correction_documented_refuted"
   ],
   "note": "Proved for the point mass and for geocentric latitudes (with the potential of the gravity model as specification). False of the code: the J2 version takes the geodetic latitude; the documentation has the sign of the speed term wrong."
  },
  {
   "property": "C82",
   "status": "partial",
   "theorems": [
    "eop_at_date_partial",
    "eop_lagrange_reports",
    "eop_never_reports",
    "eop_failure_refuted",
    "eop_omega_unwritten",
    "eop_regularized_partial",
    "eop_regularize_unwritten",
    "eop_regularize_refuted",
    "eop_round_trip"
   ],
   "note": "Values, regularization and round trip proved for any library routines that are functions of the date. False of the code: failures of the interpolation are ignored; the rotation rate is added to uninitialised members and cells."
  },
  {
   "property": "C83",
   "status": "partial",
   "theorems": [
    "offset_fit_partial",
    "offset_points_partial",
    "offset_fit_reports",
    "offset_remainder_undefined",
    "offset_remainder_refuted",
    "offset_single_remainder_undefined",
    "offset_single_remainder_refuted",
    "offset_no_data_adds",
    "offset_no_data_refuted",
    "offset_every_epoch_refuted",
    "offset_room_overflow",
    "offset_room_refuted"
   ],
   "note": "Proved for files whose epochs of the range make complete groups of two or more. Refuted otherwise: two or more epochs left over read past the buffer, one left over divides by zero and reports success, an empty file adds a false point, groups of one get the wrong date, and a file denser than assumed overruns the matrices. The dangling decomposition behind y is not modelled."
  },
  {
   "property": "C84",
   "status": "proved",
   "theorems": [
    "doppler_counts",
    "doppler_formed",
    "beacon_numbers",
    "doppler_interval",
    "doppler_interval_refuted",
    "measurement_indexes"
   ],
   "note": "elevation and troposphere of an observation are attributes of the observation; doppler_interval_refuted shows that the order of the blocks is needed for positive intervals: a beacon twice in one block gives an interval of zero"
  },
  {
   "property": "C85",
   "status": "partial",
   "theorems": [
    "running_statistics",
    "running_variance_refuted",
    "residual_test_early",
    "residual_test_late",
    "residual_statistics",
    "residual_shut",
    "residual_mean_refuted"
   ],
   "note": "refuted: the variance is not the sample variance of the cited method; residuals equal to the mean of those taken may be refused, and six equal residuals stop the filter"
  },
  {
   "property": "C86",
   "status": "partial",
   "theorems": [
    "antenna_follows_orbit",
    "antenna_offset",
    "integration_codes",
    "second_satellite_refuted"
   ],
   "note": "Proved for the first satellite object of a program; the last clause is false (second_satellite_refuted): the call counter is static, so a second object starts as if it held the antenna. Over the reals."
  },
  {
   "property": "C87",
   "status": "partial",
   "theorems": [
    "transition_fixed",
    "transition_matrix_refuted",
    "velocity_never_corrected",
    "time_update_keeps_partial"
   ],
   "note": "False of the code: Phi and S are copied from the start values, with five columns of the identity; refuted, and what the filter does with it is characterised for all data."
  },
  {
   "property": "C88",
   "status": "partial",
   "theorems": [
    "measurement_partials_partial",
    "measurement_partials_common",
    "position_partials_refuted",
    "drag_partial_refuted",
    "random_offset_sign_refuted",
    "sigma_elevation_refuted"
   ],
   "note": "Proved for velocity, wet delay, frequency offset and drift, and all parameters of other beacons; false for the position (right only if the previous position moves along), the drag coefficient, the offset in the RANDOM_RFO build and the standard deviation."
  },
  {
   "property": "C89",
   "status": "partial",
   "theorems": [
    "observation_equation",
    "residual_sum_refuted",
    "residual_opposite_count",
    "ionosphere_sign_refuted"
   ],
   "note": "Uobs = Utheo up to second order is proved; the sum the program uses is refuted for one sign of the count and characterised for the other, where the receiver's frequency difference enters twice; the ionospheric correction has the wrong sign."
  },
  {
   "property": "C90",
   "status": "partial",
   "theorems": [
    "beacons_raised",
    "beacons_failure_refuted",
    "beacon_found",
    "beacon_phase_center"
   ],
   "note": "Proved but for the last part of the first clause: a failing call leaves the beacons before the missing one raised."
  },
  {
   "property": "C91",
   "status": "partial",
   "theorems": [
    "grid_delay",
    "site_delay_partial",
    "site_delay_refuted",
    "relativity_difference_partial",
    "relativity_rotation_refuted"
   ],
   "note": "get_tropo proved; get_tropo_vmf converts an angle in radians to radians once more; the relativistic correction neglects the rotation of the Earth (both refuted)."
  },
  {
   "property": "C92",
   "status": "partial",
   "theorems": [
    "frequency_line",
    "frequency_line_complete",
    "frequency_line_codes",
    "frequency_line_defined",
    "first_file_refuted",
    "empty_block_refuted",
    "first_value_twice_refuted"
   ],
   "note": "Proved but for: an unreadable first file ends the program (noexcept), a block without beacons or an empty list is undefined, and the first value enters twice (all refuted)."
  },
  {
   "property": "C93",
   "status": "partial",
   "theorems": [
    "pressure_altitude_partial",
    "pressure_altitude_not_searched",
    "pressure_altitude_refuted",
    "negative_pressure_refuted"
   ],
   "note": "Codes and tolerance are proved; the altitude is never searched (z is not handed to gtd7) and a negative pressure reads an unset altitude, both refuted with witnesses."
  },
  {
   "property": "C94",
   "status": "partial",
   "theorems": [
    "configured_value",
    "configured_value_deep_partial",
    "configured_value_deep_refuted",
    "configured_text_partial",
    "configured_text_deep_partial",
    "configured_text_refuted"
   ],
   "note": "Two-key lookups of values are fully proved; three-key lookups can throw and texts that do not fit overflow the array, both refuted."
  },
  {
   "property": "C95",
   "status": "partial",
   "theorems": [
    "rinex_header_ends",
    "rinex_header_sound",
    "rinex_header_round_trip_partial",
    "rinex_header_defined_partial",
    "rinex_header_failure",
    "rinex_header_blank_name_refuted",
    "rinex_header_many_types_refuted",
    "rinex_header_mandatory_refuted",
    "rinex_header_no_factor_refuted",
    "rinex_header_stale_label_refuted",
    "rinex_header_factor_order_refuted",
    "rinex_header_errno_refuted"
   ],
   "note": "Termination and soundness for every file; the round trip for headers whose factors come from records after the observation types, with the error number clear; definedness for lines of 60 characters or more. The rest is false of the code (refuted)."
  },
  {
   "property": "C96",
   "status": "partial",
   "theorems": [
    "frame_of_date_partial",
    "frame_memory_free",
    "frame_unwritten_rate",
    "frame_never_reports",
    "frame_outside_refuted",
    "frame_date_overflow"
   ],
   "note": "Over Q with the SOFA functions, the tidal corrections and the Lagrange kernel as oracles. frame_of_date_partial holds when the member omega of the local record happens to hold a value: as declared it holds none and the interpolation adds to it, which is undefined (frame_unwritten_rate). The claim about dates outside the table is false (frame_outside_refuted, frame_never_reports)."
  },
  {
   "property": "C97",
   "status": "partial",
   "theorems": [
    "switch_set",
    "switch_outside",
    "aparray_switch",
    "aparray_ignores_daily",
    "daily_ignores_array",
    "switched_off_result",
    "gravity_switch_refuted",
    "switch_on_off",
    "new_parameters",
    "new_parameters_daily"
   ],
   "note": "Over R on the model of gtd7 and gtd7d with arbitrary coefficient tables. The last sentence is false: the test of switch 1 is std::abs(...) < 0, never true, so gravity varies with latitude with the switch off (gravity_switch_refuted, coefficients of the code)."
  },
  {
   "property": "C98",
   "status": "partial",
   "theorems": [
    "air_date",
    "air_place",
    "air_request_partial",
    "air_indices_partial",
    "air_failed_update_partial",
    "air_local_time_unset",
    "air_local_time_refuted"
   ],
   "note": "The request is independent of earlier requests on a table; the claim fails for the local solar time, which nothing sets: with it uninitialised the result depends on the memory (refuted through the exospheric temperature)."
  },
  {
   "property": "C99",
   "status": "proved",
   "theorems": [
    "layer_absent",
    "layer_composition",
    "layer_transition",
    "layer_any_species",
    "layer_average"
   ],
   "note": "the layers, for all inputs"
  },
  {
   "property": "C100",
   "status": "partial",
   "theorems": [
    "layer_temperature_partial",
    "layer_temperature_rises",
    "layer_density_falls_partial",
    "layer_drag_falls_partial"
   ],
   "note": "the temperature proved at all heights above 123.435 km (except nitrogen asked for alone); the densities between 550 and 2500 km, for fluxes up to 10000 units from 150 and exospheric temperatures up to 5000 K"
  },
  {
   "property": "C101",
   "status": "partial",
   "theorems": [
    "rinex_file_ends",
    "rinex_file_shape",
    "rinex_file_round_trip_partial",
    "rinex_file_refused"
   ],
   "note": "end of the loop and shape of the blocks for every file; the round trip under the header restrictions of C95 (refuted there) and for files printed as the format says (blocks cut short are refuted in C23)"
  },
  {
   "property": "C102",
   "status": "partial",
   "theorems": [
    "row_polynomials_right_partial",
    "row_polynomials_agree_partial",
    "row_polynomials_agree_refuted"
   ],
   "note": "false from order two on outside the plane y = 0 (row_polynomials_agree_refuted): the factor 2m-1 multiplies the first product only"
  },
  {
   "property": "C103",
   "status": "partial",
   "theorems": [
    "params_history_partial",
    "params_copy_refuted",
    "params_ndebug_refuted",
    "params_degree_check"
   ],
   "note": "proved for programs that make no copies in builds with assertions; a copy is a double delete (params_copy_refuted), without assertions nothing is computed (params_ndebug_refuted)"
  },
  {
   "property": "C104",
   "status": "partial",
   "theorems": [
    "doppler_file_ends",
    "doppler_file_codes",
    "doppler_file_blocks",
    "doppler_file_last_byte",
    "doppler_file_counts_partial",
    "doppler_file_terminator_refuted",
    "doppler_file_phases_refuted",
    "doppler_file_missing_refuted"
   ],
   "note": "Ends, codes, shape of the blocks and end of the file: every file. Counts: files printed as the format says (headers as in C95), with the first two observables, missing values included and a NUL behind the identifiers; that these are L1 and L2, that missing values are left out and that identifiers are terminated is refuted."
  },
  {
   "property": "C105",
   "status": "partial",
   "theorems": [
    "frequency_files_end",
    "frequency_files_codes",
    "doppler_file_blocks",
    "doppler_file_last_byte",
    "frequency_files_line_partial",
    "frequency_files_unreadable_refuted",
    "frequency_files_missing_refuted",
    "frequency_files_left_over_refuted"
   ],
   "note": "End, codes and least cost of what was read: every list of files. The printed numbers: files printed as the format says (headers as in C95), missing values included. That an unreadable first file gives a code, that missing values are left out and that nothing but the file's own bytes is used is refuted."
  },
  {
   "property": "C106",
   "status": "partial",
   "theorems": [
    "offset_files_end",
    "offset_files_codes",
    "offset_files_fit_partial",
    "offset_files_unreadable_refuted",
    "offset_files_remainder_refuted",
    "offset_files_missing_refuted",
    "offset_files_no_f_refuted"
   ],
   "note": "End and codes: every list of files. The fit: files printed as the format says (headers as in C95) whose blocks of the range fall into complete groups of two or more, missing values included. Incomplete groups, missing values, files without F and unreadable files are refuted."
  },
  {
   "property": "C107",
   "status": "partial",
   "theorems": [
    "clock_offset_nanosecond_partial",
    "clock_offset_nanosecond_refuted",
    "l21_offset_nanosecond_partial",
    "l21_offset_nanosecond_refuted",
    "phase_distinct",
    "phase_difference",
    "julian_day_nanosecond",
    "julian_day_roundtrip_partial",
    "julian_day_roundtrip_refuted"
   ],
   "note": "In binary64 (Flocq). The offsets become the printed nanoseconds or one less; that they are the printed ones is refuted (0.000000015 s gives 14 ns). A date passed on as the nearest modified Julian day comes back within 316 ns; that it comes back unchanged is refuted."
  },
  {
   "property": "C108",
   "status": "partial",
   "theorems": [
    "state2kepler_inclination_double",
    "state2kepler_node_double",
    "state2kepler_anomaly_double_refuted",
    "circular_eccentricity_double_refuted",
    "pos2ad_declination_double",
    "cylinder_shadow_double",
    "vallado_shadow_axis_refuted",
    "bernese_shadow_axis_refuted",
    "conical_shadow_axis_refuted"
   ],
   "note": "In Flocq's binary64. Proved: inclination, node, declination and the cylindrical shadow, for all states in the stated ranges. False, with witnesses: the true anomaly at apogee is NaN, the eccentricity of a circular orbit (montenbruck variant) is NaN, and a satellite exactly opposite the Sun is fully lit (vallado, bernese) or lit by NaN (conical), because the quotient rounds to just beyond 1 (or the difference under the root below 0). Vector3's order of operations is assumed; no fused multiply-add."
  },
  {
   "property": "C109",
   "status": "partial",
   "theorems": [
    "pcv_in_table_double",
    "pcv_horizon_double_refuted",
    "pcv_outside_double",
    "slerp_parameter_double",
    "slerp_fraction_double"
   ],
   "note": "In Flocq's binary64. Proved for every zenith angle below pi/2 and for the slerp parameter. False at pi/2 itself: the index is 18 and plarray[19] is read (pcv_horizon_double_refuted); the Alcatel antenna never sets the flag (pcv_outside_double). dso::rad2deg is external: both orders of multiplication and division are covered."
  },
  {
   "property": "C110",
   "status": "partial",
   "theorems": [
    "ekf_variance_double",
    "rfo_reference_double",
    "rfo_offset_double",
    "rfo_drift_double_partial",
    "rfo_drift_double_refuted",
    "rfo_first_double",
    "rfo_no_deviation_double_refuted",
    "rfo_update_double",
    "rfo_start_double"
   ],
   "note": "binary64 (Flocq). Missing for the two-parameter filter: correlated states, i.e. the second and later observations away from the reference epoch, and the drift's variance when the observation is more precise than stated (there it is refuted). The filter of ekf.hpp is modelled for one parameter only."
  },
  {
   "property": "C111",
   "status": "proved",
   "theorems": [
    "beacon_frequency_exact_double",
    "beacon_frequency_order_double",
    "beacon_frequency_ratio_double",
    "gamma_factor_double",
    "beacon_frequency_near_double",
    "beacon_frequency_inexact_double_refuted"
   ],
   "note": "binary64 (Flocq), no fused operations; std::pow(2, 26) taken as exact. The refuted theorem shows that exactness does not extend to every int."
  },
  {
   "property": "C112",
   "status": "proved",
   "theorems": [
    "iono_correction_double",
    "iono_correction_cycle_double",
    "iono_correction_law_double",
    "iono_correction_order_double",
    "iono_correction_none_double"
   ],
   "note": "The five Flocq operations of carrier_iono_correction, with the rounded GAMMA constants; no fused operations."
  },
  {
   "property": "C113",
   "status": "proved",
   "theorems": [
    "clock_correction_double",
    "clock_correction_J2_double",
    "clock_correction_positive_double",
    "relativity_difference_double"
   ],
   "note": "Flocq's operations in the order of the source; sin and car2ell are external, the sine of the latitude is an argument; no fused operations."
  },
  {
   "property": "C114",
   "status": "proved",
   "theorems": [
    "range_rate_double",
    "range_rate_law_double",
    "range_rate_no_time_double",
    "theory_double",
    "residual_double"
   ],
   "note": "Flocq's operations in the order of the source; to_fractional_seconds is external, the elapsed time is an argument, as are the filter's estimates; no fused operations."
  }
 ]
}
