{
 "claims": [
  {
   "property": "C01",
   "status": "proved",
   "theorems": [
    "C01_aref_not_negative",
    "C01_aref_nonneg_real",
    "C01_aref_not_negative_binary64"
   ],
   "note": "Any arithmetic with 0<0 false, then the real and the binary64 instance (any libm)."
  },
  {
   "property": "C02",
   "status": "proved",
   "theorems": [
    "C02_kwx_monotone_bounded"
   ],
   "note": "All finite sequences of API calls and edits; kwx at most 4 at the start."
  },
  {
   "property": "C03",
   "status": "partial",
   "theorems": [
    "C03_kwx_as_coded",
    "C03_kwx_documented_partial",
    "C03_false_alarm_refuted",
    "C03_missed_warning_refuted"
   ],
   "note": "Refuted as stated: lrprop.py:63-66 tests dl[1] instead of dl[0] for terminal 0 (C03_false_alarm_refuted, C03_missed_warning_refuted). C03_kwx_as_coded is the exact value as coded; C03_kwx_documented_partial shows the documented value when the two tests agree."
  },
  {
   "property": "C04",
   "status": "proved",
   "theorems": [
    "C04_p2p_ignores_distance",
    "C04_p2p_keeps_mode_and_dist",
    "C04_area_stores_distance",
    "C04_continuing_frame"
   ],
   "note": "Any arithmetic."
  },
  {
   "property": "C05",
   "status": "partial",
   "theorems": [
    "C05_area_history_partial",
    "C05_area_history_real_partial",
    "C05_los_repeats_previous",
    "C05_area_history_refuted"
   ],
   "note": "Refuted for line-of-sight distances: lrprop.py:160-163 assigns aref only when the coefficients are first computed (C05_los_repeats_previous, C05_area_history_refuted). The partial theorems prove history independence for trans-horizon distances, any arithmetic and reals."
  },
  {
   "property": "C06",
   "status": "proved",
   "theorems": [
    "C06_continuous_at_horizon"
   ],
   "note": ""
  },
  {
   "property": "C07",
   "status": "proved",
   "theorems": [
    "C07_continuous_at_crossover",
    "C07_reference_curve"
   ],
   "note": ""
  },
  {
   "property": "C08",
   "status": "partial",
   "theorems": [
    "C08_coefficients_partial",
    "C08_monotone_partial",
    "C08_coefficients_refuted",
    "C08_three_points"
   ],
   "note": "Refuted as stated (C08_coefficients_refuted: all inputs in range, kwx 0, emd > 0, ak2 < -30 and attenuation falling with distance, because dla > 2*dlsa). Proved under 0 < dla <= 2*dlsa and a non-negative diffraction line at dlsa; the three-point fit is proved without these conditions. Under these conditions, emd >= 0 and ems >= 0 the attenuation returned by lrprop is non-decreasing at all distances (C08_monotone_partial). Over smooth earth the conditions hold for every link (C77)."
  },
  {
   "property": "C09",
   "status": "proved",
   "theorems": [
    "C09_reciprocity",
    "C09_exchanged",
    "C09_fails"
   ],
   "note": "Exact arithmetic. q is p with hg, he, dl, the (dls) of the two terminals exchanged; hypotheses: effective heights not zero (the code divides by them). The scratch entry rr and kwx are excluded (kwx: C10)."
  },
  {
   "property": "C10",
   "status": "partial",
   "theorems": [
    "C10_kwx_partial",
    "C10_kwx_refuted"
   ],
   "note": "False in general: lrprop.py:63-66 tests dl[1] against the smooth-earth horizon of terminal 0; refuted by a concrete run (code 3 one way, 0 the other). Proved when no horizon exceeds three times either smooth-earth horizon."
  },
  {
   "property": "C11",
   "status": "proved",
   "theorems": [
    "C11_prop_unmodified",
    "C11_convex_combination"
   ],
   "note": "Frame: any arithmetic; values: exact reals."
  },
  {
   "property": "C12",
   "status": "partial",
   "theorems": [
    "C12_knife_edge_formula",
    "C12_knife_edge_at_least_6dB",
    "C12_knife_edge_increasing_low",
    "C12_knife_edge_increasing_high",
    "C12_knife_edge_step",
    "C12_knife_edge_monotone_partial",
    "C12_knife_edge_monotone_refuted"
   ],
   "note": "All parts proved except global monotonicity, which is refuted at 5.76; drops are bounded by 0.029 dB."
  },
  {
   "property": "C13",
   "status": "proved",
   "theorems": [
    "C13_height_gain_total",
    "C13_height_gain_far",
    "C13_height_gain_increasing",
    "C13_height_gain_between",
    "C13_height_gain_join_2000",
    "C13_height_gain_join_200",
    "C13_height_gain_formula"
   ],
   "note": ""
  },
  {
   "property": "C14",
   "status": "proved",
   "theorems": [
    "C14_scatter_function_formula",
    "C14_scatter_function_domain",
    "C14_scatter_function_join_10km",
    "C14_scatter_function_join_70km",
    "C14_scatter_function_increasing_mid",
    "C14_scatter_function_increasing_far"
   ],
   "note": ""
  },
  {
   "property": "C15",
   "status": "proved",
   "theorems": [
    "C15_frequency_gain_rows",
    "C15_frequency_gain_interpolates",
    "C15_frequency_gain_positive",
    "C15_frequency_gain_monotone_et",
    "C15_frequency_gain_decreasing_r",
    "C15_frequency_gain_clamped",
    "C15_frequency_gain_continuous"
   ],
   "note": ""
  },
  {
   "property": "C16",
   "status": "partial",
   "theorems": [
    "C16_h0s_kept_partial",
    "C16_marker_refuted"
   ],
   "note": "Refuted: ascat.py:70 overwrites the marker 1001 set at :36 (C16_marker_refuted: both scatter distances inadmissible, lrprop still uses the scatter line). The partial theorem states what remains of the marker."
  },
  {
   "property": "C17",
   "status": "proved",
   "theorems": [
    "C17_blend",
    "C17_symmetric"
   ],
   "note": ""
  },
  {
   "property": "C18",
   "status": "proved",
   "theorems": [
    "C18_climate_curve_formula",
    "C18_climate_curve_zero",
    "C18_climate_curve_bounded",
    "C18_climate_curve_nonneg",
    "C18_climate_curve_limit"
   ],
   "note": ""
  },
  {
   "property": "C19",
   "status": "proved",
   "theorems": [
    "C19_history_independent",
    "C19_each_as_if_first"
   ],
   "note": "Any arithmetic."
  },
  {
   "property": "C20",
   "status": "proved",
   "theorems": [
    "C20_incremental_equals_full"
   ],
   "note": "Any arithmetic."
  },
  {
   "property": "C21",
   "status": "proved",
   "theorems": [
    "C21_mode_decoding",
    "C21_documented_codes"
   ],
   "note": ""
  },
  {
   "property": "C22",
   "status": "proved",
   "theorems": [
    "C22_climate_row",
    "C22_lookup_total"
   ],
   "note": ""
  },
  {
   "property": "C23",
   "status": "proved",
   "theorems": [
    "C23_monotone_in_confidence"
   ],
   "note": "Exact reals; states: dictionaries with lvar > 4 and everything reached from one by calls of avar and edits outside its cache."
  },
  {
   "property": "C24",
   "status": "proved",
   "theorems": [
    "C24_monotone_in_time"
   ],
   "note": "Exact reals; same states as C23. kdv is read from the resulting dictionary."
  },
  {
   "property": "C25",
   "status": "proved",
   "theorems": [
    "C25_single_message_ignores_time_and_location",
    "C25_accidental_mobile_ignore_location",
    "C25_broadcast_uses_all"
   ],
   "note": ""
  },
  {
   "property": "C26",
   "status": "proved",
   "theorems": [
    "C26_compressed_raw_quantile",
    "C26_compression_strictly_increasing"
   ],
   "note": "Exact reals."
  },
  {
   "property": "C27",
   "status": "proved",
   "theorems": [
    "C27_total_on_documented_inputs",
    "C27_effects_on_dictionary"
   ],
   "note": "Totality over exact reals; effects in any arithmetic."
  },
  {
   "property": "C28",
   "status": "proved",
   "theorems": [
    "C28_horizons"
   ],
   "note": ""
  },
  {
   "property": "C29",
   "status": "proved",
   "theorems": [
    "C29_horizon_distance"
   ],
   "note": ""
  },
  {
   "property": "C30",
   "status": "proved",
   "theorems": [
    "C30_reversal"
   ],
   "note": ""
  },
  {
   "property": "C31",
   "status": "proved",
   "theorems": [
    "C31_least_squares",
    "C31_window_unique",
    "C31_line_unique"
   ],
   "note": ""
  },
  {
   "property": "C32",
   "status": "proved",
   "theorems": [
    "C32_straight",
    "C32_add_line",
    "C32_scale"
   ],
   "note": ""
  },
  {
   "property": "C33",
   "status": "partial",
   "theorems": [
    "C33_reads_window_partial",
    "C33_degenerate_refuted",
    "C33_origin_refuted"
   ],
   "note": "Windows of positive width: result and locality proved. Degenerate windows refuted: ZeroDivisionError at every interior sample, spacing read as a height at the first one."
  },
  {
   "property": "C34",
   "status": "proved",
   "theorems": [
    "C34_total_nonnegative",
    "C34_short_window",
    "C34_straight",
    "C34_add_line",
    "C34_scale"
   ],
   "note": ""
  },
  {
   "property": "C35",
   "status": "proved",
   "theorems": [
    "C35_irregularity",
    "C35_irregularity_unique"
   ],
   "note": ""
  },
  {
   "property": "C36",
   "status": "proved",
   "theorems": [
    "C36_order_statistic",
    "C36_multiset",
    "C36_antitone_in_index",
    "C36_defined_exactly_inside",
    "C36_fails_with_index_error"
   ],
   "note": ""
  },
  {
   "property": "C37",
   "status": "proved",
   "theorems": [
    "C37_total_in_unit_interval",
    "C37_reflection",
    "C37_value_at_zero",
    "C37_antitone",
    "C37_saturates"
   ],
   "note": ""
  },
  {
   "property": "C38",
   "status": "partial",
   "theorems": [
    "C38_documented_accuracy_refuted",
    "C38_accuracy_partial",
    "C38_tail_exists_unique"
   ],
   "note": "Refuted as documented: the error exceeds 8.2e-8 at z=0.7158 (b4 in qerf.py has two digits exchanged). Proved instead: at most 8.3e-8 for every real z."
  },
  {
   "property": "C39",
   "status": "proved",
   "theorems": [
    "C39_one_deviate_per_level",
    "C39_odd",
    "C39_antitone",
    "C39_saturates",
    "C39_median"
   ],
   "note": ""
  },
  {
   "property": "C40",
   "status": "proved",
   "theorems": [
    "C40_accuracy",
    "C40_deviate_exists"
   ],
   "note": ""
  },
  {
   "property": "C41",
   "status": "proved",
   "theorems": [
    "C41_total_values",
    "C41_geometry",
    "C41_siting_transmitter",
    "C41_siting_receiver"
   ],
   "note": ""
  },
  {
   "property": "C42",
   "status": "proved",
   "theorems": [
    "C42_qlra_control",
    "C42_qlrpfl_control"
   ],
   "note": ""
  },
  {
   "property": "C43",
   "status": "partial",
   "theorems": [
    "C43_heights_partial",
    "C43_obstructed_partial",
    "C43_line_of_sight_partial",
    "C43_geometry_total",
    "C43_own_ground_refuted"
   ],
   "note": "Heights, obstructed and line-of-sight geometry proved; 'own ground' is false for the receiver on line-of-sight profiles (qlrpfl.py:43 reads the sample before the last): refuted with a witness."
  },
  {
   "property": "C44",
   "status": "proved",
   "theorems": [
    "C44_qlrpfl_depends_on_inputs",
    "C44_qlrpfl_twice",
    "C44_qlrpfl_depends_on_inputs_real",
    "C44_qlrpfl_twice_real"
   ],
   "note": ""
  },
  {
   "property": "C45",
   "status": "proved",
   "theorems": [
    "C45_total_values",
    "C45_elevation",
    "C45_curvature"
   ],
   "note": ""
  },
  {
   "property": "C46",
   "status": "proved",
   "theorems": [
    "C46_rows",
    "C46_ordered"
   ],
   "note": "Row structure in any arithmetic; ordering over the reals."
  },
  {
   "property": "C47",
   "status": "partial",
   "theorems": [
    "C47_grid_partial",
    "C47_increasing",
    "C47_single_distance_refuted"
   ],
   "note": "Grid of every returning run proved; 'every choice works' is false: DS is unbound when D1 <= D0 or DS1 <= 0, so such runs never return."
  },
  {
   "property": "C48",
   "status": "proved",
   "theorems": [
    "C48_range",
    "C48_zero",
    "C48_monotone",
    "C48_reaches_600",
    "C48_nearest_integer"
   ],
   "note": "Over the reals, all non-negative distances; also the exact distance from which 600 samples are taken."
  },
  {
   "property": "C49",
   "status": "partial",
   "theorems": [
    "C49_equally_spaced_partial",
    "C49_total",
    "C49_end_refuted"
   ],
   "note": "Equal spacing from the transmitter proved; reaching the receiver is false for every path (np.interp over range(n) on [0, n])."
  },
  {
   "property": "C50",
   "status": "proved",
   "theorems": [
    "C50_reference",
    "C50_percentiles_unique",
    "C50_shift",
    "C50_permutation",
    "C50_constant"
   ],
   "note": "Over the reals, all non-empty lists; reference is the linear-interpolation percentile."
  },
  {
   "property": "C51",
   "status": "partial",
   "theorems": [
    "C51_p2p_environment",
    "C51_area_impedance_refuted",
    "C51_area_total"
   ],
   "note": "p2p agrees with qlrps; area.py's impedance differs from qlrps at every frequency and polarisation (math.sqrt of the real part only)."
  },
  {
   "property": "C52",
   "status": "partial",
   "theorems": [
    "C52_report_partial",
    "C52_diffraction_refuted"
   ],
   "note": "Never fails and scatter is right; 'Diffraction' is printed for line-of-sight paths and nothing in the diffraction regime."
  },
  {
   "property": "C53",
   "status": "partial",
   "theorems": [
    "C53_levels_refuted"
   ],
   "note": "Refuted for every run: the deviates are qerfi([50]) = -4.7533 instead of 0."
  },
  {
   "property": "C54",
   "status": "partial",
   "theorems": [
    "C54_smooth_earth_partial",
    "C54_line_of_sight_refuted"
   ],
   "note": "Refuted by a run over two hills; proved what is compared instead (smooth-earth horizons)."
  },
  {
   "property": "C55",
   "status": "proved",
   "theorems": [
    "C55_reference_statistics"
   ],
   "note": "Exact reals; states as in C23. With C21, C22 and C26 this determines the whole statistical part."
  },
  {
   "property": "C56",
   "status": "proved",
   "theorems": [
    "C56_reference_parameters",
    "C56_clutter_factor_range"
   ],
   "note": "Exact reals, all sequences of calls."
  },
  {
   "property": "C57",
   "status": "proved",
   "theorems": [
    "C57_reference_scatter"
   ],
   "note": "Exact reals, all sequences of calls. The reference includes the carried-over gain and the missing marker of C16 (the value -15 left when both normalised heights are below 0.2)."
  },
  {
   "property": "C58",
   "status": "proved",
   "theorems": [
    "C58_reference_line_of_sight"
   ],
   "note": "Exact reals, all sequences of calls. The conditions of C08 are not needed here: this is the fit as coded, in closed form."
  },
  {
   "property": "C59",
   "status": "proved",
   "theorems": [
    "C59_reals",
    "C59_python",
    "C59_area_first",
    "C59_area_attenuation",
    "C59_path_first",
    "C59_area_session",
    "C59_path_session",
    "C59_area_script",
    "C59_area_script_real",
    "C59_p2p_script",
    "C59_p2p_script_real",
    "C59_pimter_script",
    "C59_comparable_needed"
   ],
   "note": "First calls need numbers that compare (no NaN): C59_comparable_needed shows a NaN distance on a fresh dictionary ending lrprop in KeyError 'aref'. Edits between calls may change any value and add entries but not remove them, lower lvar or set wscat. Profile index errors are excluded over the reals (C43_geometry_total)."
  },
  {
   "property": "C60",
   "status": "proved",
   "theorems": [
    "C60_area_calls",
    "C60_path_call",
    "C60_reference_unique",
    "C60_ground",
    "C60_line_of_sight",
    "C60_area_mode",
    "C60_diffraction_domain",
    "C60_line_of_sight_domain",
    "C60_conducting_ground_needed",
    "C60_reflection_needed"
   ],
   "note": "Over exact reals. Conditions stated in SpecTotal; C60_area_mode derives them from the caller's entries. The coincidences that remain (los_ok, scat_ok) are hypotheses."
  },
  {
   "property": "C61",
   "status": "partial",
   "theorems": [
    "C61_area",
    "C61_statistics",
    "C61_area_table",
    "C61_trend",
    "C61_irregularity",
    "C61_path_partial",
    "C61_path_table_partial",
    "C61_mound_refuted",
    "C61_tie_refuted"
   ],
   "note": "Area mode, statistics and the area table without restriction. Path mode and its table when each terminal has a single horizon and the path is obstructed or level over its first and last interval; missing part is false (C61_mound_refuted, C61_tie_refuted)."
  },
  {
   "property": "C62",
   "status": "proved",
   "theorems": [
    "C62_reads_back",
    "C62_unknown_key",
    "C62_no_rows",
    "C62_p2p_file",
    "C62_area_file",
    "C62_area_pivot",
    "C62_area_pivot_general",
    "C62_p2p_pivot"
   ],
   "note": "Reader specified independently as an automaton for RFC 4180 (SpecCsv.v). The quoting rules are those of csv.writer of CPython 3.7 as read from its documentation and C source; directories, encoding and newline translation are not modelled. Carriage returns are excluded because csv.writer does not quote them (C62_case_carriage_return)."
  },
  {
   "property": "C63",
   "status": "partial",
   "theorems": [
    "C63_samples",
    "C63_outside",
    "C63_other_end_partial",
    "C63_other_end_refuted",
    "C63_placement_refuted"
   ],
   "note": "Proved: points, elevations, distance, TypeError on a hole, and agreement of the two directions away from the ends. Refuted: the last sample is one step short of the receiver, so the profile from the other end is not the reversed one (for every two points and some terrain), and p2p.py, which spreads the n samples over the whole distance, takes the k-th elevation k*distance/(n(n-1)) too far out. pyproj's geodesic length and rasterstats' point query are parameters; shapely's length and interpolate are written out for a line with two points."
  },
  {
   "property": "C64",
   "status": "proved",
   "theorems": [
    "C64_area_script",
    "C64_any_settings",
    "C64_no_other_error"
   ],
   "note": "Exact reals; floats may round a coincidence away or into being. The script's own grid is explicit (10..150 by 10, 200..500 by 50 km)."
  },
  {
   "property": "C65",
   "status": "proved",
   "theorems": [
    "C65_p2p_script",
    "C65_no_other_error",
    "C65_first_call",
    "C65_nan_table"
   ],
   "note": "Exact reals; beyond 200 km the positive scattering angle is a hypothesis. C65_first_call states the same for lrprop itself in both modes. The NaN table is one run with one libm."
  },
  {
   "property": "C66",
   "status": "partial",
   "theorems": [
    "C66_datum",
    "C66_datum_table",
    "C66_datum_pimter",
    "C66_horizons",
    "C66_tilt_partial",
    "C66_tilt_table_partial",
    "C66_tilt_pimter_partial",
    "C66_slope_refuted"
   ],
   "note": "Offset: no restriction beyond positive antenna heights, length and curvature. Tilt: obstructed paths only (refuted on lines of sight); kwx is claimed equal only when no take-off angle exceeds 0.2 rad. Exact reals."
  },
  {
   "property": "C67",
   "status": "proved",
   "theorems": [
    "C67_flat",
    "C67_quantile",
    "C67_sampling",
    "C67_falling",
    "C67_falling_differs"
   ],
   "note": "Exact reals. Falling ground and paths beyond the horizons are outside the claim; for falling ground C67_falling and C67_falling_differs say what happens."
  },
  {
   "property": "C68",
   "status": "proved",
   "theorems": [
    "C68_statistics",
    "C68_departure",
    "C68_median",
    "C68_any_levels",
    "C68_p2p_table",
    "C68_area_table",
    "C68_area_any_settings"
   ],
   "note": "Exact reals. The bounds on the climate curves are rounded up to the second or third digit; C68_case_median shows the climate-5 median within 0.1 dB of its bound."
  },
  {
   "property": "C69",
   "status": "proved",
   "theorems": [
    "C69_raising",
    "C69_angles",
    "C69_line",
    "C69_irregularity",
    "C69_obstructed_path",
    "C69_line_of_sight",
    "C69_losses_jump"
   ],
   "note": "Exact reals for the bounds. C69_losses_jump is a run with the test libm. For lines of sight only the irregularity is bounded: there qlrpfl rescales the effective heights."
  },
  {
   "property": "C70",
   "status": "proved",
   "theorems": [
    "C70_p2p_results",
    "C70_terrain_unused",
    "C70_terrain_unused_real",
    "C70_p2p_files",
    "C70_p2p_hole",
    "C70_two_tiles",
    "C70_two_tiles_results",
    "C70_area_results",
    "C70_area_files",
    "C70_area_empty"
   ],
   "note": "The elevation model, the geodesic length and the text of a number are parameters; a shapefile is its schema and its features (fiona not modelled); the raster query of terrain_area is a parameter (the list of cells)."
  },
  {
   "property": "C71",
   "status": "partial",
   "theorems": [
    "C71_in_range_partial",
    "C71_mask_unused",
    "C71_plateau",
    "C71_in_range_refuted",
    "C71_all_data"
   ],
   "note": "Partial because refuted where cells are masked (C71_in_range_refuted). Assumed, not modelled: rasterstats passes the masked bounding box to add_stats, numpy's percentile ignores masks."
  },
  {
   "property": "C72",
   "status": "proved",
   "theorems": [
    "C72_table",
    "C72_rows_apart",
    "C72_first_spacing",
    "C72_level_ground"
   ],
   "note": "Exact reals for the table and the independence of the rows. That the terrain is a global name, not the argument, and that the levels are passed as 50 is C53."
  },
  {
   "property": "C73",
   "status": "proved",
   "theorems": [
    "C73_lrprop",
    "C73_qlrpfl",
    "C73_qlra",
    "C73_avar",
    "C73_avar_fresh"
   ],
   "note": "Any arithmetic, errors included."
  },
  {
   "property": "C74",
   "status": "proved",
   "theorems": [
    "C74_lrprop",
    "C74_avar",
    "C74_p2p",
    "C74_pimter",
    "C74_area_script",
    "C74_area"
   ],
   "note": "Exact reals. When the scripts answer is C64, C65, C72; the path parameters of point-to-point mode are those qlrpfl draws from the profile (C41, C43). The deviates are values of qerfi (C36)."
  },
  {
   "property": "C75",
   "status": "proved",
   "theorems": [
    "C75_round_trip",
    "C75_grammar",
    "C75_plain_file",
    "C75_float",
    "C75_float_any",
    "C75_not_a_number",
    "C75_column",
    "C75_bad_line"
   ],
   "note": "csv.reader as the state machine of CPython 3.7's _csv.c for the default dialect after universal newlines; float() over the exact reals, in any arithmetic the literal with the same digits (C75_float_any). Underscores in numerals, which Python accepts between digits, are modelled but left out of the characterisation; inf and nan are errors of the model."
  },
  {
   "property": "C76",
   "status": "proved",
   "theorems": [
    "C76_completes",
    "C76_results_unused",
    "C76_first_failure",
    "C76_argument_ignored",
    "C76_imported",
    "C76_missing_heights",
    "C76_surplus_heights"
   ],
   "note": "Exact reals; C76_argument_ignored in any arithmetic. When the losses of a pair can be computed is C72; reading of the files is C75."
  },
  {
   "property": "C77",
   "status": "proved",
   "theorems": [
    "C77_area",
    "C77_beyond",
    "C77_diffraction",
    "C77_path",
    "C77_script",
    "C77_flight",
    "C77_rate",
    "C77_rate_region"
   ],
   "note": "Exact reals. Beyond the horizon and the diffraction line the order needs a scatter line that does not fall (C77_beyond); over irregular ground it needs the conditions of C08."
  },
  {
   "property": "C78",
   "status": "partial",
   "theorems": [
    "C78_gain",
    "C78_height_gain",
    "C78_diffraction_partial",
    "C78_region_partial",
    "C78_siting",
    "C78_crossing",
    "C78_crossing_sharp",
    "C78_cost",
    "C78_cost_region",
    "C78_sight_refuted",
    "C78_diffraction_refuted",
    "C78_scatter_refuted"
   ],
   "note": "False as stated (C78_sight_refuted, C78_diffraction_refuted, C78_scatter_refuted, binary64 runs with error code 0). Proved over the exact reals for smooth earth on the diffraction line, without crossing the threshold of fht, and with crossings up to 8.6 dB (C78_cost, C78_cost_region); farther than 2.7574 xae beyond the horizon and across the horizon not covered."
  }
 ]
}