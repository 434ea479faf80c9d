# Design

The file has three parts: the shape of the model, the plan per property (what is modelled and how it is
proved), and the trusted base.  The first two were written before the proofs and are kept as built.

## 1. Shape of the model

* One shallow model, written once, parametric in an arithmetic record `arith` (`theories/Arith.v`):
  carrier, `+ - *`, comparisons, and the operations that can fail in Python (`/`, `math.sqrt`,
  `math.exp`, `np.log`, `**`, `int()`, `round`, ...), the latter in an error monad `res` whose
  error values are Python exceptions (`Base.v`).
* `prop` is a finite dictionary `key -> option value` (`Dict.v`); reading an absent key is `KeyError`.
  Python list indexing (`pyget`) has negative indices and `IndexError`.
* Python functions become Gallina functions of the same name, branch by branch, each citing its lines.
  Long functions are cut into consecutive stages (`lrprop` = `lr_geom; lr_checks; lr_diff; lr_dist;
  lr_los; lr_scat`), each citing its lines.
* Three kinds of theorem:
  * **any arithmetic** - control-flow and dictionary theorems, proved for every `arith`
    (so in particular for IEEE arithmetic with any C library);
  * **RA**, exact real arithmetic (`RInst.v`; an operation undefined over R is an error) - analytic theorems;
  * **PyA libm**, CPython/numpy number semantics (`PyFloat.v`): unbounded ints, binary64 from
    `Coq.Floats.SpecFloat` (no primitive floats), the python-float/np.float64 distinction, exceptions
    versus inf/nan; the C library (`exp log sin cos pow hypot`) is a universally quantified parameter.
* `TA := PyA test_libm` (`TestLibm.v`) is a concrete libm with which the model is run by `vm_compute`:
  in `Validate.v` against the numbers asserted by the repository's own tests, and as the witness of
  `_refuted` theorems and of the Examples beside the theorems.  No positive theorem rests on it.

Files: model `Base Arith Dict Misc Atten LrProp Stats Prep Scripts TerrainPath TerrainArea Csv Mains`; instances `RInst PyFloat TestLibm`;
specifications `Spec*` (small, no proofs, do not mention the model's helpers); proofs `RTac Frame Pf*`;
test dictionaries `Cases`; property theorems `Properties_*`, each closed by `exact lemma.` with
`Print Assumptions` beneath and Examples beside it.

### Modelled

| repository file | model |
|---|---|
| src/itmlogic/lrprop.py | LrProp.v, whole file |
| diffraction_attenuation/adiff.py, aknfe.py, fht.py; los_attenuation/alos.py; scatter_attenuation/ahd.py, ascat.py, h0f.py | Atten.v, whole files |
| statistics/avar.py, curv.py | Stats.v, whole files |
| misc/qerf.py, qerfi.py, qtile.py | Misc.v, whole files |
| preparatory_subroutines/dlthx.py, hzns.py, qlra.py, qlrpfl.py, qlrps.py, zlsq1.py | Prep.v, whole files |
| scripts/area.py `itmlogic_area`, scripts/p2p.py `itmlogic_p2p` (with its printed messages), scripts/pimter.py `run_itmlogic`, scripts/terrain_module.py `determine_num_samples`, sampling positions of `terrain_p2p`, `interdecile_range` | Scripts.v |
| `csv_writer` in scripts/area.py, p2p.py and the _2tiles scripts, with csv.DictWriter and csv.writer of CPython 3.7 | Csv.v |
| scripts/p2p.py `straight_line_from_points`, scripts/terrain_module.py `terrain_p2p` with shapely's length and interpolate for a two-point line; geodesic length and raster query are parameters | TerrainPath.v |
| `__main__` of scripts/p2p.py, area.py, p2p_2tiles.py, area_2tiles.py and `write_shapefile`; elevation model, geodesic length, raster cells and str of a number are parameters | Mains.v |
| scripts/terrain_module.py `terrain_area` (from the masked raster window on) and `all_data` | TerrainArea.v |
| `__main__` of scripts/pimter.py with csv.reader of CPython 3.7, universal newlines and float() of a text (ASCII digits and white space) | Reader.v |
| scripts/area_2tiles.py, p2p_2tiles.py | `itmlogic_area` and `itmlogic_p2p` there are textually the same functions as in area.py and p2p.py (checked with diff), so they share the model |

### Not modelled

Reading of rasters (rasterio, rasterstats), the binary format of shapefiles (fiona), coordinate transformations
(pyproj, shapely), plotting (vis/vis.py apart from the pivot of its tables), the configuration file, decoding of text files, inf and nan as numbers in a file (error `NotReal`),
the raster query and buffer of `terrain_area`, and the text of messages other than which of them is printed.

### Simplifications

* Two-element lists in the dictionary (`hg he dl the dls`) are two keys each and always have two elements.
* `zgnd` is a pair (real, imaginary); a real `zgnd` has imaginary part 0.
* When an exception escapes, the partially updated dictionary is not observable.
* Aliasing: the code updates one dictionary in place and returns it; the model passes it on.  No routine keeps a
  second reference.
* `NotReal` marks the points where Python would continue with a complex number (negative base to a fractional
  power) and, over the exact reals, with an infinity or NaN.
* Integer-valued entries (`mdp lvar klim mdvar kdv kwx ipol`) are ints; numeric entries may be ints or floats in
  `PyA`.
* `klim`/`mdvar` lists in scripts are taken as the scripts write them.
* `wlos`, `wscat`, `ws`, `wl` are truth values (the code stores 0/1 or False/True and only tests them).
* The while loop of dlthx is given as many steps as the profile has samples; C35 proves that is enough.
* Warnings and numpy's floating point status are not observable.

### Findings in the code (all stated as `_refuted` theorems or visible in the theorems named)

| where | what | theorem |
|---|---|---|
| lrprop.py:63-66 | check of terminal 0 tests `dl[1]` | C03_*_refuted, C10_kwx_refuted |
| lrprop.py:160-163 | `aref` assigned only when the line-of-sight coefficients are first computed | C05_area_history_refuted |
| lrprop.py:135-149 | negative log coefficient when `dla > 2*dlsa` | C08_coefficients_refuted |
| aknfe.py | drops by up to 0.029 dB at 5.76 | C12_knife_edge_monotone_refuted |
| ascat.py:36,70 | marker 1001 overwritten | C16_marker_refuted |
| zlsq1.py | degenerate window divides by zero or reads the spacing as a height | C33_*_refuted |
| qerf.py | two digits of `b4` exchanged; error 8.3e-8 instead of 7.5e-8 | C38_documented_accuracy_refuted |
| qlrpfl.py:43 | receiver height taken from the sample before the last | C43_own_ground_refuted |
| area.py | `DS` unbound for `D1 <= D0` or `DS1 <= 0` | C47_single_distance_refuted |
| terrain_module.py | sampling never reaches the receiver | C49_end_refuted |
| area.py | imaginary part of the ground impedance dropped | C51_area_impedance_refuted |
| p2p.py | "Diffraction" printed for line of sight, nothing printed in the diffraction regime | C52_diffraction_refuted |
| pimter.py | quantile level 50 instead of 0.5 | C53_levels_refuted |
| p2p.py:187 | line of sight decided by smooth-earth horizons | C54_line_of_sight_refuted |
| lrprop.py | a NaN distance on a fresh dictionary ends in KeyError 'aref' | C59_comparable_needed |
| avar.py | `klimx = 0` without `klim` ends in KeyError | C59_case_climate |
| adiff.py | sea water at low frequency with short horizons: logarithm of a negative number, `aref` is NaN without error code 4 | C60_conducting_ground_needed |
| alos.py | real ground impedance equal to the sine of the grazing angle: ZeroDivisionError | C60_reflection_needed |
| qlrpfl.py:43 | line-of-sight path ending on a mound: the losses printed by p2p.py differ by more than 8 dB between the two directions | C61_mound_refuted |
| hzns.py:52, 60 | two points under the same angle: which of them is the horizon depends on the direction | C61_tie_refuted |
| pimter.py:106 | `run_itmlogic` reads a global instead of its argument `surface_profile_m`; imported, every call is a NameError | C76_argument_ignored, C76_imported |
| pimter.py:199 | the computed losses are discarded | C76_results_unused |
| pimter.py:102-106 | heights beyond the number of distances are left out without notice | C76_surplus_heights |
| terrain_module.py:163 with p2p.py:133 | the n samples lie 1/n of the way apart but are spread over the whole distance; the last elevation taken at the receiver was sampled distance/n short of it; the profile depends on the direction | C63_placement_refuted, C63_other_end_refuted |

## 2. Properties: what is modelled and how it is proved

"Arith" is the arithmetic of the theorems: any / R / binary64.  Assumption groups are defined in part 3.

| id | status | theorems (file) | arith | assumptions | proof |
|---|---|---|---|---|---|
| C01 | proved | aref_not_negative, aref_nonneg_real, aref_not_negative_binary64 (Lr) | R/any/binary64 | -, R | final max(aref,0): symbolic execution; two instances |
| C02 | proved | kwx_monotone_bounded (Lr) | any | - | invariant by induction over the list of calls and edits |
| C03 | partial | kwx_as_coded, kwx_documented_partial, false_alarm_refuted, missed_warning_refuted (Lr) | any/binary64 | - | case analysis against a table of checks; witnesses for the dl[1] defect |
| C04 | proved | p2p_ignores_distance, p2p_keeps_mode_and_dist, area_stores_distance, continuing_frame (Lr) | any | - | symbolic execution of the stages with frames |
| C05 | partial | area_history_partial, area_history_real_partial, los_repeats_previous, area_history_refuted (Lr) | R/any/binary64 | -, R | induction over distance lists; concrete run for the refutation |
| C06 | proved | continuous_at_horizon (Regime) | R | R | inversion of the run, field and log algebra |
| C07 | proved | continuous_at_crossover, reference_curve (Regime) | R | R | same; continuity of a three-piece function |
| C08 | partial | coefficients_partial, monotone_partial, coefficients_refuted, three_points (Regime) | R/binary64 | -, R | branch by branch inequalities on the fit; concrete run for the refutation |
| C09 | proved | reciprocity, exchanged, fails (Swap) | R | R | two-run simulation under the exchange, stage by stage |
| C10 | partial | kwx_partial, kwx_refuted (Swap) | R/binary64 | -, R | same, and a concrete run |
| C11 | proved | prop_unmodified, convex_combination (Atten) | R/any | -, R+I | inversion; bounds on the weight by algebra, knife-edge bound from C12 |
| C12 | partial | knife_edge_formula, knife_edge_at_least_6dB, knife_edge_increasing_low, knife_edge_increasing_high, knife_edge_step, knife_edge_monotone_partial, knife_edge_monotone_refuted (Curves) | R | R, R+I | derivative signs, interval bounds on constants |
| C13 | proved | height_gain_total, height_gain_far, height_gain_increasing, height_gain_between, height_gain_join_2000, height_gain_join_200 (Curves); height_gain_formula (Ref) | R | R, R+I | closed form, interval bounds at the joints |
| C14 | proved | scatter_function_formula, scatter_function_domain, scatter_function_join_10km, scatter_function_join_70km, scatter_function_increasing_mid, scatter_function_increasing_far (Curves) | R | R, R+I | closed form, interval bounds at the joints |
| C15 | proved | frequency_gain_rows, frequency_gain_interpolates, frequency_gain_positive, frequency_gain_monotone_et, frequency_gain_decreasing_r, frequency_gain_clamped, frequency_gain_continuous (Curves) | R | R | table rows as exact rationals, monotone interpolation |
| C16 | partial | h0s_kept_partial, marker_refuted (Atten) | any/binary64 | - | symbolic execution; concrete run |
| C17 | proved | blend, symmetric (Atten) | R | R | inversion; complex modulus bound |
| C18 | proved | climate_curve_formula, climate_curve_zero, climate_curve_bounded, climate_curve_nonneg, climate_curve_limit (Curves) | R | R | algebra, limit |
| C19 | proved | history_independent, each_as_if_first (Avar) | any | - | fixed point of the refresh: a refreshed cache is not touched again |
| C20 | proved | incremental_equals_full (Avar) | any | - | agreement of two runs on kept keys |
| C21 | proved | mode_decoding, documented_codes (Avar) | any | - | arithmetic of the decoding |
| C22 | proved | climate_row, lookup_total (Avar) | any | - | case analysis over all integers |
| C23 | proved | monotone_in_confidence (Quant) | R | R | monotone functions of the deviate |
| C24 | proved | monotone_in_time (Quant) | R | R | same |
| C25 | proved | single_message_ignores_time_and_location, accidental_mobile_ignore_location, broadcast_uses_all (Avar) | any/binary64 | - | case analysis over kdv |
| C26 | proved | compressed_raw_quantile, compression_strictly_increasing (Quant) | R | R | algebra on the compression |
| C27 | proved | total_on_documented_inputs, effects_on_dictionary (Quant) | R/any | -, R | total run over documented inputs; frames |
| C28 | proved | horizons (Terrain) | R | R | loop invariant; maximum of a list of angles |
| C29 | proved | horizon_distance (Terrain) | R | R | loop invariant |
| C30 | proved | reversal (Terrain) | R | R | maximum is invariant under reversal |
| C31 | proved | least_squares, window_unique, line_unique (Terrain) | R | R | closed form of the loops; optimality of weighted least squares |
| C32 | proved | straight, add_line, scale (Terrain) | R | R | uniqueness of the optimum |
| C33 | partial | reads_window_partial, degenerate_refuted, origin_refuted (Terrain) | R | R | locality of the loop; witnesses for all profiles |
| C34 | proved | total_nonnegative, short_window, straight, add_line, scale (Terrain) | R | R | order statistics and C32 |
| C35 | proved | irregularity, irregularity_unique (Terrain) | R | R | loop invariant on the resampling position |
| C36 | proved | order_statistic, multiset, antitone_in_index, defined_exactly_inside, fails_with_index_error (Misc) | R | R | sorting lemmas |
| C37 | proved | total_in_unit_interval, reflection, value_at_zero, antitone, saturates (Misc) | R | R, R+I | derivative sign of the rational approximation |
| C38 | partial | documented_accuracy_refuted, accuracy_partial, tail_exists_unique (Misc) | R | R, R+I | verified numerics on 0..10 (interval, Taylor models), tail bound |
| C39 | proved | one_deviate_per_level, odd, antitone, saturates, median (Misc) | R | R, R+I | monotonicity by derivative, rounding lemmas |
| C40 | proved | accuracy, deviate_exists (Misc) | R | R, R+I | verified numerics and inverse function bounds |
| C41 | proved | total_values, geometry, siting_transmitter, siting_receiver (Terminal) | R | R | inversion and inequalities |
| C42 | proved | qlra_control, qlrpfl_control (Prep) | any | - | frames, symbolic execution |
| C43 | partial | heights_partial, obstructed_partial, line_of_sight_partial, geometry_total, own_ground_refuted (Profile) | R | R | inversion with C28/C31; witness |
| C44 | proved | qlrpfl_depends_on_inputs, qlrpfl_twice, qlrpfl_depends_on_inputs_real, qlrpfl_twice_real (Prep) | R/any | -, R | two-run agreement on inputs |
| C45 | proved | total_values, elevation, curvature (Terminal) | R | R, R+I | algebra of the complex root, monotone exponential |
| C46 | proved | rows, ordered (Scripts) | R/any | -, R+I | induction over the two loops; C23/C24 for order |
| C47 | partial | grid_partial, increasing, single_distance_refuted (Scripts) | R | R | closed form of the loop; inversion |
| C48 | proved | range, zero, monotone, reaches_600, nearest_integer (Scripts) | R | R | algebra and rounding |
| C49 | partial | equally_spaced_partial, total, end_refuted (Scripts) | R | R | closed form |
| C50 | proved | reference, percentiles_unique, shift, permutation, constant (Scripts) | R | R | percentile specification, permutation lemmas |
| C51 | partial | p2p_environment, area_impedance_refuted, area_total (Scripts) | R | R | comparison of closed forms |
| C52 | partial | report_partial, diffraction_refuted (Scripts) | R/binary64 | -, R | case analysis of the classification; concrete runs |
| C53 | partial | levels_refuted (Scripts) | R | R+I | value of qerfi at 50 by interval, frames |
| C54 | partial | smooth_earth_partial, line_of_sight_refuted (Scripts) | R/binary64 | -, R | case analysis; concrete run |
| C55 | proved | reference_statistics (Stats) | R | R | value lemmas per stage of avar |
| C56 | proved | reference_parameters, clutter_factor_range (Ref) | R | R, R+I | value lemmas per stage of lrprop, induction over calls |
| C57 | proved | reference_scatter (Ref) | R | R+I | same |
| C58 | proved | reference_line_of_sight (Ref) | R | R | same |
| C59 | proved | reals, python, area_first, area_attenuation, path_first, area_session, path_session, area_script, area_script_real, p2p_script, p2p_script_real, pimter_script, comparable_needed (Safe) | R/binary64 | -, R, R+I | presence invariant through every stage (weakest-precondition style), induction over sessions and script loops |
| C60 | proved | area_calls, path_call, reference_unique, ground, line_of_sight, area_mode, diffraction_domain, line_of_sight_domain, conducting_ground_needed, reflection_needed (Total) | R/binary64 | -, R, R+I | forward execution of every stage with positivity of each denominator, root and logarithm argument; uniqueness of the reference values; strict concavity of the logarithm for the three-point fit |
| C61 | partial | area, statistics, area_table, trend, irregularity, path_partial, path_table_partial, mound_refuted, tie_refuted (Reverse) | R/binary64 | -, R, R+I | two-run simulation through qlra, qlrpfl, lrprop, avar and both script loops; uniqueness of the least-squares line and of the order statistics for the reversed profile; concrete runs |
| C62 | proved | reads_back, unknown_key, no_rows, p2p_file, area_file, area_pivot, area_pivot_general, p2p_pivot (Csv) | R/any | -, R | induction over text, fields and records against the reading automaton; C46/C47 for the tables |
| C63 | partial | samples, outside, other_end_partial, other_end_refuted, placement_refuted (Path) | R | R | closed form of the sampling loop; algebra of fractions of the way |
| C64 | proved | area_script, any_settings, no_other_error (AreaRun) | R | R+I | Environment and qlra values bounded with interval arithmetic; the denominators of the set-up, of the scatter function and of the fit shown positive or equal to the listed coincidences; induction over the distance loop with the invariant that the set-up entries and flags are those of the first call and that avar's entries are present (PfAreaRun*.v). |
| C65 | proved | p2p_script, no_other_error, first_call, nan_table (PathRun) | R/binary64 | -, R+I | qlrpfl's geometry runs on every well-formed profile and gives heights not below the masts, positive horizons and a sum of take-off angles not below minus the curvature of the path; the impedance of the script has a positive real and a non-zero imaginary part at every frequency; reference values exist by explicit construction; set-up, fit, scatter and the fifteen avar calls step by step (PfPathRun*.v). |
| C66 | partial | datum, datum_table, datum_pimter, horizons, tilt_partial, tilt_table_partial, tilt_pimter_partial, slope_refuted (Tilt) | R/binary64 | -, R, R+I | The scan of hzns on both profiles step by step (same comparisons, angles turned by slope over sample distance); least squares and irregularity of add_line (PfLsq, PfDlthx); then every stage of lrprop and avar reads the two angles only through their sum and the warnings (PfTilt*.v). |
| C67 | proved | flat, quantile, sampling, falling, falling_differs (Flat) | R | R, R+I | Straight ground within the horizons is a line of sight with irregularity 0, so qlrpfl's geometry is the smooth-earth one (straight_geom); the set-up of lrprop neither reads nor writes the distance (bd_setup), and the rest is the congruence of C66 with mdp left free (PfFlat*.v). |
| C68 | proved | statistics, departure, median, any_levels, p2p_table, area_table, area_any_settings (Band) | R | R+I | The climate curves are bounded analytically (rational curves in the effective distance, the wave-number factors between c1 and c1 + c2), the cached statistics kept within them as an invariant of avar's refreshes, and the final squash is monotone (PfBand.v, PfBand2.v). |
| C69 | proved | raising, angles, line, irregularity, obstructed_path, line_of_sight, losses_jump (Sense) | R/binary64 | -, R | Angles: both are maxima over the same sights (C28), each moving by at most 2e/xi. Lines: the fit of the difference has no more energy than the difference (fit_energy). Irregularity: interpolation is a convex combination, the residuals move by 3e, order statistics by no more (cnt_move) (PfSense*.v). |
| C70 | proved | p2p_results, terrain_unused, terrain_unused_real, p2p_files, p2p_hole, two_tiles, two_tiles_results, area_results, area_files, area_empty (Mains) | R/any | -, R, R+I | The program is the composition of the modelled functions with an explicit state of the four files; C62 (files), C63 (samples), C64 (area) and C65 supply the parts; the interdecile range lies between 0 and the largest difference of cells (percentile_span) (PfMains.v). |
| C71 | partial | in_range_partial, mask_unused, plateau, in_range_refuted, all_data (TerrainArea) | R/any | -, R | A window with two heights sorts into two blocks; both percentiles fall into a block when each has more than a tenth of the cells (two_levels); percentiles are unique (C50) (PfTerrainArea.v). |
| C72 | proved | table, rows_apart, first_spacing, level_ground (Pimter) | R/any | -, R+I | One call of qlrpfl on a path runs exactly when the reference says so (step_exact, from C60/C65); induction over the heights with the entries the loop leaves alone (loop_exact); values v are collected for the finite list of heights; rows apart by the relational lemmas of C44 and C73 (PfPimterRun.v, PfPimterRow.v). Level ground: dh = 0 and the horizons of straight_geom (C67) give every condition of the reference explicitly (PfFlight.v). |
| C73 | proved | lrprop, qlrpfl, qlra, avar, avar_fresh (Ignored) | any | - | Relational proof function by function: the relation holds before and after every call of every library function (PfIgnored.v); for avar the entries agreed on grow stage by stage (PfReads.v). |
| C74 | proved | lrprop, avar, p2p, pimter, area_script, area (Loss) | R | R, R+I | The reference values of C56-C58 and the statistics of C22, C55 are collected on the final dictionary of a call (lrprop_complete, avar_complete); induction over the rows of each script with what is left in the dictionary between rows, including the stored line-of-sight coefficients and the lvar level (PfLoss2.v, PfLoss3.v). |
| C75 | proved | round_trip, grammar, plain_file, float, float_any, not_a_number, column, bad_line (Reader) | R/any | -, R | The reader's states follow a line or a grammar derivation character by character (PfReader.v); each field as written by the writer leads from one field start to the next (PfReader2.v); the digits of a numeral are folded into numerator and power of ten, and every accepted text is decomposed back into a numeral (PfReader3.v); induction over the lines (PfReader4.v). |
| C76 | proved | completes, results_unused, first_failure, argument_ignored, imported, missing_heights, surplus_heights (PimterMain) | R/any | -, R, R+I | Induction over the pairs with the readings of C75 (PfReader6.v). Surplus heights: no index beyond the number of distances is read by hzns, zlsq1 (window inside the path) and dlthx (positions within the path), so qlrpfl sees the same geometry; the rest of the loop depends on the geometry only (PfReader5.v). Missing heights: hzns reads the last sample first. |
| C77 | proved | area, beyond, diffraction, path, script, flight, rate, rate_region (Smooth) | R | R+I | Over smooth earth the three radii coincide, so the diffraction curve is G(a d) minus the height gains; bounds of the height gains and interval arithmetic give the slope and the value at the horizon (PfSmooth.v); the fit points lie inside the horizon, so the coefficients are not negative, and two calls share them because the reference formulas have one solution (PfSmooth2.v). Paths by C67, the script by C65 (PfSmooth3.v), the flight script by C72 (PfSmooth4.v). The rate: the line through two points of that curve, whose logarithm changes by at most ln 3 between them (PfSmooth5.v). |
| C78 | partial | gain, height_gain, diffraction_partial, region_partial, siting, crossing, crossing_sharp, cost, cost_region, sight_refuted, diffraction_refuted, scatter_refuted (Height) | R/binary64 | -, R+I | The diffraction line over smooth earth is a linear term minus a chord of the logarithm minus the height gains; the chord's value left of its middle grows as the chord moves outwards (mean value theorem and ln u <= (u - 1/u)/2), and the height gain grows on each side of its threshold (PfHeight.v, PfHeight2.v). The region in closed form from the lower bounds of dx (PfHeight3.v); two links answered by C60 (PfHeight4.v); the fall across the threshold by interval arithmetic in ln k, and siting over smooth earth (PfHeight5.v); the refutations by computation (PfHeightCases.v). |

Theorem names are `<id>_<name>`; the property itself is in properties.jsonl, remarks and what is missing in
partial claims are in MANIFEST.json.

## 3. Trusted base

* Coq 8.16.1's kernel, including its virtual machine (`vm_compute` is used for concrete runs, and by
  `interval`).  No kernel check is switched off, no axiom is added, nothing is admitted, the
  development has no OCaml plugin.
* The transcription of the Python code into the model (part 1, with the simplifications listed there), and
  the specifications `Spec*.v`.
* What `Print Assumptions` lists.  Every theorem of the table falls into one of these groups:
  * `-` (77 theorems): closed under the global context.
  * `R` (158 theorems): only the standard library's axioms of the real numbers and classical logic -
    `ClassicalDedekindReals.sig_forall_dec`, `ClassicalDedekindReals.sig_not_dec`,
    `Classical_Prop.classic`, `FunctionalExtensionality.functional_extensionality_dep` (or some of them).
  * `R+I` (79 theorems): in addition the standard library's primitive 63-bit integers
    (`PrimInt63` operations and the `Uint63` axioms specifying them), used by the `interval` tactic for
    numeric constants: C11_convex_combination, C12_knife_edge_at_least_6dB, C12_knife_edge_step, C12_knife_edge_monotone_partial, C12_knife_edge_monotone_refuted, C13_height_gain_between, C13_height_gain_join_2000, C13_height_gain_join_200, C14_scatter_function_join_10km, C14_scatter_function_join_70km, C37_total_in_unit_interval, C37_value_at_zero, C37_antitone, C38_documented_accuracy_refuted, C38_accuracy_partial, C39_odd, C39_antitone, C39_saturates, C39_median, C40_accuracy, C45_curvature, C46_ordered, C53_levels_refuted, C56_reference_parameters, C57_reference_scatter, C59_p2p_script_real, C60_area_calls, C60_path_call, C60_ground, C60_area_mode, C60_diffraction_domain, C61_path_table_partial, C64_area_script, C64_any_settings, C64_no_other_error, C65_p2p_script, C65_no_other_error, C65_first_call, C66_datum_table, C66_datum_pimter, C66_tilt_table_partial, C66_tilt_pimter_partial, C67_sampling, C68_statistics, C68_departure, C68_median, C68_any_levels, C68_p2p_table, C68_area_table, C68_area_any_settings, C70_area_files, C72_table, C72_rows_apart, C72_level_ground, C74_lrprop, C74_p2p, C74_pimter, C74_area_script, C74_area, C76_imported, C76_missing_heights, C76_surplus_heights, C77_area, C77_beyond, C77_diffraction, C77_path, C77_script, C77_flight, C77_rate, C77_rate_region, C78_gain, C78_height_gain, C78_diffraction_partial, C78_region_partial, C78_siting, C78_crossing, C78_crossing_sharp, C78_cost, C78_cost_region.
  * `R+I+F` (0 theorems): in addition the standard library's primitive floats: none.
* The Coquelicot and Interval libraries are used as installed; they contribute no axioms of their own (the lists
  above contain only names from the standard library).

Standard library constants listed by `Print Assumptions` besides the four of group `R`:

* `PrimInt63.add`
* `PrimInt63.addc`
* `PrimInt63.addcarryc`
* `PrimInt63.addmuldiv`
* `PrimInt63.compare`
* `PrimInt63.div`
* `PrimInt63.diveucl`
* `PrimInt63.diveucl_21`
* `PrimInt63.eqb`
* `PrimInt63.head0`
* `PrimInt63.int`
* `PrimInt63.land`
* `PrimInt63.leb`
* `PrimInt63.lor`
* `PrimInt63.lsl`
* `PrimInt63.lsr`
* `PrimInt63.ltb`
* `PrimInt63.lxor`
* `PrimInt63.mod`
* `PrimInt63.mul`
* `PrimInt63.mulc`
* `PrimInt63.sub`
* `PrimInt63.subc`
* `PrimInt63.subcarryc`
* `PrimInt63.tail0`
* `Uint63.add_spec`
* `Uint63.addc_def_spec`
* `Uint63.addcarryc_def_spec`
* `Uint63.addmuldiv_def_spec`
* `Uint63.compare_def_spec`
* `Uint63.div_spec`
* `Uint63.diveucl_21_spec`
* `Uint63.diveucl_def_spec`
* `Uint63.eqb_correct`
* `Uint63.eqb_refl`
* `Uint63.head0_spec`
* `Uint63.land_spec`
* `Uint63.leb_spec`
* `Uint63.lor_spec`
* `Uint63.lsl_spec`
* `Uint63.lsr_spec`
* `Uint63.ltb_spec`
* `Uint63.lxor_spec`
* `Uint63.mod_spec`
* `Uint63.mul_spec`
* `Uint63.mulc_spec`
* `Uint63.of_to_Z`
* `Uint63.sub_spec`
* `Uint63.subc_def_spec`
* `Uint63.subcarryc_def_spec`
* `Uint63.tail0_spec`

`vm_compute` and primitive integers are evaluated by the kernel; `coqchk` re-checks all compiled files.

## 4. Wrong programs

`seeded/LOG.jsonl` records edits of the model made in a scratch copy.  For each: the definition, the edit, the claim
it should break, the theorems whose proofs no longer go through (`theorems_failed`), those of them whose
statement is false for the edited program (`statement_false`, judged by hand), those that merely lost their
proof (`proof_lost_only`), and the theorems added or tightened as a consequence.
