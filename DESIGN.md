# Formal model of shipgrav in Rocq/Coq 8.16.1

Source: `/repo` (PFPE/shipgrav at the pinned commit), files `shipgrav/utils.py`,
`shipgrav/nav.py`, `shipgrav/grav.py`, `shipgrav/io.py`, `shipgrav/database.toml` and the
scripts in `example-scripts`.
The code was read as text; it was neither built nor run.

## 1. Layout of `/verif/rocq/theories`

* `M_*.v`  — the model: definitions only, one Gallina definition for each Python
  function (or each loop of it), each with a comment giving file and lines.
* `S_*.v`  — specifications: what the user of the API expects, written without
  any definition of the model's control flow.
* `L_*.v`  — lemmas and proofs.
* `P_*.v`  — the property theorems (named after the properties), each closed by an
  already proved lemma, followed by `Print Assumptions` and an `Example` with a
  concrete non-trivial case that meets the hypotheses.
* `T_*.v`  — tests of the model on the repository's example files (section 4).

## 2. What is modelled, and what is not

Every function of `shipgrav/utils.py`, `nav.py`, `grav.py` and `io.py` has a model (table
below), and so have the numerical parts of the example scripts.  How the constructs of
Python and of its libraries are read:

* **Numbers.**  Numeric code (`nav.py`, `grav.py`, `gaussian_filter`, the scripts) is modelled
  over the real numbers `R` of the standard library: float rounding, overflow, infinities and
  signed zeros are not modelled.  Some functions have a second model in which every operation is
  rounded (`M_Round.v`: `gaussian_filter`, `_gaussian_coeffs`; `M_Float.v`: `center_diff`,
  `eotvos_full`, `free_air_second_order`, `wgs_grav`; `M_TideFl.v`: `longman_tide_prediction`;
  `M_FaaFl.v`: the free-air anomaly of the scripts; `M_SyncFl.v`: times and positions); C98, C99, C101, C102 and C105 bound its distance from the first or from the specification.
  There binary64 rounding is Flocq's `round radix2 (FLT_exp (-1074) 53) ZnearestE` (no overflow), and
  `exp`, `sin`, `cos`, `arctan`, `arcsin`, `arccos` and powers of scalars are any functions with a stated error
  (the same argument always gives the same value).  `NaN` is modelled where the code or a property depends
  on it (`option R`, `None` = NaN).  numpy arrays are lists.  Divisions by zero: each model file
  says which inputs it leaves out.
* **Special functions and transforms.**  `erf` is Coquelicot's integral of the Gauss function and
  `erfcinv` its inverse (infinite at 0 and 2).  `np.fft` is the exact discrete Fourier transform.
  `scipy.signal.firwin`, `lfilter`, `filtfilt`, `np.convolve`, `scipy.interpolate.interp1d`,
  `np.interp`, `coherence` are modelled by their documented formulas, statsmodels' `OLS` by what it
  minimises.
* **Text.**  Readers are executable Gallina functions over strings of 8-bit characters
  (`list ascii`).  Decimal numbers read from text are rationals `Q` (exact decimal
  value: rounding to double not modelled; `str(float(s))` is right up to 15 significant digits).
  Infinite numbers in text are merged with NaN (navigation) or stay text (tables).  Times are
  integers (microseconds since 1970-01-01T00:00Z) over the proleptic Gregorian calendar;
  pandas' narrower range of dates is not modelled.  Text files are given after universal-newline
  translation.
* **Tables.**  `pandas.read_csv` is modelled (M_Table.v), not a parameter.  Simplifications: no
  quoting; integer and float columns are not told apart; `inf` and booleans are text; `read_fwf` is
  a split at blanks; short lines are filled up with missing values and fields not asked for are passed over;
  `usecols` out of bounds raises `ValueError`; an empty file gives an empty table; duplicate column names are
  not considered.  `to_datetime` applied to *text* is a parameter of the readers (`to_dt`, `iso`): the theorems hold for
  every such parser, or name what they need of it.  `sort_values` is a parameter (`argsort`): any function that orders the keys; the order
  of equal keys is open, as in numpy.  In the scripts the times of rows are cut to whole microseconds (pandas: nanoseconds), and
  navigation tables with fewer than two fixes, for which `interp1d` differs, are left out of the theorems about positions.
* **Exceptions** are values (`Raise e`), the `-999` sentinel is an explicit value.  Messages of
  exceptions are not modelled.
* **Files** are given by their contents; a file system is a function from paths to
  contents.  Effects on an output file are the list of written lines.  Permissions and directories
  are not modelled.
* **geographiclib** is a parameter (`geodesic`: distance, azimuth, direct problem).
* **yaml / tomli**: parsing is not modelled, except the part of TOML that cleaned ini files use (M_Toml.v, which lists what is
  left out; a document using that has the result `None` and no theorem speaks of it) and the database (M_Db.v).  The yaml device description is given as a value.  The tables
  `nav-talkers` and `BGM-scale` of `database.toml` are constants in the model; C109 proves them to be what the file's text loads to.
* **matplotlib**: the events delivered to `_SnappingCursor` and its state are modelled, drawing is not.
* Not modelled: plotting, `print`/progress bars except where a property mentions them, memory
  aliasing except where stated, downloads by `pooch`, GMT track sampling (`pygmt`) in RMBA_calc.py,
  the tests in `shipgrav/tests`.

| source | model | properties |
|--------|-------|------------|
| utils.py `gaussian_filter`, `_gaussian_coeffs` | M_Gauss | C01-C04, C111 |
| utils.py `decode_dgs_status_bits` | M_Status | C05-C07, C111 |
| utils.py `clean_ini_to_toml` | M_Ini | C08-C12 |
| utils.py `_SnappingCursor` | M_Cursor | C13-C16 |
| nav.py | M_Nav | C17-C21 |
| grav.py tides | M_Tide, M_Cal | C22-C26, C111 |
| grav.py `eotvos_full`, `free_air_second_order`, `wgs_grav`, `center_diff` | M_Corr | C27-C33 |
| grav.py `calc_cross_coupling_coefficients` | M_CC | C34-C37, C111 |
| grav.py `up_vecs`, `_tilt_filter`, `_calc_up_vecs` | M_Up | C38-C40, C111 |
| grav.py `grav1d_padded`, `grav2d_folding`, `grav2d_layer_variable_density`, `_kvalue` | M_Four, M_Fft | C41-C45, C74, C111 |
| grav.py `therm_*` | M_Therm, M_Erf | C46-C49, C75, C76, C111 |
| grav.py `crustal_thickness_2D` | M_Crust | C50-C53, C111 |
| io.py `read_nav`, `_navdate_*`, `_navcoords`, `_clock_time`, `_clean_180cross` | M_ReadNav, M_Nmea, M_Str | C54-C65, C104, C108 |
| io.py `read_bgm_*`, `_bgmserial_*`, `_despike_bgm_serial` | M_Bgm, M_Table | C66-C68, C71 |
| io.py `read_dgs_*`, `_dgs_*` | M_Dgs, M_Table | C69-C71 |
| io.py `read_other_stuff` | M_Other | C72, C73 |
| database.toml (and tomli.load, in part), io.py 48-69, 438-452 | M_Db, M_DbText | C109 |
| dgs_bgm_comp.py 75-139, both meters | M_Meters | C110 |
| interactive_line_pick.py 103-178 | M_Seg | C77 |
| interactive_line_pick.py 59-178 from the files on, RMBA_calc.py 80-124, 158-168 on the file of a segment | M_Line | C112 |
| dgs_bgm_comp.py 73-127 (same steps in the other scripts) | M_Faa | C78-C80 |
| low-pass filter of the scripts | M_Filt | C81 |
| dgs_ccp_calc.py 104-146 | M_Level | C82-C84, C106 |
| dgs_ccp_calc.py 61-146 from the files on | M_Ccp | C107 |
| dgs_raw_comp.py 125-143 | M_Serial | C85 |
| dgs_raw_comp.py 151-177 (and tomli.load, in part) | M_Toml | C92, C93 |
| dgs_bgm_comp.py 90-139 with missing values | M_Nan | C94, C95 |
| dgs_bgm_comp.py 75-127 from the files on (dgs_raw_comp.py 87-121, dgs_ccp_calc.py 61-102, mru_coherence.py 68-102, interactive_line_pick.py 59-90) | M_Script | C103 |
| dgs_raw_comp.py 87-233 from the files on (plot commands as the data given to them) | M_Compare over M_Script, M_Serial, M_Toml, M_Dgs | C114 |
| dgs_bgm_comp.py 141-158, dgs_raw_comp.py 234-247, dgs_ccp_calc.py 157-178 from the files on (plot commands as the data given to them; numpy.loadtxt modelled in M_Sat) | M_Sat over M_Script, M_Ccp | C115 |
| RMBA_calc.py 84-124, 158-227 | M_Ext, M_Rmba | C86-C89 |
| RMBA_calc.py 229-258 (without the plots) | M_Thick | C100 |
| RMBA_calc.py 80-245 as a whole, from the rows of a segment and the text of the tracked file on (geodesics a parameter) | M_Profile over M_Ext, M_Line, M_Rmba, M_Thick | C116 |
| mru_coherence.py 126-143 | M_Mru | C96 |
| mru_coherence.py 148-163 | M_Coh | C90, C91 |
| mru_coherence.py 68-163 from the files on | M_Motion | C113 |

## 3. Plan for each property

| id | model | proof |
|----|-------|-------|
| C01 | `gaussian_filter` loop with ring buffer over `list R` | loop invariant: the buffer holds the last L samples, newest first; closed form by induction on time |
| C02 | `_gaussian_coeffs` loop with in-place list writes | closed form of the written list; symmetric by index, positive by `exp_pos`, sum by dividing by the sum |
| C03 | same | refutation for all fl >= 2: centre is `exp(-frac^2/2)`, neighbour `exp 0` before normalisation |
| C04 | same | from C01: linear form, convex combination |
| C05, C06 | `format(s,'016b')` as digits of an integer, `zip` with flag names | `Z.testbit` of the string position; C06 by computing the length of the numeral |
| C07 | a table = list of named columns; `DataFrame.insert` | induction on the 16 insertions |
| C08 | `rstrip` by character set, `+ 'toml'` | list lemmas |
| C09-C12 | whole line rewriter incl. Python `float()` grammar | induction on lines; C11 refuted by witness and for all inputs |
| C13-C16 | event-driven state machine of `_SnappingCursor` | invariant over event lists; abstract undo stack as spec |
| C17-C19 | `latlon_to_EN` with `tay10` convolution, NaN edges | polynomial exactness by linearity and a finite identity on monomials |
| C20, C21 | `arctan2`, `sqrt`, rotation over R | own `atan2` with proof of the polar identities |
| C22-C25 | `longman_tide_prediction`, time conversion | trigonometric identities over R; calendar facts by integer arithmetic; C25 by witness |
| C26 | same | attempt: interval style bounds on the series; partial if bounds are lost |
| C27-C30 | `eotvos_full` elementwise with `center_diff` | algebra over R |
| C31, C32 | `free_air_second_order`, `wgs_grav` | algebra, monotonicity in sin^2; Somigliana comparison by bounding square roots |
| C33 | `center_diff` | polynomials |
| C34-C36 | segmentation loop, FIR stages as 'valid' convolutions | induction over gap list; index lemmas |
| C37 | least squares as the solution set of the normal equations | linear algebra over R: full column rank gives uniqueness, residual 0 |
| C38-C40 | `_calc_up_vecs` recursion and `_tilt_filter` coefficients | rotation matrices are orthogonal; BIBO by second order recursion bound |
| C41-C45 | wavenumber vectors and spectral products; DFT over complex pairs | index arithmetic with parity; DFT linearity |
| C46, C47 | `therm_halfspace` with `erf` as an integral (Coquelicot) | monotonicity of the integral, inverse function |
| C48, C49 | `therm_plate` series (finite sum), argmin over a list | sin(n pi)=0; argmin lemma |
| C50-C53 | `crustal_thickness_2D` | DFT of DFT is reversal (roots of unity sum), index arithmetic |
| C54-C65 | `read_nav` and its helpers | string lemmas (split/join), calendar round trip, sorting/uniqueness lemmas |
| C66-C73 | `read_bgm_*`, `read_dgs_*`, `read_other_stuff` | lists and strings |
| C74 | `grav1d_padded` | refuted by witness: the higher powers are taken of heights above the datum |
| C75, C76 | `therm_halfspace`, `therm_plate` | derivatives of `erf` and of the finite series; mass balance by integration |
| C77 | script over the cursor model | pairs of picked rows; the slice between them; refuted for the last row |
| C78, C79 | drop-out filter, `interp1d` | selection by steps; bracketing of the evaluation point |
| C80 | corrections composed | algebra; anchored at pole and equator |
| C81 | `firwin`, `filtfilt` with odd extension | symmetric weights, sum one; interior is a convolution; reversal; harmonic response |
| C82-C84 | accelerations, level error, coefficient fit of the script | composition of C17-C21, C34-C40 |
| C85 | regular expression cleaning, glob, existing files | induction on the file list; idempotence |
| C86, C87 | extension of a line, `.loc` assignment | index arithmetic over the concatenated line |
| C90 | rolling maximum, `np.interp` with NaN | index arithmetic, bracketing |
| C91 | `csd`, `coherence` on segments | Cauchy-Schwarz with remainder |
| C92 | line reader for a subset of TOML on the cleaned text | grammars of the accepted and rejected numbers, runs of statements |
| C93 | look-ups in the loaded tables, rational arithmetic | association lists without repeated keys, first failure |
| C94 | the arithmetic of `eotvos_full` and of the reduction on `option R` | simulation by the model without NaN; case analysis of the point formula |
| C95 | `filtfilt` on `option R` | simulation; index arithmetic of windows and reflections |
| C96 | sorted list of paths, concatenation of the tables of M_Other | lexicographic order of padded dates, day numbers |
| C97 | M_Nmea (the converse of C54-C59: from the result to the text) | first match of a text form, occurrence of the talker, value of int() and float() texts, instants |
| C98 | M_Round: the gaussian filter with a rounding after every operation | Flocq's nearest-even rounding to binary64; relative error counting; running sums |
| C99 | M_Float: wgs_grav, free_air_second_order, center_diff, eotvos_full as expressions with a rounding after every operation | an error analysis in integers, proved sound for every expression, run by vm_compute |
| C100 | the call of `crustal_thickness_2D` for a line, real parts | harmonics; orthogonality of the bins, completeness of the harmonics |
| C101 | M_TideFl: the tide prediction as a sequence of rounded assignments | the error analysis of C99 run over the assignments, with hand-proved ranges at the node where the quotient degenerates |
| C102 | M_FaaFl: the sum of the corrections, each rounded | composition of C99 and C101 by the same error analysis |
| C103 | M_Script: readers, sorting of the tables, times, corrections in sequence | composition of C60, C71, C79, C80, C94; the inverse of the calendar over one cycle of 400 years; sorted lists with distinct keys are unique |
| C104 | `read_nav` | the table is a function of the positions first seen; unions of agreeing files |
| C105 | M_SyncFl: `timestamp`, `interp1d`, the anomaly with every operation rounded | microseconds stay apart after rounding, so comparisons are those of the integers; relative errors of quotient and product; C102 |
| C106 | `calc_cross_coupling_coefficients`, M_Level (params by name, with or without a constant) | least squares: the fit of a shifted right-hand side is the shifted fit; the parallelogram identity for uniqueness of fitted values; existence by projection |
| C107 | M_Ccp: readers, sorting, anomaly, level error and fit in sequence | composition of C83, C84, C94, C103, C106 |
| C108 | M_Nmea, M_ReadNav | exceptions of each function by composition; one file for each exception |
| C109 | M_Db on top of M_Toml, M_DbText (the file, written by tools/exfiles.py), `read_nav_from`, `read_bgm_raw_from` | computation on the text; exceptions of the loader by composition |
| C110 | M_Meters: `dgs_bgm_script` and the filter | sorted permutations are equal, so are the times; the corrections cancel; linearity of C95's description |
| C111 | the models of C01, C05, C17, C22, C27, C34, C38-C53 | each function by cases; the order of the checks; the loop over flags stops at the first existing one |
| C112 | M_Line over M_Script, M_Nan, M_Seg, M_Ext; a number in a segment file is read back unchanged | rows from C103 and C95; the low pass looks at 479 samples on each side (`filter_local`), so that the second filter agrees with the first 480 samples from the ends |
| C113 | M_Motion over M_Script, M_Mru, M_Coh; a missing record makes its segment's Fourier coefficients NaN | rows from C103, motion from C96, curve from C90 with values of the samples that segments use; file order by permuted columns, `np_sort` |
| C114 | M_Compare: anomaly, cleaned files, calibrated table, positions, window between two laptop times | anomaly from C103, filter from C95, settings from C93, rows selected by time; file order by sorting of names |
| C115 | M_Sat: loadtxt, trimmed slices, plot of equal lengths | file rows specified by lines and fields; times from the sorted table, slices by position; lengths decide the exception |
| C116 | M_Profile: track columns, embedded anomaly, even spacing, anomalies, thickness | columns specified by lines and fields; the corrections do not depend on the anomaly, so a constant goes through filter, interpolation and harmonics |
| C88, C89 | layered gravity, isotherms, `interp1d` without extrapolation (scipy sorts by distance and passes it on to `np.interp`) | composition of C41-C49; telescoping density contrasts |

Properties whose claim is false of the code (marked in the list) are stated in
full and refuted with a witness (`..._refuted`), and the strongest true part is proved
beside it.

## 4. Trusted base

Coq's kernel (and `coqchk`); the axioms that `Print Assumptions` lists at the end of
the `P_*.v` files (only those of Coq's standard library of real numbers and
classical logic, see section 5); the faithfulness of `M_*.v` to the Python text as
cited; the readings of the library calls stated in the model comments.

### Tests of the model against the repository's tests

That the definitions mean what the Python text means is not proved.  It is tested on the cases that the authors of the
code assert (not proofs, and not counted as such):

* `T_Files.v` holds the example files of `/repo/shipgrav/tests/ex_files` (written by `tools/exfiles.py`) and
  `T_Io.v` computes with the model every case of `test_io.py` and the status word of `test_utils.py` (times,
  counts, scaled gravity, first longitudes, row counts, unknown ships).  `pd.to_datetime` on text is replaced
  by a parser of the three formats that occur.  `read_nav` is tested through the date and
  coordinate functions of each ship.
* `tools/numcheck.py` runs the numerical definitions with floats in place of real numbers
  (`tools/floatrun.py` interprets the terms that `coqc` prints; Fourier transforms of the crustal thickness case,
  long convolutions and least squares are computed in Python) and compares with the values asserted in `test_utils.py`, `test_nav.py`,
  `test_grav_nodata.py` and `test_grav_data.py`: the Gaussian filter, velocities and course, `grav1d_padded`, half-space and plate
  temperatures and subsidence, depths of isotherms, the variable density layer, folding, crustal thickness,
  tide, Eotvos correction, second order free air and cross coupling coefficients.  All 22 values agree (two-sided, where the tests check one side).

Not covered by these tests: `up_vecs` and the example scripts.

## 5. Axioms

No axiom is added.  `Print Assumptions` lists, for each theorem (written by `tools/axioms.py`):

* none (closed under the global context) — 101 theorems: C05_decode_16bit, C05_decode_injective, C06_flag_is_bit_15_minus_i_refuted, C06_negative_words_minus_sign, C06_wide_words_top_bits, C07_dataframe_rows, C07_second_call_raises, C08_any_path, C08_input_untouched, C08_output_path, C09_line_by_line, C09_succeeds_iff, C100_drawn, C103_dates, C108_numbers, C109_constants, C109_read_bgm, C10_bare_string_quoted, C111_status, C114_channels, C11_comment_always_dropped, C11_comments_kept_refuted, C12_failure_point, C56_one_decimal_refuted, C56_right_iff_two_decimals, C56_three_digits_raise, C56_two_decimals, C57_Atlantis, C57_Langseth, C57_NBP, C57_Ride_iso, C57_Ride_other, C57_Ride_posix, C57_Thompson_refuted, C57_Thompson_seconds, C57_no_date_raises, C58_day_early, C58_midnight_refuted, C59_Revelle_dates, C59_every_file_has_blocks, C66_files, C66_first_error, C66_minus_999, C66_no_files, C66_rgrav, C67_bad_counts, C67_exact, C67_index_column, C67_spikes, C67_unique, C68_kept, C68_refuted, C69_every_line, C69_no_rows, C69_rows, C70_files, C70_monitors, C71_laptop_files, C71_laptop_minus_999, C71_rgs_errors, C71_rgs_files, C71_rgs_minus_999, C72_complete, C72_feed, C72_refuted, C72_rows, C73_dollar, C73_fields, C73_refuted, C77_names, C85_again, C85_files, C85_one_name, C85_read, C85_stable, C85_text, C85_up_to_date_refuted, C92_duplicates, C92_exceptions, C92_loads, C92_loads_always_refuted, C92_number_forms, C92_rejected, C92_same_number, C92_text_kept, C92_text_value_refuted, C93_columns, C93_first_failure, C93_from_file, C93_full_scale, C93_gravity, C93_succeeds_iff, C96_table, C96_time_order_refuted, C97_Atlantis, C97_Langseth, C97_NBP, C97_Revelle, C97_Ride_iso, C97_Ride_posix, C97_Thompson.
* `ClassicalDedekindReals.sig_forall_dec` — 1 theorems: C36_row_is_local.
* `ClassicalDedekindReals.sig_forall_dec`, `FunctionalExtensionality.functional_extensionality_dep` — 71 theorems: C100_spacing, C104_any_order_refuted, C104_order, C104_repeated, C104_same_fixes, C105_position, C105_still, C108_attained, C108_enough_fields, C108_positions, C108_read_nav, C109_errors, C109_new_ship, C109_read_nav, C115_file, C13_click_history_is_undo_stack, C14_right_click_on_empty, C15_cross_hair_on_data_point, C15_move_never_raises, C16_snaps_to_closest_refuted, C16_snaps_to_right_neighbour, C24_naive_raises, C24_offset_times, C24_time_argument, C33_first_derivative, C33_other_orders, C33_second_derivative, C36_differentiator_unique, C54_positions, C54_short_line_raises, C55_missing_positions, C60_missing_file, C60_no_fixes_raises, C60_table, C60_undated_Revelle_raises, C60_user_reader_raises, C61_resampled_refuted, C61_sampling_ignored, C61_zero_raises, C62_refused_iff, C63_every_dth, C64_antimeridian, C64_clean_result, C64_no_jump_left, C65_refuted, C77_both_points_in_file_refuted, C77_files, C77_no_files, C78_east_spike_kept, C78_exact, C78_no_jump_left_refuted, C78_west_spike_removed, C79_at_every_fix_refuted, C79_at_fix, C79_fixes_used, C79_interpolated, C79_uniform_motion, C86_extension, C86_failures, C88_contrasts, C89_any_order, C89_ends, C89_linear, C89_outside, C89_resampled, C90_covers, C90_covers_always_refuted, C90_envelope, C90_failures, C96_time_order, C97_positions.
* `ClassicalDedekindReals.sig_forall_dec`, `ClassicalDedekindReals.sig_not_dec` — 2 theorems: C98_same_exceptions, C98_unrounded.
* `ClassicalDedekindReals.sig_forall_dec`, `ClassicalDedekindReals.sig_not_dec`, `FunctionalExtensionality.functional_extensionality_dep` — 127 theorems: C01_gaussian_filter_moving_sum, C01_nonpositive_length_raises, C02_window_normalised_symmetric, C04_bounds, C04_constant, C04_linear, C100_every_series, C100_gains, C100_missing, C104_script, C106_correction, C106_fit, C106_fit_exists, C111_cross_coupling, C111_crustal_thickness, C111_folding, C111_gaussian_filter, C111_padded, C111_thermal, C116_failures, C17_bad_input_raises, C17_shape_and_nan_edges, C18_parallel_radius_geometry, C18_polynomial_latitude, C18_polynomial_longitude, C19_frequency, C19_longitude_origin, C19_reversal, C19_stationary, C21_aligned, C21_inverse, C21_magnitude, C29_effect_unique, C31_decreasing, C31_free_water, C31_theory, C31_zero_height, C32_equator_and_poles, C32_increasing, C32_somigliana, C32_symmetric, C34_no_long_run, C34_segments, C35_every_long_run_used_refuted, C35_nothing_after_last_gap, C36_quadratics, C36_row_count, C36_rows, C37_coefficients_recovered, C37_fit_exists, C37_recoverable, C39_bounded, C39_equation_unique, C39_platform_equation, C39_response_exists, C39_sine_response, C39_static_gain, C41_empty_profile_raises, C41_flat_profile, C41_proportional_to_contrast, C42_bin_wavenumbers, C42_odd_profile_refuted, C42_parker_series, C43_flat_surface, C43_folded, C43_proportional_to_contrast, C43_unfolded_even, C43_unfolded_odd_raises, C44_layer_formula, C44_linear, C44_no_thickness, C44_uniform_layer, C45_wrong_bins, C46_errors, C46_half_space_field, C46_ridge_axis, C46_root_age_subsidence, C47_distance_and_age_agree, C47_errors, C48_errors, C48_plate_field, C49_best_grid_depth, C49_errors, C50_input_order_refuted, C50_output, C50_slab_thickness_order, C51_bin_wavenumbers_refuted, C51_displaced_bins, C51_mean_bin_wrong, C51_single_line_bins, C52_cutoffs_checked, C52_size_checked, C52_taper, C52_taper_continuous, C53_recovered_gravity, C53_recovered_in_place_refuted, C74_datum_independent_refuted, C81_filter, C81_interior, C81_linear, C81_lines_kept, C81_reversal, C81_trimmed_free_of_edges_refuted, C81_trimmed_start, C81_waves, C81_weights_unique, C84_correctable, C84_correction, C84_rows, C84_same_samples_refuted, C87_embedded, C87_failures, C87_on_extended_line, C88_missing, C91_coherence, C91_constant, C91_full, C91_linear, C91_one_segment, C91_range, C91_script, C91_symmetric, C91_units, C91_unrelated, C95_complete, C95_missing, C95_values.
* `ClassicalDedekindReals.sig_forall_dec`, `ClassicalDedekindReals.sig_not_dec`, `Classical_Prop.classic` — 3 theorems: C98_constant, C98_filter_error, C98_working_precision.
* `ClassicalDedekindReals.sig_forall_dec`, `ClassicalDedekindReals.sig_not_dec`, `Classical_Prop.classic`, `FunctionalExtensionality.functional_extensionality_dep` — 103 theorems: C03_window_peak_at_centre_refuted, C100_constant, C100_curves, C100_recovered_in_place_refuted, C101_node, C101_tide, C102_anchored, C102_anomaly, C103_equator, C103_failures, C103_file_order, C103_positions, C103_still, C103_two_meters, C105_anchored, C107_cross_coupling, C107_steady, C110_difference, C110_filtered, C110_offset, C111_corrections, C111_tide, C111_up_vecs, C112_files, C112_names, C112_profile, C112_table, C113_curves, C113_failures, C113_file_order, C113_positions, C114_bias, C114_curves, C114_failures, C114_file_order, C115_ccp, C115_meters, C115_raw, C116_flat, C116_offset, C116_profile, C20_elementwise, C20_heading_unique, C20_polar_form, C22_node, C22_prediction, C22_zenith_cosines, C23_components_sum, C23_longitude_period, C23_unequal_lengths_raise, C25_same_instant_same_tide_refuted, C26_bound, C27_failures, C27_shape, C27_stationary_is_zero, C28_longitude_origin, C29_local, C29_motion_effect, C30_equator, C30_sign, C38_at_rest, C38_unit_vectors, C38_up_vecs, C39_stable_whenever_dt_below_period_refuted, C40_arrays_cleaned, C40_ignored_samples, C45_layer_field_refuted, C46_temperature_physical, C47_extreme_isotherms, C47_isotherm_round_trip, C48_never_above_mantle_refuted, C48_no_subsidence_on_axis_refuted, C48_old_plate, C48_subsidence, C51_real_thickness_refuted, C75_half_space_diffusion, C75_plate_diffusion, C76_half_space_isostasy, C76_plate_isostasy, C80_anchored, C80_bias, C80_equator, C80_failures, C80_longitude_turn, C80_reduction, C82_accelerations, C82_steady, C83_cross_only, C83_level_error, C83_projection_refuted, C83_steady, C88_depth_unique, C88_flat, C88_surfaces, C94_complete, C94_difference, C94_failures, C94_missing, C94_navigation_gap, C94_values, C99_eotvos, C99_free_air, C99_wgs_grav.
