# Design: a Rocq model of pyGCodeDecode

The code in /repo is read as text; nothing of it is run. Every definition of the model carries the file and lines it
models. The theorems speak about the model; the tie to the code is that reading.

## Modelling decisions

* **Exceptions are values**: every function that can raise returns `res A := Ok a | Err e`, `e` naming the Python
  exception. `Err Unmodelled` marks inputs that leave the model; no theorem claims success there.
* **Objects are immutable values**; a method that mutates returns the new value. The doubly linked list of planner
  blocks is a list plus a position (the blocks before, reversed / this block / the next one). The dictionary that
  setup and simulation share is modelled as a reference, so aliasing shows (C55).
* **Numbers**: the parser produces exact decimals. The reader (`dict_list_traveler`) is polymorphic in its numbers
  (record `numops`), instantiated with Q (runs under `vm_compute`), R, and R with every result rounded to a double. Everything
  kinematic is over R; `Generic.v` repeats reader and planner over any numbers, with R (proved to be the model),
  rounded R and the IEEE doubles of Coq.Floats.SpecFloat as instances. Only C104 to C110, C112 to C115 and C117 to C121 speak of doubles. Tolerances in
  the code (1e-12, 1e-6, numpy's isclose) are kept as they are.
* **Strings** are lists of 8-bit characters. Regular expressions in the code are literal keys, so `re.search` is
  first-occurrence substring search.
* **I/O** (files, printing, drawing, yaml, locale) is not modelled, only the data and the texts handed to it, and for the plot
  command which files are written and which questions are asked.
* Loops that mutate the list they run over, `for ... else`, functions that run off their end (None) and Python's
  reflected comparison are modelled as they behave.

## Files

| model | code |
|-------|------|
| `Py.v`, `PyFloat.v` | exceptions, strings, dictionaries, `float()` of a literal |
| `Parser.v` | state_generator.py 12-195, 381-410 |
| `StateGen.v` | state.py, state_generator.py 81-104, 198-378, 412-426 |
| `Vec.v`, `VecOps.v` | utils.py 15-304; 484-560 |
| `Segment.v` | utils.py 307-482 |
| `Junction.v` | junction_handling.py |
| `Planner.v` | planner_block.py 23-339, gcode_interpreter.py 63-82, 150-162, 569-580 |
| `Query.v` | gcode_interpreter.py 85-147, 488-521, 582-629, 700-796, planner_block.py 258-279 |
| `Setup.v`, `Interp.v` | gcode_interpreter.py 165-240, 631-698, 799-936 |
| `Abaqus.v` | abaqus_file_generator.py |
| `Tools.v` | tools.py, planner_block.py 378-408 |
| `Plot.v` | gcode_interpreter.py 22-60, 242-355, 357-424 |
| `PlotVel.v` | gcode_interpreter.py 457-567 |
| `Rounding.v` | the numbers of state_generator.py as IEEE doubles: an instance of the reader of `StateGen.v` |
| `Generic.v` | utils.py 15-560, junction_handling.py, planner_block.py, gcode_interpreter.py 63-82, 150-162, 236-238, 569-580: the planner once more over any numbers |
| `GenericQuery.v` | utils.py 369-404, gcode_interpreter.py 132-162, 198, 582-605, 782-796: the queries of Segment.v and Query.v over any numbers |
| `Texts.v` | helpers.py; abaqus_file_generator.py and tools.py: what is written to the files; `__str__` in state.py, planner_block.py, utils.py |
| `Repr.v` | repr and round of floats (CPython), used in abaqus_file_generator.py:63-72, tools.py and `Texts.v` |
| `GenericTexts.v` | abaqus_file_generator.py over any numbers, and the file in doubles with the texts of `Repr.v`; numpy's round of scalars |
| `GenericMetrics.v` | save_layer_metrics and get_block_travel over any numbers, and the csv file in doubles with the texts of `Repr.v` |
| `GenericSummary.v` | extrusion_extent, extrusion_max_vel and the figures of save_summary over any numbers |
| `Cli.v` | cli.py 23-133 |
| `Presets.v` | data/default_printer_presets.yaml, examples/data/printer_presets.yaml |
| `Examples.v` | examples/brace.py, examples/benchy.py |
| `CliArgs.v` | cli.py 15-20, 136-222, and argparse for full option names |

Specifications, written without the helpers of the model: `Spec*.v`. Lemmas: `*Proofs.v`, `*Facts.v`, `*Refute.v`,
`OneMove.v`. Property theorems with their non-vacuity examples: `Properties*.v`; `Cxx_..._partial` proves part of a
property, `Cxx_..._refuted` gives a counterexample.

How floats are written as text is a parameter of `Texts.v`, `Repr.v` models it. It follows the specification of CPython's
repr and round (the shortest digits that read back, the nearest among them), not the C code; it was compared with CPython on 350
doubles outside of Coq.

Not modelled: the locale settings,
loading yaml files, opening files (their content is in `Texts.v`), the calls into matplotlib and pyvista.

## Proof ideas

| id | proof idea |
|----|-----------|
| C01-C04 | search lemmas for keys, first occurrences before `;`, induction over the argument list |
| C05, C16, C19 | induction over the program |
| C06, C07 | invariant of the removal loop; refutations by computation |
| C08 | induction |
| C09-C15, C17, C18 | refinement of an abstract machine; refutations for G92 <> 0 and G20 |
| C20 | real analysis with `derivable_pt_lim` |
| C21-C23, C30 | case analysis with nra on squares |
| C24-C26, C28, C29, C31, C32 | invariant over block lists, induction over the backwards recursion |
| C27, C35-C39, C63 | real arithmetic |
| C33, C34, C61, C62 | witnesses |
| C40-C44, C64 | invariant over query histories |
| C45, C46 | convexity, collinearity |
| C47, C52, C67, C68 | real arithmetic on ramps and boxes; witnesses |
| C48, C49 | induction; bound of the interpolation error; witness |
| C50, C51 | telescoping invariant; witness |
| C53-C55, C60, C65 | operation histories; aliasing as a reference |
| C66 | composition of parser, reader, planner and correction |
| C56, C70, C71 | induction over the segment list, ramps over space; witnesses |
| C80 | induction over lines and states together; layer numbers from C16, metrics from C50 |
| C81 | invariant over the list of blocks: every segment lies on the leg of its step, in order; text level by the chain of C66 |
| C82 | every planner function commutes with the map; the continuity check, which does not, passes in both runs (C26); queries by induction over the history |
| C83, C84 | composition of C24, C45, C46; induction over the segment list with gaps, witness |
| C57, C69, C74-C79 | case analysis over operand kinds; witnesses |
| C58, C59, C72, C73 | case analysis; induction over the answers |
| C85 | induction over the list of options |
| C86 | inversion of the constructor, corner speeds of equal commands are equal |
| C87 | the states seen by the look-ahead are common; the correction never passes a block without direction |
| C88 | half-angle identities turn the code's formulas into the touching circle; maximality by monotonicity of the square |
| C89 | an invariant of the loop over the axes, scaled to the corner speed; witness with two feed rates |
| C90 | a drive with speeds u0, u1 at its ends covers in a time at most what a full acceleration, the feed rate and a full braking cover (mean value theorem); the speeds of any drive at the corners are a feasible profile, which the plan dominates (C31) |
| C91 | stopping after every move is one of the drives of C90; blocks of a stopping firmware are from rest to rest |
| C92 | the text of a line determines its dictionary (C02, C01); a head that obeys the commands is the abstract machine of C09-C15; then C66, C81, C86 |
| C93 | C92 with the shipped presets, then C48, C50, C56, C83 |
| C94 | an explicit primitive, unique by the mean value theorem; witness |
| C95 | case analysis on the norms |
| C96 | induction over the blocks; the marks of a block are those of its first plan, which C28 bounds |
| C97, C98 | texts cut at separators are the list of their fields; C48, C50 for the numbers |
| C99, C100 | dictionaries: look-up after update, C83; induction over the arguments |
| C101, C102 | the pieces of a block by inversion of the planner and the correction; every segment of a print is a ramp |
| C103 | cutting from the left up to the comment and from the right behind it |
| C104 | the exponent by the logarithm; a relation between two runs of the reader on different numbers; error recursion per line |
| C105 | the generic planner on R equals the model, definition by definition; computation with doubles; linear inequalities in the squares of the speeds and acceleration times length, with 2^-53 as a number |
| C106 | first-order error bounds of the four profiles, of lengths and directions; junction speeds at most twice the speed; an invariant of the block list with the index of each move, kept by the generation and by the correction |
| C107 | computation with doubles; C26 for exact numbers |
| C108 | for each of the four profiles that the rounded times, lengths and accelerations meet the tests of self_check; the clock grows by at most the time of the lines; the correction finds equal speeds at rest |
| C109 | both profiles take the same time, up to the second order, where they meet, so the wrong choice costs nothing; the rest is counting rounding errors; the exact time is that of C91 |
| C110 | reading: numbers below 20000 are off by at most 2.25e-12, and the extruder's sum of position and zero by three of these per line; a move of two micrometres read that way takes the same time up to 1.9 ns; then C109 |
| C111 | induction over the list, for both kinds of interval |
| C112 | shifting keeps round and sticky bits in step with the exact number, so rounding the shifted mantissa is rounding half to even; each operation leaves enough digits for that; the sines through sin 18 = (sqrt 5 - 1)/4 and integer inequalities |
| C113 | every operation of the planner on doubles that stand for bounded numbers gives a double that stands for the rounded result, as that is far below 2^1024; bounds follow each function: velocities from the speeds, times from the number of lines, positions from line to line |
| C114 | coordinates are at most as many millions as additions so far, which is a double, so rounding does not pass it; offsets likewise in units of 2^60; a line adds at most twelve times |
| C115 | the slope is rounded to the velocities, their difference or the duration: relative errors of the ratio of times at most 1; comparisons of doubles are those of their values, so C111 applies; the gap by evaluation |
| C116 | over any `kops`: errors of each function, from the segment up; blocks without direction come from waits only |
| C117 | all decimals with j digits near x are c or c+1 times 10^q; 17 digits always suffice as 10^-16 < 2^-53; what is read is `binary64` of the decimal (C107); two decimals with 15 digits are further apart than doubles; as c has the fewest digits its last one is not 0, and the place of the point says whether c times 10^q is within 0.0001 and 10^16 |
| C118 | induction over the corners; scaling as in C115; both ways of rounding give the double nearest to a decimal with 15 digits, which is what is written (C117) |
| C119 | the loop in doubles and the exact loop run side by side (same layers, same blocks); differences of doubles have only a relative error, so a duration is zero exactly when the exact one is; the exact durations telescope |
| C120 | a relation between lines and blocks that the planner establishes and each correction keeps, by induction over the blocks in front; nothing is used of the numbers |
| C121 | comparisons of doubles are exact, so the extremes are those of the real values; then one product by the unit factor, and the error of a norm for each block, of which the greatest is kept |

## Counterexamples found

The refuted properties (see the notes in MANIFEST.json) are defects of the code or of its documentation: for instance
a comment can make a line unreadable (C01), a line that moves and dwells does not move (C61), G20 does not scale (C15),
G92 with a value other than zero moves the machine (C14), a classic jerk print ends at speed (C35), get_values fails at
the end time (C42), the last layer is lost (C50), inverse_time_at_pos is too early when braking (C47), MKA multiplies its
factor repeatedly (C63), the coloured 2D plot misses the end of the path (C70), rounding makes a simulation fail (C105), a summary fails without extrusion (C72), the plot command leaves out its picture without a display (C72).

## Test against wrong programs

`seeded/LOG.jsonl` lists edits of the model made in a scratch copy, what each of them breaks, and the property theorems
that no longer proved: those whose proof failed or that depend on a lemma whose proof failed.

## Trusted base

* Coq 8.16.1's kernel (no `vm_compute` result is trusted beyond what the kernel checks).
* The reading of /repo recorded in the comments of the model files, and the modelling decisions above.
* The axioms `Print Assumptions` lists, all from Coq's standard library; no other library is used. Per theorem:

* no axioms: C01_comment_adds_only_itself_partial, C01_comment_refuted, C01_plain_comment_partial, C02_bare_commands, C02_read_back, C03_blanks_irrelevant, C04_argument_order, C04_same_states, C05_one_state_per_line, C05_parsed_lines, C06_no_short_prefix_partial, C06_reported_commands_partial, C06_separate_word_refuted, C07_foreign_line_partial, C07_longer_words_raise_partial, C07_unknown_commands_refuted, C08_unsupported_counted, C100_abaqus, C100_ascii_only, C100_otherwise, C103_labels, C103_states, C103_vectors, C111_empty, C116_failures, C116_reading, C116_text, C117_not_finite, C117_zero, C119_other_cases, C11_text, C11_unnamed_axes_stay, C120_blocks, C120_dwells, C120_extruding, C120_layers, C120_lines, C120_nothing, C121_summary, C12_initial_settings, C12_settings_modal, C14_g92_moves_refuted, C15_inches_refuted, C15_units_ignored_partial, C16_layers, C16_layers_step, C16_no_cue, C17_g0_is_g1, C17_text, C18_dwell, C19_causality, C19_common_prefix, C54_validation_exact, C85_one_meaning, C86_one_rule
* `ClassicalDedekindReals.sig_forall_dec`: C53_construction, C69_add_sub_partial, C69_mixed_classes_refuted, C69_mul, C79_constructor, C79_round_trip, C79_wrong_number
* `ClassicalDedekindReals.sig_forall_dec`, `FunctionalExtensionality.functional_extensionality_dep`: C02_literal_value, C09_absolute_move, C09_absolute_move_text, C09_offset_in_force, C104_error, C104_feed, C104_words, C10_relative_move, C10_relative_moves_add_up, C111_anew, C111_ends, C111_from_index, C118_refused, C12_defaults, C13_machine_partial, C13_machine_refuted, C14_g92_offset_partial, C14_g92_shift_partial, C20_outside, C20_position_is_integral_of_velocity, C48_events, C48_refused, C49_interpolation_bound, C49_interpolation_exact_partial, C53_no_printer, C53_setup_map, C57_nearly_symmetric_partial, C57_reflexive_partial, C57_symmetry_refuted, C57_transitivity_refuted, C58_bar_well_formed, C58_halves, C58_monotone, C65_layer_cue_refuted, C65_property_takes_effect_partial, C67_one_entry_point, C69_div_partial, C69_int_division_refuted, C69_others_rejected, C69_undo, C73_integers_refuted, C73_other_values_partial, C74_classes_refuted, C74_ne_is_negation, C74_never_false_refuted, C74_truth_partial, C75_refuted, C97_file, C97_refused
* `ClassicalDedekindReals.sig_forall_dec`, `ClassicalDedekindReals.sig_not_dec`, `FunctionalExtensionality.functional_extensionality_dep`: C101_never_invalid, C101_singular, C101_trapezoid, C101_triangular_partial, C101_triangular_refuted, C102_inconsistent, C102_segments_of_a_print, C102_true_refuted, C105_exact_numbers, C105_refuted, C107_refuted, C115_exact_numbers, C118_exact_numbers, C119_exact_numbers, C121_exact_numbers, C20_constructor_check, C21_every_move_plannable, C22_exact_displacement, C22_exact_displacement_simulated, C23_limits, C23_limits_simulated, C24_blocks_reach_their_states, C24_contiguous_trajectory, C25_speeds_match, C26_simulation_succeeds, C27_junction_speed_bounds, C28_plan_is_fastest, C29_correction_idempotent, C30_isolated_move_time, C30_move_time_lower_bound, C30_total_time_lower_bound, C31_blocks_are_moves_and_dwells, C32_dwell_stands_still, C32_rest_before_dwell, C33_dwell_first_refuted, C34_feed_rate_zero_refuted, C35_ends_at_rest_partial, C35_ends_at_rest_refuted, C35_marlin_jerk_partial, C36_monotone, C36_reversal, C36_right_angle, C37_jump_any_speeds_partial, C37_jump_partial, C37_monotone_partial, C37_zero_jerk_refuted, C38_monotone, C38_reversal, C38_straight_partial, C38_zero_jerk_refuted, C39_no_slowdown_partial, C39_not_faster_than_either, C39_slower_next_refuted, C39_zero_jerk, C40_values_on_trajectory, C41_no_memory_partial, C41_no_memory_refuted, C42_before_start, C42_beyond_end_fails, C42_end_after_query_partial, C42_end_exactly, C42_end_refuted, C42_fresh_end_fails, C43_output_factor, C43_start_position, C44_unit_independent, C44_volume_conserved, C45_extent, C45_no_extrusion, C46_max_vel, C47_domain, C47_inverse_time_partial, C47_last_move_wrong, C47_refuted, C47_start, C47_too_early_when_braking, C48_events_on_trajectory, C49_refuted, C50_last_layer_lost, C50_layer_durations_partial, C50_other_cases, C50_refuted, C51_refuted, C51_travel_sum_partial, C52_complete, C52_coordinates, C52_crossings, C52_nozzle_there_unless_braking, C54_constructor_rejects, C55_owns_settings_refuted, C55_refresh_partial, C56_all_segments, C56_joined_iff_extruded, C56_lines_are_extruding_runs, C59_asks_only_without_folder, C59_missing_presets_exits, C59_no_display, C59_no_means_no, C59_shows_the_chosen_file, C59_unclear_input_exits, C59_writes_only_where_allowed, C60_matching_name, C60_name_mismatch, C60_nothing_given, C60_unknown_machine, C60_unknown_unit, C61_move_with_pause_refuted, C62_extruder_speed_continuous_refuted, C63_mka_right_angle_partial, C63_mka_right_angle_refuted, C64_curves, C64_errors, C64_plot_at_segment_ends, C64_plot_at_time_steps, C66_text_to_trajectory, C67_refuted, C68_no_crossing, C68_refuted, C68_times_partial, C70_black_line, C70_end_partial, C70_end_refuted, C70_in_order_partial, C71_corners_partial, C71_never_too_fast_partial, C71_refuted, C72_output_written_partial, C72_output_written_refuted, C72_picture_refuted, C76_refuted, C76_with_attribute_partial, C77_refuted, C77_with_position_partial, C78_sequences_refuted, C78_vectors_partial, C80_blocks_of_lines, C80_layer_metrics, C81_follows_path, C81_queries_in_order, C81_query_follows_line, C82_mka_refuted, C82_moved, C82_turn_is_isometry, C82_turned_partial, C83_summary, C84_end_fails, C84_fresh_partial, C84_from_index_partial, C84_later_gap_refuted, C85_any_order, C85_example_stray, C85_examples, C85_help, C85_missing_value, C85_options_mean_what_they_say, C85_stray_word, C85_subcommands, C85_version, C86_refresh_selects_rule, C86_setting_selects_rule, C87_dwell_cuts_lookahead, C87_full_stop, C87_full_stop_text, C87_same_positions, C88_jerk, C88_stops, C89_axes_partial, C89_different_speeds_refuted, C94_changing_speed_partial, C94_steady_partial, C95_direction, C95_moving, C95_unit, C96_can_be_above, C96_marks, C96_not_below, C97_on_trajectory, C98_file, C98_returned, C99_submodel, C99_summary
* `ClassicalDedekindReals.sig_forall_dec`, `ClassicalDedekindReals.sig_not_dec`, `functional_extensionality_dep`: C92_nothing_moves, C92_shipped_printers, C92_slicer_program, C92_unknown_printer, C93_benchy, C93_benchy_refused, C93_brace, C93_brace_refused
* `ClassicalDedekindReals.sig_forall_dec`, `ClassicalDedekindReals.sig_not_dec`, `Classical_Prop.classic`, `FunctionalExtensionality.functional_extensionality_dep`: C104_absolute, C104_absolute_text, C104_doubles, C104_nearest_double, C104_relative_error, C104_tenth, C104_ties_to_even, C105_partial, C105_prusa_mini, C106_drift, C106_extruder, C106_prusa_mini, C108_full_stop, C109_exact, C109_time, C110_exact, C110_text, C112_comparisons, C112_numbers, C112_operations, C112_same_arithmetic, C112_sines, C113_doubles, C113_drift, C113_finite, C113_full_stop, C114_full_stop, C114_slicer, C114_states, C114_text, C115_answered_partial, C115_gap, C115_outside, C115_refuted, C115_search_anew, C115_search_from_index, C115_simulated, C115_simulated_answers_partial, C115_values, C117_characters, C117_decimals, C117_form, C117_read_back, C117_round, C117_round_sign, C117_shortest, C118_file, C118_simulated, C119_file, C119_rows, C119_simulated, C119_text, C119_time, C121_extent, C121_extruding, C121_max_vel, C121_refused, C121_simulated, C88_junction_deviation, C88_klipper, C90_fastest_print, C91_between, C91_full_stop, C91_look_ahead_pays, C91_text, C94_constant_refuted, C94_integral_unique
