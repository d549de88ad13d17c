{
 "claims": [
  {
   "property": "C01",
   "status": "partial",
   "theorems": [
    "C01_comment_adds_only_itself_partial",
    "C01_plain_comment_partial",
    "C01_comment_refuted"
   ],
   "note": "REFUTED in general: a comment that mentions a command followed by a number alone raises TypeError. Proved: whenever the commented line is read at all, the comment adds only itself; comments in which no command occurs are always harmless."
  },
  {
   "property": "C02",
   "status": "proved",
   "theorems": [
    "C02_read_back",
    "C02_bare_commands",
    "C02_literal_value"
   ],
   "note": ""
  },
  {
   "property": "C03",
   "status": "proved",
   "theorems": [
    "C03_blanks_irrelevant"
   ],
   "note": ""
  },
  {
   "property": "C04",
   "status": "proved",
   "theorems": [
    "C04_argument_order",
    "C04_same_states"
   ],
   "note": ""
  },
  {
   "property": "C05",
   "status": "proved",
   "theorems": [
    "C05_one_state_per_line",
    "C05_parsed_lines"
   ],
   "note": ""
  },
  {
   "property": "C06",
   "status": "partial",
   "theorems": [
    "C06_reported_commands_partial",
    "C06_no_short_prefix_partial",
    "C06_separate_word_refuted"
   ],
   "note": "First half proved, with an exact characterisation of the reported commands. The second half is REFUTED: a separate word G1 behind a G10 on the same line is lost."
  },
  {
   "property": "C07",
   "status": "partial",
   "theorems": [
    "C07_foreign_line_partial",
    "C07_longer_words_raise_partial",
    "C07_unknown_commands_refuted"
   ],
   "note": "REFUTED: G17 and G30 raise TypeError, G91.1 switches to relative mode. Proved for lines in which no command of the table occurs."
  },
  {
   "property": "C08",
   "status": "proved",
   "theorems": [
    "C08_unsupported_counted"
   ],
   "note": ""
  },
  {
   "property": "C09",
   "status": "proved",
   "theorems": [
    "C09_absolute_move",
    "C09_offset_in_force",
    "C09_absolute_move_text"
   ],
   "note": ""
  },
  {
   "property": "C10",
   "status": "proved",
   "theorems": [
    "C10_relative_move",
    "C10_relative_moves_add_up"
   ],
   "note": ""
  },
  {
   "property": "C11",
   "status": "proved",
   "theorems": [
    "C11_unnamed_axes_stay",
    "C11_text"
   ],
   "note": ""
  },
  {
   "property": "C12",
   "status": "proved",
   "theorems": [
    "C12_settings_modal",
    "C12_initial_settings",
    "C12_defaults"
   ],
   "note": ""
  },
  {
   "property": "C13",
   "status": "partial",
   "theorems": [
    "C13_machine_partial",
    "C13_machine_refuted"
   ],
   "note": "REFUTED for G92 with a value other than 0. Proved as a refinement for all programs whose G92 only set coordinates to zero."
  },
  {
   "property": "C14",
   "status": "partial",
   "theorems": [
    "C14_g92_shift_partial",
    "C14_g92_offset_partial",
    "C14_g92_moves_refuted"
   ],
   "note": "REFUTED: G92 v moves the states by 2v. Proved: exactly what G92 does to this and to later absolute moves; v = 0 is right."
  },
  {
   "property": "C15",
   "status": "partial",
   "theorems": [
    "C15_units_ignored_partial",
    "C15_inches_refuted"
   ],
   "note": "REFUTED: the unit is recorded but never applied. Proved: no position depends on G20 or G21."
  },
  {
   "property": "C16",
   "status": "proved",
   "theorems": [
    "C16_layers",
    "C16_no_cue",
    "C16_layers_step"
   ],
   "note": ""
  },
  {
   "property": "C17",
   "status": "proved",
   "theorems": [
    "C17_g0_is_g1",
    "C17_text"
   ],
   "note": ""
  },
  {
   "property": "C18",
   "status": "proved",
   "theorems": [
    "C18_dwell"
   ],
   "note": ""
  },
  {
   "property": "C19",
   "status": "proved",
   "theorems": [
    "C19_causality",
    "C19_common_prefix"
   ],
   "note": ""
  },
  {
   "property": "C20",
   "status": "proved",
   "theorems": [
    "C20_position_is_integral_of_velocity",
    "C20_outside",
    "C20_constructor_check"
   ],
   "note": ""
  },
  {
   "property": "C21",
   "status": "proved",
   "theorems": [
    "C21_every_move_plannable"
   ],
   "note": ""
  },
  {
   "property": "C22",
   "status": "proved",
   "theorems": [
    "C22_exact_displacement",
    "C22_exact_displacement_simulated"
   ],
   "note": ""
  },
  {
   "property": "C23",
   "status": "proved",
   "theorems": [
    "C23_limits",
    "C23_limits_simulated"
   ],
   "note": ""
  },
  {
   "property": "C24",
   "status": "proved",
   "theorems": [
    "C24_contiguous_trajectory",
    "C24_blocks_reach_their_states"
   ],
   "note": ""
  },
  {
   "property": "C25",
   "status": "proved",
   "theorems": [
    "C25_speeds_match"
   ],
   "note": ""
  },
  {
   "property": "C26",
   "status": "proved",
   "theorems": [
    "C26_simulation_succeeds"
   ],
   "note": ""
  },
  {
   "property": "C27",
   "status": "proved",
   "theorems": [
    "C27_junction_speed_bounds"
   ],
   "note": ""
  },
  {
   "property": "C28",
   "status": "proved",
   "theorems": [
    "C28_plan_is_fastest"
   ],
   "note": ""
  },
  {
   "property": "C29",
   "status": "proved",
   "theorems": [
    "C29_correction_idempotent"
   ],
   "note": ""
  },
  {
   "property": "C30",
   "status": "proved",
   "theorems": [
    "C30_move_time_lower_bound",
    "C30_total_time_lower_bound",
    "C30_isolated_move_time"
   ],
   "note": ""
  },
  {
   "property": "C31",
   "status": "proved",
   "theorems": [
    "C31_blocks_are_moves_and_dwells"
   ],
   "note": ""
  },
  {
   "property": "C32",
   "status": "proved",
   "theorems": [
    "C32_dwell_stands_still",
    "C32_rest_before_dwell"
   ],
   "note": ""
  },
  {
   "property": "C33",
   "status": "partial",
   "theorems": [
    "C33_dwell_first_refuted"
   ],
   "note": "REFUTED: false of the code. A dwell before the first move raises AttributeError in self correction for every firmware. A dwell after the first move is covered by C26."
  },
  {
   "property": "C34",
   "status": "partial",
   "theorems": [
    "C34_feed_rate_zero_refuted"
   ],
   "note": "REFUTED: false of the code. A move with speed 0 is dropped and every later block is displaced by it, without any error or warning."
  },
  {
   "property": "C35",
   "status": "partial",
   "theorems": [
    "C35_ends_at_rest_partial",
    "C35_marlin_jerk_partial",
    "C35_ends_at_rest_refuted"
   ],
   "note": "REFUTED for marlin_jerk (witness ends at >= 2 mm/s); proved for all other junction handlings, and bounded by twice the jerk setting for marlin_jerk."
  },
  {
   "property": "C36",
   "status": "proved",
   "theorems": [
    "C36_right_angle",
    "C36_reversal",
    "C36_monotone"
   ],
   "note": ""
  },
  {
   "property": "C37",
   "status": "partial",
   "theorems": [
    "C37_jump_partial",
    "C37_jump_any_speeds_partial",
    "C37_monotone_partial",
    "C37_zero_jerk_refuted"
   ],
   "note": "REFUTED for jerk = 0, where the corner is passed at full speed; proved for every positive jerk, with bound 4*jerk for moves of different speed."
  },
  {
   "property": "C38",
   "status": "partial",
   "theorems": [
    "C38_straight_partial",
    "C38_reversal",
    "C38_monotone",
    "C38_zero_jerk_refuted"
   ],
   "note": "REFUTED for jerk = 0, where even a straight continuation is a full stop; straight continuation at full speed proved for jerk <> 0, reversal and monotonicity for all."
  },
  {
   "property": "C39",
   "status": "partial",
   "theorems": [
    "C39_not_faster_than_either",
    "C39_no_slowdown_partial",
    "C39_zero_jerk",
    "C39_slower_next_refuted"
   ],
   "note": "Second part REFUTED if the next move is slower (the exit velocity is scaled down twice); proved if it is not slower. First and third part proved in general."
  },
  {
   "property": "C40",
   "status": "proved",
   "theorems": [
    "C40_values_on_trajectory"
   ],
   "note": ""
  },
  {
   "property": "C41",
   "status": "partial",
   "theorems": [
    "C41_no_memory_partial",
    "C41_no_memory_refuted"
   ],
   "note": "REFUTED for the velocity at the time of a corner: fresh queries see the following segment, later ones the preceding one. Proved: positions never depend on the history, the travel speed by at most 1e-12 mm/s, the velocity not away from segment boundaries."
  },
  {
   "property": "C42",
   "status": "partial",
   "theorems": [
    "C42_end_after_query_partial",
    "C42_fresh_end_fails",
    "C42_beyond_end_fails",
    "C42_end_exactly",
    "C42_before_start",
    "C42_end_refuted"
   ],
   "note": "REFUTED: on a fresh simulation get_values(t_end) raises TypeError for every trajectory (C42_fresh_end_fails), and again after any query behind the end. Proved: it works if the last query was inside the print (C42_end_after_query_partial), and exactly (C42_end_exactly): after any history it succeeds if and only if some query at a time in [0, T) was not followed by one for a time after the end. A query for a negative time raises TypeError after any history (C42_before_start) and does not disturb later ones."
  },
  {
   "property": "C43",
   "status": "proved",
   "theorems": [
    "C43_start_position",
    "C43_output_factor"
   ],
   "note": ""
  },
  {
   "property": "C44",
   "status": "proved",
   "theorems": [
    "C44_volume_conserved",
    "C44_unit_independent"
   ],
   "note": ""
  },
  {
   "property": "C45",
   "status": "proved",
   "theorems": [
    "C45_extent",
    "C45_no_extrusion"
   ],
   "note": ""
  },
  {
   "property": "C46",
   "status": "proved",
   "theorems": [
    "C46_max_vel"
   ],
   "note": ""
  },
  {
   "property": "C47",
   "status": "partial",
   "theorems": [
    "C47_inverse_time_partial",
    "C47_domain",
    "C47_start",
    "C47_too_early_when_braking",
    "C47_last_move_wrong",
    "C47_refuted"
   ],
   "note": "REFUTED: on every braking segment the time is too early (C47_too_early_when_braking), in particular at the end of every print (C47_last_move_wrong), and distance 0 from rest raises ValueError. Proved on all other segments."
  },
  {
   "property": "C48",
   "status": "proved",
   "theorems": [
    "C48_events",
    "C48_events_on_trajectory",
    "C48_refused"
   ],
   "note": ""
  },
  {
   "property": "C49",
   "status": "partial",
   "theorems": [
    "C49_interpolation_bound",
    "C49_interpolation_exact_partial",
    "C49_refuted"
   ],
   "note": "REFUTED on accelerated segments. Proved: exact at constant velocity, otherwise off by at most duration*velocity change/8 per axis."
  },
  {
   "property": "C50",
   "status": "partial",
   "theorems": [
    "C50_layer_durations_partial",
    "C50_last_layer_lost",
    "C50_refuted",
    "C50_other_cases"
   ],
   "note": "REFUTED if the last block opens a layer: its row and its time are lost (C50_last_layer_lost). Proved otherwise."
  },
  {
   "property": "C51",
   "status": "partial",
   "theorems": [
    "C51_travel_sum_partial",
    "C51_refuted"
   ],
   "note": "REFUTED: the travel distance of the last block is always lost. Proved: nothing else is lost, and each row has the travel of its blocks."
  },
  {
   "property": "C52",
   "status": "proved",
   "theorems": [
    "C52_crossings",
    "C52_complete",
    "C52_nozzle_there_unless_braking",
    "C52_coordinates"
   ],
   "note": ""
  },
  {
   "property": "C53",
   "status": "proved",
   "theorems": [
    "C53_setup_map",
    "C53_no_printer",
    "C53_construction"
   ],
   "note": ""
  },
  {
   "property": "C54",
   "status": "proved",
   "theorems": [
    "C54_validation_exact",
    "C54_constructor_rejects"
   ],
   "note": ""
  },
  {
   "property": "C55",
   "status": "partial",
   "theorems": [
    "C55_refresh_partial",
    "C55_owns_settings_refuted"
   ],
   "note": "REFUTED: the simulation keeps a reference to the dictionary in the setup, so refresh after set_property(firmware) computes another trajectory. Proved: refresh changes nothing as long as nobody changes the firmware of that printer."
  },
  {
   "property": "C56",
   "status": "proved",
   "theorems": [
    "C56_lines_are_extruding_runs",
    "C56_all_segments",
    "C56_joined_iff_extruded"
   ],
   "note": ""
  },
  {
   "property": "C57",
   "status": "partial",
   "theorems": [
    "C57_reflexive_partial",
    "C57_nearly_symmetric_partial",
    "C57_symmetry_refuted",
    "C57_transitivity_refuted"
   ],
   "note": "REFUTED: the tolerance is relative to the right operand, so == is neither symmetric nor transitive. Proved: reflexive, and symmetric up to a slightly larger tolerance."
  },
  {
   "property": "C58",
   "status": "proved",
   "theorems": [
    "C58_bar_well_formed",
    "C58_monotone",
    "C58_halves"
   ],
   "note": ""
  },
  {
   "property": "C59",
   "status": "proved",
   "theorems": [
    "C59_unclear_input_exits",
    "C59_missing_presets_exits",
    "C59_writes_only_where_allowed",
    "C59_asks_only_without_folder",
    "C59_no_means_no",
    "C59_shows_the_chosen_file",
    "C59_no_display"
   ],
   "note": ""
  },
  {
   "property": "C60",
   "status": "proved",
   "theorems": [
    "C60_unknown_unit",
    "C60_nothing_given",
    "C60_unknown_machine",
    "C60_name_mismatch",
    "C60_matching_name"
   ],
   "note": ""
  },
  {
   "property": "C61",
   "status": "partial",
   "theorems": [
    "C61_move_with_pause_refuted"
   ],
   "note": "REFUTED: the planner keeps the pause and drops the move; all later positions are displaced. C24 assumes no such line."
  },
  {
   "property": "C62",
   "status": "partial",
   "theorems": [
    "C62_extruder_speed_continuous_refuted"
   ],
   "note": "REFUTED: an extruder-only move inherits the XYZ speed of the move before it as extruder speed."
  },
  {
   "property": "C63",
   "status": "partial",
   "theorems": [
    "C63_mka_right_angle_partial",
    "C63_mka_right_angle_refuted"
   ],
   "note": "REFUTED: the factor is multiplied in again for every following axis, so the speed is jerk*(jerk/v)^3 (proved for all v > jerk > 0)."
  },
  {
   "property": "C64",
   "status": "proved",
   "theorems": [
    "C64_plot_at_segment_ends",
    "C64_plot_at_time_steps",
    "C64_curves",
    "C64_errors"
   ],
   "note": ""
  },
  {
   "property": "C65",
   "status": "partial",
   "theorems": [
    "C65_property_takes_effect_partial",
    "C65_layer_cue_refuted"
   ],
   "note": "REFUTED for layer_cue if the constructor was given one (the documentation's own example is ignored). Proved for all keys that get_dict does not write itself."
  },
  {
   "property": "C66",
   "status": "proved",
   "theorems": [
    "C66_text_to_trajectory"
   ],
   "note": ""
  },
  {
   "property": "C67",
   "status": "partial",
   "theorems": [
    "C67_one_entry_point",
    "C67_refuted"
   ],
   "note": "REFUTED: one move through an edge gives n_filaments = 2. Proved: all entries of a move are at the same point."
  },
  {
   "property": "C68",
   "status": "partial",
   "theorems": [
    "C68_times_partial",
    "C68_no_crossing",
    "C68_refuted"
   ],
   "note": "REFUTED: IndexError if nothing crosses the box, ValueError if a move from rest begins on a face. Proved otherwise."
  },
  {
   "property": "C70",
   "status": "partial",
   "theorems": [
    "C70_black_line",
    "C70_in_order_partial",
    "C70_end_partial",
    "C70_end_refuted"
   ],
   "note": "REFUTED: with the velocity colouring a segment of constant speed draws only its begin, so the last 9.5 of 10 mm of a classic jerk move are missing. Proved: uncoloured all vertices; coloured all segments in order and close enough; the end if the speed changes on the last segment."
  },
  {
   "property": "C71",
   "status": "partial",
   "theorems": [
    "C71_never_too_fast_partial",
    "C71_refuted",
    "C71_corners_partial"
   ],
   "note": "REFUTED: colours are interpolated linearly in space (5 instead of 7.07 mm/s in the middle of a ramp). Proved: right at every segment begin, nowhere above the real speed by more than 1e-12 mm/s."
  },
  {
   "property": "C72",
   "status": "partial",
   "theorems": [
    "C72_output_written_refuted",
    "C72_output_written_partial",
    "C72_picture_refuted"
   ],
   "note": "REFUTED: save_summary raises ValueError for a print without extrusion (C72_output_written_refuted), and without a display the picture is left out (C72_picture_refuted). Proved for prints with extrusion and layers, the picture with a display."
  },
  {
   "property": "C73",
   "status": "partial",
   "theorems": [
    "C73_integers_refuted",
    "C73_other_values_partial"
   ],
   "note": "REFUTED: every integer is shown as an error. Proved for all other values."
  },
  {
   "property": "C69",
   "status": "partial",
   "theorems": [
    "C69_add_sub_partial",
    "C69_mul",
    "C69_div_partial",
    "C69_others_rejected",
    "C69_undo",
    "C69_int_division_refuted",
    "C69_mixed_classes_refuted"
   ],
   "note": "REFUTED: an int is refused as divisor, and vectors of different classes are refused by + and -. Proved for all other documented operands; * proved in full."
  },
  {
   "property": "C74",
   "status": "partial",
   "theorems": [
    "C74_truth_partial",
    "C74_ne_is_negation",
    "C74_never_false_refuted",
    "C74_classes_refuted"
   ],
   "note": "REFUTED: the answer is None, never False, and objects of different classes are never equal. Proved: inside a class and with sequences it counts as true exactly for close coordinates."
  },
  {
   "property": "C75",
   "status": "partial",
   "theorems": [
    "C75_refuted"
   ],
   "note": "REFUTED: it reads attributes (Vx, ...) that velocities do not have and raises AttributeError for every input."
  },
  {
   "property": "C76",
   "status": "partial",
   "theorems": [
    "C76_refuted",
    "C76_with_attribute_partial"
   ],
   "note": "REFUTED: the constructor never sets the attribute result, so both methods raise AttributeError. Proved if the caller has set it."
  },
  {
   "property": "C77",
   "status": "partial",
   "theorems": [
    "C77_with_position_partial",
    "C77_refuted"
   ],
   "note": "REFUTED without a position (TypeError). Proved with one."
  },
  {
   "property": "C78",
   "status": "partial",
   "theorems": [
    "C78_vectors_partial",
    "C78_sequences_refuted"
   ],
   "note": "REFUTED for lists, tuples and arrays (AttributeError). Proved for 4D vectors."
  },
  {
   "property": "C79",
   "status": "proved",
   "theorems": [
    "C79_constructor",
    "C79_round_trip",
    "C79_wrong_number"
   ],
   "note": ""
  },
  {
   "property": "C80",
   "status": "proved",
   "theorems": [
    "C80_blocks_of_lines",
    "C80_layer_metrics"
   ],
   "note": "Programs whose states are valid (positive settings, first state without dwell) and whose G92 only set zero. The sums need that the last block does not open a layer (otherwise see C50)."
  },
  {
   "property": "C81",
   "status": "proved",
   "theorems": [
    "C81_follows_path",
    "C81_query_follows_line",
    "C81_queries_in_order"
   ],
   "note": ""
  },
  {
   "property": "C82",
   "status": "partial",
   "theorems": [
    "C82_turned_partial",
    "C82_moved",
    "C82_turn_is_isometry",
    "C82_mka_refuted"
   ],
   "note": "REFUTED for turns with MKA, which looks at the axes one by one (C82_mka_refuted). Proved: moves for every firmware, turns and reflections for every other."
  },
  {
   "property": "C83",
   "status": "proved",
   "theorems": [
    "C83_summary"
   ],
   "note": ""
  },
  {
   "property": "C84",
   "status": "partial",
   "theorems": [
    "C84_fresh_partial",
    "C84_from_index_partial",
    "C84_later_gap_refuted",
    "C84_end_fails"
   ],
   "note": "REFUTED: with a last index only the gap directly behind it is found, for later gaps the function returns None (C84_later_gap_refuted); at the end of the path a fresh search raises IndexError (C84_end_fails). Proved: fresh searches before the end, and from an index for segments and the next gap."
  },
  {
   "property": "C85",
   "status": "proved",
   "theorems": [
    "C85_options_mean_what_they_say",
    "C85_one_meaning",
    "C85_any_order",
    "C85_missing_value",
    "C85_stray_word",
    "C85_subcommands",
    "C85_examples",
    "C85_example_stray",
    "C85_help",
    "C85_version"
   ],
   "note": "argparse is modelled for words that are option names in full and for values that do not begin with a dash; abbreviations and joined values leave the model."
  },
  {
   "property": "C86",
   "status": "proved",
   "theorems": [
    "C86_one_rule",
    "C86_setting_selects_rule",
    "C86_refresh_selects_rule"
   ],
   "note": "Text-level statements; the corner rules themselves are C36-C39."
  },
  {
   "property": "C87",
   "status": "proved",
   "theorems": [
    "C87_full_stop_text",
    "C87_dwell_cuts_lookahead",
    "C87_full_stop",
    "C87_same_positions"
   ],
   "note": "The move after the dwell must be common as well: it decides which limit the last block before the dwell is first planned with."
  },
  {
   "property": "C88",
   "status": "proved",
   "theorems": [
    "C88_klipper",
    "C88_junction_deviation",
    "C88_jerk",
    "C88_stops"
   ],
   "note": "The circle is given by its touching condition, the speed as the largest one that meets the limits."
  },
  {
   "property": "C89",
   "status": "partial",
   "theorems": [
    "C89_axes_partial",
    "C89_different_speeds_refuted"
   ],
   "note": "Partial: proved for two moves with the same feed rate. Refuted for different feed rates: the factor found in the velocities of the feed rates is applied to the smaller one, the jump of the extruder is then larger than the setting."
  },
  {
   "property": "C90",
   "status": "proved",
   "theorems": [
    "C90_fastest_print"
   ],
   "note": "The simulated print itself may exceed a drive by the tolerance of the trajectory check at the joints (C24), so it is compared with all drives, and is not claimed to be one."
  },
  {
   "property": "C91",
   "status": "proved",
   "theorems": [
    "C91_between",
    "C91_full_stop",
    "C91_look_ahead_pays",
    "C91_text"
   ],
   "note": "The bounds add up over the moves and dwells of the program."
  },
  {
   "property": "C92",
   "status": "proved",
   "theorems": [
    "C92_slicer_program",
    "C92_shipped_printers",
    "C92_unknown_printer",
    "C92_nothing_moves"
   ],
   "note": "The conditions exclude exactly the refuted cases: comments that mention commands (C01), G92 to another value than 0 (C14), G20 (C15), a dwell before the first move (C33), settings of 0 (C34)."
  },
  {
   "property": "C93",
   "status": "proved",
   "theorems": [
    "C93_brace",
    "C93_brace_refused",
    "C93_benchy",
    "C93_benchy_refused"
   ],
   "note": "In a checkout without git-lfs the G-code files of the examples are pointers, so both examples raise IndexError (C93_case_pointer)."
  },
  {
   "property": "C94",
   "status": "partial",
   "theorems": [
    "C94_changing_speed_partial",
    "C94_integral_unique",
    "C94_steady_partial",
    "C94_constant_refuted"
   ],
   "note": "REFUTED: at constant speed the error is always stored as 0 (C94_constant_refuted). Proved for the segments of a print on which the speed changes (and is not within numpy's 1e-8 of zero without being zero), at the target speed and at rest."
  },
  {
   "property": "C95",
   "status": "proved",
   "theorems": [
    "C95_direction",
    "C95_unit",
    "C95_moving"
   ],
   "note": ""
  },
  {
   "property": "C96",
   "status": "proved",
   "theorems": [
    "C96_marks",
    "C96_not_below",
    "C96_can_be_above"
   ],
   "note": "The marks are limits: C96_can_be_above gives a print that passes a corner slower than its mark."
  },
  {
   "property": "C97",
   "status": "proved",
   "theorems": [
    "C97_file",
    "C97_on_trajectory",
    "C97_refused"
   ],
   "note": "The writer of numbers is a parameter (position in the file, column, number); nothing is assumed but that it writes no commas or line ends."
  },
  {
   "property": "C98",
   "status": "proved",
   "theorems": [
    "C98_file",
    "C98_returned"
   ],
   "note": "The writer of numbers is a parameter; nothing is assumed but that it writes no delimiter, line end or blank. The locale functions are not modelled apart from this."
  },
  {
   "property": "C99",
   "status": "proved",
   "theorems": [
    "C99_submodel",
    "C99_summary"
   ],
   "note": ""
  },
  {
   "property": "C100",
   "status": "proved",
   "theorems": [
    "C100_abaqus",
    "C100_ascii_only",
    "C100_otherwise"
   ],
   "note": ""
  },
  {
   "property": "C101",
   "status": "partial",
   "theorems": [
    "C101_never_invalid",
    "C101_trapezoid",
    "C101_triangular_partial",
    "C101_singular",
    "C101_triangular_refuted"
   ],
   "note": "REFUTED for Triangular: a block that speeds up and then keeps its speed (or keeps its speed and then slows down) is called Triangular too (C101_triangular_refuted); proved: it consists of two of the three pieces. The rest is proved."
  },
  {
   "property": "C102",
   "status": "partial",
   "theorems": [
    "C102_segments_of_a_print",
    "C102_inconsistent",
    "C102_true_refuted"
   ],
   "note": "REFUTED for the result of the check: the documentation says self_check returns True, it returns None, and the text says so (C102_true_refuted). The rest is proved."
  },
  {
   "property": "C103",
   "status": "proved",
   "theorems": [
    "C103_vectors",
    "C103_labels",
    "C103_states"
   ],
   "note": ""
  },
  {
   "property": "C104",
   "status": "proved",
   "theorems": [
    "C104_nearest_double",
    "C104_ties_to_even",
    "C104_relative_error",
    "C104_words",
    "C104_absolute",
    "C104_error",
    "C104_doubles",
    "C104_absolute_text",
    "C104_feed",
    "C104_tenth"
   ],
   "note": "Overflow to infinity is left out (exponents have no upper end). This bounds what the input of the planner loses, not what its own arithmetic loses (C105)."
  },
  {
   "property": "C105",
   "status": "partial",
   "theorems": [
    "C105_exact_numbers",
    "C105_refuted",
    "C105_partial",
    "C105_prusa_mini"
   ],
   "note": "REFUTED: adding 0.03 and 0.29 in doubles does not give 0.32, and the planner has no profile for the residual move of 5.5e-17 mm (C105_refuted, computed with the IEEE arithmetic of Coq's standard library). Proved: with every operation rounded to the nearest double, move_maker2 finds a profile for every move of length at least 32*2^-53*v^2/a, whatever the segment before (C105_partial; 1e-10 mm is enough for prusa_mini). That the self checks and the correction raise no error with doubles is not proved (positions: C106). Fused multiply-add and overflow are left out."
  },
  {
   "property": "C106",
   "status": "proved",
   "theorems": [
    "C106_drift",
    "C106_extruder",
    "C106_prusa_mini"
   ],
   "note": "Proved for Bk binary64 (Generic.v): every operation of the planner on reals followed by rounding to the nearest double. Overflow, NaN and fused multiply-add are left out. C106_extruder adds the extruder to x, y and z. The speeds are at least 1e-6 in their bound V and no number is absurdly small (tiny = 1e-100)."
  },
  {
   "property": "C107",
   "status": "partial",
   "theorems": [
    "C107_refuted"
   ],
   "note": "REFUTED with the presets of the package: 'G1 X1 Y2 F3000', 'G1 X2 Y4' on anisoprint_a4 (firmware MKA) and 'G1 X2 Y4 F6000', 'G1 X4 Y8' on prusa_mini (marlin_jerk) raise RuntimeError in doubles, and simulate in exact numbers (C107_refuted, computed with the IEEE arithmetic of Coq's standard library). The norm of the rounded velocity at the corner exceeds the commanded speed in the last bit, the braking time becomes negative, and so early in the print the end time of the segment falls below its begin. A machine that fuses products and sums in np.linalg.norm was checked outside Coq to fail in the same way."
  },
  {
   "property": "C108",
   "status": "proved",
   "theorems": [
    "C108_full_stop"
   ],
   "note": "Proved for Bk binary64 (as C106: reals, each result rounded to the nearest double; no overflow, NaN or fused operations). The other firmwares do fail on ordinary programs (C107)."
  },
  {
   "property": "C109",
   "status": "proved",
   "theorems": [
    "C109_time",
    "C109_exact"
   ],
   "note": "As C108. The exact simulation C109_exact compares with is that of Planner.v (C91)."
  },
  {
   "property": "C110",
   "status": "proved",
   "theorems": [
    "C110_text",
    "C110_exact"
   ],
   "note": "As C108. Parsing of decimals to the nearest double is as in C104. Coordinates of the head in relative mode are left out: C105 shows a program of that kind that fails."
  },
  {
   "property": "C111",
   "status": "proved",
   "theorems": [
    "C111_anew",
    "C111_from_index",
    "C111_ends",
    "C111_empty"
   ],
   "note": ""
  },
  {
   "property": "C112",
   "status": "proved",
   "theorems": [
    "C112_operations",
    "C112_comparisons",
    "C112_numbers",
    "C112_sines",
    "C112_same_arithmetic"
   ],
   "note": "About Coq.Floats.SpecFloat, as the planner of Generic.v uses it (Fk). That Python, numpy and the processor compute as IEEE 754 prescribes is trusted; numpy's sine is trusted to give the nearest double for these two angles."
  },
  {
   "property": "C113",
   "status": "proved",
   "theorems": [
    "C113_doubles",
    "C113_finite",
    "C113_drift",
    "C113_full_stop"
   ],
   "note": "Fk is the arithmetic of Coq.Floats.SpecFloat with 53 bits, exponents up to 1024 (C112); Bk binary64 the reals with rounding. Nothing is claimed where an overflow does occur."
  },
  {
   "property": "C114",
   "status": "proved",
   "theorems": [
    "C114_states",
    "C114_text",
    "C114_slicer",
    "C114_full_stop"
   ],
   "note": "As C113. Texts with infinities or NaN as numbers (float('inf')) leave the model."
  },
  {
   "property": "C115",
   "status": "partial",
   "theorems": [
    "C115_exact_numbers",
    "C115_values",
    "C115_outside",
    "C115_search_anew",
    "C115_search_from_index",
    "C115_answered_partial",
    "C115_simulated",
    "C115_simulated_answers_partial",
    "C115_gap",
    "C115_refuted"
   ],
   "note": "Partial because the full claim (every time of the print is answered) is refuted with a program for prusa_mini; times inside of a segment are always answered. For simulated tame programs, that the ends of the segments do not go back and that no segment is over within the first 10^-27 s is assumed. Times that are infinite or NaN are not covered."
  },
  {
   "property": "C116",
   "status": "proved",
   "theorems": [
    "C116_failures",
    "C116_reading",
    "C116_text"
   ],
   "note": "An upper bound: which of the exceptions a given arithmetic can reach is not said (with exact numbers and valid programs none, C26). Infinite numbers in the text, settings that are text and accelerations that are not positive leave the model (Unmodelled). Arithmetic operations themselves are taken not to raise."
  },
  {
   "property": "C117",
   "status": "proved",
   "theorems": [
    "C117_read_back",
    "C117_shortest",
    "C117_characters",
    "C117_not_finite",
    "C117_round",
    "C117_decimals",
    "C117_form",
    "C117_zero",
    "C117_round_sign"
   ],
   "note": "The sign of a zero is written but the model of float(text) does not keep it: read_back says so. Infinite numbers and nan are written as CPython does (C117_not_finite) but reading them gives one value NonFinite. What is shown exactly by round is limited to 15 digits: beyond it the nearest double may show other decimals. Repr.v is checked against CPython on 350 doubles, outside of Coq."
  },
  {
   "property": "C118",
   "status": "proved",
   "theorems": [
    "C118_exact_numbers",
    "C118_file",
    "C118_refused",
    "C118_simulated"
   ],
   "note": "Whether a coordinate is a float or a numpy.float64 is not tracked: the theorems hold for any assignment. C118_simulated keeps the hypothesis that the corners are within a million units of the origin; that they are near the commanded positions is C105 to C110. numpy's round is modelled as in its documentation (multiply, rint, divide)."
  },
  {
   "property": "C119",
   "status": "proved",
   "theorems": [
    "C119_exact_numbers",
    "C119_rows",
    "C119_time",
    "C119_file",
    "C119_other_cases",
    "C119_simulated",
    "C119_text"
   ],
   "note": "The bound on the speed is relative to the two numbers in the row, not to the exact speed, which may be badly conditioned when a layer is short. The first 10^-27 s are excluded because the difference of two doubles there can be so small that the speed overflows. Whether a zero is the int 0 or a float is not tracked: the theorems hold for any assignment. str of a numpy.float64 is taken to write the same digits as repr of a float."
  },
  {
   "property": "C120",
   "status": "proved",
   "theorems": [
    "C120_lines",
    "C120_blocks",
    "C120_extruding",
    "C120_dwells",
    "C120_nothing",
    "C120_layers"
   ],
   "note": "The direction of a block is not described here: that the move goes from begin to target is C22 and C106 for exact and rounded numbers. That blocks are joined without gaps is not claimed for any arithmetic: for exact numbers it is C22, for rounded ones gaps are bounded by C106."
  },
  {
   "property": "C121",
   "status": "proved",
   "theorems": [
    "C121_exact_numbers",
    "C121_extent",
    "C121_max_vel",
    "C121_refused",
    "C121_summary",
    "C121_simulated",
    "C121_extruding"
   ],
   "note": "With exact numbers the functions are those of Query.v (C121_exact_numbers). The velocity is that of the code: the greatest speeds of the axes may belong to different moments, so it can exceed every speed that is reached. The text of the summary file (yaml) is not modelled, only the three figures in it."
  }
 ]
}