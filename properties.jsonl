{"id": "C01", "title": "Comments never change the commands read from a line", "statement": "Appending ';' and any text to a G-code line does not change which commands and arguments the parser reports for that line; it only adds the comment itself.", "quantifier": "every comment-free line and every comment text", "why_tests_cant": "the comment text is arbitrary; tests try a handful of comments", "anchors": ["pyGCodeDecode/state_generator.py:arg_extract"]}
{"id": "C02", "title": "A well-formed command line is read back exactly", "statement": "Parsing a line made of one known command followed by distinct argument letters with decimal numbers yields exactly that command with exactly those arguments, each with its decimal value.", "quantifier": "every command of the table, every list of distinct argument letters, every decimal literal", "why_tests_cant": "unbounded set of numbers, argument subsets and orders", "anchors": ["pyGCodeDecode/state_generator.py:arg_extract", "pyGCodeDecode/state_generator.py:known_commands"]}
{"id": "C03", "title": "Blanks are irrelevant", "statement": "Blanks between the command, its argument letters and inside the numbers do not change what is parsed.", "quantifier": "every well-formed line and every way to distribute blanks in it", "why_tests_cant": "infinitely many spacings", "anchors": ["pyGCodeDecode/state_generator.py:arg_extract"]}
{"id": "C04", "title": "Argument order is irrelevant", "statement": "Two well-formed lines with the same command and the same arguments in another order lead to the same machine state.", "quantifier": "every permutation of every argument list", "why_tests_cant": "factorially many orders with arbitrary values", "anchors": ["pyGCodeDecode/state_generator.py:arg_extract", "pyGCodeDecode/state_generator.py:dict_list_traveler"]}
{"id": "C05", "title": "One state per line, numbered", "statement": "Reading a file of n lines gives n parsed lines numbered 1..n in order, and n+1 states: an initial one without line number, then one per line carrying that line's number.", "quantifier": "every file and every machine setup for which reading succeeds", "why_tests_cant": "unbounded files", "anchors": ["pyGCodeDecode/state_generator.py:read_gcode_to_dict_list", "pyGCodeDecode/state_generator.py:dict_list_traveler"]}
{"id": "C06", "title": "Long command names are never read as their short prefix", "statement": "If a long command (G10, G11, G20, G21, G28, G29) is reported at a place of the line, the shorter command that is its prefix (G1, G2) is not reported from that same place; and a command that is present in the line as a separate word is reported.", "quantifier": "every line", "why_tests_cant": "depends on search order and list mutation for arbitrary text", "anchors": ["pyGCodeDecode/state_generator.py:arg_extract"]}
{"id": "C07", "title": "Unknown G-commands are harmless", "statement": "A line holding only a command that is not in the table (such as G17 or G30) is ignored: it neither raises nor moves the machine.", "quantifier": "every command name outside the table", "why_tests_cant": "unbounded family of names", "anchors": ["pyGCodeDecode/state_generator.py:arg_extract", "pyGCodeDecode/state_generator.py:known_commands"]}
{"id": "C08", "title": "Unsupported commands are counted exactly", "statement": "The returned dictionary maps each known-but-unsupported command to the number of lines on which it was found, and holds no other key.", "quantifier": "every list of parsed lines", "why_tests_cant": "arbitrary files", "anchors": ["pyGCodeDecode/state_generator.py:check_for_unsupported_commands"]}
{"id": "C09", "title": "Absolute moves set the coordinate", "statement": "In absolute mode a G0/G1 that names an axis puts that axis at the commanded value (plus the G92 offset in force), whatever happened before.", "quantifier": "every history of lines, every axis, every value", "why_tests_cant": "history dependent", "anchors": ["pyGCodeDecode/state_generator.py:dict_list_traveler"]}
{"id": "C10", "title": "Relative moves add to the coordinate", "statement": "In relative mode a G0/G1 that names an axis moves it by exactly the commanded amount, and consecutive relative moves accumulate their sum.", "quantifier": "every history, axis, list of increments", "why_tests_cant": "history dependent", "anchors": ["pyGCodeDecode/state_generator.py:dict_list_traveler"]}
{"id": "C11", "title": "Axes that are not named do not move", "statement": "A line moves only those axes that its G0, G1 or G92 names; every other line leaves the position unchanged.", "quantifier": "every history and every line", "why_tests_cant": "history dependent, arbitrary lines", "anchors": ["pyGCodeDecode/state_generator.py:dict_list_traveler"]}
{"id": "C12", "title": "Settings are modal", "statement": "Feed rate (F, mm/min, stored as mm/s), acceleration (M204 P), jerk (M205 X), axis limits (M203), positioning and extrusion modes and the unit keep their last value until a line changes them. Before the first line they are those of the setup, where the setup gives none (an empty dictionary) those of default_virtual_machine.", "quantifier": "every history and every line", "why_tests_cant": "arbitrary histories", "anchors": ["pyGCodeDecode/state_generator.py:dict_list_traveler"]}
{"id": "C13", "title": "The reader implements the G-code machine", "statement": "For every program the positions, feed rates and modes of the states equal those of an independently written abstract G-code machine (physical position, work offset, modal settings).", "quantifier": "every parsed program", "why_tests_cant": "unbounded programs", "anchors": ["pyGCodeDecode/state_generator.py:dict_list_traveler"]}
{"id": "C14", "title": "G92 does not move the machine", "statement": "A line with G92 renames the current position: the physical position (that of the states) does not change, and later absolute moves are offset accordingly.", "quantifier": "every history and every G92 value", "why_tests_cant": "tests only use G92 with zeros", "anchors": ["pyGCodeDecode/state_generator.py:dict_list_traveler"]}
{"id": "C15", "title": "Inch mode scales lengths", "statement": "After G20 commanded coordinates are in inches, so the machine moves 25.4 times the commanded number in millimetres; after G21 in millimetres.", "quantifier": "every history and value", "why_tests_cant": "tests only check the stored unit name", "anchors": ["pyGCodeDecode/state_generator.py:dict_list_traveler", "pyGCodeDecode/gcode_interpreter.py:simulation"]}
{"id": "C16", "title": "Layers are counted by the cue", "statement": "With a layer cue every state's layer is the number of lines so far whose stripped comment equals the cue; it never decreases and grows by at most one per line.", "quantifier": "every program and cue", "why_tests_cant": "arbitrary programs", "anchors": ["pyGCodeDecode/state_generator.py:dict_list_traveler"]}
{"id": "C17", "title": "G0 and G1 are the same move", "statement": "Replacing G0 by G1 (or conversely) in any line that has only one of them gives the same states.", "quantifier": "every program", "why_tests_cant": "arbitrary programs", "anchors": ["pyGCodeDecode/state_generator.py:dict_list_traveler"]}
{"id": "C18", "title": "Dwell durations", "statement": "G4 P is milliseconds, G4 S is seconds and wins over P; the pause belongs to that line's state only.", "quantifier": "every history and every line", "why_tests_cant": "arbitrary lines", "anchors": ["pyGCodeDecode/state_generator.py:dict_list_traveler"]}
{"id": "C19", "title": "Causality of the states", "statement": "The states of the first n lines depend only on the first n lines: appending lines never changes earlier states.", "quantifier": "every program and every continuation", "why_tests_cant": "unbounded continuations", "anchors": ["pyGCodeDecode/state_generator.py:dict_list_traveler"]}
{"id": "C20", "title": "Position is the integral of velocity", "statement": "Within a segment get_velocity is linear in time from vel_begin to vel_end, get_position starts at pos_begin, ends at pos_end, and its time derivative is get_velocity. Outside of the segment both raise ValueError.", "quantifier": "every consistent segment and every time in it", "why_tests_cant": "a continuum of times", "anchors": ["pyGCodeDecode/utils.py:segment"]}
{"id": "C21", "title": "Every move can be planned", "statement": "For positive speed and acceleration and any entry and exit speed not above the target speed, planning a move of positive length finds a trapezoid, triangle or single ramp; it never raises.", "quantifier": "every length, acceleration, target, entry and exit speed", "why_tests_cant": "case split over a 5-dimensional continuum", "anchors": ["pyGCodeDecode/planner_block.py:planner_block.move_maker2"]}
{"id": "C22", "title": "A move covers exactly the commanded displacement", "statement": "The segments of a planned move start where the previous segment ended, join in time, position and velocity, and end at start plus (state_B - state_A) in all four axes.", "quantifier": "every pair of states, settings, entry and exit speed", "why_tests_cant": "continuum of inputs", "anchors": ["pyGCodeDecode/planner_block.py:planner_block.move_maker2"]}
{"id": "C23", "title": "Speed and acceleration limits", "statement": "Inside a planned move the travel speed never exceeds the target speed and the acceleration is exactly +p_acc, 0 or -p_acc along the move direction.", "quantifier": "every move and every time in it", "why_tests_cant": "continuum", "anchors": ["pyGCodeDecode/planner_block.py:planner_block.move_maker2", "pyGCodeDecode/utils.py:segment.self_check"]}
{"id": "C24", "title": "The trajectory starts right and has no gaps", "statement": "After the simulation the first segment starts at time 0 at the initial position, every segment starts at the time and 4D position where its predecessor ended, and every planner block ends at the position of its state.", "quantifier": "every list of states with positive speeds and accelerations in which no single line both moves and dwells (see C61), every firmware", "why_tests_cant": "unbounded programs; order and recursion of the corrections", "anchors": ["pyGCodeDecode/gcode_interpreter.py:generate_planner_blocks", "pyGCodeDecode/gcode_interpreter.py:simulation.trajectory_self_correct", "pyGCodeDecode/planner_block.py:planner_block.self_correction"]}
{"id": "C25", "title": "Speeds match at junctions", "statement": "After the simulation the speed at the end of each block equals the speed at the beginning of the next one to within 1e-12 mm/s.", "quantifier": "every list of states, every firmware", "why_tests_cant": "backwards recursion over unbounded chains of short moves", "anchors": ["pyGCodeDecode/planner_block.py:planner_block.self_correction"]}
{"id": "C26", "title": "The simulation never fails on valid input", "statement": "For positive speeds and accelerations, non-negative jerk and pauses and a first block that is a move, planning and correction raise nothing (no NameError, ValueError, AttributeError) and no machine-limit warning is printed.", "quantifier": "every such list of states, every firmware", "why_tests_cant": "unbounded inputs", "anchors": ["pyGCodeDecode/gcode_interpreter.py:simulation", "pyGCodeDecode/planner_block.py:planner_block"]}
{"id": "C27", "title": "Junction speed is between zero and the target speed", "statement": "Every firmware's junction velocity is at least 0 and at most the target speed of the arriving move.", "quantifier": "every pair/triple of states, every firmware", "why_tests_cant": "continuum of geometries", "anchors": ["pyGCodeDecode/junction_handling.py:junction_handling"]}
{"id": "C28", "title": "The plan is as fast as the junction limits allow", "statement": "The planned junction speeds dominate every speed profile that starts at rest, respects the junction limits, the target speeds and the acceleration over each move length.", "quantifier": "every list of states and every competing profile", "why_tests_cant": "quantifies over all competing plans", "anchors": ["pyGCodeDecode/planner_block.py:planner_block.self_correction", "pyGCodeDecode/planner_block.py:planner_block.move_maker2"]}
{"id": "C29", "title": "Self correction is idempotent and refresh is reproducible", "statement": "Running the self correction again on a simulated trajectory changes nothing, and refresh() without new states yields the same trajectory.", "quantifier": "every simulated trajectory", "why_tests_cant": "unbounded", "anchors": ["pyGCodeDecode/gcode_interpreter.py:simulation.refresh", "pyGCodeDecode/gcode_interpreter.py:simulation.trajectory_self_correct"]}
{"id": "C30", "title": "A move is never faster than its feed rate allows", "statement": "The duration of a planned move is at least length/target speed, so the simulated time is at least the naive sum; an isolated move takes v/a+d/v (trapezoid) or 2*sqrt(d/a) (triangle).", "quantifier": "every move; every trajectory", "why_tests_cant": "continuum", "anchors": ["pyGCodeDecode/planner_block.py:planner_block.move_maker2"]}
{"id": "C31", "title": "Blocks correspond to moves and dwells", "statement": "There is one block for each state that moves an axis or dwells, in order, and none for any other line.", "quantifier": "every list of states", "why_tests_cant": "unbounded", "anchors": ["pyGCodeDecode/gcode_interpreter.py:generate_planner_blocks"]}
{"id": "C32", "title": "A dwell stands still", "statement": "A dwell keeps the position for exactly the pause duration at zero velocity, and the move before it ends at rest to within the 1e-12 mm/s tolerance of the correction.", "quantifier": "every trajectory and pause", "why_tests_cant": "interplay with self correction over arbitrary chains", "anchors": ["pyGCodeDecode/planner_block.py:planner_block.__init__", "pyGCodeDecode/planner_block.py:planner_block.self_correction"]}
{"id": "C33", "title": "A dwell is accepted anywhere", "statement": "A program may dwell before its first move.", "quantifier": "every program", "why_tests_cant": "tests only dwell after moves", "anchors": ["pyGCodeDecode/planner_block.py:planner_block.__init__"]}
{"id": "C34", "title": "A move without feed rate does not corrupt the trajectory", "statement": "If a line moves with feed rate 0 the remaining trajectory still reaches the commanded positions.", "quantifier": "every program containing F0", "why_tests_cant": "rare input", "anchors": ["pyGCodeDecode/planner_block.py:planner_block.__init__", "pyGCodeDecode/gcode_interpreter.py:generate_planner_blocks"]}
{"id": "C35", "title": "The trajectory ends at rest", "statement": "The last segment of a simulated trajectory ends with zero velocity.", "quantifier": "every list of states, every firmware", "why_tests_cant": "every geometry of the last move", "anchors": ["pyGCodeDecode/junction_handling.py:junction_handling", "pyGCodeDecode/planner_block.py:planner_block"]}
{"id": "C36", "title": "Klipper square corner velocity", "statement": "With klipper handling a 90 degree corner is passed at min(square corner velocity, speed, mid-move limit); a reversal is a full stop.", "quantifier": "every pair of orthogonal/opposite moves", "why_tests_cant": "continuum", "anchors": ["pyGCodeDecode/junction_handling.py:junction_handling_klipper"]}
{"id": "C37", "title": "Marlin classic jerk bounds the velocity jump", "statement": "With marlin_jerk handling of two moves of equal speed the change of the velocity vector at the junction is at most 2*jerk; smaller jerk never gives a faster junction.", "quantifier": "every pair of moves and every jerk", "why_tests_cant": "continuum; includes jerk = 0", "anchors": ["pyGCodeDecode/junction_handling.py:junction_handling_marlin_jerk"]}
{"id": "C38", "title": "Junction deviation behaves monotonically", "statement": "With marlin_jd a straight continuation is passed at full speed, a reversal stops, and the junction speed does not decrease with jerk nor with a flatter angle.", "quantifier": "every pair of directions, every jerk", "why_tests_cant": "continuum", "anchors": ["pyGCodeDecode/junction_handling.py:junction_handling_marlin_jd"]}
{"id": "C39", "title": "MKA junction", "statement": "With MKA handling the junction speed is at most the slower of the two moves, equals it if no axis changes by more than jerk, and is zero for jerk 0 if any axis changes.", "quantifier": "every pair of moves", "why_tests_cant": "continuum", "anchors": ["pyGCodeDecode/junction_handling.py:junction_handling_MKA"]}
{"id": "C40", "title": "get_values is defined and right during the whole print", "statement": "For every time 0 <= t < t_end and every history of earlier queries get_values returns the position and velocity of the trajectory at t, scaled to the unit system.", "quantifier": "every trajectory, every query history, every time", "why_tests_cant": "histories with an internal search index", "anchors": ["pyGCodeDecode/gcode_interpreter.py:find_current_segment", "pyGCodeDecode/gcode_interpreter.py:simulation.get_values"]}
{"id": "C41", "title": "Queries have no memory", "statement": "What get_values returns for t does not depend on which times were queried before.", "quantifier": "every query history", "why_tests_cant": "histories", "anchors": ["pyGCodeDecode/gcode_interpreter.py:find_current_segment", "pyGCodeDecode/gcode_interpreter.py:simulation.get_values"]}
{"id": "C42", "title": "The end of the print can be queried", "statement": "get_values(t_end) returns the final position.", "quantifier": "every trajectory and query history", "why_tests_cant": "needs the exact end time", "anchors": ["pyGCodeDecode/gcode_interpreter.py:find_current_segment"]}
{"id": "C43", "title": "Unit systems are consistent", "statement": "Output in a unit system is the SImm output times one factor; a start position given in unit u is reported at t=0 in unit u unchanged.", "quantifier": "every unit system, position, trajectory", "why_tests_cant": "continuum", "anchors": ["pyGCodeDecode/gcode_interpreter.py:simulation.get_scaling_factor", "pyGCodeDecode/gcode_interpreter.py:setup.get_scaling_factor", "pyGCodeDecode/gcode_interpreter.py:setup.set_initial_position"]}
{"id": "C44", "title": "Extrusion width does not depend on the output unit", "statement": "get_width gives the same number for every output unit system, is zero when standing still, and conserves volume: width*height*feed = flow*filament area.", "quantifier": "every trajectory, time and unit", "why_tests_cant": "continuum", "anchors": ["pyGCodeDecode/gcode_interpreter.py:simulation.get_width"]}
{"id": "C45", "title": "extrusion_extent bounds every extruding position", "statement": "At every time inside an extruding block the position lies in the returned box, and the box is the smallest one for the block end points.", "quantifier": "every trajectory and time", "why_tests_cant": "continuum of times", "anchors": ["pyGCodeDecode/gcode_interpreter.py:simulation.extrusion_extent"]}
{"id": "C46", "title": "extrusion_max_vel is the fastest extruding speed", "statement": "The returned value is an upper bound of the travel speed at all times in extruding blocks and is attained.", "quantifier": "every trajectory and time", "why_tests_cant": "continuum of times", "anchors": ["pyGCodeDecode/gcode_interpreter.py:simulation.extrusion_max_vel", "pyGCodeDecode/planner_block.py:planner_block.extrusion_block_max_vel"]}
{"id": "C47", "title": "inverse_time_at_pos inverts the motion", "statement": "The time returned for a local distance is a time at which the nozzle has travelled that distance along the block.", "quantifier": "every block and every distance in it", "why_tests_cant": "continuum", "anchors": ["pyGCodeDecode/planner_block.py:planner_block.inverse_time_at_pos", "pyGCodeDecode/utils.py:segment._interpolate_time_to_space"]}
{"id": "C48", "title": "Abaqus events describe the trajectory", "statement": "The event series has one event per segment end plus one at time 0, in time order, with the scaled positions; the flag of an event is 1 exactly if the following segment extrudes more than the tolerance, and 0 for the last event.", "quantifier": "every trajectory, tolerance, unit", "why_tests_cant": "unbounded", "anchors": ["pyGCodeDecode/abaqus_file_generator.py:generate_abaqus_event_series"]}
{"id": "C49", "title": "Linear interpolation of Abaqus events is exact", "statement": "As documented, interpolating the event series linearly gives the exact position at every time.", "quantifier": "every trajectory and time", "why_tests_cant": "continuum of times between the events", "anchors": ["pyGCodeDecode/abaqus_file_generator.py:generate_abaqus_event_series"]}
{"id": "C50", "title": "Layer durations add up", "statement": "The layer durations returned by save_layer_metrics add up to the total print time, each layer appearing once in increasing order.", "quantifier": "every trajectory with layers", "why_tests_cant": "unbounded", "anchors": ["pyGCodeDecode/tools.py:save_layer_metrics"]}
{"id": "C51", "title": "Layer travel distances add up", "statement": "The layer travel distances add up to the total travel distance of the print.", "quantifier": "every trajectory with layers", "why_tests_cant": "unbounded", "anchors": ["pyGCodeDecode/tools.py:save_layer_metrics"]}
{"id": "C52", "title": "Submodel crossing points lie on the control volume", "statement": "Every crossing found by write_submodel_times is a point of the move on a face plane inside the volume, marked as entry exactly if the move goes against that face's outward normal.", "quantifier": "every move and box", "why_tests_cant": "continuum", "anchors": ["pyGCodeDecode/tools.py:write_submodel_times"]}
{"id": "C53", "title": "Setup keeps what it was given", "statement": "set_property, set_initial_position, select_printer and get_dict behave like an abstract per-printer map: get_dict returns the last property values, the scaled initial position, the layer cue and the printer name. A position with something that is no number raises TypeError; given as a tuple it changes nothing, as a dictionary the axes before the wrong one.", "quantifier": "every sequence of setup operations", "why_tests_cant": "histories", "anchors": ["pyGCodeDecode/gcode_interpreter.py:setup"]}
{"id": "C54", "title": "Setup validation is exact", "statement": "A simulation accepts a setup dictionary exactly if it has all required keys and no key outside required and optional ones.", "quantifier": "every dictionary", "why_tests_cant": "unbounded", "anchors": ["pyGCodeDecode/gcode_interpreter.py:simulation.check_initial_setup"]}
{"id": "C55", "title": "A simulation owns its settings", "statement": "Changing a setup after a simulation was created from it does not change that simulation.", "quantifier": "every history of setup operations after construction", "why_tests_cant": "aliasing", "anchors": ["pyGCodeDecode/gcode_interpreter.py:setup.get_dict", "pyGCodeDecode/gcode_interpreter.py:simulation.__init__", "pyGCodeDecode/gcode_interpreter.py:simulation.refresh"]}
{"id": "C56", "title": "3D plot shows exactly the extruding path", "statement": "The polylines handed to the 3D plot are, in order, the maximal runs of extruding segments (all segments if extrusion_only is off), with one point per vertex.", "quantifier": "every trajectory", "why_tests_cant": "unbounded", "anchors": ["pyGCodeDecode/gcode_interpreter.py:simulation.plot_3d"]}
{"id": "C57", "title": "Vector equality is an equivalence", "statement": "== on positions and velocities is reflexive, symmetric and transitive.", "quantifier": "every pair/triple of vectors", "why_tests_cant": "tolerance arithmetic", "anchors": ["pyGCodeDecode/utils.py:vector_4D.__eq__"]}
{"id": "C58", "title": "Progress bar is well formed", "statement": "For every progress value the bar has exactly 10 cells, a percentage in 0..100 and never more hashes for less progress; at a half the even number of hashes is shown.", "quantifier": "every float", "why_tests_cant": "continuum", "anchors": ["pyGCodeDecode/gcode_interpreter.py:update_progress"]}
{"id": "C59", "title": "CLI picks its input unambiguously", "statement": "The plot command uses exactly the given G-code file or the only one in the directory, and otherwise exits without simulating; output is written only to the given directory or after an explicit yes.", "quantifier": "every argument combination, directory content and answer sequence", "why_tests_cant": "combinations and answer histories", "anchors": ["pyGCodeDecode/cli.py:_plot"]}
{"id": "C60", "title": "Simulation constructor validation", "statement": "The constructor raises for an unknown unit system, for neither a machine name nor a setup, and for a name that differs from the setup's printer; otherwise it goes on.", "quantifier": "every argument combination", "why_tests_cant": "combinations", "anchors": ["pyGCodeDecode/gcode_interpreter.py:simulation.__init__"]}
{"id": "C61", "title": "A line that moves and dwells does both", "statement": "A single line that carries both a move and a pause moves to its target (and pauses), so that the trajectory ends at the commanded position.", "quantifier": "every program, every firmware", "why_tests_cant": "needs two commands on one line and a look at the resulting positions", "anchors": ["pyGCodeDecode/planner_block.py:planner_block.__init__"]}
{"id": "C62", "title": "The extruder speed is continuous", "statement": "The extruder velocity at the beginning of an extruder-only move is the extruder velocity at the end of the segment before it.", "quantifier": "every trajectory", "why_tests_cant": "needs the 4th component at a junction", "anchors": ["pyGCodeDecode/planner_block.py:planner_block.move_maker2", "pyGCodeDecode/planner_block.py:planner_block.self_correction"]}
{"id": "C63", "title": "MKA passes an axis-parallel right angle at the jerk speed", "statement": "With MKA handling a right angle between two axis-parallel moves of equal speed v > jerk is passed at the speed jerk, the largest speed at which no axis jumps by more than jerk.", "quantifier": "every speed and jerk", "why_tests_cant": "a loop variable carried over the axes; needs a value check of the corner speed", "anchors": ["pyGCodeDecode/junction_handling.py:junction_handling_MKA"]}
{"id": "C64", "title": "The velocity plot draws the trajectory", "statement": "plot_vel never fails on a simulated program, and the velocities and positions it draws are those of the trajectory at the plotted times, at the segment ends as well as for any number of time steps, for every selection of axes; an unknown axis is a KeyError, an axis given twice and wrong time steps are ValueErrors.", "quantifier": "every trajectory, every number of time steps", "why_tests_cant": "unbounded; a stateful search with a different branch for gaps", "anchors": ["pyGCodeDecode/gcode_interpreter.py:find_current_segment", "pyGCodeDecode/gcode_interpreter.py:simulation.plot_vel"]}
{"id": "C65", "title": "set_property takes effect", "statement": "After set_property a dictionary obtained with get_dict holds the given value for every given key.", "quantifier": "every history of setup operations, every dictionary", "why_tests_cant": "histories", "anchors": ["pyGCodeDecode/gcode_interpreter.py:setup.set_property", "pyGCodeDecode/gcode_interpreter.py:setup.get_dict"]}
{"id": "C66", "title": "From text to trajectory", "statement": "For a printer setup with all settings and a G-code text, the constructor succeeds and the trajectory of the simulation starts at the start position at time 0, has no gaps, and visits, in order, the positions of a G-code machine after every line, standing still for the pauses the lines ask for.", "quantifier": "every setup history, every firmware, every text whose G92 only set zero (C14), with positive speeds and accelerations (C34), no pause before the first move (C33) and no line that both moves and pauses (C61)", "why_tests_cant": "whole pipeline from characters to a continuous curve", "anchors": ["pyGCodeDecode/gcode_interpreter.py:simulation.__init__", "pyGCodeDecode/gcode_interpreter.py:generate_planner_blocks", "pyGCodeDecode/state_generator.py:generate_states"]}
{"id": "C67", "title": "Each move into the control volume counts once", "statement": "n_filaments returned by write_submodel_times is the number of moves that enter the control volume.", "quantifier": "every trajectory and box", "why_tests_cant": "continuum; needs a move through an edge", "anchors": ["pyGCodeDecode/tools.py:write_submodel_times"]}
{"id": "C68", "title": "Submodel times can be computed for every print", "statement": "write_submodel_times returns a result for every simulated print and every box.", "quantifier": "every trajectory and box", "why_tests_cant": "needs a box that is not met, or a move that begins on a face", "anchors": ["pyGCodeDecode/tools.py:write_submodel_times", "pyGCodeDecode/planner_block.py:planner_block.inverse_time_at_pos"]}
{"id": "C70", "title": "The 2D plot draws the whole path", "statement": "The line drawn by plot_2d_position runs, in order, along the whole path of the nozzle seen from above, from its start to its end.", "quantifier": "every trajectory, every spacing", "why_tests_cant": "unbounded; depends on where the speed changes", "anchors": ["pyGCodeDecode/gcode_interpreter.py:simulation.plot_2d_position"]}
{"id": "C71", "title": "Colours of the 2D plot are speeds", "statement": "The colour of a point of the 2D velocity plot is the speed with which the nozzle passes that point.", "quantifier": "every trajectory, every drawn point", "why_tests_cant": "continuum of drawn points", "anchors": ["pyGCodeDecode/gcode_interpreter.py:simulation.plot_2d_position"]}
{"id": "C72", "title": "The plot command writes its summary", "statement": "If the plot command has a usable G-code file and may write, it writes the summary, the layer metrics and the picture.", "quantifier": "every simulated print", "why_tests_cant": "needs a print without extrusion", "anchors": ["pyGCodeDecode/cli.py:_plot", "pyGCodeDecode/gcode_interpreter.py:simulation.save_summary", "pyGCodeDecode/gcode_interpreter.py:simulation.extrusion_extent"]}
{"id": "C73", "title": "The progress bar accepts every number", "statement": "update_progress shows the progress for integer as well as for float arguments, and an error message only for values that are not numbers.", "quantifier": "every argument", "why_tests_cant": "needs integer arguments", "anchors": ["pyGCodeDecode/gcode_interpreter.py:update_progress"]}
{"id": "C69", "title": "Vector arithmetic accepts every documented operand", "statement": "+ and - accept any 4D vector and any list, tuple or array of four numbers and work component by component; * and / accept float and int; the result has the class of the left operand; anything else raises ValueError (+, -) or TypeError (*, /).", "quantifier": "every pair of operands", "why_tests_cant": "classes, sequence types and number types multiply", "anchors": ["pyGCodeDecode/utils.py:vector_4D.__add__", "pyGCodeDecode/utils.py:vector_4D.__sub__", "pyGCodeDecode/utils.py:vector_4D.__mul__", "pyGCodeDecode/utils.py:vector_4D.__truediv__"]}
{"id": "C74", "title": "== answers whether two vectors are equal", "statement": "== between 4D vectors, or between a vector and a sequence of four numbers, returns True if all coordinates agree up to the tolerance and False otherwise; != is its negation.", "quantifier": "every pair of operands", "why_tests_cant": "continuum, and Python's reflected comparison between classes", "anchors": ["pyGCodeDecode/utils.py:vector_4D.__eq__"]}
{"id": "C75", "title": "avoid_overspeed limits a velocity", "statement": "velocity.avoid_overspeed returns a velocity in the same direction in which no axis exceeds its limit.", "quantifier": "every velocity and settings", "why_tests_cant": "never called by the tests", "anchors": ["pyGCodeDecode/utils.py:velocity.avoid_overspeed"]}
{"id": "C76", "title": "Segment results can be computed and read", "statement": "After calc_results, get_result returns the stored results of a segment.", "quantifier": "every segment and target speed", "why_tests_cant": "never called by the tests", "anchors": ["pyGCodeDecode/utils.py:segment.calc_results", "pyGCodeDecode/utils.py:segment.get_result"]}
{"id": "C77", "title": "The initial segment stands still", "statement": "create_initial returns a segment of no duration at rest at the given position, or at zero if none is given.", "quantifier": "every position, and none", "why_tests_cant": "default argument", "anchors": ["pyGCodeDecode/utils.py:segment.create_initial"]}
{"id": "C78", "title": "Positions compare with every documented operand", "statement": "is_travel, is_extruding and get_t_distance accept a 4D vector, list, tuple or array of four numbers and tell whether x, y or z differ, whether e grows (or differs), and the Euclidean distance (from zero if no argument is given).", "quantifier": "every position and operand", "why_tests_cant": "continuum, operand types", "anchors": ["pyGCodeDecode/utils.py:position.is_travel", "pyGCodeDecode/utils.py:position.is_extruding", "pyGCodeDecode/utils.py:position.get_t_distance"]}
{"id": "C79", "title": "The vector constructor", "statement": "A vector is made from four numbers or from one sequence of exactly four numbers, in the order x, y, z, e; every other number of coordinates raises ValueError.", "quantifier": "every list of arguments", "why_tests_cant": "arbitrary argument lists", "anchors": ["pyGCodeDecode/utils.py:vector_4D.__init__"]}
{"id": "C80", "title": "Every line that moves or dwells has exactly one block", "statement": "The blocks of a simulation built from text are, in order, the lines that change the position or dwell: each block starts and ends at the positions of its line, has its feed rate, acceleration and pause, and carries the number of layer cues read so far; with a layer cue the layer metrics can be computed for every such program, and unless the last block opens a layer their durations sum to the print time.", "quantifier": "every setup, every program text of supported lines, every output unit", "why_tests_cant": "unbounded programs, chained through parser, setup and planner", "anchors": ["pyGCodeDecode/gcode_interpreter.py:simulation.__init__", "pyGCodeDecode/state_generator.py:state_generator", "pyGCodeDecode/tools.py:save_layer_metrics"]}
{"id": "C81", "title": "The nozzle follows the lines of the program in order", "statement": "At every time of the print the answer of get_values lies on the straight line of one program line, with a velocity along it, towards its end and not above its feed rate; at a later time it lies further along the same line or on a later one. True after every history of queries and in every unit.", "quantifier": "every setup, program text without a line that moves and dwells at once (see C61), time, pair of times, query history and output unit", "why_tests_cant": "continuum of times and unbounded programs and histories", "anchors": ["pyGCodeDecode/gcode_interpreter.py:simulation.get_values", "pyGCodeDecode/gcode_interpreter.py:simulation.__init__"]}
{"id": "C82", "title": "Moving or turning the part changes only coordinates", "statement": "If all positions of a program are moved by an offset or turned, then every query answers with the velocity turned and the position turned and moved, at the same times; print time, block types and warnings stay the same.", "quantifier": "every valid program, firmware, offset, rotation or reflection, unit, time and query history", "why_tests_cant": "continuum of offsets and angles, all junction handlings", "anchors": ["pyGCodeDecode/planner_block.py:planner_block", "pyGCodeDecode/junction_handling.py:junction_handling", "pyGCodeDecode/gcode_interpreter.py:simulation.get_values"]}
{"id": "C83", "title": "The summary tells the print time, the box and the largest speed", "statement": "For every print that extrudes, save_summary writes the time at which the last motion ends (where the nozzle is at the final position), the smallest box around all positions at which material is fed, and the largest travel speed at which material is fed, in the unit of the simulation and after any queries.", "quantifier": "every valid program without a line that moves and dwells, firmware, unit and query history", "why_tests_cant": "extreme values over a continuum of times", "anchors": ["pyGCodeDecode/gcode_interpreter.py:simulation.save_summary"]}
{"id": "C84", "title": "Searching with keep_position works in paths with gaps", "statement": "find_current_segment(path, t, last_index, keep_position=True) answers for every time between the begin and the end of the path: the segment at that time, or in a gap a segment that stands still at the last position, whatever index an earlier search returned.", "quantifier": "every list of segments in order of time, time and last index", "why_tests_cant": "arbitrary gaps and histories", "anchors": ["pyGCodeDecode/gcode_interpreter.py:find_current_segment"]}
{"id": "C85", "title": "The command line means what its options say", "statement": "pygcd plot uses for every option the value given last for it and the default if it is not given, whatever the order and the spelling (short or long); a missing value, a word that belongs to no option, an unknown subcommand or example ends with a usage error and nothing done; run_example runs exactly the named example and refuses further words; no subcommand prints the help, and -h or --help after any of these words prints the help and does nothing else.", "quantifier": "every list of options and values", "why_tests_cant": "unbounded orders and repetitions", "anchors": ["pyGCodeDecode/cli.py:_main", "pyGCodeDecode/cli.py:_run_example"]}
{"id": "C86", "title": "The firmware setting selects the corner rule", "statement": "For the firmware names marlin_jd, marlin_jerk, klipper and MKA the simulation of a text keeps the corner speeds of that rule and is as fast as they allow; for every other value it stops at every corner. A refresh after the setting changed plans with the rule it names then.", "quantifier": "every setup history, every value of the setting, every text whose states are valid", "why_tests_cant": "unbounded texts and histories", "anchors": ["pyGCodeDecode/planner_block.py:planner_block.__init__", "pyGCodeDecode/gcode_interpreter.py:simulation.__init__", "pyGCodeDecode/gcode_interpreter.py:simulation.refresh"]}
{"id": "C87", "title": "A dwell ends the look-ahead", "statement": "Two programs that agree up to a dwell and the first move after it have the same blocks up to the end of the dwell and report the same positions until then, whatever follows. With a firmware that stops at every corner, more lines never change the print of the lines before them.", "quantifier": "every firmware, every pair of valid programs with a common beginning", "why_tests_cant": "unbounded continuations", "anchors": ["pyGCodeDecode/gcode_interpreter.py:generate_planner_blocks", "pyGCodeDecode/gcode_interpreter.py:simulation.trajectory_self_correct", "pyGCodeDecode/planner_block.py:planner_block.self_correction", "pyGCodeDecode/junction_handling.py:junction_handling.calc_vel_next"]}
{"id": "C88", "title": "Corner speeds are those of the published formulas", "statement": "The corner speed is, as a formula of the angle between the two moves: for Klipper the largest speed at which a circle through the corner (with the deviation of the square corner velocity) and half the next move are driven within the acceleration; for junction deviation the same circle with the deviation 0.4 jerk^2/acc, a full stop up to 18 degrees and no slow-down from 162 degrees on; for classic jerk the largest speed at which the slowed-down velocities differ by at most twice the jerk setting. A move without travel is left at speed 0, and where the program does not travel on every firmware but classic jerk stops.", "quantifier": "every corner, speed, acceleration and jerk setting", "why_tests_cant": "continuum of angles and settings", "anchors": ["pyGCodeDecode/junction_handling.py:junction_handling_klipper", "pyGCodeDecode/junction_handling.py:junction_handling_marlin_jd", "pyGCodeDecode/junction_handling.py:junction_handling_marlin_jerk"]}
{"id": "C89", "title": "MKA limits the velocity jump of every axis", "statement": "With MKA handling no axis changes its velocity in a corner by more than the jerk setting (an axis that turns round may have up to the setting in either direction).", "quantifier": "every corner", "why_tests_cant": "continuum of geometries, four axes, two different speeds", "anchors": ["pyGCodeDecode/junction_handling.py:junction_handling_MKA"]}
{"id": "C90", "title": "No drive within the limits is faster", "statement": "No way to drive the moves and dwells of a program one after the other - with any speed over time that is never above the feed rate of a move, changes by at most its acceleration per second, and passes no corner faster than the firmware allows - takes less time than the simulated print.", "quantifier": "every valid program, every firmware, every speed as a function of time", "why_tests_cant": "all functions of time", "anchors": ["pyGCodeDecode/gcode_interpreter.py:generate_planner_blocks", "pyGCodeDecode/planner_block.py:planner_block.move_maker2", "pyGCodeDecode/planner_block.py:planner_block.self_correction"]}
{"id": "C91", "title": "Bounds of the print time", "statement": "The print takes at least the time of its moves at the feed rates and its dwells, and at most the time with a full stop after every move (v/a + L/v, or 2 sqrt(L/a) for moves too short to reach v). With a firmware that stops at every corner it takes exactly that time, so no firmware is slower. Also for a text and the printer of a setup.", "quantifier": "every valid program, firmware, setup history and text", "why_tests_cant": "unbounded programs", "anchors": ["pyGCodeDecode/gcode_interpreter.py:simulation.__init__", "pyGCodeDecode/gcode_interpreter.py:simulation.print_summary", "pyGCodeDecode/planner_block.py:planner_block.move_maker2"]}
{"id": "C92", "title": "What a slicer writes is printed as it says", "statement": "For a text of lines that are each one documented command with decimal arguments (or no known command), with blanks and comments without commands anywhere, in which feed rates and accelerations are positive and G92 only sets zero, and whose first motion comes before its first dwell, the simulation is made; its path begins at the start position at time 0, is after every line where the line leads, rests there as long as the line says, never leaves the straight lines of the program or exceeds their feed rates, ends where the program ends, and is as fast at the corners as the firmware allows. This holds for each of the four printers that come with the package, chosen by name; every other name raises ValueError and a text in which nothing moves or waits raises IndexError.", "quantifier": "every such text, every printer description with positive settings, every setup history, every unit", "why_tests_cant": "unbounded texts; whole pipeline from characters to the curve", "anchors": ["pyGCodeDecode/gcode_interpreter.py:simulation.__init__", "pyGCodeDecode/state_generator.py:generate_states", "pyGCodeDecode/data/default_printer_presets.yaml"]}
{"id": "C93", "title": "The examples show and save the print", "statement": "Run on such a text with the shipped presets, the brace example shows the lines along which material is extruded and writes nothing; the benchy example writes exactly the summary, the layer metrics, the event series and the plot to its folder, each with the numbers of the print, and shows the plot. Without a display nothing is shown. If nothing moves both raise IndexError, and if nothing is extruded benchy raises ValueError, before anything is written.", "quantifier": "every such text as the G-code file of the example", "why_tests_cant": "unbounded texts", "anchors": ["pyGCodeDecode/examples/brace.py:brace_example", "pyGCodeDecode/examples/benchy.py:benchy_example"]}
{"id": "C94", "title": "The error of a segment is its integrated speed error", "statement": "The segm_error stored by calc_results (if the attribute exists, see C76) is the integral over the travelled distance of the relative difference between the target speed and the speed of the nozzle.", "quantifier": "every segment, target speed", "why_tests_cant": "an integral over a continuum", "anchors": ["pyGCodeDecode/utils.py:segment.calc_results"]}
{"id": "C95", "title": "Directions and speeds of velocities", "statement": "get_norm_dir returns the coordinates divided by the travel speed, a vector of length 1 in space; if nothing but the extruder moves and the extruder is asked for, divided by the extruder speed; and None exactly if nothing moves. not_zero tells whether anything moves, is_extruding whether material is fed, get_norm the Euclidean length.", "quantifier": "every velocity and flag", "why_tests_cant": "all real coordinates", "anchors": ["pyGCodeDecode/utils.py:velocity.get_norm_dir", "pyGCodeDecode/utils.py:velocity.not_zero", "pyGCodeDecode/utils.py:vector_4D.get_norm"]}
{"id": "C96", "title": "The velocity plot marks blocks, segments and corner speeds", "statement": "With show_planner_blocks and show_segments plot_vel draws a vertical line at the end of every block and segment; with show_jv it marks at the end of every block the speed with which the firmware allows to leave it, and the part of each selected axis in it, and nothing else. The print never leaves a block faster than the mark.", "quantifier": "every print, firmware, selection of axes and options", "why_tests_cant": "unbounded programs; the marks are made before the speeds are corrected", "anchors": ["pyGCodeDecode/gcode_interpreter.py:simulation.plot_vel", "pyGCodeDecode/planner_block.py:planner_block.__init__"]}
{"id": "C97", "title": "The Abaqus file holds the event series line by line", "statement": "generate_abaqus_event_series writes one line per event, in order, with five fields separated by commas: time, x, y, z rounded to 8 digits behind the point (half to even) and the extrusion flag; cutting the file at line ends and commas gives these fields back. The points of every line are points of the print at the time in the line, up to the rounding. The file is written exactly if the series is returned.", "quantifier": "every simulation, tolerance, unit, every way to write numbers without commas and line ends", "why_tests_cant": "unbounded files, all real numbers", "anchors": ["pyGCodeDecode/abaqus_file_generator.py:generate_abaqus_event_series"]}
{"id": "C98", "title": "The layer metrics file holds the returned numbers", "statement": "save_layer_metrics writes a header and one line per layer; cut at the delimiter and without leading blanks the fields are the layer number, duration, travel and mean speed that it returns. Without a file path the same numbers are returned and nothing is written; without layer cue nothing is done.", "quantifier": "every print, delimiter and every way to write numbers", "why_tests_cant": "unbounded files", "anchors": ["pyGCodeDecode/tools.py:save_layer_metrics"]}
{"id": "C99", "title": "The yaml dictionaries hold what they are named for", "statement": "The dictionary of write_submodel_times keeps every key passed by the caller except time_process, n_filaments, time_in and time_out, which hold the process time, the number of passages, and the times of entry and exit. The dictionary of save_summary has exactly nine entries: the name of the file, the end time of the print, the extent in x, y, z where material is fed and the largest travel speed with extrusion.", "quantifier": "every print, set of keyword arguments and query history", "why_tests_cant": "arbitrary keys, extreme values over a continuum", "anchors": ["pyGCodeDecode/tools.py:write_submodel_times", "pyGCodeDecode/gcode_interpreter.py:simulation.save_summary"]}
{"id": "C100", "title": "Inside ABAQUS only ASCII is printed", "statement": "In ABAQUS custom_print prints of every argument exactly the ASCII characters, in order, and raises AttributeError exactly if an argument is not a string; elsewhere it prints the arguments unchanged.", "quantifier": "every list of arguments", "why_tests_cant": "runs only inside ABAQUS", "anchors": ["pyGCodeDecode/helpers.py:custom_print"]}
{"id": "C101", "title": "The text of a block names its shape", "statement": "str(block) says Trapezoid exactly for the blocks of a print that speed up, keep their speed and slow down, Triangular exactly for those that speed up and slow down, Singular exactly for those of one segment, and Invalid never; it has 40 characters.", "quantifier": "every valid program, firmware and block", "why_tests_cant": "all planned profiles", "anchors": ["pyGCodeDecode/planner_block.py:planner_block.__str__", "pyGCodeDecode/planner_block.py:planner_block.move_maker2"]}
{"id": "C102", "title": "The text of a segment", "statement": "str(segment) can be had of every segment of a print, names its two end points and the result of the self check, True if successful; for a segment with inconsistent position (by more than 1e-6 mm) or time it raises ValueError.", "quantifier": "every segment; every segment of a valid print", "why_tests_cant": "continuum of segments", "anchors": ["pyGCodeDecode/utils.py:segment.__str__", "pyGCodeDecode/utils.py:segment.self_check"]}
{"id": "C103", "title": "The texts of vectors and states are unambiguous", "statement": "Two vectors with the same text have the same coordinates as far as written, and the text of a velocity is never that of a position: each is its label and the list of its coordinates; two states with the same text have the same line number, layer, coordinates, settings and pause as written, the same unit and the same comment (or one has none and the other the comment None), whatever the comments contain.", "quantifier": "every pair of vectors or states, every way to write numbers without commas", "why_tests_cant": "arbitrary comments", "anchors": ["pyGCodeDecode/utils.py:vector_4D.__str__", "pyGCodeDecode/utils.py:velocity.__str__", "pyGCodeDecode/utils.py:position.__str__", "pyGCodeDecode/state.py:state.__str__", "pyGCodeDecode/state.py:state.p_settings.__str__"]}
{"id": "C104", "title": "Reading with floats stays near the exact program", "statement": "With the numbers of the machine (IEEE doubles: the nearest double, of two equally near ones the even one) a program is read or refused, with the same exception, as with exact numbers, and its states have the same line numbers, comments, layers, units and texts. In absolute mode without G92 a coordinate is the double nearest to the number in the text. In general (G92 only to zero) the coordinates of the state after k lines differ from the exact ones by at most 27(k+1) rounding errors: less than 4e-6 mm after a million lines within one metre. The feed rate is off by at most three rounding errors.", "quantifier": "every program text, setup, line and axis; every rounding with given relative and absolute error", "why_tests_cant": "rounding errors accumulate over unbounded programs", "anchors": ["pyGCodeDecode/state_generator.py:dict_list_traveler", "pyGCodeDecode/state_generator.py:arg_extract"]}
{"id": "C105", "title": "Rounding never makes a simulation fail", "statement": "With the numbers of the machine (IEEE doubles, every operation rounded) the simulation of a program is refused only if it is refused with exact numbers. In particular move_maker2 finds one of its four profiles for every move. (False for residual moves that rounding itself makes: G91, X0.03, X0.29, G90, X0.32 on the shipped prusa_mini raises NameError.)", "quantifier": "every program and printer; every move, begin and end speed", "why_tests_cant": "only sums of decimals that doubles cannot hold show it", "anchors": ["pyGCodeDecode/planner_block.py:planner_block.move_maker2", "pyGCodeDecode/gcode_interpreter.py:generate_planner_blocks", "pyGCodeDecode/state_generator.py:dict_list_traveler"]}
{"id": "C106", "title": "Rounding errors of a plan add up slowly", "statement": "If a simulation succeeds with the numbers of the machine (every operation rounded to the nearest double), then the block of the i-th move begins and ends within (i+1) times 2000*2^-53*(M + V^2/a) of the positions the program commands (x, y and z separately; M bounds the coordinates, V the speeds, a the accelerations from below), and the trajectory ends that near to the last commanded position, whatever blocks are dropped or remade by the correction of the velocities. If the extruder turns by no more than the head moves, or alone by a length the planner can see, the same holds for its position.", "quantifier": "every program of any length whose moves have a length the planner can see (33*2^-53*v^2/a) or are no moves along x, y, z; all five firmwares; every numbers a, V, M", "why_tests_cant": "errors of 1e-13 mm per line pass every tolerance of a test; that they cannot build up over millions of lines no test can show", "anchors": ["pyGCodeDecode/planner_block.py:planner_block.move_maker2", "pyGCodeDecode/planner_block.py:planner_block.self_correction", "pyGCodeDecode/gcode_interpreter.py:generate_planner_blocks", "pyGCodeDecode/junction_handling.py:junction_handling.connect_state"]}
{"id": "C107", "title": "Ordinary moves never make the machine's arithmetic fail", "statement": "With the printers of the package and their firmwares, a program of absolute moves in whole millimetres at speeds below the limits is simulated without an exception, as it is with exact numbers.", "quantifier": "every program of moves that are long enough to be seen; five firmwares", "why_tests_cant": "whether the last bit of a speed is rounded up depends on the direction, the speed and the time; tests move along the axes, where nothing is rounded", "anchors": ["pyGCodeDecode/junction_handling.py:junction_handling_marlin_jerk.calc_j_vel", "pyGCodeDecode/junction_handling.py:junction_handling_MKA.calc_j_vel", "pyGCodeDecode/planner_block.py:planner_block.move_maker2", "pyGCodeDecode/utils.py:segment.self_check"]}
{"id": "C108", "title": "A machine that stops after every line is always simulated", "statement": "For a firmware whose junctions are full stops the simulation with the machine's numbers (every operation rounded to the nearest double) succeeds, and finds no inconsistent velocities to warn of.", "quantifier": "every program of at most 10^9 lines of at least a micrometre each (or waits, or changes nothing), within 10 m, at 0.01 to 1000 mm/s and 1 to 100000 mm/s^2, with no more extrusion than movement except by the extruder alone, of at most 500000 s in all", "why_tests_cant": "each line meets all of the tests of self_check with rounded numbers, after any history; test programs see a few of them", "anchors": ["pyGCodeDecode/junction_handling.py:junction_handling", "pyGCodeDecode/planner_block.py:planner_block.move_maker2", "pyGCodeDecode/planner_block.py:planner_block.self_correction", "pyGCodeDecode/utils.py:segment.self_check", "pyGCodeDecode/gcode_interpreter.py:generate_planner_blocks"]}
{"id": "C109", "title": "The print time of a stopping machine is right to a nanosecond per line", "statement": "For a firmware whose junctions are full stops the print time computed with the machine's numbers (every operation rounded to the nearest double) differs from the sum of the times each line takes from rest to rest, which is the print time computed with exact numbers, by at most a nanosecond per line and a ten-trillionth of the time. A line of length L takes v/a + L/v if v^2/a < L and 2*sqrt(L/a) otherwise.", "quantifier": "every program as in C108", "why_tests_cant": "the choice between the two speed profiles is made with rounded numbers and can be the wrong one; the clock adds up the errors of all lines", "anchors": ["pyGCodeDecode/planner_block.py:planner_block.move_maker2", "pyGCodeDecode/junction_handling.py:junction_handling", "pyGCodeDecode/gcode_interpreter.py:generate_planner_blocks", "pyGCodeDecode/utils.py:segment.self_check"]}
{"id": "C110", "title": "Programs as text on a stopping machine", "statement": "Read from its text and simulated with the machine's numbers (every operation rounded to the nearest double), a program is simulated without failure or warning on a machine whose junctions are full stops, and the print time differs from the sum of the times its lines take from rest to rest by the decimal numbers written in the text, which is also the print time simulated with exact numbers, by at most three nanoseconds per line and a trillionth of the time.", "quantifier": "every text of at most 9*10^8 lines that spell commands as a slicer writes them; the head driven in absolute coordinates, the extruder in absolute or relative ones (not absolute after relative) and renamed with G92 E0 at will; moves of at least two micrometres within 9 m at 0.02 to 900 mm/s and 2 to 90000 mm/s^2, extruding less than they move except by the extruder alone; 400000 s in all; every machine whose settings are doubles", "why_tests_cant": "the decimals of the text are not doubles; feed rates are divided by 60 and waits by 1000 in rounded numbers; relative extrusion and G92 add up the rounding of every line before", "anchors": ["pyGCodeDecode/state_generator.py:state_generator", "pyGCodeDecode/planner_block.py:planner_block.move_maker2", "pyGCodeDecode/junction_handling.py:junction_handling", "pyGCodeDecode/gcode_interpreter.py:generate_planner_blocks"]}
{"id": "C111", "title": "Searching without keep_position in any path", "statement": "find_current_segment(path, t, last_index) gives the first segment whose half-open time interval holds t, and its index, if the search starts anew (no last index, one beyond the path, or one whose segment begins after t), and the function returns None if there is no such segment; from a last index on it gives the first segment whose closed time interval holds t, and raises ValueError if there is none; after the end of the path it gives (None, None); for an empty path it raises IndexError.", "quantifier": "every list of segments, with or without gaps, in any order, every time and last index", "why_tests_cant": "the outcomes in gaps never occur in simulated paths", "anchors": ["pyGCodeDecode/gcode_interpreter.py:find_current_segment"]}
{"id": "C112", "title": "Doubles round as IEEE 754 prescribes", "statement": "Sums, differences, products, quotients (of a divisor other than 0) and roots (of numbers from 0 on) of two finite doubles are the double nearest to the exact result, ties to even, subnormal numbers included, or the infinity of its sign if that would be 2^1024 or more; comparisons see the exact numbers; a number in a text becomes the double nearest to it; the sines of 81 and 9 degrees of the junction rules are the doubles nearest to the real sines. So the rounded real numbers of C104 to C110 and the doubles of the running program are one arithmetic as long as nothing overflows.", "quantifier": "every two finite doubles, every decimal number", "why_tests_cant": "a test runs the doubles themselves and cannot tell which real numbers they stand for", "anchors": ["pyGCodeDecode/utils.py:vector_4D.__add__", "pyGCodeDecode/utils.py:vector_4D.__sub__", "pyGCodeDecode/utils.py:vector_4D.__mul__", "pyGCodeDecode/utils.py:vector_4D.__truediv__", "pyGCodeDecode/planner_block.py:planner_block.__init__"]}
{"id": "C113", "title": "A simulation with doubles is one with rounded numbers", "statement": "Computing the trajectory of a program with IEEE doubles, whatever the firmware, ends as computing it with real numbers each of whose results is rounded to the nearest double: with the same exception, or with the same blocks, segment by segment, and the same warning, and no time, position or velocity is infinite or NaN. So what C106 says about the drift, and C108 and C109 about machines that stop after every line, holds for the doubles.", "quantifier": "every firmware; every program of at most 10^9 lines within 10 m, at 0.01 to 1000 mm/s and 1 to 100000 mm/s^2, with moves of at least a micrometre that extrude no more than they move, turns of the extruder alone by at least that, jerks of 0 or of 0.001 to 1000 mm/s and waits of up to a million seconds each", "why_tests_cant": "a test meets no overflow and cannot conclude that no other program does", "anchors": ["pyGCodeDecode/planner_block.py:planner_block", "pyGCodeDecode/junction_handling.py:junction_handling", "pyGCodeDecode/gcode_interpreter.py:generate_planner_blocks", "pyGCodeDecode/utils.py:segment"]}
{"id": "C114", "title": "A program text is read with doubles as with rounded numbers", "statement": "Reading a program text with IEEE doubles gives, line by line, the states that reading it with rounded real numbers gives (positions, settings, pauses, comments, layers), or the same exception. If those states are as C113 asks, then the whole way from the text to the trajectory is the same, whatever the firmware; for programs as a slicer writes them they are, and so C110 holds for the doubles: on a machine that stops after every line such a text is always simulated, without a warning, with a print time right to three nanoseconds per line.", "quantifier": "every text of at most 10^9 lines whose numbers are at most a million, lines that raise an exception included; every machine whose settings are finite doubles; slicer programs as in C110 with a jerk of 0 or of 0.002 to 900 mm/s; every firmware", "why_tests_cant": "relative moves and renamed origins add up, and no test shows that the sums never overflow", "anchors": ["pyGCodeDecode/state_generator.py:state_generator", "pyGCodeDecode/state_generator.py:dict_list_traveler", "pyGCodeDecode/planner_block.py:planner_block", "pyGCodeDecode/gcode_interpreter.py:generate_planner_blocks"]}
{"id": "C115", "title": "Queries computed with doubles", "statement": "Computed with IEEE doubles, get_values at a time between the begin and the end of a segment gives the velocity and the position of the uniformly accelerated motion that the doubles of the segment describe, in the unit asked for, to a few roundings: 10*2^-53 of the speeds, 2^-53 of the coordinate and 16*2^-53 of the distance at these speeds, then 4*2^-53 for the unit; a segment refuses other times with ValueError. The search finds the segment that comparisons of the exact values of the doubles find. So every time inside of a segment is answered, whatever was asked before; the trajectories of programs with tame numbers are such segments. But not every time of the print is: a block moved in time can begin one rounding after the end of the block in front of it, and a first query for that end raises TypeError, although with exact numbers every time before the end is answered.", "quantifier": "every list of segments of finite doubles up to 2^100 that last 0 or at least 10^-50 s, in the order of their ends; every double as time; every last index; every unit", "why_tests_cant": "a query at the very double that ends a block is never made by tests, and the shift rounds so only in few programs", "anchors": ["pyGCodeDecode/utils.py:segment.get_velocity", "pyGCodeDecode/utils.py:segment.get_position", "pyGCodeDecode/gcode_interpreter.py:find_current_segment", "pyGCodeDecode/gcode_interpreter.py:simulation.get_values", "pyGCodeDecode/gcode_interpreter.py:simulation.get_scaling_factor", "pyGCodeDecode/planner_block.py:planner_block.timeshift"]}
{"id": "C116", "title": "How a simulation can fail", "statement": "Reading a program text fails with TypeError only (a number directly behind a command, a word that is no number behind an axis). Simulating what was read fails with RuntimeError (a planned segment is impossible), NameError (no velocity profile fits, or two segments do not meet), AttributeError (nothing in front to wait after or to correct) or IndexError (a corrected block is empty); only if the program waits somewhere also with ValueError or TypeError. No other exception leaves the constructor of the simulation, whatever the arithmetic does.", "quantifier": "every text, every firmware, every machine; exact, rounded and double arithmetic, also where it overflows, as long as accelerations are positive", "why_tests_cant": "a test shows one exception for one input and never that there is no other", "anchors": ["pyGCodeDecode/state_generator.py:arg_extract", "pyGCodeDecode/state_generator.py:dict_list_traveler", "pyGCodeDecode/planner_block.py:planner_block.move_maker2", "pyGCodeDecode/planner_block.py:planner_block.self_correction", "pyGCodeDecode/planner_block.py:planner_block.__init__", "pyGCodeDecode/gcode_interpreter.py:generate_planner_blocks"]}
{"id": "C117", "title": "Written numbers are the numbers", "statement": "A float written into a file (repr, as in f-strings and csv) reads back as the same float; the text has the fewest digits any text reading back as this float has, at most 17, and among those with as few digits it is nearest to the float. Only digits, the point, e and signs occur in the text of a finite float; from 0.0001 to 10^16 there is a point and no exponent, otherwise one digit in front of an optional point and an exponent of at least two digits, without needless zeros in either form. round(x, n) is the float nearest to the multiple of 10^-n nearest to x (halves to the even multiple); when that multiple has at most 15 digits it is exactly what is written.", "quantifier": "for all finite doubles x and numbers of decimals n", "why_tests_cant": "All 2^64 doubles; the halfway cases of the shortest text and of rounding are rare.", "anchors": ["pyGCodeDecode/abaqus_file_generator.py:63-70", "pyGCodeDecode/tools.py:80-95"]}
{"id": "C118", "title": "The Abaqus file in floating point", "statement": "generate_abaqus_event_series, computing with doubles, writes one line for the begin of the trajectory and one for the end of every segment. The time in a line reads back as exactly the double of the trajectory; the coordinates are written with at most 8 decimals and differ from the coordinate in the chosen unit by at most half of the 8th decimal and a few roundings, whether Python or numpy rounds; the flag is 1 only if more than the tolerance is fed up to the next line and 0 only if less than it (and a rounding) is. The returned series says the same with all digits. Nothing is written for an empty trajectory (IndexError) or an unknown unit system (KeyError).", "quantifier": "for all trajectories of finite doubles within about a million units of length, all unit systems and tolerances; in particular those simulated from programs far from the ends of the doubles", "why_tests_cant": "Files are compared with stored ones for a few programs; whether each written number means the right one for all doubles cannot be sampled.", "anchors": ["pyGCodeDecode/abaqus_file_generator.py:24-73"]}
{"id": "C119", "title": "The layer metrics in floating point", "statement": "save_layer_metrics, computing with doubles, returns a row for each layer of the exact metrics of the same trajectory: the duration is right to a single rounding, the travel distance to a few roundings for each block, the average speed to a rounding of the quotient of the two numbers in the row, and NaN is given exactly where the exact duration is zero. The durations add up to the end of the trajectory, whenever the last block does not open a layer, to a rounding, however many layers there are. Each number in the csv file reads back as exactly the returned double. Without a layer cue nothing is computed; a block without a layer is refused (TypeError).", "quantifier": "for all trajectories of finite doubles with at most 10^9 blocks in which no segment begins or ends in the first 10^-27 s other than at the start; in particular those simulated from programs far from the ends of the doubles", "why_tests_cant": "Sums of doubles are compared for a few prints; that errors do not pile up with the number of layers or hide a zero duration cannot be sampled.", "anchors": ["pyGCodeDecode/tools.py:14-97", "pyGCodeDecode/planner_block.py:378-380"]}
{"id": "C120", "title": "Every block comes from one line, whatever the arithmetic", "statement": "The blocks of a simulation belong to lines of the program, at most one to a line and in the order of the lines; each goes from the state before its line to the state of its line, has one to three segments, all of them along one direction with velocities along it, or a single segment at rest for a dwell. No line with a dwell is left out. A block counts as extruding only if its line ends with more filament out than it began with, and every such line without a dwell that has a block has an extruding one. Correcting the junctions changes segments but neither adds, drops, reorders nor re-targets blocks. With a layer cue the layers along the trajectory are numbers that never go down; without one no block has a layer.", "quantifier": "for all programs and firmwares that can be simulated, with exact, rounded or double numbers, overflown and not-a-number ones included", "why_tests_cant": "Tests look at block counts of a few files; that no rounding or overflow drops, doubles or reorders a line cannot be tested for all programs.", "anchors": ["pyGCodeDecode/planner_block.py:19-390", "pyGCodeDecode/gcode_interpreter.py:63-82", "pyGCodeDecode/gcode_interpreter.py:150-162", "pyGCodeDecode/state_generator.py:361-365"]}
{"id": "C121", "title": "Extent, greatest velocity and summary in floating point", "statement": "Computed with doubles, extrusion_extent returns the least and the greatest coordinates among the begins and ends of the extruding blocks, in the requested unit to four roundings; extrusion_max_vel returns the speed of the fastest extruding block, where the greatest speeds of its three axes are taken together, to twelve roundings. In a simulation the extruding blocks are those whose line ends with more filament out than it began with, however small the difference of the doubles; only lines that also ask for a dwell may be left out. Both raise ValueError when nothing is extruded and KeyError for an unknown unit system. save_summary reports the end of the last segment as it is stored, and these two answers in the unit system of the simulation; it raises IndexError for an empty trajectory.", "quantifier": "for all trajectories whose positions and velocities are finite and at most 2^100 and whose blocks have segments, which includes every simulated program far from the ends of the doubles", "why_tests_cant": "Tests compare the summary of a few files with stored values to a tolerance; that rounding never picks a wrong corner or a wrong block, and how far the figures can be off, needs all trajectories.", "anchors": ["pyGCodeDecode/gcode_interpreter.py:700-772", "pyGCodeDecode/planner_block.py:258-279"]}
