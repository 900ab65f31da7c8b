{
 "claims": [
  {
   "property": "C01",
   "status": "proved",
   "theorems": [
    "C01_registry_stable_sorted",
    "C01_registry_built_ignoring_errors",
    "C01_registry_strict_failure",
    "C01_stable_order_unique",
    "C01_user_default_position",
    "C01_user_init_not_skipped"
   ],
   "note": "Order, contents and error count of the registry for every list of user files; position of default-priority user formats; the __init__.py skip never applies inside a folder (finding)."
  },
  {
   "property": "C02",
   "status": "proved",
   "theorems": [
    "C02_detect_first_acceptable",
    "C02_detect_attempts"
   ],
   "note": "iff characterisation for every registry and constructor behaviour, plus the sequence of attempts."
  },
  {
   "property": "C03",
   "status": "proved",
   "theorems": [
    "C03_not_detected_iff",
    "C03_other_errors_propagate",
    "C03_wrongformat_never_escapes"
   ],
   "note": "iff for FormatNotDetectedError and for every other propagated exception; WrongFormatError never escapes."
  },
  {
   "property": "C04",
   "status": "proved",
   "theorems": [
    "C04_extension_of_path",
    "C04_case_insensitive",
    "C04_match_iff",
    "C04_literal_match",
    "C04_trailing_star",
    "C04_inner_star_is_not_a_wildcard_refuted",
    "C04_dead_extensions"
   ],
   "note": "Holds as stated (regex semantics of the rewriting). Findings: a star that is not last is not a wildcard (refuted reading), and the declared extensions .00X and doc can never match."
  },
  {
   "property": "C05",
   "status": "partial",
   "theorems": [
    "C05_read_detects",
    "C05_read_explicit_partial",
    "C05_read_explicit_refuted"
   ],
   "note": "Holds without keywords and for detected formats; with an explicit format keywords are dropped: refuted by witness."
  },
  {
   "property": "C06",
   "status": "partial",
   "theorems": [
    "C06_cached_forever",
    "C06_repeat_same_partial",
    "C06_repeat_shape_refuted"
   ],
   "note": "Holds for ignoreErrors=False and for every call after the first; with ignoreErrors=True the second identical call returns a bare list instead of a pair: refuted by witness."
  },
  {
   "property": "C07",
   "status": "proved",
   "theorems": [
    "C07_read_guards",
    "C07_write_guards",
    "C07_name_history",
    "C07_constructor"
   ],
   "note": "Decision table of read/write for every file-system state; remembered name after every history of reads and writes."
  },
  {
   "property": "C08",
   "status": "proved",
   "theorems": [
    "C08_same_words_equal",
    "C08_equal_iff_same_words",
    "C08_equivalence",
    "C08_line_structure_refuted"
   ],
   "note": "Equivalence relation; equal exactly when lines have the same words (bar-free text). Findings: a bar is confused with a line break; isBinary calls text with a tab binary."
  },
  {
   "property": "C09",
   "status": "proved",
   "theorems": [
    "C09_write_read",
    "C09_read_write",
    "C09_empty_box_refuted"
   ],
   "note": "Round trips for all positive dimensions; the degenerate box with nx=0 is refuted (written file is empty and refused)."
  },
  {
   "property": "C10",
   "status": "proved",
   "theorems": [
    "C10_layout",
    "C10_accepted_iff_long_enough"
   ],
   "note": "Layout for every index and acceptance iff the file is long enough."
  },
  {
   "property": "C11",
   "status": "proved",
   "theorems": [
    "C11_readers_agree",
    "C11_longer_file_refuted"
   ],
   "note": "Agreement on files of the exact size; on longer files they differ (witness)."
  },
  {
   "property": "C12",
   "status": "proved",
   "theorems": [
    "C12_name_dims",
    "C12_named_round_trip"
   ],
   "note": "Every base name and all dimensions."
  },
  {
   "property": "C13",
   "status": "proved",
   "theorems": [
    "C13_turbsim_roundtrip",
    "C13_turbsim_write_succeeds"
   ],
   "note": "Every header field (float32-rounded), every grid and tower integer at its index, other files untouched; plus a sufficient condition for the write to succeed."
  },
  {
   "property": "C14",
   "status": "proved",
   "theorems": [
    "C14_quantisation_exact",
    "C14_bounds_attained"
   ],
   "note": "Exact arithmetic, range and accuracy for every sample of every component; bounds attained."
  },
  {
   "property": "C15",
   "status": "proved",
   "theorems": [
    "C15_makePeriodic",
    "C15_makePeriodic_total"
   ],
   "note": "Sizes, kept half and symmetry for field and tower; fails exactly when fewer than two time steps."
  },
  {
   "property": "C16",
   "status": "partial",
   "theorems": [
    "C16_toDataFrame_changes_field_refuted",
    "C16_toDataFrame_effect",
    "C16_queries_without_removeMean_partial"
   ],
   "note": "Refuted: toDataFrame removes the time mean from the stored field along the middle row and column (views). Exact effect proved; queries without removeMean leave the field unchanged."
  },
  {
   "property": "C17",
   "status": "proved",
   "theorems": [
    "C17_binary_roundtrip",
    "C17_write_succeeds",
    "C17_time_only_refuted"
   ],
   "note": "Round trip for every table of 2 to 163841 columns, for both reading paths, every packed integer at its place, other files untouched; sufficient condition for success. Finding: a table with only the time column is written but cannot be read back (ZeroDivisionError)."
  },
  {
   "property": "C18",
   "status": "proved",
   "theorems": [
    "C18_buffer_size_irrelevant",
    "C18_row_larger_than_buffer"
   ],
   "note": "For every buffer size of at least one row and every item size; a longer row is always an error."
  },
  {
   "property": "C19",
   "status": "proved",
   "theorems": [
    "C19_quantisation_exact",
    "C19_no_wrap_around"
   ],
   "note": "Exact arithmetic accuracy for every column and exact recovery of constant ones; for any rounding the clip is never followed by wrap-around."
  },
  {
   "property": "C20",
   "status": "partial",
   "theorems": [
    "C20_units_follow_columns_refuted",
    "C20_units_follow_columns_partial",
    "C20_units_inherited",
    "C20_first_title_needs_unit",
    "C20_first_column_without_unit"
   ],
   "note": "Refuted by witnesses: a column without unit gets the previous column's unit, or UnboundLocalError if it is the first. Proved when every column carries a unit."
  },
  {
   "property": "C21",
   "status": "partial",
   "theorems": [
    "C21_previous_file_lost_refuted",
    "C21_failure_keeps_files_partial",
    "C21_other_files_never_touched"
   ],
   "note": "Refuted by witness (11-character channel name truncates the existing file). Proved when names have at most 10 and units at most 8 characters and numbers are of ordinary size."
  },
  {
   "property": "C22",
   "status": "partial",
   "theorems": [
    "C22_set_get",
    "C22_history",
    "C22_missing_key",
    "C22_missing_key_unnamed_refuted"
   ],
   "note": "Proved for every content and every history of assignments. KeyError for a missing key is proved for objects that have a file name; without a name the message construction raises TypeError instead (C22_missing_key_unnamed_refuted)."
  },
  {
   "property": "C23",
   "status": "partial",
   "theorems": [
    "C23_missing_key_ignored_refuted",
    "C23_addKeyVal_stores"
   ],
   "note": "Refuted: for every file, assigning a missing key changes nothing and raises nothing (fast_input_file.py:202-213, len(I)<0). The method addKeyVal does store (C23_addKeyVal_stores)."
  },
  {
   "property": "C24",
   "status": "partial",
   "theorems": [
    "C24_iteration_refuted"
   ],
   "note": "Refuted for every file: all items are visited once, in order, and then the loop ends with IndexError instead of StopIteration (fast_input_file.py:223-233). The visiting part of the property is proved by the same theorem."
  },
  {
   "property": "C25",
   "status": "partial",
   "theorems": [
    "C25_line_partial",
    "C25_description",
    "C25_description_changed_refuted",
    "C25_list_partial",
    "C25_two_numbers",
    "C25_two_numbers_comma_refuted",
    "C25_one_element_list_refuted",
    "C25_list_of_names_refuted",
    "C25_label_T_refuted",
    "C25_quoted_blank_refuted",
    "C25_file_partial"
   ],
   "note": "Value and label survive for all listed shapes; the description survives up to an added leading dash, and exactly from the second write on. Refuted for one-element lists, lists of names, a label T/F before an early comma, quoted text starting with a blank. Table branches of the reader are not modelled."
  },
  {
   "property": "C26",
   "status": "partial",
   "theorems": [
    "C26_outlist_complete",
    "C26_outlist_limit",
    "C26_rest_dropped_refuted",
    "C26_outlist_file",
    "C26_empty_outlist_refuted"
   ],
   "note": "The collecting function is proved complete, with its 200-line limit. The reader itself drops everything behind END unless nodal outputs are announced (C26_rest_dropped_refuted); an empty list gains an empty line."
  },
  {
   "property": "C27",
   "status": "partial",
   "theorems": [
    "C27_readonly_history",
    "C27_after_full_read_partial",
    "C27_within_first_request_partial",
    "C27_too_high",
    "C27_second_request_refuted",
    "C27_zero_channel_refuted",
    "C27_repeated_channel_refuted"
   ],
   "note": "False as stated: universal refutations (second request returns the first channel; zero channel forgotten; repeated channel IndexError). True for ReadOnly objects for every history, and for histories within a first request without repetition (in particular after a full read)."
  },
  {
   "property": "C28",
   "status": "proved",
   "theorems": [
    "C28_add_set_number",
    "C28_add_set_explicit",
    "C28_add_set_failure",
    "C28_history_keeps_sets",
    "C28_round_trip",
    "C28_truncated_set_number"
   ],
   "note": "Numbers printed and parsed by arbitrary functions with parse(print x)=x for columns 1-3; column 4 is an integer (truncated otherwise, theorem C28_truncated_set_number)."
  },
  {
   "property": "C29",
   "status": "partial",
   "theorems": [
    "C29_contents",
    "C29_labels_partial",
    "C29_labels_lost_refuted"
   ],
   "note": "Contents survive for every collection; labels survive iff they are 1..n in order."
  },
  {
   "property": "C30",
   "status": "partial",
   "theorems": [
    "C30_convex",
    "C30_tabulated",
    "C30_below",
    "C30_unknown_set",
    "C30_above_refuted",
    "C30_single_profile_refuted",
    "C30_profile_value",
    "C30_profile_outside"
   ],
   "note": "Tabulated/convex/below proved for every increasing table; above the last thickness and single-profile sets always raise ValueError. Exact rationals instead of doubles."
  },
  {
   "property": "C31",
   "status": "proved",
   "theorems": [
    "C31_never_overwrites",
    "C31_nth_occurrence",
    "C31_reading",
    "C31_name_before_underscores",
    "C31_iteration"
   ],
   "note": "For every section and every list of additions; keys after reading any text, at every level."
  },
  {
   "property": "C32",
   "status": "partial",
   "theorems": [
    "C32_round_trip_partial",
    "C32_stable",
    "C32_reordering",
    "C32_line_values",
    "C32_end_comment_refuted",
    "C32_end_name_refuted",
    "C32_output_spacing_refuted",
    "C32_at_time_comment_refuted",
    "C32_blank_lines_refuted",
    "C32_comment_after_blank_refuted"
   ],
   "note": "Round trip proved for all well-formed trees (wf_file); refuted for end comments, names starting with begin/end, begin  output with two blanks, at-time begin comments, blank lines in output sections, comments after blank lines."
  },
  {
   "property": "C33",
   "status": "partial",
   "theorems": [
    "C33_plain_copy_partial",
    "C33_output_copy_refuted",
    "C33_end_comment_refuted"
   ],
   "note": "Proved for plain sections; refuted for output sections (sensors lost), at-time sections and end comments read from a file."
  },
  {
   "property": "C34",
   "status": "proved",
   "theorems": [
    "C34_structured_cells",
    "C34_structured_points",
    "C34_structured_file",
    "C34_single_point_refuted"
   ],
   "note": "Cells, points and point_data_grid of structured points; whole-file theorem for text and binary files with one vector field; a 1x1x1 grid raises IndexError (refutation theorem)."
  },
  {
   "property": "C35",
   "status": "partial",
   "theorems": [
    "C35_write_read_partial",
    "C35_same_blocks",
    "C35_cells_read",
    "C35_inconsistent_sizes",
    "C35_polygon_cell_data_refuted",
    "C35_unreadable_refuted"
   ],
   "note": "Whole-file write/read theorem (binary and text) for meshes with at least one cell, node numbers below 2^30, blocks of fixed node count or polygons. Refuted parts: cell data lost with polygons; meshes without cells, types without a fixed node count and tensor fields are written but unreadable."
  },
  {
   "property": "C36",
   "status": "partial",
   "theorems": [
    "C36_divide",
    "C36_without_properties_refuted",
    "C36_refused"
   ],
   "note": "Holds for every graph built by the API with unique IDs when the divided elements have the same properties at both ends given as a numpy array (or n = 1): chain of n elements through n-1 equally spaced nodes, all IDs unique, other elements and nodes kept. Refuted for elements without property IDs: the call raises UnboundLocalError after adding the nodes and cutting the element."
  },
  {
   "property": "C37",
   "status": "partial",
   "theorems": [
    "C37_connectivity_partial",
    "C37_earlier_elements",
    "C37_late_element_refuted",
    "C37_failed_division_refuted"
   ],
   "note": "Right in every history where no element is added between a query and the next sort or division; in any history right for the elements it covers. Refuted otherwise: an element added after a query never appears, and a failed division leaves a stale table."
  },
  {
   "property": "C38",
   "status": "partial",
   "theorems": [
    "C38_flattened",
    "C38_header",
    "C38_dimens",
    "C38_binary_file",
    "C38_binary_table",
    "C38_reads",
    "C38_sections",
    "C38_units",
    "C38_all_columns",
    "C38_close_sections_refuted",
    "C38_fewer_units"
   ],
   "note": "Flattening proved for every binary file; columns of two sections with the same rounded position are dropped (refuted)."
  },
  {
   "property": "C39",
   "status": "partial",
   "theorems": [
    "C39_data_sets",
    "C39_time_files",
    "C39_single_file",
    "C39_published_partial",
    "C39_only_one",
    "C39_others_dropped_refuted",
    "C39_refuted",
    "C39_same_category_refuted",
    "C39_times_refuted"
   ],
   "note": "Grouping by length proved; naming proved when names are distinct and not exactly one group is a Misc one; refuted otherwise (other lengths dropped, same category, other time step)."
  },
  {
   "property": "C40",
   "status": "proved",
   "theorems": [
    "C40_layout",
    "C40_reads",
    "C40_accuracy",
    "C40_wrong_size",
    "C40_other_versions",
    "C40_dataframe",
    "C40_sensors",
    "C40_no_sensor_file"
   ],
   "note": "Header, blocks, scaling and sensor names for versions 0, 2 and 3; wrong file sizes raise; other versions raise."
  },
  {
   "property": "C41",
   "status": "partial",
   "theorems": [
    "C41_no_writer_keeps_files",
    "C41_no_name_keeps_files",
    "C41_directory_kept",
    "C41_cactus_refuted",
    "C41_linearization_refuted",
    "C41_rosco_refuted",
    "C41_fast_ascii_refuted",
    "C41_fast_ascii_one_step_refuted",
    "C41_time_series_refuted",
    "C41_tecplot_refuted"
   ],
   "note": "Proved: formats without a writer, a missing name and a directory as target leave every file as it was. The property is false for the writers that open the file before the text is made: CACTUS, linearization (reported as done), ROSCO, FAST text without units or with one step, TurbSim time series with more than three components, Tecplot without variables; FLEX profiles are in C48."
  },
  {
   "property": "C42",
   "status": "partial",
   "theorems": [
    "C42_title_never_comes_back_refuted",
    "C42_every_round_adds_an_equal_sign_refuted"
   ],
   "note": "Refuted for every title: writing puts 'TITLE = ' in front and reading keeps the equal sign, so a title never comes back and k rounds add k equal signs."
  },
  {
   "property": "C43",
   "status": "partial",
   "theorems": [
    "C43_repeated_partial",
    "C43_first_call",
    "C43_second_call_refuted",
    "C43_table_unaffected"
   ],
   "note": "Refuted for every summary with an element: each call of toJSON lowers the node numbers reported by the next one by one (C43_second_call_refuted). Proved: everything else in the result stays the same and the shift after n calls is exactly n (C43_repeated_partial); the first call after reading is right (C43_first_call); the table is not affected."
  },
  {
   "property": "C44",
   "status": "partial",
   "theorems": [
    "C44_references_partial",
    "C44_servo_refuted",
    "C44_directory_refuted",
    "C44_ice_refuted",
    "C44_prefix_refuted",
    "C44_none_file_refuted"
   ],
   "note": "References and files agree for every module except the refuted cases: ServoFile refers to the AeroDyn file, a separate directory or a slash in the prefix is lost in the references, IceFile is referenced but never written, CompElast=0 writes ElastoDyn into a file called none in the working directory."
  },
  {
   "property": "C45",
   "status": "partial",
   "theorems": [
    "C45_names_line",
    "C45_names_and_units",
    "C45_numbers_only",
    "C45_only_names_refuted",
    "C45_given_lines",
    "C45_given_all_rows",
    "C45_fast_text_output",
    "C45_last_lines_refuted",
    "C45_hundred_comments_refuted"
   ],
   "note": "Exact for automatic detection with names, units or numbers only, and for given comment lines. Refuted: comment lines given at the end of the file lose rows; more than 100 comment lines; files with names only raise AttributeError."
  },
  {
   "property": "C46",
   "status": "partial",
   "theorems": [
    "C46_document",
    "C46_keys_in_order",
    "C46_colons_refuted",
    "C46_last_key_without_value_refuted",
    "C46_short_row_repeated_refuted",
    "C46_mixed_rows_refuted",
    "C46_empty_list_refuted",
    "C46_trailing_comma_refuted",
    "C46_number_sign_refuted"
   ],
   "note": "Proved for every document of blank or comment lines, key: value lines and lists of bracketed rows of equal length (C46_document), and the dictionary equals the list of keys and values when no key is repeated. Refuted: a line with no or several colons raises IndexError; a key without list at the end of the file raises UnboundLocalError, before another key an Exception; whole numbers in the first row and fractions below raise ValueError; a short row of one number is repeated; trailing comma with a blank; number sign in a text."
  },
  {
   "property": "C47",
   "status": "partial",
   "theorems": [
    "C47_rows",
    "C47_times_increasing",
    "C47_last_speed_held",
    "C47_steps_exist",
    "C47_speed_above_maximum_refuted",
    "C47_durations_rounded",
    "C47_no_step",
    "C47_rounded_durations_refuted"
   ],
   "note": "Proved: rows, increasing times and held speeds for every step list (exact arithmetic). Refuted: a range that is no multiple of the step overshoots WSmax and does not hold the last speed; a sequence of durations is rounded, so times can decrease."
  },
  {
   "property": "C48",
   "status": "partial",
   "theorems": [
    "C48_write_never_works",
    "C48_text_unreadable"
   ],
   "note": "Refuted: writing always fails with TypeError after emptying the file (for every object), and the text the object would have written is refused by the reader because the number of thicknesses is missing."
  },
  {
   "property": "C49",
   "status": "partial",
   "theorems": [
    "C49_round_trip_partial",
    "C49_long_header_unreadable",
    "C49_empty_header_gains_line",
    "C49_text_stable",
    "C49_file_round_trip_partial",
    "C49_round_trip_refuted"
   ],
   "note": "Round trip proved for one to ten stripped header lines and numbers whose 16 character text starts with a blank; without header an empty line is added, with more than ten lines the file is refused, and a number that fills the 16 characters is glued to the previous one (refuted)."
  },
  {
   "property": "C50",
   "status": "partial",
   "theorems": [
    "C50_single_precision_partial",
    "C50_constant_field_refuted",
    "C50_wrap_refuted"
   ],
   "note": "Refuted by two witnesses (constant 12.2 m/s read as 13.2 m/s; wrap-around for range 1 around 1e6). Proved under |min| <= 128 range."
  },
  {
   "property": "C51",
   "status": "proved",
   "theorems": [
    "C51_coordinates_recovered"
   ],
   "note": "End to end through the file bytes."
  },
  {
   "property": "C52",
   "status": "proved",
   "theorems": [
    "C52_file_accuracy"
   ],
   "note": "Single precision scale and offset modelled bit exactly."
  },
  {
   "property": "C53",
   "status": "partial",
   "theorems": [
    "C53_uniform_time_partial",
    "C53_time_column_refuted"
   ],
   "note": "Refuted for irregular time (only start and increment are stored); proved for regular time."
  },
  {
   "property": "C54",
   "status": "partial",
   "theorems": [
    "C54_sel_round_trip_partial",
    "C54_long_texts_refuted",
    "C54_short_time_refuted"
   ],
   "note": "Round trip for texts that fit the columns; counterexamples outside; a last time rounding to 0.000 makes every written file unreadable. The ASCII .dat data are not modelled."
  },
  {
   "property": "C55",
   "status": "partial",
   "theorems": [
    "C55_sets_partial",
    "C55_gap_refuted"
   ],
   "note": "iff characterisation: holds when the numbers are 1..n, KeyError for every other collection."
  },
  {
   "property": "C56",
   "status": "partial",
   "theorems": [
    "C56_extra_in_first_partial",
    "C56_extra_in_second_refuted"
   ],
   "note": "Extra sensors of the first section are reported; extra sensors of the second never are (refuted for all lists)."
  },
  {
   "property": "C57",
   "status": "partial",
   "theorems": [
    "C57_edits_keep_the_rest",
    "C57_assignment_partial",
    "C57_reserved_refuted"
   ],
   "note": "Frame property proved for all edit histories; assignment proved for keys that are not attribute names of the class, refuted for those."
  },
  {
   "property": "C58",
   "status": "partial",
   "theorems": [
    "C58_stale_fields_refuted"
   ],
   "note": "Refuted universally: every point field of the object survives reading another file."
  },
  {
   "property": "C59",
   "status": "partial",
   "theorems": [
    "C59_write_keeps_partial",
    "C59_write_pads_refuted"
   ],
   "note": "Proved when no field has two components; refuted otherwise: such fields are padded in place."
  },
  {
   "property": "C60",
   "status": "partial",
   "theorems": [
    "C60_isBinary_iff",
    "C60_text_not_binary_partial",
    "C60_isBinary_tab_refuted"
   ],
   "note": "isBinary characterised for every decodable content (control characters 0-9 and 15-30 in the first line); text without tabs is never binary; refuted for text with a tab in its first line. UnicodeDecodeError of the first line is not modelled."
  },
  {
   "property": "C61",
   "status": "proved",
   "theorems": [
    "C61_sort",
    "C61_refused"
   ],
   "note": "sortNodesBy for x, y, z, ID with any argsort; refused calls leave the graph unchanged."
  },
  {
   "property": "C62",
   "status": "partial",
   "theorems": [
    "C62_after_change_partial",
    "C62_fresh_graph_refuted",
    "C62_late_element_refuted"
   ],
   "note": "All three tables are right just after sortNodesBy or divideElements. Refuted: nodeIDs2ElementIDs raises AttributeError on any graph that was never sorted or divided; elements added after a query are missing."
  },
  {
   "property": "C63",
   "status": "proved",
   "theorems": [
    "C63_set_data",
    "C63_unknown_node"
   ],
   "note": "Holds on every reachable graph with distinct node IDs."
  },
  {
   "property": "C64",
   "status": "partial",
   "theorems": [
    "C64_length",
    "C64_times",
    "C64_single_precision_refuted"
   ],
   "note": "Proved for exact and for double precision times; refuted for numpy 2, where scalar single precision arithmetic gives one entry too many (dt=0.05, 13 steps) and reading fails."
  },
  {
   "property": "C65",
   "status": "partial",
   "theorems": [
    "C65_integers_refuted",
    "C65_reals_partial"
   ],
   "note": "R*4 and R*8 proved; I*4 refuted: whole numbers are decoded as singles."
  },
  {
   "property": "C66",
   "status": "partial",
   "theorems": [
    "C66_text_table_reported",
    "C66_three_dimensional_text_refuted"
   ],
   "note": "Two-dimensional files proved; refuted for three-dimensional text files, which become tables of NaN."
  },
  {
   "property": "C67",
   "status": "partial",
   "theorems": [
    "C67_table_round_trip",
    "C67_no_rows_lost_refuted",
    "C67_single_row_or_column_unreadable_refuted",
    "C67_no_name_nothing_written",
    "C67_bracket_name_changed_refuted",
    "C67_zone_lost_refuted"
   ],
   "note": "Proved for at least two variables and two rows, names the reader leaves alone, and rows whose text is one line. Refuted outside: no rows (variables lost silently), one row or one column (unreadable), a bracket without underscore before it."
  },
  {
   "property": "C68",
   "status": "partial",
   "theorems": [
    "C68_read_again_never_works_refuted",
    "C68_title_of_earlier_file_refuted",
    "C68_table_replaced_partial",
    "C68_empty_or_missing_file_reported"
   ],
   "note": "Refuted: read() without name always fails, and a file without title keeps the earlier title. Proved: table and names are those of the file, other keys unchanged."
  },
  {
   "property": "C69",
   "status": "partial",
   "theorems": [
    "C69_table_round_trip",
    "C69_names_lost_refuted"
   ],
   "note": "Proved without header lines; refuted with header lines (column names are not written)."
  },
  {
   "property": "C70",
   "status": "partial",
   "theorems": [
    "C70_same_file_partial",
    "C70_units_become_a_row_refuted",
    "C70_other_file_refuted"
   ],
   "note": "Same file without units: proved. Refuted with a units line and for another file."
  },
  {
   "property": "C71",
   "status": "proved",
   "theorems": [
    "C71_wind_file_round_trip"
   ],
   "note": "Names of the columns are always the standard ones after reading."
  },
  {
   "property": "C72",
   "status": "partial",
   "theorems": [
    "C72_last_object_alone",
    "C72_reading_keeps_other_objects",
    "C72_nodes_of_last_read_refuted",
    "C72_json_changes_other_object_refuted",
    "C72_nothing_read",
    "C72_other_structure_refuted"
   ],
   "note": "Refuted: toJSON of any object returns the nodes and elements of the file that was read last (C72_nodes_of_last_read_refuted) and changes the elements stored in that object; the amplitudes of the mode table depend on it too (C72_other_structure_refuted). Proved: the object read last depends on its own content only; reading leaves other objects alone."
  },
  {
   "property": "C73",
   "status": "proved",
   "theorems": [
    "C73_shapes",
    "C73_scaled",
    "C73_sorted",
    "C73_modes",
    "C73_table",
    "C73_table_complete"
   ],
   "note": "For every numbering of degrees of freedom in which a degree of freedom of a node occurs once, and every matrix; numpy's argsort is any permutation. Doubles are exact rationals."
  },
  {
   "property": "C74",
   "status": "partial",
   "theorems": [
    "C74_labels_by_component",
    "C74_labels_of_the_file_refuted",
    "C74_one_point_partial",
    "C74_table_rows"
   ],
   "note": "The labels are always listed by component; with one point this is the order of the file, with two points and two components the columns of a point-major file are mislabelled (refuted)."
  },
  {
   "property": "C75",
   "status": "partial",
   "theorems": [
    "C75_reads_every_set",
    "C75_reads_only_what_is_there_partial",
    "C75_failures_partial",
    "C75_sets_after_an_empty_one_are_lost_refuted",
    "C75_short_row_refuted"
   ],
   "note": "Reading proved complete for well-formed files and sound for files whose polars have rows; refuted in general: sets after one without thicknesses are dropped, a row of one number is accepted, a negative number of angles is a ValueError."
  },
  {
   "property": "C76",
   "status": "partial",
   "theorems": [
    "C76_every_polar_has_a_table",
    "C76_equal_thicknesses_refuted"
   ],
   "note": "Proved when the thicknesses of a set have different texts; with equal thicknesses only the last polar is kept (refuted)."
  },
  {
   "property": "C77",
   "status": "partial",
   "theorems": [
    "C77_reads_performance",
    "C77_no_pitch_refused",
    "C77_tables",
    "C77_empty_file_refuted",
    "C77_title_order_refuted",
    "C77_short_row_refuted"
   ],
   "note": "Proved: reading a file made of filler lines and the six blocks gives its vectors and tables; no pitch line in the first lines is WrongFormatError; the tables carry the values. Refuted: an empty file is a NameError, and a title mentioning TSR before the vectors ends in UnboundLocalError."
  },
  {
   "property": "C78",
   "status": "partial",
   "theorems": [
    "C78_reads_partial",
    "C78_single_row_refuted",
    "C78_no_rows_reported",
    "C78_no_time_refused",
    "C78_exceptions",
    "C78_table"
   ],
   "note": "Proved for two or more rows and columns: all header lines, names, units and rows are returned, and the table carries them; all exceptions listed. Refuted for one row: the array has one dimension and toDataFrame and write fail."
  },
  {
   "property": "C79",
   "status": "partial",
   "theorems": [
    "C79_round_trip_partial",
    "C79_file_partial",
    "C79_header_lost"
   ],
   "note": "Proved for names and units without blanks and at least two rows and columns, with the rounding of the formats as function. The header is not written (C79_header_lost), and single rows cannot be written (C41_fast_ascii_one_step_refuted)."
  },
  {
   "property": "C80",
   "status": "partial",
   "theorems": [
    "C80_reads_partial",
    "C80_subdyn_refuted",
    "C80_aerodyn14_refuted",
    "C80_absolute_refuted",
    "C80_coordinates_refuted",
    "C80_stale_refuted"
   ],
   "note": "Proved for readlists without 'all' (the constructor expands it), with HD and SD requested together, CompAero other than 1, and proper (unquoted, or quoted relative) names; modules whose switch is off keep their earlier value. Refuted: SubDyn is gated by 'HD', AeroDyn14 decks raise, quoted absolute paths inside an aerodynamic file with a directory are not found, coordinates accumulate, modules remain after a re-read."
  },
  {
   "property": "C81",
   "status": "partial",
   "theorems": [
    "C81_reads",
    "C81_long_header_refused",
    "C81_stale_refuted",
    "C81_columns_refuted",
    "C81_no_marker_refuted"
   ],
   "note": "C81_reads: a file of the shape OpenFAST writes gives its operating points and matrices for every size and text; C81_long_header_refused: a header longer than 31 lines is refused. Refuted: a second reading keeps entries of the earlier file (C81_stale_refuted), the number of columns of a matrix is not checked against the header (C81_columns_refuted), a file without the marker line is accepted (C81_no_marker_refuted)."
  },
  {
   "property": "C82",
   "status": "partial",
   "theorems": [
    "C82_tables",
    "C82_no_blanks",
    "C82_unique_refuted"
   ],
   "note": "C82_tables: one table per matrix / operating point present, labelled by the short names in order; C82_no_blanks: labels contain no blank. Refuted: two different descriptions can get the same short name (C82_unique_refuted)."
  },
  {
   "property": "C83",
   "status": "proved",
   "theorems": [
    "C83_refused",
    "C83_no_file",
    "C83_reads",
    "C83_accepts"
   ],
   "note": "C83_reads gives every entry of the object after a successful reading in terms of the YAML document (whose reading is C46); C83_accepts: complete documents are accepted; C83_refused / C83_no_file: refusals leave the object unchanged."
  },
  {
   "property": "C84",
   "status": "proved",
   "theorems": [
    "C84_json",
    "C84_elements"
   ],
   "note": "C84_json (modes, frequencies, ground level) and C84_elements (nodes, connectivity, properties) for the object that was read last; repeated exports and other objects are C43 and C72."
  },
  {
   "property": "C85",
   "status": "partial",
   "theorems": [
    "C85_num_table",
    "C85_commented_table",
    "C85_num_table_no_units",
    "C85_matrix",
    "C85_mixed_table",
    "C85_mixed_numbers",
    "C85_airfoil_coordinates_refuted",
    "C85_reference_point_refuted"
   ],
   "note": "C85_num_table, C85_num_table_no_units, C85_commented_table, C85_matrix, C85_mixed_table, C85_mixed_numbers hold for every table; FALSE for airfoil coordinates, whose table and reference point cannot be read back (C85_airfoil_coordinates_refuted, C85_reference_point_refuted)."
  },
  {
   "property": "C86",
   "status": "partial",
   "theorems": [
    "C86_reads",
    "C86_refuses",
    "C86_line_count",
    "C86_only_broken",
    "C86_no_header_refuted",
    "C86_unnamed_columns",
    "C86_node_counts",
    "C86_mixed",
    "C86_mixed_separator",
    "C86_extra_numbers_dropped_refuted"
   ],
   "note": "C86_reads, C86_refuses, C86_line_count, C86_only_broken; FALSE in that numbers beyond the count of the first row are dropped silently (C86_extra_numbers_dropped_refuted), columns beyond the names stay unnamed (C86_unnamed_columns) and tables without header raise UnboundLocalError when empty or mixed (C86_no_header_refuted)."
  },
  {
   "property": "C87",
   "status": "proved",
   "theorems": [
    "C87_round_trip",
    "C87_shape",
    "C87_only_wrong_format"
   ],
   "note": "C87_round_trip (any further lines may follow), C87_shape, C87_only_wrong_format."
  },
  {
   "property": "C88",
   "status": "partial",
   "theorems": [
    "C88_beamdyn_table",
    "C88_columns",
    "C88_fewer_units_refuted"
   ],
   "note": "C88_beamdyn_table, C88_columns; FALSE with fewer units than names: ValueError (C88_fewer_units_refuted)."
  },
  {
   "property": "C89",
   "status": "partial",
   "theorems": [
    "C89_files",
    "C89_blank_refuted",
    "C89_one_file_refuted",
    "C89_line_count"
   ],
   "note": "C89_files for two or more names without blanks; FALSE for names with blanks, cut at the blank (C89_blank_refuted), and a list of one file gains an empty line at each writing (C89_one_file_refuted)."
  },
  {
   "property": "C90",
   "status": "partial",
   "theorems": [
    "C90_round_trip",
    "C90_stable",
    "C90_new_object",
    "C90_new_object_refuted",
    "C90_glued_refuted"
   ],
   "note": "Round trip, stability and new objects proved for complete objects whose formatted numbers begin with a blank; refuted without that: numbers that fill their 15 characters are glued together, and a new object without main set 1 cannot be saved."
  },
  {
   "property": "C91",
   "status": "partial",
   "theorems": [
    "C91_reads",
    "C91_duplicate_main_refuted",
    "C91_columns",
    "C91_empty_last_set_refuted",
    "C91_no_set_refuted",
    "C91_duplicate_set",
    "C91_missing_rows",
    "C91_rows",
    "C91_recognised",
    "C91_accepted",
    "C91_column_check_refuted",
    "C91_comment_refuted"
   ],
   "note": "Reading, the column names, repeated sets, missing rows, bad rows and refusal of other files proved; refuted: a repeated main set number silently replaces the earlier one, only the last set's number of columns is checked, files whose last set is empty or without sets raise IndexError/UnboundLocalError, comments with # or $ break reading."
  },
  {
   "property": "C92",
   "status": "proved",
   "theorems": [
    "C92_at_row",
    "C92_between",
    "C92_outside",
    "C92_column",
    "C92_errors",
    "C92_narrow_set",
    "C92_nearest_radius"
   ],
   "note": "Exact rationals stand for doubles."
  },
  {
   "property": "C93",
   "status": "proved",
   "theorems": [
    "C93_assigns",
    "C93_errors",
    "C93_sequence",
    "C93_error_keeps",
    "C93_read_back"
   ],
   "note": "Exact rationals stand for doubles in the theorem about reading back."
  },
  {
   "property": "C94",
   "status": "partial",
   "theorems": [
    "C94_symmetric",
    "C94_rigid",
    "C94_equilibrium",
    "C94_energy_positive",
    "C94_energy_partial",
    "C94_energy_refuted",
    "C94_cantilever",
    "C94_from_file",
    "C94_full_matrix_none"
   ],
   "note": "Symmetry, rigid motions, equilibrium, positive energy and the cantilever proved for all beams; the energy is that of the Timoshenko beam exactly when KX*IX = KY*IY, refuted otherwise (the code computes both shear factors from the same plane)."
  },
  {
   "property": "C95",
   "status": "proved",
   "theorems": [
    "C95_ends",
    "C95_rigid",
    "C95_cantilever"
   ],
   "note": "Exact rationals stand for doubles."
  },
  {
   "property": "C96",
   "status": "proved",
   "theorems": [
    "C96_frames",
    "C96_names",
    "C96_other_widths"
   ],
   "note": "Names of frames and labels are literal in the specification."
  },
  {
   "property": "C97",
   "status": "partial",
   "theorems": [
    "C97_round_trip_partial",
    "C97_shadowed_refuted",
    "C97_upper_case_refuted",
    "C97_other_extension_refuted",
    "C97_nothing_written",
    "C97_directory_refuted"
   ],
   "note": "Proved for lower-case .dat and .sel names without another .sel file in the way, channels fitting the columns; the failures (a .dat.sel file, upper case, other extensions, .sel in a directory) are theorems."
  },
  {
   "property": "C98",
   "status": "partial",
   "theorems": [
    "C98_labels",
    "C98_own_channel",
    "C98_frame",
    "C98_number_of_columns",
    "C98_object",
    "C98_second_call_refuted"
   ],
   "note": "Labels, locality, values and the errors are proved for every object; the last clause is refuted: a second call repeats the prefix."
  },
  {
   "property": "C99",
   "status": "partial",
   "theorems": [
    "C99_round_trip_partial",
    "C99_channel_word_refuted",
    "C99_few_channels_refuted",
    "C99_unit_in_description_refuted"
   ],
   "note": "Proved for at least three channels none of which says channel among the first three; the failures are theorems (fewer than three, the word channel, the unit inside a description)."
  },
  {
   "property": "C100",
   "status": "partial",
   "theorems": [
    "C100_bad_table_refuted",
    "C100_read",
    "C100_frame",
    "C100_success",
    "C100_other_number",
    "C100_mark_refuted",
    "C100_one_row_refuted",
    "C100_txt_refuted",
    "C100_glued_refuted"
   ],
   "note": "Proved for headers in which a column number below ten is followed by a blank. Refuted: numbers glued to names (as in the example file) lose the first letter, files without '#' raise NameError instead of WrongFormatError, files of one row raise IndexError, names ending in .txt (a default extension) are never read. Tables that numpy cannot read raise NameError too (C100_bad_table_refuted)."
  },
  {
   "property": "C101",
   "status": "partial",
   "theorems": [
    "C101_bad_table_refuted",
    "C101_read",
    "C101_success",
    "C101_other_number",
    "C101_one_row_refuted",
    "C101_glued_refuted"
   ],
   "note": "Proved when every name is preceded by a blank. Refuted: a number glued to its name loses the name; files without '#' raise NameError (C100_mark_refuted); files of one row raise IndexError. Tables that numpy cannot read raise NameError too (C101_bad_table_refuted)."
  },
  {
   "property": "C102",
   "status": "partial",
   "theorems": [
    "C102_zero_modes_refuted",
    "C102_read",
    "C102_other_number"
   ],
   "note": "CSV reading as in C45; at least two rows of numbers. Refuted for zero modes: one column then divides by zero (C102_zero_modes_refuted)."
  },
  {
   "property": "C103",
   "status": "partial",
   "theorems": [
    "C103_half_power",
    "C103_ragged",
    "C103_no_lines",
    "C103_read",
    "C103_again_refuted",
    "C103_matrix_refuted",
    "C103_blade_refuted",
    "C103_text_refuted",
    "C103_unit_refuted",
    "C103_other_file",
    "C103_frames"
   ],
   "note": "Tables and numbers proved (C103_read, C103_frames). Refuted: matrices lose their first row, the blade mass and stiffness matrices are never read, texts are replaced by empty arrays, units with digits turn numbers into arrays, reading again raises. Ragged tables and tables without lines are errors (C103_ragged, C103_no_lines); a number with a broken exponent is read up to it (C103_half_power)."
  },
  {
   "property": "C104",
   "status": "partial",
   "theorems": [
    "C104_negative_refuted",
    "C104_no_damping_refuted",
    "C104_read",
    "C104_positions_refuted",
    "C104_success",
    "C104_one_number_refuted",
    "C104_other_version",
    "C104_other_file"
   ],
   "note": "Reading, success and refusals are proved. Refuted: the positions of the aerodynamic table are ignored (C104_positions_refuted); a line with a single number is accepted and fills the section (C104_one_number_refuted). A negative number of sections and a missing damping line raise ValueError and IndexError (C104_negative_refuted, C104_no_damping_refuted)."
  },
  {
   "property": "C105",
   "status": "partial",
   "theorems": [
    "C105_read",
    "C105_other_width",
    "C105_elevations_refuted",
    "C105_counts",
    "C105_success",
    "C105_sign_refuted",
    "C105_same_label_refuted",
    "C105_short_file"
   ],
   "note": "Reading, refusals and success are proved. Refuted: velocities and accelerations of one point are labelled with depths of opposite sign (C105_sign_refuted); depths that agree to 0.1 m have the same label (C105_same_label_refuted); a file with an elevation for every position, which its header announces, is refused when there are two positions or more (C105_elevations_refuted)."
  },
  {
   "property": "C106",
   "status": "partial",
   "theorems": [
    "C106_read",
    "C106_frames",
    "C106_frames_refused",
    "C106_success",
    "C106_other_file",
    "C106_empty_refuted",
    "C106_margin_refuted",
    "C106_width_refuted"
   ],
   "note": "Full statement: every mode of every BModes file is read, or the file is refused with the announced error. Proved for every file whose modes are announced away from the left margin with a number in the twelve characters after the mark. Refuted: a mark at the start of a line is ignored silently, a frequency written with fewer characters raises ValueError, an empty file raises NameError instead of EmptyFileError."
  },
  {
   "property": "C107",
   "status": "partial",
   "theorems": [
    "C107_read",
    "C107_success",
    "C107_other_length",
    "C107_no_channel",
    "C107_slash_refuted",
    "C107_quote_refuted",
    "C107_group_slash_refuted"
   ],
   "note": "Full statement: for all names. Proved for names without quote and slash: every channel is a column; a successful read of regularly sampled channels means that all times are equal; other numbers of samples are refused. Refuted: a channel with a slash in its name is left out silently, a quote in the name of a channel or a slash in the name of a group makes the whole file unreadable (KeyError). nptdms itself is not modelled: the model starts from its objects."
  },
  {
   "property": "C108",
   "status": "partial",
   "theorems": [
    "C108_table",
    "C108_empty_sheet",
    "C108_round_trip",
    "C108_exact",
    "C108_names",
    "C108_no_columns_refuted",
    "C108_empty_row_refuted",
    "C108_missing_refuted"
   ],
   "note": "Full statement: for all tables. Proved for tables with columns whose names and values are not counted as missing, and whose rows all have a value (C108_exact); in general rows without a value are lost (C108_round_trip). Refuted: tables without columns, values such as NA. The spreadsheet libraries are not modelled: the model starts from the cells."
  },
  {
   "property": "C109",
   "status": "partial",
   "theorems": [
    "C109_beamdyn",
    "C109_no_count",
    "C109_bad_count",
    "C109_short_table",
    "C109_no_files_refuted",
    "C109_terminates",
    "C109_re_renamed_refuted",
    "C109_two_polars_refuted",
    "C109_stiffness_refuted",
    "C109_after_coordinates_refuted",
    "C109_wrong_label",
    "C109_short_title_refuted",
    "C109_stiffness",
    "C109_nodal",
    "C109_coordinates",
    "C109_nodal_refuted",
    "C109_round_trip",
    "C109_unwritable_refuted"
   ],
   "note": "Round trip for every sequence of blocks (C109_round_trip, C109_beamdyn), with the refusals and termination; nodal outputs, additional stiffness and airfoil coordinates are read as stated (C109_nodal, C109_stiffness, C109_coordinates). False as stated: NumFoil = 0 loops for ever, Re is renamed, two polars, nodal outputs and additional stiffness are not read back, what follows coordinates is lost, short files with a title are refused. An entry that cannot be written empties the file (C109_unwritable_refuted)."
  },
  {
   "property": "C110",
   "status": "partial",
   "theorems": [
    "C110_read",
    "C110_write_refuted",
    "C110_bad_value",
    "C110_bad_rows"
   ],
   "note": "Reading is proved for every layout; writing always fails and leaves an empty file (C110_write_refuted)."
  },
  {
   "property": "C111",
   "status": "partial",
   "theorems": [
    "C111_unwritable_refuted",
    "C111_no_tabs",
    "C111_first_entry_refuted",
    "C111_class",
    "C111_elastodyn_blade",
    "C111_aerodyn_blade_partial",
    "C111_few_nodes_refuted",
    "C111_missing",
    "C111_polar",
    "C111_polars",
    "C111_other_case_refuted",
    "C111_unlisted_label_refuted",
    "C111_labels_lost_refuted"
   ],
   "note": "Classes, counts, labels and contents proved for all files; refuted: counts under another case (C111_other_case_refuted), labels outside the list of the format (C111_unlisted_label_refuted), a failed open loses the labels (C111_labels_lost_refuted), blades with fewer than two nodes cannot be written (C111_few_nodes_refuted). Also refuted: an unwritable entry empties the file (C111_unwritable_refuted), the first entry of a polar file keeps its number (C111_first_entry_refuted)."
  },
  {
   "property": "C112",
   "status": "partial",
   "theorems": [
    "C112_tower",
    "C112_blade",
    "C112_blade_column_refuted",
    "C112_tower_missing"
   ],
   "note": "Proved for towers and blades on exact numbers; a blade whose column is not named BlFract_[-] has no frame (C112_blade_column_refuted)."
  },
  {
   "property": "C113",
   "status": "partial",
   "theorems": [
    "C113_negative_refuted",
    "C113_read",
    "C113_errors",
    "C113_round_trip",
    "C113_sizes",
    "C113_no_loading_refuted",
    "C113_other_format_refuted",
    "C113_kept_refuted",
    "C113_glued_refuted",
    "C113_one_number_refuted",
    "C113_prototype_refuted",
    "C113_columns"
   ],
   "note": "Reading, errors, sizes, round trip and columns proved; refuted: files of another format are accepted silently, blocks of an earlier file are kept, glued numbers, rows of one number, the prototype, missing loads empty the file. Negative sizes raise ValueError (C113_negative_refuted)."
  },
  {
   "property": "C114",
   "status": "partial",
   "theorems": [
    "C114_mass_rows",
    "C114_subdyn_graph",
    "C114_dangling_member",
    "C114_unknown_kind_refuted",
    "C114_two_masses_refuted"
   ],
   "note": "Total correctness of the SubDyn graph and its failures on missing joints and properties. Refuted: a member of kind 0 is taken for a rigid link; of two masses at one joint only the last counts."
  },
  {
   "property": "C115",
   "status": "partial",
   "theorems": [
    "C115_hydrodyn_graph",
    "C115_other_tables_refuted",
    "C115_simple_width",
    "C115_table_error"
   ],
   "note": "The graph is proved for files without rows in the other tables. Refuted for all others: any such row raises; simple coefficients must have 10 or 12 columns."
  },
  {
   "property": "C116",
   "status": "partial",
   "theorems": [
    "C116_summary_graph_partial",
    "C116_moduli_refuted",
    "C116_diameter_refuted"
   ],
   "note": "Nodes, degrees of freedom, areas, densities and modes are proved. Refuted: the moduli E and G are the area and the density; the diameter D is twice that of the section."
  },
  {
   "property": "C117",
   "status": "partial",
   "theorems": [
    "C117_id_data_refuted",
    "C117_lines",
    "C117_lines_empty",
    "C117_points",
    "C117_nodal_frame",
    "C117_missing_data_refuted",
    "C117_json",
    "C117_json_empty",
    "C117_subdyn_diameter_refuted"
   ],
   "note": "Table and JSON proved. Refuted: missing data look like zeros in the table; members of SubDyn graphs always have the diameter 1 in the JSON."
  },
  {
   "property": "C118",
   "status": "partial",
   "theorems": [
    "C118_geometry",
    "C118_no_file",
    "C118_no_colon",
    "C118_every_line",
    "C118_long_refuted"
   ],
   "note": "Full line grammar; refuted for longer files: lines after the place where the reader stops are ignored."
  },
  {
   "property": "C119",
   "status": "proved",
   "theorems": [
    "C119_names",
    "C119_other_size",
    "C119_read"
   ],
   "note": "Names for every number of blades, tables of another size kept, and the files that are read."
  },
  {
   "property": "C120",
   "status": "partial",
   "theorems": [
    "C120_twice_refuted",
    "C120_time_data",
    "C120_names",
    "C120_resultant",
    "C120_azimuth",
    "C120_too_long",
    "C120_one_row_refuted",
    "C120_no_elements_refuted",
    "C120_no_time_refuted"
   ],
   "note": "Columns, names and values for at least two steps; refuted: one step (IndexError after changing the table), no element data, no time data, a second call."
  },
  {
   "property": "C121",
   "status": "partial",
   "theorems": [
    "C121_elements",
    "C121_frame",
    "C121_names",
    "C121_rate_refuted"
   ],
   "note": "Columns and values for every selection, with and without dynamic stall; refuted: the column alphaDot2_[rad/s] is a change in degrees per step."
  },
  {
   "property": "C122",
   "status": "partial",
   "theorems": [
    "C122_closest",
    "C122_closest_total",
    "C122_on_grid",
    "C122_values",
    "C122_other_method",
    "C122_mid",
    "C122_hub",
    "C122_hub_refuted"
   ],
   "note": "C122_hub_refuted: with a stored reference speed hubValues returns it for every height."
  },
  {
   "property": "C123",
   "status": "partial",
   "theorems": [
    "C123_probes",
    "C123_names_refuted",
    "C123_times"
   ],
   "note": "C123_names_refuted: names are rounded to the metre and may coincide."
  },
  {
   "property": "C124",
   "status": "proved",
   "theorems": [
    "C124_z",
    "C124_y",
    "C124_t",
    "C124_values",
    "C124_tables"
   ],
   "note": "exact arithmetic; numpy.arange in floating point is not modelled."
  },
  {
   "property": "C125",
   "status": "partial",
   "theorems": [
    "C125_from_turbsim",
    "C125_to_mann",
    "C125_default_base",
    "C125_from_mann",
    "C125_from_mann_refused",
    "C125_tower_refuted",
    "C125_roundtrip"
   ],
   "note": "C125_tower_refuted: the old tower is kept and boxes with an axis of size one are repeated."
  },
  {
   "property": "C126",
   "status": "partial",
   "theorems": [
    "C126_scale",
    "C126_steady_refuted",
    "C126_refused"
   ],
   "note": "C126_steady_refuted: a steady reference point gives non-finite values."
  },
  {
   "property": "C127",
   "status": "partial",
   "theorems": [
    "C127_periodic",
    "C127_steady_refuted"
   ],
   "note": "C127_steady_refuted: a steady box is never found periodic."
  },
  {
   "property": "C128",
   "status": "partial",
   "theorems": [
    "C128_tables",
    "C128_mid",
    "C128_sigma_refuted"
   ],
   "note": "C128_sigma_refuted: the deviations of the profile are not those of the wind."
  },
  {
   "property": "C129",
   "status": "partial",
   "theorems": [
    "C129_crosscorr_y",
    "C129_crosscorr_z",
    "C129_tables",
    "C129_bounds",
    "C129_steady_refuted"
   ],
   "note": "coefficients, tables and bounds proved; a steady point has no coefficient (C129_steady_refuted)"
  },
  {
   "property": "C130",
   "status": "partial",
   "theorems": [
    "C130_horizontal",
    "C130_vertical",
    "C130_changes_refuted"
   ],
   "note": "planes proved; with removeMean the box is changed (C130_changes_refuted)"
  },
  {
   "property": "C131",
   "status": "partial",
   "theorems": [
    "C131_tables",
    "C131_too_long",
    "C131_date_refuted",
    "C131_no_signal",
    "C131_read",
    "C131_missing",
    "C131_empty_refuted",
    "C131_write"
   ],
   "note": "tables, reading and writing proved; the date is that of the last signal only (C131_date_refuted), an empty file gives NameError (C131_empty_refuted)"
  },
  {
   "property": "C132",
   "status": "partial",
   "theorems": [
    "C132_write_read",
    "C132_ascii",
    "C132_ascii_writes",
    "C132_after_refuted",
    "C132_failure",
    "C132_failure_read",
    "C132_no_name"
   ],
   "note": "temporary files, comparison and what stays on the disk proved for every reader and writer that writes only its file; the object is left with the name of the temporary file (C132_after_refuted), and exceptions without a text are masked by TypeError or IndexError (C132_failure)"
  },
  {
   "property": "C133",
   "status": "proved",
   "theorems": [
    "C133_blade",
    "C133_centre",
    "C133_distance",
    "C133_short_refuted",
    "C133_narrow"
   ],
   "note": "for a single table of the nodes with distinct column names; fewer than seven nodes have no root region (C133_short_refuted), which the rule allows"
  },
  {
   "property": "C134",
   "status": "partial",
   "theorems": [
    "C134_one",
    "C134_many",
    "C134_offset",
    "C134_steady_refuted",
    "C134_text_refuted",
    "C134_coordinates_refuted"
   ],
   "note": "frames proved for tables with unsteady data; polars without unsteady data and files with coordinates have no frame (C134_steady_refuted, C134_coordinates_refuted); text parameters and columns with the names of added ones are outside the model"
  },
  {
   "property": "C135",
   "status": "partial",
   "theorems": [
    "C135_blade_get",
    "C135_blade_set",
    "C135_blade_short",
    "C135_blade_round",
    "C135_polar_set",
    "C135_polar_get_refuted",
    "C135_polar_dashes_refuted",
    "C135_polar_again",
    "C135_base",
    "C135_front_refuted",
    "C135_front_type_refuted",
    "C135_front_get",
    "C135_keys",
    "C135_keys_polar_refuted",
    "C135_own_class_refuted",
    "C135_own_class_opens"
   ],
   "note": "blades and the data of polars as stated; the comment of a polar cannot be read (C135_polar_get_refuted), FASTInputFile cannot set one (C135_front_refuted), keys of a polar with a short heading fail (C135_keys_polar_refuted), a blade opened by its own class is unusable (C135_own_class_refuted)"
  },
  {
   "property": "C136",
   "status": "partial",
   "theorems": [
    "C136_polar_keys",
    "C136_polar_one",
    "C136_tables",
    "C136_flag_refuted",
    "C136_blades",
    "C136_blade_values",
    "C136_blade_write_refuted"
   ],
   "note": "keys and tables for any number of tables; the flag of unsteady data is shared by all tables (C136_flag_refuted) and an empty AeroDyn blade cannot be written (C136_blade_write_refuted)"
  },
  {
   "property": "C137",
   "status": "partial",
   "theorems": [
    "C137_text",
    "C137_limit",
    "C137_one_file",
    "C137_load",
    "C137_after_exit_refuted",
    "C137_circle_refuted",
    "C137_capitals_refuted"
   ],
   "note": "C137_text: the reader computes exactly the inductive relation reading. Refuted parts: a missing file after exit still fails, circles never end, capitals in names are lost."
  },
  {
   "property": "C138",
   "status": "partial",
   "theorems": [
    "C138_found",
    "C138_exact",
    "C138_again",
    "C138_any_case",
    "C138_two_names_refuted",
    "C138_other_directory_refuted"
   ],
   "note": "Found path exists, same letters, prefers exact components; refuted: two names with the same letters, no backtracking to another directory."
  },
  {
   "property": "C139",
   "status": "partial",
   "theorems": [
    "C139_rest",
    "C139_files",
    "C139_apart",
    "C139_no_log_refuted",
    "C139_shared_refuted",
    "C139_blank_refuted"
   ],
   "note": "C139_files, C139_rest, C139_apart for names of one word; refuted: no log file, other outputs, names with blanks."
  },
  {
   "property": "C140",
   "status": "partial",
   "theorems": [
    "C140_times",
    "C140_stop_refuted",
    "C140_aero"
   ],
   "note": "C140_times, C140_aero; refuted: with a new stop and no start the output ends at the old time."
  },
  {
   "property": "C141",
   "status": "partial",
   "theorems": [
    "C141_results",
    "C141_turbulence",
    "C141_turbulence_refuted",
    "C141_outputs",
    "C141_capitals_refuted",
    "C141_number_refuted",
    "C141_number_results_refuted"
   ],
   "note": "C141_results and C141_turbulence are equivalences; C141_outputs gives the members; refuted: other formats of turbulence, capitals, numbers as names."
  },
  {
   "property": "C142",
   "status": "partial",
   "theorems": [
    "C142_empty_report_partial",
    "C142_same_file",
    "C142_report",
    "C142_sections",
    "C142_signs_refuted",
    "C142_blind_refuted",
    "C142_sensors_refuted",
    "C142_mixed_refuted",
    "C142_plain_output_refuted",
    "C142_order_partial"
   ],
   "note": "The report is empty exactly when the keys at every level, the values of the lines and the first sensors agree, and its exact content is given. It is blind to comments, kinds of sections, the types of sensors and sensors that only the other file has; signs of changed lines are the opposite of those of missing items; a key that is a line in one and a section in the other stops it."
  },
  {
   "property": "C143",
   "status": "partial",
   "theorems": [
    "C143_key",
    "C143_path",
    "C143_dotted_refuted",
    "C143_section",
    "C143_call",
    "C143_line",
    "C143_element_partial",
    "C143_element_key_refuted",
    "C143_one_empty_refuted",
    "C143_element_section_refuted"
   ],
   "note": "Proved for keys, paths, get_section, calls by field and by values, and get_element by position. Refuted: keys with a dot or slash are not found, get_element by key never works, one item without value makes lookups fail."
  },
  {
   "property": "C144",
   "status": "partial",
   "theorems": [
    "C144_read",
    "C144_declared_refuted",
    "C144_absent",
    "C144_set",
    "C144_set_get",
    "C144_get_set",
    "C144_more_refuted",
    "C144_mixed_refuted",
    "C144_rest",
    "C144_text_refuted",
    "C144_k_refuted"
   ],
   "note": "Proved when nsec is the number of sections and the table has at most as many rows. Refuted: a larger table is refused but nsec is changed; lines of another length are mixed; nsec is not checked; an item named k is deleted."
  },
  {
   "property": "C145",
   "status": "partial",
   "theorems": [
    "C145_by_name",
    "C145_different",
    "C145_hidden_refuted",
    "C145_frames",
    "C145_set_absent",
    "C145_number_refuted"
   ],
   "note": "Proved for bodies with different names. Refuted: of two bodies with one name the first is hidden; a number as a name makes the data frames fail."
  },
  {
   "property": "C146",
   "status": "partial",
   "theorems": [
    "C146_added",
    "C146_again",
    "C146_length_refuted",
    "C146_blank_refuted",
    "C146_default_refuted",
    "C146_few_refuted"
   ],
   "note": "Proved for three file names that are words. Refuted: number times spacing is not the length (spacing has four decimals); a stem with a blank is split in two values; the default names need wetb and the call fails after it has changed the file; with two names the third file is left as it was."
  },
  {
   "property": "C147",
   "status": "partial",
   "theorems": [
    "C147_exported",
    "C147_left_refuted",
    "C147_name_refuted",
    "C147_steps_refuted",
    "C147_no_wind",
    "C147_second_refuted"
   ],
   "note": "Proved when the box, wind speed, time step and end are given. Refuted: the number of steps may be a fraction; a refused call leaves a new section with three files or none; the files of a second export are not listed."
  },
  {
   "property": "C148",
   "status": "partial",
   "theorems": [
    "C148_water",
    "C148_shear_constant",
    "C148_shear_refuted",
    "C148_shear_power",
    "C148_controller",
    "C148_number_refuted",
    "C148_short_refuted",
    "C148_refused"
   ],
   "note": "Proved for controllers with all constants. Refuted: constants are counted, not looked up by their number; a controller with fewer constants is changed in part; power shears need wetb and other shears are refused."
  },
  {
   "property": "C149",
   "status": "partial",
   "theorems": [
    "C149_listed",
    "C149_answered",
    "C149_absent_refuted",
    "C149_number_refuted",
    "C149_short_refuted",
    "C149_wakes_refuted",
    "C149_twice_refuted"
   ],
   "note": "the list is exact and is given whenever each file has a place; the wakes, absolute names that are not found, numbers, short lines and duplicates are refuted"
  },
  {
   "property": "C150",
   "status": "partial",
   "theorems": [
    "C150_report",
    "C150_report_all",
    "C150_dots_refuted",
    "C150_skipped",
    "C150_skipped_refuted",
    "C150_actions",
    "C150_verdict",
    "C150_stab",
    "C150_never_refuted",
    "C150_path_refuted"
   ],
   "note": "the actions, the decision to skip, the verdict and the report are exact for any program; that simulate returns at all, skipping, the search of the path and the place of the dots are refuted"
  },
  {
   "property": "C151",
   "status": "partial",
   "theorems": [
    "C151_location",
    "C151_dots",
    "C151_index",
    "C151_index_refuted",
    "C151_sensor_refuted",
    "C151_deleted",
    "C151_orphan_refuted",
    "C151_sensor_deleted",
    "C151_added",
    "C151_sensor_added",
    "C151_through_line_refuted",
    "C151_shared_refuted",
    "C151_copied",
    "C151_copy_like",
    "C151_copy_refuted"
   ],
   "note": "locations, addition, deletion and copies are exact on every heap; members of copies, shared objects, sensors and keys through lines are refuted"
  },
  {
   "property": "C152",
   "status": "partial",
   "theorems": [
    "C152_added",
    "C152_given",
    "C152_kept",
    "C152_not_replaced",
    "C152_existing_refuted",
    "C152_output_refuted",
    "C152_output",
    "C152_at_time_refuted",
    "C152_at_time_again_refuted",
    "C152_failed_refuted",
    "C152_other_name_refuted"
   ],
   "note": "Proved for arguments with usable values and different keys without the mark of duplicates; the findings are _refuted theorems. Missing: names with dots or slashes that exist already, and lines passed as sections."
  },
  {
   "property": "C153",
   "status": "partial",
   "theorems": [
    "C153_detected",
    "C153_not_detected",
    "C153_absolute_refuted",
    "C153_slash",
    "C153_given",
    "C153_default",
    "C153_words",
    "C153_never_refuted",
    "C153_job",
    "C153_one_flag_refuted",
    "C153_callers_refuted",
    "C153_empty_refuted"
   ],
   "note": "Proved for Linux paths, with the disk, realpath, abspath and the lists of input, output and turbulence files (C149, C141) quantified; the findings are _refuted theorems. Missing: drives of Windows paths."
  },
  {
   "property": "C154",
   "status": "partial",
   "theorems": [
    "C154_at",
    "C154_between",
    "C154_ends",
    "C154_whole",
    "C154_unknown",
    "C154_nearest",
    "C154_zero_refuted",
    "C154_set_near",
    "C154_set_at",
    "C154_set_between",
    "C154_set_ends",
    "C154_one",
    "C154_tables",
    "C154_tables_refuted",
    "C154_pc",
    "C154_pc_same_refuted",
    "C154_pc_short"
   ],
   "note": "Values at rows (C154_at), between (C154_between), beyond (C154_ends), whole columns (C154_whole), unknown sets (C154_unknown), nearest radius (C154_nearest), set of profiles (C154_set_near, C154_set_at, C154_set_between, C154_set_ends), tables (C154_one, C154_tables, C154_pc, C154_pc_short). Missing because false: C154_zero_refuted, C154_tables_refuted, C154_pc_same_refuted. Exact rationals; one radius at a time."
  },
  {
   "property": "C155",
   "status": "partial",
   "theorems": [
    "C155_whole",
    "C155_between",
    "C155_right_refuted",
    "C155_left",
    "C155_fails",
    "C155_kink_refuted"
   ],
   "note": "C155_whole, C155_between, C155_left, C155_fails for every table, sorted or not (exact rationals). False beyond: C155_right_refuted (universal), C155_kink_refuted (witness)."
  },
  {
   "property": "C156",
   "status": "partial",
   "theorems": [
    "C156_read",
    "C156_open",
    "C156_read_fails",
    "C156_write",
    "C156_round_trip",
    "C156_write_fails",
    "C156_new",
    "C156_failed_read_refuted",
    "C156_tables",
    "C156_dropped_refuted"
   ],
   "note": "C156_read, C156_open, C156_read_fails, C156_write, C156_round_trip, C156_write_fails, C156_new, C156_tables, with the libraries as functions. False in part: C156_failed_read_refuted, C156_dropped_refuted. Not modelled: lazy reading of xarray, a library that breaks off while writing."
  },
  {
   "property": "C157",
   "status": "partial",
   "theorems": [
    "C157_files",
    "C157_single",
    "C157_default",
    "C157_tuple_refuted",
    "C157_folder_refuted",
    "C157_twice_refuted",
    "C157_lists",
    "C157_saved",
    "C157_stops",
    "C157_never_refuted"
   ],
   "note": "C157_files, C157_single, C157_default, C157_lists, C157_saved, C157_stops, with the file system, the jobs and their saving quantified. False in part: C157_folder_refuted, C157_tuple_refuted, C157_twice_refuted, C157_never_refuted. Missing: a disk that changes while the set is made, the failing imports of the module."
  }
 ]
}