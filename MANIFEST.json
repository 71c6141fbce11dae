{
 "claims": [
  {
   "property": "C01",
   "status": "proved",
   "theorems": [
    "C01_reduction_preserves_meaning",
    "C01_no_new_symbols",
    "C01_terms_are_ok"
   ],
   "note": ""
  },
  {
   "property": "C02",
   "status": "proved",
   "theorems": [
    "C02_reduced_is_canonical",
    "C02_same_meaning_same_terms",
    "C02_reduction_idempotent",
    "C02_distinct_meaning_distinct_terms"
   ],
   "note": ""
  },
  {
   "property": "C03",
   "status": "partial",
   "theorems": [
    "C03_mul_commutative",
    "C03_self_quotient_is_one",
    "C03_mul_is_product_partial",
    "C03_div_is_quotient_partial",
    "C03_pow_is_power_partial",
    "C03_mul_associative_partial",
    "C03_mul_then_div_partial",
    "C03_pow_pow_partial",
    "C03_pow_mul_partial",
    "C03_power_law_refuted",
    "C03_zeroth_power_refuted",
    "C03_mul_then_div_refuted"
   ],
   "note": "Commutativity and a/a=1 hold for all expressions. The other laws hold when the exact results can be carried by the printed notation (one-digit denominators, double coefficients); outside that class they are false of the code and refuted with witnesses. a**0 is refuted."
  },
  {
   "property": "C04",
   "status": "partial",
   "theorems": [
    "C04_parse_meaning",
    "C04_division_takes_one_factor",
    "C04_print_parse_partial",
    "C04_of_terms_partial",
    "C04_print_parse_refuted"
   ],
   "note": "Parsing has the usual meaning for every text of an unbounded grammar. Print-then-parse is the identity for expressions whose numbers fit the notation; it is false otherwise (a^1/12), refuted with witness."
  },
  {
   "property": "C53",
   "status": "proved",
   "theorems": [
    "C53_parse_terminates"
   ],
   "note": "fuel adequacy for every input string"
  },
  {
   "property": "C05",
   "status": "proved",
   "theorems": [
    "C05_alias_gives_value",
    "C05_last_group_wins",
    "C05_exactly_the_input_names",
    "C05_length_counts_names",
    "C05_merge",
    "C05_last_entry_wins_refuted"
   ],
   "note": "The refuted theorem records that \"last given entry wins\" (a stronger reading) is false for overlapping tuple keys."
  },
  {
   "property": "C06",
   "status": "partial",
   "theorems": [
    "C06_histories_partial",
    "C06_machine_assign",
    "C06_machine_delete",
    "C06_machine_alias",
    "C06_group",
    "C06_with_key_groups_refuted"
   ],
   "note": "All histories of assignment, deletion and alias registration refine a cell machine. With key groups (MutableMapping.group) the claim is false of the code; refuted with witness."
  },
  {
   "property": "C07",
   "status": "partial",
   "theorems": [
    "C07_add_keeps_disjoint",
    "C07_merge_partial",
    "C07_bridging_refuted",
    "C07_constructor_refuted",
    "C07_two_touches_refuted",
    "C07_second_update_refuted"
   ],
   "note": "Holds for add and for merging names that touch at most one group. False of the code for the constructor and for bridging or repeated merges; refuted with witnesses."
  },
  {
   "property": "C08",
   "status": "proved",
   "theorems": [
    "C08_namemap",
    "C08_aliases_of_canonical_names",
    "C08_when"
   ],
   "note": ""
  },
  {
   "property": "C09",
   "status": "proved",
   "theorems": [
    "C09_merge_is_common_supersequence",
    "C09_raises_exactly_on_conflict",
    "C09_repeats_refuted"
   ],
   "note": "The refuted theorem records that arguments with repeats of their own give repeated results, against the docstring."
  },
  {
   "property": "C10",
   "status": "proved",
   "theorems": [
    "C10_closest_member",
    "C10_lower_bound",
    "C10_upper_bound",
    "C10_nothing_on_that_side",
    "C10_empty",
    "C10_descending_refuted"
   ],
   "note": "One-dimensional arrays of exact numbers. Descending data violate the bound; refuted with witness."
  },
  {
   "property": "C11",
   "status": "proved",
   "theorems": [
    "C11_unique_items",
    "C11_unique_call"
   ],
   "note": ""
  },
  {
   "property": "C12",
   "status": "proved",
   "theorems": [
    "C12_first_weight_kept",
    "C12_mutually_inverse",
    "C12_symmetric_neighbours",
    "C12_missing_raises",
    "C12_self_loop_refuted"
   ],
   "note": "Self-loops do not satisfy it (recorded)."
  },
  {
   "property": "C13",
   "status": "proved",
   "theorems": [
    "C13_construction",
    "C13_invert_twice",
    "C13_find_inverts_lookup"
   ],
   "note": ""
  },
  {
   "property": "C14",
   "status": "partial",
   "theorems": [
    "C14_find",
    "C14_find_unique",
    "C14_strict_call",
    "C14_default_call",
    "C14_default_call_complete_refuted",
    "C14_default_call_sound_refuted"
   ],
   "note": "find and strict calls are exact. The default (iterative) call returns the only row matching a leading part of the request; it may contradict the rest of the request or fail although one row matches: refuted."
  },
  {
   "property": "C50",
   "status": "partial",
   "theorems": [
    "C50_registration_is_kept_partial",
    "C50_initial_objects_are_kept_partial",
    "C50_reset",
    "C50_overwrite_refuted"
   ],
   "note": "Holds for every history whose names do not look like name_<number>; otherwise a generated key can overwrite an object (refuted)."
  },
  {
   "property": "C52",
   "status": "partial",
   "theorems": [
    "C52_slice_to_range_partial",
    "C52_unbounded_slice_raises",
    "C52_negative_start_refuted",
    "C52_negative_step_refuted",
    "C52_stop_past_end_refuted"
   ],
   "note": "Exact for in-range non-negative bounds and positive steps; false otherwise (refuted with witnesses)."
  },
  {
   "property": "C54",
   "status": "proved",
   "theorems": [
    "C54_unwrap",
    "C54_unwrap_keeps_leaves",
    "C54_size"
   ],
   "note": ""
  },
  {
   "property": "C15",
   "status": "partial",
   "theorems": [
    "C15_value_shift",
    "C15_sequence_shift",
    "C15_crossed_bounds_refuted",
    "C15_arithmetic",
    "C15_foreign_operands",
    "C15_ne_negates_eq",
    "C15_unequal_lengths_refuted",
    "C15_power",
    "C15_power_of_sequence_refuted"
   ],
   "note": "Shifts and entry-wise arithmetic are exact for ordered bounds; refuted: crossed bounds treat values and sequences differently, sequences of unequal length are silently truncated, and powers with two or more exponents always raise."
  },
  {
   "property": "C16",
   "status": "partial",
   "theorems": [
    "C16_ellipsis_expands",
    "C16_without_ellipsis",
    "C16_two_ellipses_rejected",
    "C16_empty_ellipsis_refuted",
    "C16_too_many_before_ellipsis_refuted",
    "C16_ellipsis_means_whole_axes",
    "C16_sequences_select_per_axis_partial",
    "C16_slices_select_per_axis_partial",
    "C16_single_subscript",
    "C16_integer_array",
    "C16_slice_beside_sequence_refuted",
    "C16_negative_slice_refuted",
    "C16_list_subscript_refuted",
    "C16_partial_tuple_refuted"
   ],
   "note": "Per-axis selection is proved for single subscripts, integer arrays, tuples of sequences/integers/whole slices and tuples of integers/plain slices; refuted: proper slices beside index sequences are ignored, negative-start slices beside integers raise, lists are read as tuples, short tuples with an integer raise."
  },
  {
   "property": "C17",
   "status": "partial",
   "theorems": [
    "C17_restrict_brackets_partial",
    "C17_one_target",
    "C17_no_target",
    "C17_repeated_value_refuted",
    "C17_descending_refuted"
   ],
   "note": "Bracketing and minimality for strictly ascending rows (1-D and 2-D along axis 1); repeated values and descending data give no indices (refuted)."
  },
  {
   "property": "C18",
   "status": "partial",
   "theorems": [
    "C18_names_unique",
    "C18_union",
    "C18_intersection",
    "C18_difference",
    "C18_symmetric_difference_refuted",
    "C18_replace",
    "C18_insert",
    "C18_permute",
    "C18_permute_repeats_refuted",
    "C18_inclusion"
   ],
   "note": "Union, intersection, difference, replace, insert, permute and inclusion are exact. Symmetric difference always raises TypeError, and permute accepts repeated indices: both refuted."
  },
  {
   "property": "C19",
   "status": "partial",
   "theorems": [
    "C19_product",
    "C19_product_singleton",
    "C19_product_exactly_when",
    "C19_commutes",
    "C19_number",
    "C19_unary",
    "C19_length_one_refuted",
    "C19_default_names_refuted",
    "C19_other_operand"
   ],
   "note": "Pairing by name is proved for all ranks and orders with the exact condition for success; the length-one axis and default-name cases fail (refuted)."
  },
  {
   "property": "C20",
   "status": "partial",
   "theorems": [
    "C20_sum",
    "C20_sum_defined",
    "C20_comparison",
    "C20_equality",
    "C20_number_loses_names_refuted"
   ],
   "note": "Array-array addition, comparison and equality proved; array+number returns a bare numpy array without names (refuted)."
  },
  {
   "property": "C48",
   "status": "proved",
   "theorems": [
    "C48_definitions",
    "C48_total_order",
    "C48_incomparable_refuted"
   ],
   "note": "For every comparable pair; the refuted theorem records that incomparable values (NaN) break the pattern."
  },
  {
   "property": "C49",
   "status": "partial",
   "theorems": [
    "C49_by_name",
    "C49_by_axes",
    "C49_inverse",
    "C49_numpy_reversal",
    "C49_numpy_axes_refuted",
    "C49_twice_by_name_refuted",
    "C49_bad_axes"
   ],
   "note": "The named array transpose is proved; numpy.transpose(x, axes) and transposing twice by name fail (refuted)."
  },
  {
   "property": "C55",
   "status": "partial",
   "theorems": [
    "C55_squeeze",
    "C55_sum_mean",
    "C55_cumsum",
    "C55_keepdims_refuted",
    "C55_bad_axis"
   ],
   "note": "squeeze, sum, mean, trapz and cumsum by name; keepdims=True always raises (refuted)."
  },
  {
   "property": "C21",
   "status": "partial",
   "theorems": [
    "C21_factor_is_size_ratio_partial",
    "C21_tables_fit_SI_sizes",
    "C21_actual_factor_is_size_ratio_partial",
    "C21_identity",
    "C21_reciprocal_partial",
    "C21_chain_partial",
    "C21_search_ends",
    "C21_search_complete",
    "C21_paired_factors_partial",
    "C21_conversion_is_size_ratio_partial",
    "C21_compound_refuted",
    "C21_angle_refuted",
    "C21_dimensions_refuted",
    "C21_cache_is_faithful",
    "C21_history_independent_partial",
    "C21_farad_refuted",
    "C21_products_converted",
    "C21_compound_converted_partial"
   ],
   "note": "The string search, chains of definitions, metric prefixes and the pairing of compound factors give size ratios for every input; pairing succeeds whenever opposite powers of each kind of unit are equally many. The last route (by dimension) ignores scale and is false of the code: kN to g m s^-2, deg/s to rad/s, V to ohm are refuted with witnesses."
  },
  {
   "property": "C22",
   "status": "proved",
   "theorems": [
    "C22_ratio_is_prefix_quotient",
    "C22_ratio_reciprocal",
    "C22_ratio_transitive",
    "C22_ratio_refuses_other_bases",
    "C22_named_ratio_is_size_ratio",
    "C22_unknown_name",
    "C22_symbol_collision_refuted"
   ],
   "note": "Exact rational factors; the refuted theorem records the cd (candela / centiday) symbol collision."
  },
  {
   "property": "C24",
   "status": "partial",
   "theorems": [
    "C24_one_object_per_unit_partial",
    "C24_requests_succeed_partial",
    "C24_table_is_regular",
    "C24_canonical_strings_are_settled",
    "C24_unsorted_symbols_refuted",
    "C24_mixed_names_refuted",
    "C24_existence_refuted",
    "C24_candela_refuted",
    "C24_named_history_refuted"
   ],
   "note": "One object per unit in every history of settled requests; unsorted compound symbols, mixed names and the first-request order break it (refuted with witnesses)."
  },
  {
   "property": "C36",
   "status": "proved",
   "theorems": [
    "C36_logged_runs_exist",
    "C36_log_mirrors_runs",
    "C36_new_project"
   ],
   "note": "At this commit new projects cannot be created (C88): C36_new_project is about creation with some text for the script, which gives the same world as opening the directory after the script was put there by hand (C88_repaired). Over every history of run/mv/rm requests (any branches, patterns, failures of the simulation and of the operating system). \"Each with the contents recorded at creation\" is C37 (moved/untouched are stated over whole directory contents and records)."
  },
  {
   "property": "C37",
   "status": "partial",
   "theorems": [
    "C37_mv",
    "C37_mv_refused",
    "C37_rm",
    "C37_rm_refused",
    "C37_run",
    "C37_run_refused",
    "C37_unrecorded_run_refuted"
   ],
   "note": "Success and refusal are exact per branch. For a run directory without a record the move raises LogKeyError after moving and later branches are not processed: refuted with witness."
  },
  {
   "property": "C38",
   "status": "partial",
   "theorems": [
    "C38_rename_log_refuted",
    "C38_rename_partial",
    "C38_renamed_project_restores",
    "C38_rename_never_overwrites"
   ],
   "note": "False of the code for the log: no key is ever renamed, so every record is orphaned (proved in general). Directories move whole, the attributes restore, and force never overwrites."
  },
  {
   "property": "C39",
   "status": "partial",
   "theorems": [
    "C39_failed_run_not_recorded",
    "C39_move_after_failure_refuted"
   ],
   "note": "A failed run has no record; moving it afterwards always raises after the move (refuted in general)."
  },
  {
   "property": "C40",
   "status": "partial",
   "theorems": [
    "C40_attributes_restored",
    "C40_reopen_changes_nothing",
    "C40_inputs_in_root_refuted",
    "C40_existing_not_overwritten",
    "C40_metadata",
    "C40_defaults",
    "C40_log_name",
    "C40_damaged"
   ],
   "note": "At this commit creation itself fails (C88); the theorems take the composed script as a parameter. Holds for every attribute set and history unless the inputs directory is the root itself (refuted)."
  },
  {
   "property": "C57",
   "status": "partial",
   "theorems": [
    "C57_killed",
    "C57_log_lost_refuted"
   ],
   "note": "At every crash point, either the log is empty or at most one record is off. The first case loses all records: refuted with witness."
  },
  {
   "property": "C58",
   "status": "proved",
   "theorems": [
    "C58_nothing_else_changes"
   ],
   "note": ""
  },
  {
   "property": "C59",
   "status": "partial",
   "theorems": [
    "C59_copy_options_refuted",
    "C59_inputs_copied"
   ],
   "note": "False of the code: the settings of a copy never depend on the original."
  },
  {
   "property": "C25",
   "status": "partial",
   "theorems": [
    "C25_values_and_unit_kept",
    "C25_nothing_else_accepted_partial",
    "C25_mixed_units_rejected",
    "C25_null_rejected",
    "C25_distribute_partial",
    "C25_measure",
    "C25_values_dropped_refuted",
    "C25_not_numbers_refuted",
    "C25_numerical_string_refuted",
    "C25_spelling_refuted",
    "C25_distribute_lost_refuted",
    "C25_distribute_mixed_refuted"
   ],
   "note": "The documented forms are parsed exactly, at any nesting depth; the converse holds for regular input only, and six ways in which the code departs from the property are refutations."
  },
  {
   "property": "C60",
   "status": "partial",
   "theorems": [
    "C60_meaningful_is_measurable_partial",
    "C60_measurable_is_parsed_partial",
    "C60_empty_refuted",
    "C60_strings_refuted",
    "C60_type_error_refuted"
   ],
   "note": "Agreement holds without numerical strings; the other cases are refuted."
  },
  {
   "property": "C30",
   "status": "partial",
   "theorems": [
    "C30_symbols",
    "C30_symbols_missing",
    "C30_symbols_only",
    "C30_points",
    "C30_points_missing",
    "C30_coordinates",
    "C30_coordinates_missing",
    "C30_coordinates_unit",
    "C30_coordinates_side_partial",
    "C30_integers_partial",
    "C30_no_such_side_refuted",
    "C30_normalised_refuted",
    "C30_points_slice_refuted",
    "C30_subscript_range"
   ],
   "note": "Look-ups by symbol, point and coordinate are characterised exactly; the claim about slices and negative integers, and requests beyond the ends with closest=, are refuted."
  },
  {
   "property": "C31",
   "status": "partial",
   "theorems": [
    "C31_permute_by_name",
    "C31_permute_by_name_accepts",
    "C31_permute_by_index",
    "C31_permute_by_index_accepts",
    "C31_insert_keeps",
    "C31_insert_index_partial",
    "C31_insert_last",
    "C31_without",
    "C31_without_raises",
    "C31_extract",
    "C31_extract_raises",
    "C31_replace",
    "C31_replace_named_partial",
    "C31_replace_raises",
    "C31_merge",
    "C31_merge_raises",
    "C31_repeats_refuted",
    "C31_insert_swapped_refuted",
    "C31_insert_dropped_refuted",
    "C31_replace_collision_refuted",
    "C31_refused",
    "C31_by_position"
   ],
   "note": "before and after are swapped in insert (refuted for all axes); out-of-range locations drop the new axis; renaming onto another axis loses it; the rest holds."
  },
  {
   "property": "C61",
   "status": "partial",
   "theorems": [
    "C61_names_and_axes_partial",
    "C61_default_names",
    "C61_shape_partial",
    "C61_count",
    "C61_repeated_names_refuted"
   ],
   "note": "Holds for distinct names; repeated names lose axes."
  },
  {
   "property": "C62",
   "status": "partial",
   "theorems": [
    "C62_members",
    "C62_indices_partial",
    "C62_negative_slice_refuted",
    "C62_part_of_part_refuted"
   ],
   "note": "Holds for subscripts that do not count from the end, relative to the immediate parent axis."
  },
  {
   "property": "C23",
   "status": "proved",
   "theorems": [
    "C23_dimension_total",
    "C23_product",
    "C23_quotient",
    "C23_power",
    "C23_equal_units",
    "C23_product_size",
    "C23_quotient_size",
    "C23_power_size",
    "C23_zero_power_refuted",
    "C23_lux_refuted",
    "C23_gaussian_size_refuted",
    "C23_dimension_lost_refuted",
    "C23_reciprocal",
    "C23_reciprocal_size"
   ],
   "note": "Units over the package's own tables with half-integer exponents; powers are half-integers within 100. Refuted corners: power 0, the lux, sizes of products with Gaussian units and the farad, a dimension lost in a system."
  },
  {
   "property": "C26",
   "status": "proved",
   "theorems": [
    "C26_withunit_preserves",
    "C26_withunit_exactly_when",
    "C26_round_trip",
    "C26_chain"
   ],
   "note": "For scalars, vectors and tensors over any units whose conversion factors are ratios of sizes (hypothesis measures; C21/C22 say for which actual units this holds). Exact arithmetic."
  },
  {
   "property": "C27",
   "status": "partial",
   "theorems": [
    "C27_values_shown",
    "C27_exactly_when",
    "C27_first_conversion_partial",
    "C27_conversion_law",
    "C27_second_conversion_refuted"
   ],
   "note": "A single conversion preserves the quantity. The code forgets the previous scale, so a second conversion is proved wrong at every non-zero element."
  },
  {
   "property": "C28",
   "status": "partial",
   "theorems": [
    "C28_sum",
    "C28_sum_arrays",
    "C28_sum_units_differ",
    "C28_number_has_no_unit",
    "C28_sum_array_scalar",
    "C28_product",
    "C28_product_arrays",
    "C28_product_number",
    "C28_product_array_scalar",
    "C28_sum_representation",
    "C28_product_representation",
    "C28_comparison",
    "C28_comparison_arrays",
    "C28_comparison_array_scalar",
    "C28_equality",
    "C28_equality_sound",
    "C28_equality_arrays",
    "C28_equality_mixed",
    "C28_equality_other",
    "C28_power",
    "C28_power_array",
    "C28_remainder_refuted",
    "C28_number_comparison_refuted",
    "C28_unary",
    "C28_unary_amount",
    "C28_sum_number",
    "C28_sum_number_array",
    "C28_product_number_object",
    "C28_comparison_number",
    "C28_comparison_number_refuted",
    "C28_other_operands",
    "C28_exponents"
   ],
   "note": "Sums, products, quotients, powers and comparisons of measured operands are sound. Refuted: the unit of a remainder; comparison with a plain number ignores the unit."
  },
  {
   "property": "C29",
   "status": "partial",
   "theorems": [
    "C29_sum",
    "C29_product",
    "C29_product_partial",
    "C29_elementwise",
    "C29_product_refuted",
    "C29_tensor_sum_refuted",
    "C29_factory_refuted"
   ],
   "note": "Sums always; products exactly when no axis of the right operand is shorter than its counterpart (iff). Refuted for one-element right operands, for tensors broadcast to an array, and for the factory, which does not compare lengths."
  },
  {
   "property": "C56",
   "status": "partial",
   "theorems": [
    "C56_transpose_partial",
    "C56_transpose_by_axes_partial",
    "C56_converted_refuted",
    "C56_transpose_nothing"
   ],
   "note": "Exactly when the array has not been converted (scale 1) or the value is 0; after a conversion the transposed values are proved wrong."
  },
  {
   "property": "C63",
   "status": "partial",
   "theorems": [
    "C63_part_partial",
    "C63_missing_subscript_refuted"
   ],
   "note": "One subscript per axis, in the cases covered by C16 (integers and in-range slices, or index lists with whole slices)."
  },
  {
   "property": "C32",
   "status": "partial",
   "theorems": [
    "C32_line",
    "C32_marker_order",
    "C32_lines",
    "C32_file",
    "C32_missing",
    "C32_clean",
    "C32_round_trip",
    "C32_blank_and_comment_lines_refuted",
    "C32_ignored_blank_refuted",
    "C32_marker_order_refuted",
    "C32_empty_mark"
   ],
   "note": "Exact characterisation of every line and file, for one-character comment markers, all newline conventions, all texts. Refuted corners: a line of blanks only, or with blanks before the comment marker, is rejected instead of ignored; the order of multi-character markers matters."
  },
  {
   "property": "C33",
   "status": "partial",
   "theorems": [
    "C33_missing",
    "C33_compare",
    "C33_path",
    "C33_differences",
    "C33_exactly_the_differences_refuted",
    "C33_path_like_refuted"
   ],
   "note": "diff lists exactly the missing parameters and compare all parameters with both values; the differences are exactly the entries of compare with two different values. Neither method alone returns exactly the differences (refuted); path arguments fail without comment markers (refuted)."
  },
  {
   "property": "C34",
   "status": "partial",
   "theorems": [
    "C34_numbers",
    "C34_constants",
    "C34_arithmetic_partial",
    "C34_one_value",
    "C34_strings",
    "C34_lists",
    "C34_member_list",
    "C34_fuel",
    "C34_shipped_tables_ok",
    "C34_shipped",
    "C34_circular",
    "C34_zero_refuted",
    "C34_sums_refuted",
    "C34_constants_refuted"
   ],
   "note": "Every definition built from numerals, references, constants, two-term sums and differences and products of integral powers, except literal zeros and vanishing sums inside a definition and products with vanishing factors; all defaults of the shipped table evaluate. Refuted: zeros in sums, sums of three terms, exponents with a minus sign, zero or unknown factors in constants."
  },
  {
   "property": "C35",
   "status": "partial",
   "theorems": [
    "C35_exists",
    "C35_value",
    "C35_conversion",
    "C35_list_conversion",
    "C35_unknown",
    "C35_known_only",
    "C35_units",
    "C35_shipped_usable",
    "C35_shipped_interface",
    "C35_local_refuted",
    "C35_alias_setting_refuted"
   ],
   "note": "Proved for every parameter of the reference table and every alias. Refuted: the package's own parameter minimum_energy cannot be set; settings under an alias are ignored."
  },
  {
   "property": "C64",
   "status": "partial",
   "theorems": [
    "C64_partial",
    "C64_same_for_all_settings_refuted",
    "C64_defaults_follow_settings_refuted"
   ],
   "note": "Proved for definitions that can be computed without the parameters that the user set. Refuted, and thus missing: a parameter that is not set has the same value whatever the user sets (C64_same_for_all_settings_refuted, for all tables; C64_defaults_follow_settings_refuted, for the shipped tables)."
  },
  {
   "property": "C41",
   "status": "partial",
   "theorems": [
    "C41_rounding",
    "C41_accepts",
    "C41_rejects",
    "C41_species",
    "C41_by_symbol",
    "C41_lists",
    "C41_lengths",
    "C41_look_up_again_partial",
    "C41_look_up_again_refuted",
    "C41_charge_refuted"
   ],
   "note": "Proved for every mass and charge, except that looking the symbol up again by its table mass fails for exactly five elements (Ca is read back as Ar, Co as Ni, Po as Bi, Cm as Bk, Db as Bh) and that non-integral charges are truncated when the name is built."
  },
  {
   "property": "C42",
   "status": "partial",
   "theorems": [
    "C42_success",
    "C42_other_exceptions",
    "C42_registered_partial",
    "C42_subclasses_refuted",
    "C42_arrays_refuted",
    "C42_convert",
    "C42_convert_nested"
   ],
   "note": "Proved for every callable outcome, registration history and class hierarchy; refuted for Wrapper: an exception of a class derived from a registered one surfaces as a KeyError about the wrapper's own table, and arrays cannot be substitutes. The decorator convert is correct in all cases."
  },
  {
   "property": "C51",
   "status": "partial",
   "theorems": [
    "C51_instances",
    "C51_no_path",
    "C51_failed_construction",
    "C51_singletons",
    "C51_singleton_class",
    "C51_sentinel_partial",
    "C51_sentinel_truth",
    "C51_shipped_sentinels",
    "C51_classes_refuted",
    "C51_spelling_refuted",
    "C51_derived_refuted",
    "C51_diamond_refuted",
    "C51_sentinel_twice_refuted",
    "C51_sentinel_confused_refuted"
   ],
   "note": "Proved over all histories for path-keyed instances and for singletons with single inheritance. Refuted: two classes sharing the metaclass share instances; a string and a Path of the same text are different keys; a derived singleton class may hand out its parent's instance; requesting a sentinel twice gives two objects; a sentinel whose value is another sentinel's name is that sentinel."
  },
  {
   "property": "C65",
   "status": "partial",
   "theorems": [
    "C65_join",
    "C65_join_form",
    "C65_apply",
    "C65_allisinstance",
    "C65_widest",
    "C65_isnull",
    "C65_strargs",
    "C65_join_empty_refuted",
    "C65_no_sentinel"
   ],
   "note": "Proved for all inputs; refuted only for joining an empty list, which is an IndexError."
  },
  {
   "property": "C43",
   "status": "partial",
   "theorems": [
    "C43_found",
    "C43_not_found",
    "C43_stream",
    "C43_stream_only",
    "C43_stream_missing",
    "C43_point",
    "C43_point_name",
    "C43_distinct",
    "C43_id",
    "C43_roundtrip",
    "C43_streams",
    "C43_number",
    "C43_number_unique",
    "C43_stream_names",
    "C43_point_names",
    "C43_observer_number",
    "C43_config_default",
    "C43_config_guess",
    "C43_config_named",
    "C43_view",
    "C43_order_refuted",
    "C43_success_order_refuted",
    "C43_wildcard_refuted",
    "C43_point_id_refuted",
    "C43_stray_file_refuted",
    "C43_lost_file_refuted",
    "C43_config_path_refuted",
    "C43_text_number",
    "C43_text_not_number",
    "C43_point_text",
    "C43_point_text_first",
    "C43_observer_text",
    "C43_other_ids",
    "C43_source",
    "C43_config_text",
    "C43_config_object_refuted",
    "C43_extension",
    "C43_viewable",
    "C43_points",
    "C43_observers",
    "C43_dataset",
    "C43_point_key_refuted"
   ],
   "note": "Proved for every directory listing, id and iteration order of the prefix sets. Refuted: with several kinds of files for one stream the file opened (and success) depends on the order of a Python set; names with wildcards match other files; ids of named points are truncated by lstrip, so that different points collide; one stray file makes all streams unavailable; a bare configuration name given as a Path is looked up in the current directory."
  },
  {
   "property": "C44",
   "status": "partial",
   "theorems": [
    "C44_observation_unit",
    "C44_too_many_subscripts",
    "C44_sum_exactly_when",
    "C44_sum",
    "C44_sum_observed",
    "C44_product_exactly_when",
    "C44_product",
    "C44_withunit",
    "C44_power_refuted",
    "C44_symbolic_keys_refuted",
    "C44_ellipsis",
    "C44_single_subscript",
    "C44_bare_ellipsis",
    "C44_wrong_number",
    "C44_two_ellipses",
    "C44_idle_ellipsis",
    "C44_names"
   ],
   "note": "Sums, differences, products, quotients and unit conversions for every pair of observables whose operators yield unconverted arrays and look only at their own dimensions, every dataset and every constraint. Refuted: every observation of a power raises, and therefore every look-up by a symbolic expression."
  },
  {
   "property": "C66",
   "status": "partial",
   "theorems": [
    "C66_observation",
    "C66_indices",
    "C66_slices",
    "C66_coordinates",
    "C66_names",
    "C66_unknown_name",
    "C66_assumed",
    "C66_shells",
    "C66_radius",
    "C66_plain_number_refuted",
    "C66_no_such_shell_refuted"
   ],
   "note": "Proved for every dataset and combination of constraints. Refuted: a shell number that does not exist selects every shell; a plain number off the axis raises although a plain number on the axis is accepted."
  },
  {
   "property": "C46",
   "status": "partial",
   "theorems": [
    "C46_value",
    "C46_exactly_when",
    "C46_nodes",
    "C46_between",
    "C46_between_neighbours",
    "C46_lines",
    "C46_order",
    "C46_time",
    "C46_time_exactly_when",
    "C46_radius",
    "C46_radius_exactly_when",
    "C46_own_radius",
    "C46_observed_at_times",
    "C46_empty_indices",
    "C46_observed_when",
    "C46_observed_at_radii",
    "C46_radius_on_grid_refuted",
    "C46_end_points_refuted",
    "C46_other_times_refuted",
    "C46_time_and_radius_refuted"
   ],
   "note": "Proved for every axis, grid of radii, table of values and list of targets, over time or over radius. Refuted: a radius that is a node of the grid at any time raises; the end points of the axis are refused next to a value off the axis; a radius outside the grid at any time raises although that time is not asked for; interpolating over time and radius together uses the radii of the first stored times, so that the result is not at the radius asked for."
  },
  {
   "property": "C45",
   "status": "partial",
   "theorems": [
    "C45_cartesian",
    "C45_magnitude",
    "C45_parallel",
    "C45_angle_clamped",
    "C45_angle",
    "C45_rigidity",
    "C45_mfp",
    "C45_mfp_reference",
    "C45_diffusion",
    "C45_acceleration",
    "C45_uniform_flow",
    "C45_flux",
    "C45_flux_back",
    "C45_isotropic",
    "C45_divu_linear",
    "C45_divu_quadratic",
    "C45_average_energy",
    "C45_fluence",
    "C45_fluence_steps",
    "C45_fluence_constant",
    "C45_fluence_grows",
    "C45_no_field_refuted",
    "C45_empty_distribution_refuted",
    "C45_angle_axes_refuted"
   ],
   "note": "Entry by entry over the real numbers, with infinities and NaN, without rounding, for every value. Refuted: without a magnetic field the parallel and perpendicular velocity and the angle are NaN; the average energy of an empty distribution is NaN. the observed angle carries the axes of the whole dataset whatever is asked for (C45_angle_axes_refuted)."
  },
  {
   "property": "C47",
   "status": "partial",
   "theorems": [
    "C47_nodes",
    "C47_unique",
    "C47_stored",
    "C47_below",
    "C47_beyond",
    "C47_power_laws",
    "C47_between",
    "C47_integral",
    "C47_zero_flux_refuted",
    "C47_one_zero_refuted",
    "C47_no_minimum_refuted"
   ],
   "note": "Proved for every increasing positive energy grid, spectrum, minimum and rule of integration. Refuted: zero fluxes around the minimum make the result NaN; without a minimum the result is the flux below each energy, from the lowest one."
  },
  {
   "property": "C67",
   "status": "partial",
   "theorems": [
    "C67_trig_radians",
    "C67_trig_units",
    "C67_degrees_refuted",
    "C67_sqrt",
    "C67_log",
    "C67_sum_mean",
    "C67_sum_all",
    "C67_sum_objects",
    "C67_keepdims_refuted",
    "C67_axis_none_refuted",
    "C67_extreme_objects",
    "C67_extreme_arrays_refuted",
    "C67_squeeze",
    "C67_cumsum",
    "C67_cumsum_all",
    "C67_transpose",
    "C67_transpose_axes_refuted",
    "C67_trapz_partial",
    "C67_trapz_unit_refuted",
    "C67_power_refuted",
    "C67_gradient_line",
    "C67_gradient_parabola",
    "C67_gradient",
    "C67_gradient_amounts",
    "C67_gradient_refused",
    "C67_squeeze_objects",
    "C67_reduce_objects",
    "C67_reduce_objects_refused",
    "C67_cumsum_objects",
    "C67_transpose_objects",
    "C67_gradient_objects",
    "C67_gradient_objects_refused",
    "C67_not_registered"
   ],
   "note": "Proved for arrays of every shape and for the other objects, in exact rational numbers. Refused besides: reductions of the only axis of a vector or tensor without keepdims, and an explicit axis=None, raise TypeError. Refuted: degrees are not converted to radians; no array has a minimum or maximum (TypeError); an explicit axis=None fails for arrays; keepdims=True keeps the whole axis beside data of length one; numpy.transpose(x, axes=...) reverses the data but permutes the axes; numpy.power drops the unit; integrals ignore the unit of the integration variable."
  },
  {
   "property": "C68",
   "status": "partial",
   "theorems": [
    "C68_run_configuration",
    "C68_custom_inputs_refuted",
    "C68_custom_config_refuted",
    "C68_programs"
   ],
   "note": "Holds for the directory called inputs in the root, in every branch, whatever else is on the disk. Refuted for a project with another inputs directory (its files are ignored) and for one with another name of the configuration file (the command still reads eprem.cfg)."
  },
  {
   "property": "C69",
   "status": "partial",
   "theorems": [
    "C69_normal_form",
    "C69_same_quantity",
    "C69_idempotent",
    "C69_dimension",
    "C69_cancelling_refuted",
    "C69_dimension_refuted"
   ],
   "note": "Holds for every product of powers of defined units (halves and integers of moderate size, outside the lux) whose quantities do not cancel; the dimension is kept when every unit is allowed in the system. Refuted: a ratio of two units of one quantity has no normal form (RecursionError), and a unit that is not allowed in the system changes dimension (the gauss becomes the tesla)."
  },
  {
   "property": "C70",
   "status": "partial",
   "theorems": [
    "C70_singletons",
    "C70_named",
    "C70_answered",
    "C70_quantities",
    "C70_unit_of_quantity",
    "C70_unit_of_dimension",
    "C70_no_unit_of_dimension",
    "C70_unit_first",
    "C70_nothing",
    "C70_equivalent",
    "C70_values",
    "C70_unknown_refuted",
    "C70_text_dimension_refuted",
    "C70_faulty_refuted",
    "C70_empty"
   ],
   "note": "Holds for every history, name and dimension object outside four faulty MKS table entries (impedance, resistance, resistivity: the ohm cannot be written; permittivity: I instead of I^2). Refuted: unknown names give RecursionError, not a key error; dimensions given as strings are compared as text; the values of the MKS system cannot be listed."
  },
  {
   "property": "C71",
   "status": "partial",
   "theorems": [
    "C71_size",
    "C71_reducible",
    "C71_charge_refuted",
    "C71_gauss_refuted"
   ],
   "note": "Proved for every name in the tables outside the Gaussian electromagnetic families, the farad and the lux. Refuted: the elementary charge and the lux cannot be reduced (SystemAmbiguityError, KeyError), and the reduced gauss has another size than the gauss."
  },
  {
   "property": "C72",
   "status": "proved",
   "theorems": [
    "C72_order",
    "C72_equal"
   ],
   "note": "For any equality test of single axes."
  },
  {
   "property": "C73",
   "status": "partial",
   "theorems": [
    "C73_equivalent",
    "C73_counts",
    "C73_answers",
    "C73_consistent",
    "C73_inconsistent",
    "C73_dimensionless",
    "C73_consistent_reasons",
    "C73_angle_refuted",
    "C73_hertz_refuted"
   ],
   "note": "Equal sizes and dimensions are proved for every way to be equivalent except the conversion factor alone (proper units, halves and integers of moderate size). Refuted with the actual conversions: deg/s & rad/s is true; Hz | s^-1 is true although the conversion raises."
  },
  {
   "property": "C74",
   "status": "partial",
   "theorems": [
    "C74_history",
    "C74_quantity",
    "C74_units",
    "C74_ambiguous",
    "C74_normal_form",
    "C74_mass_number",
    "C74_sizes",
    "C74_second_refuted",
    "C74_mass_per_number_refuted",
    "C74_other_errors_refuted"
   ],
   "note": "The factor is proved where the table of conversions connects the two unit strings (C21 treats the rest). Refuted: the second is ambiguous in both systems; a mass per number is not converted to its normal form (its quantity is printed as \"mass number^-1\" and read back as the inverse of a mass number); lumen and quotients such as m/cm raise errors of other types."
  },
  {
   "property": "C75",
   "status": "proved",
   "theorems": [
    "C75_table",
    "C75_unchanged",
    "C75_denominator",
    "C75_twice",
    "C75_table_units",
    "C75_meaning_refuted"
   ],
   "note": "The refuted theorem records what the rule does to fractional exponents, repeated divisions and variables without a unit."
  },
  {
   "property": "C76",
   "status": "proved",
   "theorems": [
    "C76_arrays_view",
    "C76_scalars_view",
    "C76_sizes",
    "C76_units",
    "C76_viewer",
    "C76_array",
    "C76_missing",
    "C76_no_unit",
    "C76_properties",
    "C76_mass_charge",
    "C76_squeezed",
    "C76_grid",
    "C76_distribution",
    "C76_coordinate_axes",
    "C76_shell_axis",
    "C76_species_axis",
    "C76_energy_axis",
    "C76_no_axis",
    "C76_axis_length",
    "C76_eprem",
    "C76_eprem_distribution",
    "C76_eprem_mass_charge",
    "C76_system_units",
    "C76_eprem_axes",
    "C76_energies_refuted",
    "C76_both_refuted",
    "C76_ambiguous_refuted",
    "C76_shells",
    "C76_unit_text"
   ],
   "note": "First for any units and conversions, then with the actual tables for the units EPREM writes, after any history of conversions. Refuted theorems: the energy axis of files with several species has the number of species as its length, and has no length for one species and one energy; in a file with both, f is None although hasdist is true; speeds in cm/s and times in s cannot be read in mks."
  },
  {
   "property": "C77",
   "status": "proved",
   "theorems": [
    "C77_constant_line",
    "C77_parameter_line",
    "C77_array_line",
    "C77_constants",
    "C77_lines",
    "C77_order",
    "C77_constants_written",
    "C77_parameters",
    "C77_definitions",
    "C77_loadable",
    "C77_files",
    "C77_reference",
    "C77_default",
    "C77_end_to_end",
    "C77_todict",
    "C77_other_characters",
    "C77_line_comments",
    "C77_trailing_comment_refuted",
    "C77_block_comment_refuted",
    "C77_nested_commas_refuted",
    "C77_arrays_refuted",
    "C77_full_unknown_refuted",
    "C77_full"
   ],
   "note": "Each line pattern is characterised by an equivalence with a written form. Refuted theorems record limits: a comment after a constant becomes part of its value or hides the constant, lines inside block comments are read, arguments with commas are torn apart, arrays with several or negative elements are not recognized, get(format=\"full\") raises for unknown names."
  },
  {
   "property": "C78",
   "status": "proved",
   "theorems": [
    "C78_refuses_units",
    "C78_from_numbers",
    "C78_shapes",
    "C78_keeps",
    "C78_fails",
    "C78_chain",
    "C78_measure",
    "C78_scalar_of_table",
    "C78_subscripts",
    "C78_sequence_subscripts",
    "C78_index",
    "C78_variable_index",
    "C78_variable_slice",
    "C78_iteration",
    "C78_sequence_iteration",
    "C78_casts",
    "C78_int",
    "C78_rounding",
    "C78_withunit",
    "C78_withunit_float",
    "C78_unit_lost_refuted",
    "C78_sequence_of_scalar_refuted",
    "C78_value_of_table_refuted",
    "C78_ellipsis_refuted",
    "C78_variable_wraps_refuted",
    "C78_variable_cast_refuted",
    "C78_complex_refuted",
    "C78_ellipsis",
    "C78_ellipsis_fails",
    "C78_round_digits_refuted"
   ],
   "note": "Refuted: scalars made from vectors, sequences, measurements or variables, vectors and variables made from plain sequences, and tensors made from vectors lose the unit; a sequence made from a scalar cannot be used; a value made from a (1,1) table holds an array; x[..., i] of a vector raises; an index of a variable wraps around once too often; float() of a variable takes the first of many numbers; complex() of a scalar always raises."
  },
  {
   "property": "C79",
   "status": "proved",
   "theorems": [
    "C79_files",
    "C79_single_label",
    "C79_missing_file",
    "C79_no_files",
    "C79_groups",
    "C79_exists",
    "C79_table",
    "C79_run",
    "C79_generate",
    "C79_generate_numbers",
    "C79_generate_texts",
    "C79_generate_shipped",
    "C79_no_difference_refuted",
    "C79_once_refuted",
    "C79_explicit_default_refuted",
    "C79_source_defaults_refuted",
    "C79_new_parameter_refuted",
    "C79_long_values_refuted",
    "C79_generate_lists_refuted",
    "C79_generate_none_refuted",
    "C79_display",
    "C79_display_differs",
    "C79_written_list"
   ],
   "note": "The table has equally long lines for values of at most 76 characters. Refuted: --diff on files that agree ends with StopIteration; without --diff every parameter is also printed as an empty group; a value set to its default counts as different; with --source the defaults are those of the package and new parameters raise; long values touch their labels; in a generated file seven one-element lists with units and the missing default of numNodesPerStream come back as texts."
  },
  {
   "property": "C80",
   "status": "partial",
   "theorems": [
    "C80_freeze",
    "C80_freeze_exists",
    "C80_call",
    "C80_callgroup",
    "C80_generate",
    "C80_resolve",
    "C80_methods",
    "C80_generate_all_refuted",
    "C80_generate_excluded_refuted",
    "C80_callgroup_single_refuted",
    "C80_resolve_group_refuted",
    "C80_callgroup_plain_refuted",
    "C80_methods_misused",
    "C80_groups",
    "C80_method_names"
   ],
   "note": "For arbitrary meanings of the operators. Refuted, and thus missing: generate without names also yields the tuples of the groups and ignores the exclusions; excluding an alias or a group excludes nothing; calling the groups cast or math with one argument raises; the name of a group resolves to a tuple also when strict; collections made from plain mappings have no group calls."
  },
  {
   "property": "C81",
   "status": "partial",
   "theorems": [
    "C81_compare_order",
    "C81_binary_order",
    "C81_unary_unknown",
    "C81_numpy_entry_refuted",
    "C81_power",
    "C81_physical_refused",
    "C81_registered",
    "C81_functions",
    "C81_implements_fails",
    "C81_isolated",
    "C81_binary",
    "C81_unary",
    "C81_compare",
    "C81_ufunc",
    "C81_ufunc_refused",
    "C81_ufunc_registered",
    "C81_numpy_alias_refuted",
    "C81_shared_refuted",
    "C81_ufunc_second_refuted",
    "C81_ufunc_outer_refuted",
    "C81_physical_units_refuted"
   ],
   "note": "Refuted, and thus missing: a numpy function of two different arrays, if it is not a registered one, uses the data of the first twice (numpy.subtract(x, y) is zero); numpy.multiply.outer is the elementwise product; numpy functions of physical objects ignore units; a class without a collection of its own registers for its base class; an implementation of numpy.add is not an implementation of +, and asking for it by function raises KeyError."
  },
  {
   "property": "C82",
   "status": "proved",
   "theorems": [
    "C82_register_guard",
    "C82_strict",
    "C82_strict_mixed",
    "C82_spawn",
    "C82_base",
    "C82_returns_refuted",
    "C82_annotation_refuted"
   ],
   "note": "Refuted theorems record: returns(cls, strict=False) does not remove the restriction; a factory whose return annotation is not a class (a text or a union) cannot be called."
  },
  {
   "property": "C83",
   "status": "partial",
   "theorems": [
    "C83_load_nothing",
    "C83_suffix",
    "C83_open",
    "C83_mapping",
    "C83_create",
    "C83_create_refused",
    "C83_move",
    "C83_move_unknown",
    "C83_remove",
    "C83_append",
    "C83_append_unknown",
    "C83_refused",
    "C83_damaged",
    "C83_load_types",
    "C83_load",
    "C83_load_yaml",
    "C83_move_overwrites_refuted",
    "C83_unwritable_refuted",
    "C83_load_refuted"
   ],
   "note": "Proved for every contents of the file and request. Refuted, and thus missing: a value that JSON cannot represent empties the whole log; moving onto an existing record loses it; a record loaded from a file also repeats every record of the log."
  },
  {
   "property": "C84",
   "status": "partial",
   "theorems": [
    "C84_runs",
    "C84_runs_in_branches",
    "C84_branches",
    "C84_show",
    "C84_show_star",
    "C84_reset",
    "C84_remove",
    "C84_valid",
    "C84_name",
    "C84_file_listed_refuted",
    "C84_name_refuted",
    "C84_equality_refuted"
   ],
   "note": "Refuted, and thus missing: plain files are listed as runs (and shown at a path outside every branch); the name is stale after rename if it was asked before; two objects for the same project are never equal."
  },
  {
   "property": "C85",
   "status": "partial",
   "theorems": [
    "C85_cgs_unity",
    "C85_pi",
    "C85_units",
    "C85_same_quantity_partial",
    "C85_radiation_refuted",
    "C85_charge_refuted",
    "C85_permittivity_refuted",
    "C85_permeability_refuted",
    "C85_names",
    "C85_unknown",
    "C85_derived"
   ],
   "note": "Proved for all constants of mechanics and heat but one. Refuted, and thus missing: the first radiation constant has the MKS number in both systems; the elementary charge converted from C to statC is 100 times the CGS value (the table of conversions uses the speed of light in cm/s where m/s is meant); the permittivity disagrees by a factor of 4 pi; the permeability cannot be converted."
  },
  {
   "property": "C86",
   "status": "partial",
   "theorems": [
    "C86_one_view_per_path",
    "C86_missing",
    "C86_first_read",
    "C86_stable",
    "C86_one_file",
    "C86_failed_open",
    "C86_by_name",
    "C86_first_hint_refuted",
    "C86_replaced_refuted"
   ],
   "note": "Proved as stated, for every history. Partial because a user also expects a request to honour its hint and to show the current file; both are refuted: the hint of the first request counts, and a file replaced after it was read is never seen. Files that are written to while open are not modelled."
  },
  {
   "property": "C87",
   "status": "partial",
   "theorems": [
    "C87_given_aliases",
    "C87_interior_aliases",
    "C87_interior_refused",
    "C87_merge_aliased",
    "C87_fromkeys",
    "C87_fromkeys_mapping",
    "C87_equality",
    "C87_equality_plain",
    "C87_equality_refuted",
    "C87_squeeze",
    "C87_squeeze_strict",
    "C87_squeeze_empty_refuted",
    "C87_alias",
    "C87_group_views",
    "C87_name_views",
    "C87_views_follow_refuted",
    "C87_freeze",
    "C87_freeze_groups"
   ],
   "note": "Proved for all mappings and all forms of aliases: construction, fromkeys, merging, equality of mappings without repeated names, squeeze, alias, freeze; views of groups after every history, views of names after assignments. Refuted: views of names do not follow deletions and new names; with a name in two groups equality is not symmetric; a strict squeeze of an empty mapping raises IndexError. Related keys (two keys of the mapping in one alias group) are covered by the soundness clauses only: the value is that of one of them."
  },
  {
   "property": "C88",
   "status": "partial",
   "theorems": [
    "C88_nothing_lost",
    "C88_script_text",
    "C88_template_refuted",
    "C88_create_refuted",
    "C88_left_behind",
    "C88_open_again_refuted",
    "C88_repaired"
   ],
   "note": "False of the code at this commit: the line \"import <module>\" that _setup_cli looks for is not in the template (it has only \"from . import ...\"), so list.index raises ValueError. Proved in general: creating a new project never succeeds (unless a directory of the project is itself called __main__.py); settings, log and run directories are left on the disk; every later attempt to open it fails and changes nothing; with a file __main__.py put there by hand the project opens and is exactly the one that was asked for. The theorems of C36, C40, C59 about new projects take the text of the script as a parameter, so they speak about that repaired project, and about the package with a template that has the line."
  },
  {
   "property": "C89",
   "status": "partial",
   "theorems": [
    "C89_paths",
    "C89_accepted",
    "C89_refused",
    "C89_nothing_else",
    "C89_script_mv",
    "C89_script_rm",
    "C89_script_run",
    "C89_reset",
    "C89_remove",
    "C89_rename",
    "C89_create",
    "C89_show_all",
    "C89_unknown_command",
    "C89_script_effects",
    "C89_script_run_effect",
    "C89_project_effects",
    "C89_configfile",
    "C89_version",
    "C89_branches_last_refuted",
    "C89_show_refuted",
    "C89_no_command_refuted",
    "C89_create_effect",
    "C89_create_command_refuted"
   ],
   "note": "Acceptance, settings and effects proved for every line over the documented option strings. Refuted, and thus missing: a name written after -b is taken for a branch and the line is refused; show -r run asks for the characters of the name (extend without nargs); no subcommand raises KeyError; create can never succeed (C88). Not modelled: abbreviations, --name=value, attached values, --, -h, negative numbers."
  },
  {
   "property": "C90",
   "status": "partial",
   "theorems": [
    "C90_search_found",
    "C90_search_none",
    "C90_search_fails",
    "C90_search_nowhere",
    "C90_search_absolute",
    "C90_search_skips_missing_refuted",
    "C90_template_found",
    "C90_template_none",
    "C90_template_missing",
    "C90_template_default",
    "C90_template_current_refuted",
    "C90_lines",
    "C90_lines_missing"
   ],
   "note": "Exact characterisation of every outcome. Refuted, and thus missing: a place that does not exist hides the places after it; the default directory of find_file_by_template is the one in which the package was imported. Not modelled: links, ~ and .. in paths."
  },
  {
   "property": "C91",
   "status": "partial",
   "theorems": [
    "C91_show",
    "C91_unprintable",
    "C91_no_names",
    "C91_empty_table_refuted",
    "C91_truth_values_refuted"
   ],
   "note": "Proved for texts and numbers (given by their printed texts). Refuted, and thus missing: None and lists are a TypeError (C91_unprintable), truth values are shown as 1 and 0, an empty table is an IndexError."
  },
  {
   "property": "C92",
   "status": "partial",
   "theorems": [
    "C92_one_quantity",
    "C92_one_parameter",
    "C92_shared",
    "C92_quantities",
    "C92_build",
    "C92_subsets",
    "C92_observables",
    "C92_arguments",
    "C92_parameters",
    "C92_shared_refuted"
   ],
   "note": "Proved for every text and list of names. Refuted, and thus missing: T names a parameter and the polar angle, so a value for the one is taken for the other (C92_shared shows that only mass, charge and T are shared, and C92_parameters that all other names of parameters keep their meaning). Not modelled: the tables UNITS and DIMENSIONS of reference.py."
  },
  {
   "property": "C93",
   "status": "partial",
   "theorems": [
    "C93_hastype",
    "C93_hastype_fails",
    "C93_strict",
    "C93_strict_refuted",
    "C93_find_first",
    "C93_distribute",
    "C93_wrapper",
    "C93_wrapper_equal",
    "C93_wrapper_order_refuted",
    "C93_wrapper_mixed_refuted",
    "C93_wrapper_text_refuted",
    "C93_help",
    "C93_no_help_refuted",
    "C93_phrase_case_refuted"
   ],
   "note": "Proved for every class and object, and for wrapped numbers or texts. Refuted, and thus missing: an empty collection passes the strict test of hastype only; distribute of two single objects is a TypeError (in C93_distribute); wrapped collections are compared without order, and with mixed members not at all; an object without documentation has the help None, an empty text as a phrase is an IndexError, and the phrase form lowers the first letter of names."
  },
  {
   "property": "C94",
   "status": "partial",
   "theorems": [
    "C94_partial",
    "C94_sets",
    "C94_text_refuted",
    "C94_number_refuted",
    "C94_term_number",
    "C94_named_text",
    "C94_unit_refuted",
    "C94_fraction_refuted",
    "C94_group_refuted"
   ],
   "note": "Proved for operators (and their texts), terms and expressions whose numbers are exact doubles, dimensions (and tuples), named units, groups of one name and sentinels, and for all sets made of objects of one class. Refuted, and thus missing: a term, expression, named unit or dimensions equal to a text or number is not found by it; units have no hash; terms whose different fractions have the same double, and groups iterated in different orders, are equal with different hashes."
  },
  {
   "property": "C95",
   "status": "proved",
   "theorems": [
    "C95_mirror",
    "C95_conversion",
    "C95_named",
    "C95_refused",
    "C95_reciprocal",
    "C95_self",
    "C95_agree"
   ],
   "note": "For every operand, every history and (except C95_agree, about the package tables) every table of units. Factors are exact numbers, not doubles."
  },
  {
   "property": "C96",
   "status": "proved",
   "theorems": [
    "C96_cartesian",
    "C96_magnitudes",
    "C96_components",
    "C96_angle"
   ],
   "note": "The stored quantities are any that yield arrays with the same axes when asked for the same, with angles in radians; conversions and products of units as proved in C21 to C23. Numbers are exact rationals, so a root is exact only where the theorem says so. The axes of an angle that is not observed everywhere are wrong (C45_angle_axes_refuted). That an observation of stored components succeeds is C66; that the formula can be computed is shown by the example only."
  },
  {
   "property": "C97",
   "status": "partial",
   "theorems": [
    "C97_parameters",
    "C97_constants",
    "C97_get",
    "C97_loaded",
    "C97_distinct",
    "C97_layout",
    "C97_default_refuted",
    "C97_parameters_default_refuted"
   ],
   "note": "Proved for mode full, for every table that C97_loaded (or C34, for the values of constants) describes. Refuted, and thus missing: without a mode constants are written as sets of one number (C97_default_refuted), and the type of a parameter is written as <class ...>, which no Python reader accepts (C97_parameters_default_refuted). The texts of numbers are a parameter (they are words); characters outside Latin-1 and the mode raw of the constants are not modelled."
  },
  {
   "property": "C98",
   "status": "partial",
   "theorems": [
    "C98_str_and_repr",
    "C98_no_text",
    "C98_own_methods",
    "C98_decorated",
    "C98_derived_refuted",
    "C98_recursion_refuted",
    "C98_apply"
   ],
   "note": "Proved for every order of method resolution. Refuted, and thus missing: str2repr shows only the name of a derived class, and a class whose own str shows its repr cannot be printed once decorated. The style numpy of autostr is not modelled."
  }
 ]
}