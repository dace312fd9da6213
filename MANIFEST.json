{
 "claims": [
  {
   "property": "C01",
   "status": "proved",
   "theorems": [
    "C01_write_then_load"
   ],
   "note": "At least one component; sizes below 2^63. The float encoding is any injective 8-byte encoding."
  },
  {
   "property": "C02",
   "status": "proved",
   "theorems": [
    "C02_documented_file",
    "C02_single_precision_refuted"
   ],
   "note": "Bounds of the same width as the data; the documented float64 bounds with float32 data are misread (C02_single_precision_refuted)."
  },
  {
   "property": "C03",
   "status": "proved",
   "theorems": [
    "C03_multi_range",
    "C03_tiling"
   ],
   "note": ""
  },
  {
   "property": "C04",
   "status": "proved",
   "theorems": [
    "C04_chunks_concatenate",
    "C04_rows_match_times",
    "C04_single_precision_refuted"
   ],
   "note": "Double precision; single precision is misread (C04_single_precision_refuted)."
  },
  {
   "property": "C05",
   "status": "proved",
   "theorems": [
    "C05_partial_is_slice"
   ],
   "note": "Type-1 files."
  },
  {
   "property": "C06",
   "status": "proved",
   "theorems": [
    "C06_partial_multi_range"
   ],
   "note": "Type-3 files."
  },
  {
   "property": "C07",
   "status": "proved",
   "theorems": [
    "C07_partial_grid"
   ],
   "note": "Exact rational arithmetic."
  },
  {
   "property": "C08",
   "status": "proved",
   "theorems": [
    "C08_slice_follows_python",
    "C08_index",
    "C08_stop_zero_means_end",
    "C08_negative_index_ignored",
    "C08_step_rejected",
    "C08_negative_start_refuted",
    "C08_stop_beyond_end_refuted"
   ],
   "note": "Departures from Python: C08_stop_zero_means_end, C08_negative_index_ignored, C08_negative_start_refuted, C08_stop_beyond_end_refuted."
  },
  {
   "property": "C09",
   "status": "proved",
   "theorems": [
    "C09_coordinate_cell",
    "C09_select_coordinate",
    "C09_points_beyond_end_refuted"
   ],
   "note": "Edge-centred grids. For point data a coordinate above the last point selects an empty block (C09_points_beyond_end_refuted)."
  },
  {
   "property": "C10",
   "status": "proved",
   "theorems": [
    "C10_select_block",
    "C10_negative_index_refuted",
    "C10_select_mapped",
    "C10_mapped_coordinate",
    "C10_mapped_open_slice_refuted"
   ],
   "note": "Rectilinear grids. Negative integer indices are outside the property: -1 selects nothing (C10_negative_index_refuted)."
  },
  {
   "property": "C11",
   "status": "proved",
   "theorems": [
    "C11_no_mutation",
    "C11_identity",
    "C11_composition",
    "C11_overwrite"
   ],
   "note": ""
  },
  {
   "property": "C12",
   "status": "proved",
   "theorems": [
    "C12_slice_text",
    "C12_slice_open",
    "C12_negative_stop",
    "C12_negative_stop_keeps_all",
    "C12_python_negative_stop_refuted",
    "C12_step_rejected",
    "C12_component_slice_open_rejected"
   ],
   "note": "C12_python_negative_stop_refuted shows the departure from Python slicing that the statement describes."
  },
  {
   "property": "C13",
   "status": "proved",
   "theorems": [
    "C13_metadata_matches_arrays",
    "C13_failed_push_keeps_old_bounds"
   ],
   "note": "From any state and after any history of pushes and assignments, including failed ones; also what a failed push leaves behind."
  },
  {
   "property": "C14",
   "status": "proved",
   "theorems": [
    "C14_rows_in_order",
    "C14_grid_replaced",
    "C14_point_data_fails",
    "C14_second_dump_fails"
   ],
   "note": "Rows proved for edge grids; the point-data and second-dump failures are proved for every dataset, not just a witness. Number formatting is an arbitrary function."
  },
  {
   "property": "C15",
   "status": "proved",
   "theorems": [
    "C15_squeezed_dims",
    "C15_after_push"
   ],
   "note": "Counted over cells with at least one cell per dimension."
  },
  {
   "property": "C16",
   "status": "proved",
   "theorems": [
    "C16_visits",
    "C16_enum",
    "C16_enum_with_select_rejected",
    "C16_unknown_tag_aborts",
    "C16_out_of_range_aborts",
    "C16_count",
    "C16_tags",
    "C16_integer_zero_refuted"
   ],
   "note": "The generator is modelled lazily (status and tag lists read when reached). Index strings are those written with decimal integers; int() of other spellings is outside."
  },
  {
   "property": "C17",
   "status": "proved",
   "theorems": [
    "C17_activate",
    "C17_activate_focused",
    "C17_deactivate",
    "C17_deactivate_focused",
    "C17_deactivate_focused_keeps_others_refuted"
   ],
   "note": ""
  },
  {
   "property": "C18",
   "status": "proved",
   "theorems": [
    "C18_never_lost",
    "C18_add",
    "C18_new_object"
   ],
   "note": "History = any list of add, activate, deactivate, label, command and pair-command operations that does not abort."
  },
  {
   "property": "C19",
   "status": "proved",
   "theorems": [
    "C19_labels",
    "C19_extension",
    "C19_none_active",
    "C19_different_lengths_refuted"
   ],
   "note": ""
  },
  {
   "property": "C20",
   "status": "proved",
   "theorems": [
    "C20_full_name",
    "C20_abbreviation",
    "C20_ambiguous",
    "C20_file",
    "C20_no_load",
    "C20_neither",
    "C20_queue"
   ],
   "note": "Words are looked up in any command table without duplicates; the registered table is an example."
  },
  {
   "property": "C21",
   "status": "proved",
   "theorems": [
    "C21_cuts",
    "C21_varnames",
    "C21_mapping_files",
    "C21_both_velocity_mappings",
    "C21_velocity_mapping_refuted"
   ],
   "note": ""
  },
  {
   "property": "C22",
   "status": "proved",
   "theorems": [
    "C22_exactly_once",
    "C22_frame_order",
    "C22_sorting_off",
    "C22_always_numeric_refuted",
    "C22_brackets_expanded_refuted"
   ],
   "note": "The glob result is arbitrary. Python's int() is restricted to signed ASCII digits."
  },
  {
   "property": "C23",
   "status": "proved",
   "theorems": [
    "C23_files_in_order",
    "C23_explicit_load_fails",
    "C23_every_variable_of_every_file"
   ],
   "note": "click's chain mode (resolve every word, then invoke) is modelled from its documentation."
  },
  {
   "property": "C24",
   "status": "proved",
   "theorems": [
    "C24_postfix",
    "C24_arithmetic",
    "C24_blanks"
   ],
   "note": "C24_postfix for any operator table, C24_arithmetic for the elementwise operators over exact rationals (sqrt, sin, ... and pow are arbitrary functions)."
  },
  {
   "property": "C25",
   "status": "proved",
   "theorems": [
    "C25_operator",
    "C25_succeeds",
    "C25_function_fails"
   ],
   "note": ""
  },
  {
   "property": "C26",
   "status": "proved",
   "theorems": [
    "C26_metadata",
    "C26_compared",
    "C26_nan_refuted",
    "C26_array_after_tuple",
    "C26_comparison_ok",
    "C26_order_refuted"
   ],
   "note": "C26_nan_refuted shows the exception named in the statement."
  },
  {
   "property": "C27",
   "status": "proved",
   "theorems": [
    "C27_new_tag",
    "C27_no_dataset",
    "C27_several",
    "C27_in_place",
    "C27_several_tags_refuted",
    "C27_inactive_refuted"
   ],
   "note": "C27_several_tags_refuted and C27_inactive_refuted show why the side conditions are needed."
  },
  {
   "property": "C28",
   "status": "proved",
   "theorems": [
    "C28_same_shape",
    "C28_constant",
    "C28_one_component",
    "C28_conf_phase",
    "C28_commutes",
    "C28_grid",
    "C28_add_conf_phase_refuted",
    "C28_mult_components_refuted"
   ],
   "note": "Exact rationals. Division by zero (inf/nan in numpy) is not modelled. C28_add_conf_phase_refuted: addition pairs trailing axes."
  },
  {
   "property": "C29",
   "status": "proved",
   "theorems": [
    "C29_one_tag",
    "C29_all_tags",
    "C29_stamp_is_time",
    "C29_no_time",
    "C29_nothing_active",
    "C29_shapes",
    "C29_time_zero_refuted",
    "C29_twice_refuted"
   ],
   "note": "collect.py modelled over exact rationals; np.argsort is an arbitrary function returning a sorting permutation. Time-zero datasets are not ordered by time, and collecting twice raises KeyError: C29_time_zero_refuted, C29_twice_refuted."
  },
  {
   "property": "C30",
   "status": "proved",
   "theorems": [
    "C30_chunks",
    "C30_negative_refuted"
   ],
   "note": "Positive chunk lengths; a negative one yields an empty dataset first (C30_negative_refuted)."
  },
  {
   "property": "C31",
   "status": "proved",
   "theorems": [
    "C31_value",
    "C31_every_point",
    "C31_local",
    "C31_one_point_fails",
    "C31_order_zero_refuted"
   ],
   "note": "All shapes, matrices and an abstract inner product (numpy's summation order is not fixed). n >= 2; with one point per cell the code fails (C31_one_point_fails), so order-zero data cannot be interpolated with the default (C31_order_zero_refuted)."
  },
  {
   "property": "C32",
   "status": "proved",
   "theorems": [
    "C32_uniform",
    "C32_mapped",
    "C32_interpolate",
    "C32_nonuniform_refuted"
   ],
   "note": "Exact rationals. int(round(rows**(1/d))) is an arbitrary function recovering exact powers. Non-uniform axes are refined as if uniform (C32_nonuniform_refuted)."
  },
  {
   "property": "C33",
   "status": "proved",
   "theorems": [
    "C33_modal",
    "C33_nodal",
    "C33_partition",
    "C33_out_of_range"
   ],
   "note": ""
  },
  {
   "property": "C34",
   "status": "proved",
   "theorems": [
    "C34_serendipity",
    "C34_maximal",
    "C34_tensor",
    "C34_tensor_refuted",
    "C34_order_zero_refuted",
    "C34_hybrid",
    "C34_errors",
    "C34_functions",
    "C34_functions_1d",
    "C34_gkhybrid_1d_refuted"
   ],
   "note": "Tables checked entry by entry against counts of exponent vectors; wrong entries: C34_tensor_refuted, C34_order_zero_refuted, C34_gkhybrid_1d_refuted."
  },
  {
   "property": "C35",
   "status": "proved",
   "theorems": [
    "C35_orthonormal",
    "C35_projection",
    "C35_mean",
    "C35_norm",
    "C35_independent",
    "C35_space"
   ],
   "note": "Tabulated decimals are exact rationals; the bound 1e-14 per entry is checked for every table and lifted to all coefficient vectors."
  },
  {
   "property": "C36",
   "status": "proved",
   "theorems": [
    "C36_interpolated_fields",
    "C36_points",
    "C36_nodes",
    "C36_interpolated_value",
    "C36_same_tables",
    "C36_pdiff",
    "C36_derivative",
    "C36_gradient",
    "C36_gradient_refuted",
    "C36_nonuniform_refuted"
   ],
   "note": "Real arithmetic. C36_gradient_refuted: the first component of differentiate(direction=None) lacks the factor 2; C36_nonuniform_refuted: widths of other cells than the first are ignored."
  },
  {
   "property": "C37",
   "status": "proved",
   "theorems": [
    "C37_recovered",
    "C37_faithful",
    "C37_guess",
    "C37_missing"
   ],
   "note": "Real arithmetic."
  },
  {
   "property": "C38",
   "status": "proved",
   "theorems": [
    "C38_recovered",
    "C38_tensor",
    "C38_tensor_refuted"
   ],
   "note": "Real arithmetic. C38_tensor_refuted: the tensor is refused for two cells by one cell."
  },
  {
   "property": "C39",
   "status": "proved",
   "theorems": [
    "C39_recovered",
    "C39_energy"
   ],
   "note": "Real arithmetic."
  },
  {
   "property": "C40",
   "status": "proved",
   "theorems": [
    "C40_decomposition",
    "C40_scale",
    "C40_gyrotropic",
    "C40_positive",
    "C40_moments"
   ],
   "note": "Real arithmetic."
  },
  {
   "property": "C41",
   "status": "proved",
   "theorems": [
    "C41_frobenius",
    "C41_equal",
    "C41_gyrotropic",
    "C41_names",
    "C41_choices",
    "C41_command_refuted"
   ],
   "note": "Real arithmetic. C41_command_refuted: the choice \"swidak\" of mom_agyro never works."
  },
  {
   "property": "C42",
   "status": "proved",
   "theorems": [
    "C42_projection",
    "C42_length",
    "C42_bparrotate",
    "C42_components",
    "C42_perp_refuted",
    "C42_command_refuted"
   ],
   "note": "Real arithmetic. C42_perp_refuted, C42_command_refuted: perprotate and the commands parrotate and perprotate always fail."
  },
  {
   "property": "C43",
   "status": "proved",
   "theorems": [
    "C43_value",
    "C43_others",
    "C43_axes",
    "C43_range",
    "C43_range_refuted",
    "C43_linear",
    "C43_one_by_one",
    "C43_constant",
    "C43_split",
    "C43_mismatch",
    "C43_no_axis",
    "C43_missing_axis",
    "C43_negative_refuted"
   ],
   "note": "axes named by negative numbers and by a range are refuted"
  },
  {
   "property": "C44",
   "status": "proved",
   "theorems": [
    "C44_magnitude",
    "C44_energetics",
    "C44_relchange",
    "C44_relchange_comp"
   ],
   "note": "Real arithmetic."
  },
  {
   "property": "C45",
   "status": "proved",
   "theorems": [
    "C45_name_of_number",
    "C45_number_of_name",
    "C45_domain",
    "C45_geometry",
    "C45_negative_refuted",
    "C45_mapc2p"
   ],
   "note": "negative numbers count from the end (refuted)"
  },
  {
   "property": "C46",
   "status": "proved",
   "theorems": [
    "C46_slice_text",
    "C46_special",
    "C46_list",
    "C46_one",
    "C46_slice",
    "C46_step",
    "C46_total",
    "C46_zero_step",
    "C46_refused",
    "C46_four",
    "C46_minus_one_refuted",
    "C46_balance_first_blocks",
    "C46_balance_single",
    "C46_balance_refuted",
    "C46_energy_first_blocks"
   ],
   "note": "the balance commands read the first blocks instead of the chosen ones (refuted); -1 means all blocks"
  },
  {
   "property": "C47",
   "status": "proved",
   "theorems": [
    "C47_default",
    "C47_rows",
    "C47_cols",
    "C47_not_positive",
    "C47_panels",
    "C47_again",
    "C47_refused",
    "C47_colour_bar_refuted",
    "C47_beyond",
    "C47_squeezed",
    "C47_pairs",
    "C47_subplots"
   ],
   "note": "a colour bar counts as a panel in a figure used again (refuted)"
  },
  {
   "property": "C48",
   "status": "proved",
   "theorems": [
    "C48_name_and_mode",
    "C48_all_written",
    "C48_one_tag_distinct",
    "C48_several_tags",
    "C48_single",
    "C48_several_tags_distinct_refuted",
    "C48_directory_kept_refuted"
   ],
   "note": ""
  },
  {
   "property": "C49",
   "status": "proved",
   "theorems": [
    "C49_traces",
    "C49_zero",
    "C49_relative",
    "C49_required",
    "C49_missing",
    "C49_no_block",
    "C49_file_option",
    "C49_shown_refuted"
   ],
   "note": "a source in a block other than the last is not shown (refuted); the file options never work"
  },
  {
   "property": "C50",
   "status": "proved",
   "theorems": [
    "C50_mesh",
    "C50_cell",
    "C50_interior",
    "C50_order_refuted",
    "C50_binary",
    "C50_rounding_refuted"
   ],
   "note": "first row and column are wrong for some orders of the blocks (refuted); rounding loses blocks of size 1/5 or 1/10 (refuted), for binary fractions the doubles are exact (C50_binary)"
  },
  {
   "property": "C51",
   "status": "proved",
   "theorems": [
    "C51_metadata",
    "C51_old_names_never_stored"
   ],
   "note": ""
  },
  {
   "property": "C52",
   "status": "proved",
   "theorems": [
    "C52_given_name",
    "C52_given_name_stable",
    "C52_extension_always_added_refuted",
    "C52_default_is_not_source",
    "C52_default_distinct_refuted",
    "C52_default_keeps_directory_refuted"
   ],
   "note": "Refutations show the exceptions named in the statement."
  },
  {
   "property": "C53",
   "status": "proved",
   "theorems": [
    "C53_in_place",
    "C53_in_place_error",
    "C53_new_tag",
    "C53_existing_tag_refuted"
   ],
   "note": "Covers the common loop shape shared by the dataset commands; the computation is arbitrary."
  },
  {
   "property": "C54",
   "status": "proved",
   "theorems": [
    "C54_pairs",
    "C54_iterators"
   ],
   "note": "Plain tags without commas; output tag different from both inputs."
  },
  {
   "property": "C55",
   "status": "proved",
   "theorems": [
    "C55_cardinal",
    "C55_exact",
    "C55_interpolated_value",
    "C55_errors"
   ],
   "note": ""
  },
  {
   "property": "C56",
   "status": "proved",
   "theorems": [
    "C56_node",
    "C56_continuous",
    "C56_grid",
    "C56_velocity"
   ],
   "note": ""
  },
  {
   "property": "C57",
   "status": "proved",
   "theorems": [
    "C57_sound",
    "C57_serendipity",
    "C57_tensor",
    "C57_refuted"
   ],
   "note": "Exceptions proved in C57_refuted."
  },
  {
   "property": "C58",
   "status": "proved",
   "theorems": [
    "C58_refuted"
   ],
   "note": "The tool is not a rotation: C58_refuted states what it returns instead."
  },
  {
   "property": "C59",
   "status": "proved",
   "theorems": [
    "C59_int",
    "C59_all",
    "C59_axes",
    "C59_average",
    "C59_average_refuted",
    "C59_again",
    "C59_one_by_one_refuted",
    "C59_len"
   ],
   "note": "one at a time and averages on uneven point data are refuted"
  },
  {
   "property": "C60",
   "status": "proved",
   "theorems": [
    "C60_points",
    "C60_few",
    "C60_grad",
    "C60_exact"
   ],
   "note": ""
  },
  {
   "property": "C61",
   "status": "proved",
   "theorems": [
    "C61_div",
    "C61_div_few",
    "C61_curl1",
    "C61_curl2",
    "C61_curl23",
    "C61_curl_grad",
    "C61_div_curl",
    "C61_curl3",
    "C61_curl3_refuted"
   ],
   "note": "curl in three dimensions is refuted"
  },
  {
   "property": "C62",
   "status": "proved",
   "theorems": [
    "C62_traces",
    "C62_relative",
    "C62_required"
   ],
   "note": ""
  },
  {
   "property": "C63",
   "status": "proved",
   "theorems": [
    "C63_one",
    "C63_list",
    "C63_range",
    "C63_no_files",
    "C63_zero_step",
    "C63_loads",
    "C63_leading_zeros_refuted",
    "C63_extra_colon_refuted",
    "C63_negative_refuted",
    "C63_option"
   ],
   "note": "leading zeros, a further colon and negative ends behave unexpectedly (refuted)"
  },
  {
   "property": "C64",
   "status": "proved",
   "theorems": [
    "C64_edges",
    "C64_uniform",
    "C64_increasing",
    "C64_empty",
    "C64_single_refuted",
    "C64_unequal_refuted"
   ],
   "note": "a single cell and unequal cells are not recovered (refuted)"
  },
  {
   "property": "C65",
   "status": "proved",
   "theorems": [
    "C65_frequencies",
    "C65_thermal",
    "C65_lengths",
    "C65_beta",
    "C65_keys",
    "C65_beta_refuted"
   ],
   "note": "Holds for all cells; C65_beta states what beta is, C65_beta_refuted that it is not p/(B^2/2mu0)."
  },
  {
   "property": "C66",
   "status": "proved",
   "theorems": [
    "C66_compose",
    "C66_one_component"
   ],
   "note": "Moments are improper Coquelicot integrals."
  },
  {
   "property": "C67",
   "status": "proved",
   "theorems": [
    "C67_shift",
    "C67_uniform",
    "C67_mesh",
    "C67_components",
    "C67_higher_dim_refuted"
   ],
   "note": "C67_higher_dim_refuted: more than one configuration dimension always raises IndexError."
  },
  {
   "property": "C68",
   "status": "proved",
   "theorems": [
    "C68_current",
    "C68_no_ratio",
    "C68_command",
    "C68_existing_tag_refuted"
   ],
   "note": "C68_existing_tag_refuted is the case excluded by the hypothesis of C68_command."
  },
  {
   "property": "C69",
   "status": "proved",
   "theorems": [
    "C69_in_place",
    "C69_tag_lost"
   ],
   "note": "The computation is an arbitrary function."
  },
  {
   "property": "C70",
   "status": "proved",
   "theorems": [
    "C70_columns",
    "C70_mismatch",
    "C70_comma",
    "C70_command",
    "C70_stop_refuted",
    "C70_reversed_refuted"
   ],
   "note": "C70_stop_refuted, C70_reversed_refuted: ranges differ from slices."
  },
  {
   "property": "C71",
   "status": "proved",
   "theorems": [
    "C71_kernels",
    "C71_xor_refuted",
    "C71_products_refuted",
    "C71_empty_refuted",
    "C71_orders"
   ],
   "note": "Proved for the sound kernels; the others are refuted one by one."
  },
  {
   "property": "C72",
   "status": "proved",
   "theorems": [
    "C72_partial_frame",
    "C72_reported_cells",
    "C72_reported_cells_refuted",
    "C72_open_slices_refuted",
    "C72_refused"
   ],
   "note": "Exact block and nodes for every combination of cuts; reported cells proved to be those of the whole frame (refuted as a description of the loaded part); refused cuts proved for every frame."
  },
  {
   "property": "C73",
   "status": "proved",
   "theorems": [
    "C73_ghost_layers",
    "C73_ghost_cells_refuted",
    "C73_gkyl_reader"
   ],
   "note": "The intended claim is refuted for every differing size; the actual placement is proved."
  },
  {
   "property": "C74",
   "status": "proved",
   "theorems": [
    "C74_trace_order",
    "C74_flat_data_refuted"
   ],
   "note": "For every permutation of the variables; the one-axis case is refuted by a witness."
  },
  {
   "property": "C75",
   "status": "proved",
   "theorems": [
    "C75_frame",
    "C75_times_refuted",
    "C75_empty_context_refuted"
   ],
   "note": "Frames proved; replacement of times and loss of metadata proved for all inputs."
  },
  {
   "property": "C76",
   "status": "proved",
   "theorems": [
    "C76_mapped_grid",
    "C76_adios_partial_refuted",
    "C76_velocity_grid"
   ],
   "note": "All shapes; partial loading with an ADIOS mapping file refuted for all inputs."
  },
  {
   "property": "C77",
   "status": "proved",
   "theorems": [
    "C77_first_compatible",
    "C77_unknown_name",
    "C77_reader_name_refuted",
    "C77_open",
    "C77_flash_unreadable"
   ],
   "note": "Complete characterisation of the choice."
  },
  {
   "property": "C78",
   "status": "proved",
   "theorems": [
    "C78_token",
    "C78_missing_key",
    "C78_tag_key_refuted"
   ],
   "note": "the index forms are those of the select parser; a token's head contains no brackets or dots"
  },
  {
   "property": "C79",
   "status": "proved",
   "theorems": [
    "C79_dot",
    "C79_max",
    "C79_min",
    "C79_mean",
    "C79_reductions_total",
    "C79_mean_components_refuted"
   ],
   "note": "exact rationals; mean over all entries, so the per-component reading is refuted"
  },
  {
   "property": "C80",
   "status": "proved",
   "theorems": [
    "C80_grad2",
    "C80_all_axes",
    "C80_open_range",
    "C80_negative_refuted"
   ],
   "note": "real arithmetic, np.gradient modelled for non-uniform coordinates; negative axes refuted"
  },
  {
   "property": "C81",
   "status": "proved",
   "theorems": [
    "C81_scale_comp",
    "C81_refused",
    "C81_twice_refuted",
    "C81_fraction_refuted"
   ],
   "note": "exact rationals; repeated and fractional components are listed as refutations of the naive reading"
  },
  {
   "property": "C82",
   "status": "proved",
   "theorems": [
    "C82_arrays",
    "C82_unshared",
    "C82_tag_refuted",
    "C82_shared_refuted"
   ],
   "note": "a heap of coordinate arrays makes sharing explicit; dimension given as a natural number"
  },
  {
   "property": "C83",
   "status": "proved",
   "theorems": [
    "C83_nodal",
    "C83_modal",
    "C83_refused",
    "C83_read_ignored",
    "C83_nodal_refused",
    "C83_unmarked",
    "C83_ns_from_file"
   ],
   "note": "exact rationals for grids and points, arbitrary inner product and evaluation of the basis functions; order at least one"
  },
  {
   "property": "C84",
   "status": "proved",
   "theorems": [
    "C84_first_field",
    "C84_all_fields_refuted"
   ],
   "note": "first-field dependence for all modal data; the expectation that all fields are differentiated is refuted"
  },
  {
   "property": "C85",
   "status": "proved",
   "theorems": [
    "C85_frames",
    "C85_refuted"
   ],
   "note": "all stems, suffixes and numbers; the failures without the condition are refuted by witnesses"
  },
  {
   "property": "C86",
   "status": "proved",
   "theorems": [
    "C86_neighbours",
    "C86_three_dims",
    "C86_three_dims_fails",
    "C86_small_refuted",
    "C86_stale_refuted"
   ],
   "note": "exact characterisation for 1-D and 2-D blocks; 3-D failure proved; tolerance and repetition failures are refuted by witnesses"
  },
  {
   "property": "C87",
   "status": "proved",
   "theorems": [
    "C87_lineout",
    "C87_missing",
    "C87_multiframe_refuted",
    "C87_frame_numbers",
    "C87_frame_numbers_refuted",
    "C87_both"
   ],
   "note": "whole command with --multiblock, both axes; multi-frame failure refuted by a witness"
  },
  {
   "property": "C88",
   "status": "proved",
   "theorems": [
    "C88_zip",
    "C88_zip_error",
    "C88_unknown",
    "C88_first_empty",
    "C88_agyro",
    "C88_gyrotropic",
    "C88_mom",
    "C88_swisdak_refuted",
    "C88_no_tags"
   ],
   "note": "The claim that mom_agyro offers the measure of Swisdak is refuted (C88_swisdak_refuted)."
  },
  {
   "property": "C89",
   "status": "proved",
   "theorems": [
    "C89_energetics"
   ],
   "note": ""
  },
  {
   "property": "C90",
   "status": "proved",
   "theorems": [
    "C90_line",
    "C90_mesh",
    "C90_contour",
    "C90_stream",
    "C90_lineouts",
    "C90_quiver",
    "C90_quiver_small",
    "C90_mapped",
    "C90_mapped_centres",
    "C90_mapped_contour",
    "C90_dims",
    "C90_mapped_refuted",
    "C90_mapped_contour_refuted"
   ],
   "note": "C90_mapped_refuted and C90_mapped_contour_refuted show where mapped grids are drawn wrongly"
  },
  {
   "property": "C91",
   "status": "proved",
   "theorems": [
    "C91_pair",
    "C91_pair_edges",
    "C91_pair_no_components"
   ],
   "note": ""
  },
  {
   "property": "C92",
   "status": "proved",
   "theorems": [
    "C92_range",
    "C92_empty",
    "C92_cutoff",
    "C92_cutoff_outside",
    "C92_cutoff_one",
    "C92_shift_refuted",
    "C92_animate",
    "C92_animate_range",
    "C92_animate_none"
   ],
   "note": "Values are rational numbers without NaN and infinity; nanmin and nanmax are then min and max. The percentile is numpy's linear method."
  },
  {
   "property": "C93",
   "status": "proved",
   "theorems": [
    "C93_calls",
    "C93_own_figures",
    "C93_saved",
    "C93_frames",
    "C93_one_figure",
    "C93_per_dataset",
    "C93_computed",
    "C93_stem_refuted",
    "C93_frames_refuted",
    "C93_per_dataset_refuted",
    "C93_legend_refuted"
   ],
   "note": "Drawing itself is C90; here it is taken to succeed. pyplot is a set of numbered figures with a current one and a list of written files."
  },
  {
   "property": "C94",
   "status": "proved",
   "theorems": [
    "C94_plain",
    "C94_no_datasets",
    "C94_multiblock",
    "C94_grouptags",
    "C94_group_frames_refuted",
    "C94_group_shown_refuted",
    "C94_group_limits_refuted",
    "C94_title_refuted"
   ],
   "note": "Drawing itself is C90; here it is taken to succeed. The number format of the time is an argument of the model. --xlim, --figsize and the encoding of movies are left out."
  },
  {
   "property": "C95",
   "status": "proved",
   "theorems": [
    "C95_x_label",
    "C95_y_label",
    "C95_no_y_label",
    "C95_panels",
    "C95_bare_panels",
    "C95_one_panel",
    "C95_labels_kept",
    "C95_curves",
    "C95_curves_together",
    "C95_labels_differ",
    "C95_limits",
    "C95_fields",
    "C95_lineouts",
    "C95_single_line",
    "C95_levels_count",
    "C95_levels_listed",
    "C95_levels_range",
    "C95_y_label_refuted",
    "C95_line_bar_refuted",
    "C95_line_axis_refuted"
   ],
   "note": "The formats .2e and .3e and float() are arguments of the model. Drawing is taken to succeed (C90, C91); fonts, colours, aspect ratio and plt.autoscale are left out."
  },
  {
   "property": "C96",
   "status": "proved",
   "theorems": [
    "C96_inverse",
    "C96_parseval",
    "C96_plane_wave",
    "C96_frequency_range",
    "C96_edge_frequencies",
    "C96_one_frequency_each_refuted",
    "C96_psd",
    "C96_psd_total",
    "C96_psd_all_positive_refuted",
    "C96_source",
    "C96_source_unchanged_refuted",
    "C96_collapsed",
    "C96_iso_one_axis",
    "C96_iso_alone",
    "C96_four_axes",
    "C96_two_points"
   ],
   "note": "scipy.fft.fft, fftn and fftfreq are written out as the sums and lists of their documentation, over exact complex numbers. Mapped coordinates are not modelled."
  },
  {
   "property": "C97",
   "status": "proved",
   "theorems": [
    "C97_bins",
    "C97_upper_half_empty",
    "C97_narrow",
    "C97_flat",
    "C97_first_bin_refuted"
   ],
   "note": "A bin without modes is 0/0 in numpy; its value is not stated."
  },
  {
   "property": "C98",
   "status": "proved",
   "theorems": [
    "C98_defined",
    "C98_waves",
    "C98_linear",
    "C98_twice",
    "C98_wide",
    "C98_negative",
    "C98_real",
    "C98_energy"
   ],
   "note": "The cutoff is given (the click on a figure for cutoff None is not modelled). butter_filtering is scipy."
  },
  {
   "property": "C99",
   "status": "proved",
   "theorems": [
    "C99_best",
    "C99_nothing",
    "C99_no_fit",
    "C99_last_unused",
    "C99_few",
    "C99_rate",
    "C99_exact",
    "C99_other_function_refuted",
    "C99_region",
    "C99_command",
    "C99_dir0",
    "C99_dir1",
    "C99_one_rate",
    "C99_dir_one_axis",
    "C99_instantaneous",
    "C99_instantaneous_three",
    "C99_rate_per_row_refuted"
   ],
   "note": "scipy.optimize.curve_fit is an arbitrary function of the points and the guess; the loop over datasets is not modelled for this command."
  },
  {
   "property": "C100",
   "status": "proved",
   "theorems": [
    "C100_listing",
    "C100_order",
    "C100_frames",
    "C100_restart",
    "C100_plain",
    "C100_one_stem",
    "C100_names_refuted",
    "C100_blank_refuted"
   ],
   "note": "Extensions with wildcards or slashes, non-ASCII digits and newlines in names are not modelled."
  },
  {
   "property": "C101",
   "status": "proved",
   "theorems": [
    "C101_line",
    "C101_load",
    "C101_set",
    "C101_file_first",
    "C101_bad_cycle",
    "C101_tidy",
    "C101_print",
    "C101_plot",
    "C101_style_file",
    "C101_bad_entry",
    "C101_reset",
    "C101_later_plots_refuted",
    "C101_comments_refuted",
    "C101_spelling_refuted"
   ],
   "note": "eval, the validation of rcParams, plt.style.use and plt.xkcd are arguments. Carriage returns and non-ASCII white space are not modelled."
  },
  {
   "property": "C102",
   "status": "proved",
   "theorems": [
    "C102_energy",
    "C102_later",
    "C102_few",
    "C102_two_axes",
    "C102_no_frames",
    "C102_first_result_refuted",
    "C102_root_refuted"
   ],
   "note": "Real arithmetic. Reading a frame is an arbitrary function of the file name."
  },
  {
   "property": "C103",
   "status": "proved",
   "theorems": [
    "C103_entries",
    "C103_small",
    "C103_rotation_refuted"
   ],
   "note": "Real arithmetic. All frames have the same shape. Reading a frame is an arbitrary function of the file name."
  },
  {
   "property": "C104",
   "status": "proved",
   "theorems": [
    "C104_edges",
    "C104_mapped",
    "C104_tag",
    "C104_twice",
    "C104_centres",
    "C104_centres_refuted"
   ],
   "note": "Coordinates are rationals."
  },
  {
   "property": "C105",
   "status": "proved",
   "theorems": [
    "C105_report",
    "C105_others",
    "C105_no_grid_type",
    "C105_new",
    "C105_no_modal",
    "C105_geometry_range",
    "C105_command",
    "C105_headings",
    "C105_new_refuted",
    "C105_dg_refuted"
   ],
   "note": "Formatting of floats and of metadata objects is an arbitrary function; NaN and colours are not modelled."
  },
  {
   "property": "C106",
   "status": "proved",
   "theorems": [
    "C106_in_place",
    "C106_tag",
    "C106_missing",
    "C106_nothing",
    "C106_zero",
    "C106_tool"
   ],
   "note": "The values of each tag must have the same shape for the real tool; division by zero is not modelled."
  },
  {
   "property": "C107",
   "status": "proved",
   "theorems": [
    "C107_values",
    "C107_two_one",
    "C107_constant",
    "C107_mapped",
    "C107_files",
    "C107_frames",
    "C107_ready"
   ],
   "note": "Over the real numbers; the success of interpolating the two files is a hypothesis, shown for plain grids by C107_ready. Shapes are those gkeyll writes; the velocity Jacobian has one coefficient or as many as the frame."
  },
  {
   "property": "C108",
   "status": "proved",
   "theorems": [
    "C108_block",
    "C108_dataset",
    "C108_extent",
    "C108_figure",
    "C108_rest",
    "C108_succeeds",
    "C108_colours",
    "C108_name",
    "C108_files",
    "C108_scale",
    "C108_left_edge",
    "C108_psi",
    "C108_levels",
    "C108_range_of_levels",
    "C108_limits",
    "C108_bounds",
    "C108_bounds_refuted"
   ],
   "note": "Over the real numbers; at least two nodes per axis. What Matplotlib accepts for contours and levels, fonts, labels and the title are not modelled."
  },
  {
   "property": "C109",
   "status": "proved",
   "theorems": [
    "C109_frame",
    "C109_timing",
    "C109_end_refuted",
    "C109_command",
    "C109_too_many",
    "C109_velocity_refuted",
    "C109_tags"
   ],
   "note": "The claims that the line is the velocity at the dot and that the film reaches the end are refuted by C109_velocity_refuted and C109_end_refuted."
  },
  {
   "property": "C110",
   "status": "proved",
   "theorems": [
    "C110_base64",
    "C110_encodable",
    "C110_after_padding",
    "C110_fours",
    "C110_bytes",
    "C110_extract",
    "C110_only",
    "C110_nothing",
    "C110_each",
    "C110_command",
    "C110_failure",
    "C110_pr"
   ],
   "note": "Reading the attribute with ADIOS2 is a parameter; how numpy prints an array is not modelled."
  },
  {
   "property": "C111",
   "status": "proved",
   "theorems": [
    "C111_basis",
    "C111_expansion",
    "C111_two_cells",
    "C111_own_cell",
    "C111_edge_values",
    "C111_edge_slopes",
    "C111_continuous",
    "C111_degree"
   ],
   "note": "The coefficients are the decimal numbers of the source; rounding in the evaluation is not modelled. The method that called the functions is commented out."
  },
  {
   "property": "C112",
   "status": "proved",
   "theorems": [
    "C112_rounding",
    "C112_quotient_refuted",
    "C112_quotient",
    "C112_bins",
    "C112_layout",
    "C112_ghosts",
    "C112_slices",
    "C112_lines",
    "C112_sites",
    "C112_root"
   ],
   "note": "Doubles are the binary64 format of Flocq without overflow; C112_rounding gives a rounding function that computes and equals it."
  },
  {
   "property": "C113",
   "status": "proved",
   "theorems": [
    "C113_twist",
    "C113_twist_mean",
    "C113_upsample",
    "C113_identity",
    "C113_shear",
    "C113_shear_refuted",
    "C113_kernel",
    "C113_windows",
    "C113_filter",
    "C113_points",
    "C113_bounds",
    "C113_wide",
    "C113_waves",
    "C113_waves_refuted"
   ],
   "note": "Exact real arithmetic; NaN cases (a = 0, sigma <= 0) are errors in the model. np.pad(reflect) and np.interp(period) are modelled as documented by numpy."
  },
  {
   "property": "C114",
   "status": "proved",
   "theorems": [
    "C114_par_perp",
    "C114_agyro",
    "C114_same",
    "C114_unique",
    "C114_gyrotropic",
    "C114_few"
   ],
   "note": "Exact real arithmetic. The command in the same file is not modelled: the module imports postgkyl.tools.stack, which does not exist."
  },
  {
   "property": "C115",
   "status": "proved",
   "theorems": [
    "C115_errors",
    "C115_difference",
    "C115_sinusoid",
    "C115_gain",
    "C115_nyquist",
    "C115_limit",
    "C115_bounded",
    "C115_linear"
   ],
   "note": "Exact real arithmetic. scipy.signal.butter and lfilter are modelled by the steps of their documented algorithms."
  },
  {
   "property": "C116",
   "status": "proved",
   "theorems": [
    "C116_load_or_select",
    "C116_write_back",
    "C116_pipeline",
    "C116_negative_refuted",
    "C116_open_comp_refuted",
    "C116_coordinate_refuted",
    "C116_not_gkyl"
   ],
   "note": "Exact rational coordinates; the wider claim (every textual slice, coordinates) is refuted with witnesses."
  },
  {
   "property": "C117",
   "status": "proved",
   "theorems": [
    "C117_limits",
    "C117_limits_bad",
    "C117_figsize",
    "C117_figsize_bad",
    "C117_aspect",
    "C117_lineouts",
    "C117_used",
    "C117_passed",
    "C117_same_limits",
    "C117_block_levels",
    "C117_format",
    "C117_scatter",
    "C117_two_dims",
    "C117_keywords",
    "C117_format_refuted",
    "C117_block_levels_refuted",
    "C117_no_effect"
   ],
   "note": "Exact rational limits, no inf/nan texts; the wider claims about formats and default levels are refuted with witnesses."
  },
  {
   "property": "C118",
   "status": "proved",
   "theorems": [
    "C118_decode",
    "C118_only",
    "C118_unique",
    "C118_trailing",
    "C118_metadata",
    "C118_not_dictionary",
    "C118_unreadable",
    "C118_entry",
    "C118_poly_order",
    "C118_basis",
    "C118_two_spellings_refuted"
   ],
   "note": "Timestamps (extension code -1) and the limit of the nesting depth are left out; text is kept as its UTF-8 bytes."
  },
  {
   "property": "C119",
   "status": "proved",
   "theorems": [
    "C119_one_point",
    "C119_corners",
    "C119_continuous",
    "C119_uniform",
    "C119_unequal_refuted",
    "C119_velocity",
    "C119_other",
    "C119_all",
    "C119_more_points",
    "C119_more_points_refuted",
    "C119_then_interpolate"
   ],
   "note": "Exact arithmetic. Several points per cell are described in one dimension; grids of type \"mapped\" (set by no reader) only in C32."
  },
  {
   "property": "C120",
   "status": "proved",
   "theorems": [
    "C120_not_gkyl",
    "C120_flux_missing",
    "C120_single_valued",
    "C120_curve",
    "C120_colours",
    "C120_contours",
    "C120_too_many",
    "C120_flux",
    "C120_flux_metadata_refuted"
   ],
   "note": "Exact arithmetic; files with one range per field (file type 1), modal bases of order one or more, grids without mapping. The root used for the number of points is assumed exact on perfect powers."
  },
  {
   "property": "C121",
   "status": "proved",
   "theorems": [
    "C121_accepts",
    "C121_refuses",
    "C121_error",
    "C121_tool",
    "C121_chain",
    "C121_chain_array_refuted",
    "C121_ten_moment",
    "C121_pressures",
    "C121_ten_moment_array_refuted"
   ],
   "note": "Exact arithmetic. Python objects are told apart as far as input_parser does; bare arrays are refuted as inputs of chained tools."
  },
  {
   "property": "C122",
   "status": "proved",
   "theorems": [
    "C122_sum",
    "C122_exact",
    "C122_order2_refuted",
    "C122_not_gkyl"
   ],
   "note": "Exact arithmetic; no mapping file. That the sum is the integral is proved for order one and refuted for order two (the docstring of tools/calculus.py says that DG integration should be implemented at some point)."
  },
  {
   "property": "C123",
   "status": "proved",
   "theorems": [
    "C123_field",
    "C123_multi",
    "C123_trace",
    "C123_written",
    "C123_trailing",
    "C123_part",
    "C123_part_one",
    "C123_part_refuted",
    "C123_trailing_refuted"
   ],
   "note": "Which exception is raised is not stated (a short read of cells or bounds is an error at once in the model, numpy reports it some lines later). Without partial loading for all but the time traces. Two wider claims are refuted: values of a partly loaded cut file, and trailing bytes after a file written by postgkyl."
  },
  {
   "property": "C124",
   "status": "proved",
   "theorems": [
    "C124_not_gkyl",
    "C124_distributed",
    "C124_values",
    "C124_same",
    "C124_curve",
    "C124_colours"
   ],
   "note": "Modal bases with an evaluated table, as in C120. When the components selected do not begin with the first coefficient of a field the coefficients of two fields are mixed; this is excluded by hypothesis."
  },
  {
   "property": "C125",
   "status": "proved",
   "theorems": [
    "C125_not_gkyl",
    "C125_tables",
    "C125_single_valued",
    "C125_choice",
    "C125_values",
    "C125_curve",
    "C125_colours",
    "C125_none"
   ],
   "note": "Modal bases with a table of functions to differentiate. The field is defined from the bytes as in C120, its slope with the derivative of Coquelicot."
  },
  {
   "property": "C126",
   "status": "proved",
   "theorems": [
    "C126_not_gkyl",
    "C126_collected",
    "C126_exact",
    "C126_curve",
    "C126_unstamped",
    "C126_mixed",
    "C126_times_refuted"
   ],
   "note": "One tag, no chunks, period or sum (those are C29 and C30). The value of a float in the metadata is a parameter. C126_times_refuted: files at times 0 and 1 of which the first is frame 3 are placed at 3 and 1."
  },
  {
   "property": "C127",
   "status": "proved",
   "theorems": [
    "C127_linspace",
    "C127_strict",
    "C127_file",
    "C127_part",
    "C127_part_refuted",
    "C127_tiny_refuted"
   ],
   "note": "Rounding to nearest even as in Flocq binary64, without overflow, infinities and NaN. Parts of files stored in single precision are left out (numpy then rounds the new bounds to single precision). C127_part_refuted: of ten cells from 0 to 1 the part \":7\" ends at a double other than node 7. C127_tiny_refuted: eight cells between 0 and 12 * 2^-1074 are not in order."
  },
  {
   "property": "C128",
   "status": "proved",
   "theorems": [
    "C128_select",
    "C128_exact_refuted",
    "C128_not_gkyl"
   ],
   "note": "Rounding as in C127, computed on rational numbers by the function of C112. What float() makes of a text is a parameter. C128_exact_refuted: of ten cells from 0 to 1 the double 0.7000000000000001 is above 7/10 but selects the cell below."
  },
  {
   "property": "C129",
   "status": "proved",
   "theorems": [
    "C129_text",
    "C129_even",
    "C129_shape",
    "C129_order",
    "C129_reads_back",
    "C129_seventeen",
    "C129_reads_back_refuted",
    "C129_dump"
   ],
   "note": "The formatting by Python (correctly rounded, half to even) is modelled; the sign of zero, infinities and NaN are not. C129_reads_back_refuted: the double 0.30000000000000004 is written 3.000000000000000e-01."
  },
  {
   "property": "C130",
   "status": "proved",
   "theorems": [
    "C130_error",
    "C130_small",
    "C130_relative",
    "C130_coordinate",
    "C130_axes",
    "C130_order_refuted"
   ],
   "note": "np.dot and np.sum are parameters constrained by the relations dots and sums (any tree of rounded additions, fused or not). Overflow, infinities and NaN are not modelled; numbers of cells are below 2^53. C130_order_refuted: adding from the left and from the right gives different results."
  },
  {
   "property": "C131",
   "status": "proved",
   "theorems": [
    "C131_tables",
    "C131_rounded",
    "C131_values",
    "C131_small",
    "C131_interpolate",
    "C131_points",
    "C131_relative_refuted"
   ],
   "note": "np.tensordot is a parameter constrained by the relation dots (any tree of rounded additions, fused or not) that depends on the row and the coefficients only; SymPy is a parameter with an accuracy, which C131_tables bounds for every rounded evaluation of the tabulated functions in any order and grouping. Overflow, infinities and NaN are not modelled. C131_relative_refuted: cancellation."
  },
  {
   "property": "C132",
   "status": "proved",
   "theorems": [
    "C132_integral",
    "C132_number",
    "C132_axes"
   ],
   "note": "Composition of C131 and C130. np.tensordot, np.dot and np.sum are parameters constrained by dots and sums. Overflow, infinities and NaN are not modelled. For orders above one the compared number is the midpoint sum (C122 relates it to the integral in exact arithmetic)."
  },
  {
   "property": "C133",
   "status": "proved",
   "theorems": [
    "C133_gradient",
    "C133_slope"
   ],
   "note": "np.tensordot is a parameter constrained by dots; SymPy is a parameter with an accuracy. Overflow, infinities and NaN are not modelled. The width used everywhere is that of the first cell, as in the code (C36)."
  },
  {
   "property": "C134",
   "status": "proved",
   "theorems": [
    "C134_magsq",
    "C134_change_seen",
    "C134_relchange",
    "C134_relchange_comp",
    "C134_relative_refuted",
    "C134_change_seen_refuted"
   ],
   "note": "np.sum is a parameter constrained by sums (additions in any order). Overflow, infinities and NaN are not modelled, nor a reference that is zero."
  }
 ]
}