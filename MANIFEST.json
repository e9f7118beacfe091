{
 "claims": [
  {
   "property": "C01",
   "status": "proved",
   "theorems": [
    "C01_ordered_set_refines_insertion_list"
   ],
   "note": ""
  },
  {
   "property": "C02",
   "status": "proved",
   "theorems": [
    "C02_index_iterator_enumerates",
    "C02_index_iterator_position",
    "C02_unravel_index_inverts"
   ],
   "note": ""
  },
  {
   "property": "C03",
   "status": "partial",
   "theorems": [
    "C03_expand_filelist",
    "C03_only_files_partial",
    "C03_only_files_refuted",
    "C03_command_line_file_list"
   ],
   "note": "Everything but 'never returns a path that is not a file' holds for all file systems; that clause is false of the code: a wildcard matching a directory returns the directory (C03_only_files_refuted)."
  },
  {
   "property": "C04",
   "status": "proved",
   "theorems": [
    "C04_last_mention_wins",
    "C04_keys_unique",
    "C04_every_element_mentions_a_key"
   ],
   "note": ""
  },
  {
   "property": "C05",
   "status": "proved",
   "theorems": [
    "C05_ungridded_wrap",
    "C05_views_wrap",
    "C05_detected_range_contains_points",
    "C05_wrap_pair"
   ],
   "note": "Exact rationals stand for floats."
  },
  {
   "property": "C06",
   "status": "partial",
   "theorems": [
    "C06_rotation_keeps_columns_partial",
    "C06_axis_outside_range_unchanged",
    "C06_into_range_refuted"
   ],
   "note": "Proved for axes with a longitude in the range asked for; false of the code for axes wholly outside it, which are left unchanged."
  },
  {
   "property": "C07",
   "status": "proved",
   "theorems": [
    "C07_split_outside_brackets"
   ],
   "note": ""
  },
  {
   "property": "C08",
   "status": "partial",
   "theorems": [
    "C08_escaped_colons_round_trip",
    "C08_accepted_values_checked_partial",
    "C08_valid_options_accepted",
    "C08_single_option_unchecked_refuted"
   ],
   "note": "False of the code when exactly one optional option is declared (subset, collocate, stats, eval, info datagroups): its value is stored unchecked. Proved for every other case."
  },
  {
   "property": "C09",
   "status": "proved",
   "theorems": [
    "C09_aliases_unique"
   ],
   "note": ""
  },
  {
   "property": "C10",
   "status": "proved",
   "theorems": [
    "C10_overwrite_needs_consent",
    "C10_validated_output"
   ],
   "note": ""
  },
  {
   "property": "C11",
   "status": "partial",
   "theorems": [
    "C11_range_is_the_period_partial",
    "C11_gaps_rejected",
    "C11_constructor_total",
    "C11_text_is_read_back",
    "C11_last_year_refuted"
   ],
   "note": "Proved for every partial date except year 9999 without a month / December 9999 without a day, where max() raises OverflowError."
  },
  {
   "property": "C12",
   "status": "proved",
   "theorems": [
    "C12_period_adds_up",
    "C12_unknown_units_rejected",
    "C12_days",
    "C12_fraction_misread"
   ],
   "note": "Text that is not made of tokens is outside the property; C12_fraction_misread records what happens to it."
  },
  {
   "property": "C13",
   "status": "partial",
   "theorems": [
    "C13_ordinals_count_days",
    "C13_right_iff_reference_at_midnight_refuted",
    "C13_counted_from_midnight_partial"
   ],
   "note": "False of the code unless the reference is at midnight: its time of day is dropped. Exact characterisation proved."
  },
  {
   "property": "C14",
   "status": "proved",
   "theorems": [
    "C14_set_year",
    "C14_change_year_of_all"
   ],
   "note": "Target years 1..9999."
  },
  {
   "property": "C15",
   "status": "partial",
   "theorems": [
    "C15_binned_once_partial",
    "C15_binned_characterised",
    "C15_one_cell_only",
    "C15_decreasing_refuted",
    "C15_no_points"
   ],
   "note": "Proved for increasing coordinates; the exact set of delivered points is characterised for every mix of directions; for decreasing coordinates the claim is false (points in the first cell are dropped): refuted with a witness."
  },
  {
   "property": "C16",
   "status": "partial",
   "theorems": [
    "C16_lookup",
    "C16_agree_partial",
    "C16_agree_refuted"
   ],
   "note": "The lookup index is exact in both directions; the two indexes agree for increasing coordinates and disagree for decreasing ones (refuted with a witness)."
  },
  {
   "property": "C17",
   "status": "proved",
   "theorems": [
    "C17_ball_point_exact",
    "C17_ball_point_eps",
    "C17_ball_point_wrong_length",
    "C17_ball_tree_exact",
    "C17_pairs_exact",
    "C17_count_exact",
    "C17_sparse_exact"
   ],
   "note": "Exact rational coordinates; the order of the norm is a natural number or infinity. Haversine trees are C20-C22."
  },
  {
   "property": "C18",
   "status": "partial",
   "theorems": [
    "C18_partition_partial",
    "C18_rejects",
    "C18_leafsize_refuted"
   ],
   "note": "Partition and half-spaces proved; the bound on leaves holds up to a shared coordinate, the stronger clause (all points coincide) is refuted by a witness."
  },
  {
   "property": "C19",
   "status": "proved",
   "theorems": [
    "C19_query_exact",
    "C19_query_eps_bound"
   ],
   "note": "For every heap that pops an entry of least distance; k >= 1. Distances as p-th powers."
  },
  {
   "property": "C34",
   "status": "partial",
   "theorems": [
    "C34_cells_partial",
    "C34_empty_range",
    "C34_refuted"
   ],
   "note": "All positive steps and ranges upwards: cells of the step's width from start to less than a step beyond stop, contiguous and covering [start, stop). Refuted clauses: a range not wider than the step gives one cell of the range's width with its point possibly outside; latitude cells are clipped at the poles, so that the pole itself may be in no cell."
  },
  {
   "property": "C35",
   "status": "partial",
   "theorems": [
    "C35_aggregation_partial",
    "C35_missing_coordinates",
    "C35_counted_partial",
    "C35_conservation_partial",
    "C35_list",
    "C35_binned_conservation_partial",
    "C35_refuted"
   ],
   "note": "Whole UngriddedData.aggregate for upward ranges, any kernel on the values and any argsort: dimensions, cells, values, counts; every unmasked point counted once when the requested ranges are usual. Refuted: longitude ranges across 180 (-10..350), first cell straddling 0, default stop, downward steps lose points; a grid on a coordinate without a standard name is ignored."
  },
  {
   "property": "C20",
   "status": "partial",
   "theorems": [
    "C20_shape",
    "C20_sound_partial",
    "C20_complete_partial",
    "C20_equator_exact_partial",
    "C20_misses_close_point_refuted",
    "C20_includes_far_point_refuted"
   ],
   "note": "Refuted as stated: the rectangle bounds of the haversine tree are unsound in both directions (two one-point witnesses). Proved: shape for all inputs; nothing too far in one hemisphere within 90 degrees of longitude; completeness up to a factor cos(phi) between latitudes +-phi without wrapping; exactness on the equator."
  },
  {
   "property": "C21",
   "status": "proved",
   "theorems": [
    "C21_is_great_circle",
    "C21_symmetric",
    "C21_bounds",
    "C21_zero",
    "C21_triangle",
    "C21_periodic"
   ],
   "note": "Over the real numbers (no rounding)."
  },
  {
   "property": "C22",
   "status": "partial",
   "theorems": [
    "C22_kernel_nearest_partial",
    "C22_kernel_empty",
    "C22_kernel_column_order_refuted",
    "C22_tree_nearest_partial",
    "C22_tree_nearest_refuted"
   ],
   "note": "The kernel is right when both data sets have latitude and longitude as their first coordinates; refuted when longitude comes first (AERONET and others), because it reads the first two columns. The kd-tree shortcut is right for at most 10 data points and refuted with 12, for every priority queue meeting its contract."
  },
  {
   "property": "C23",
   "status": "partial",
   "theorems": [
    "C23_simple",
    "C23_tree_no_distance",
    "C23_agree",
    "C23_tree_equator_partial",
    "C23_tree_anywhere_partial",
    "C23_zero_distance_refuted"
   ],
   "note": "Time, altitude and pressure limits: exact for all inputs with positive pressures. With a distance the tree constraint is exact on the equator within 90 degrees of longitude, elsewhere only as C20 allows; a distance of zero is ignored (refuted)."
  },
  {
   "property": "C24",
   "status": "proved",
   "theorems": [
    "C24_order_independent",
    "C24_values",
    "C24_mean_between",
    "C24_no_points"
   ],
   "note": "Over exact real numbers. The standard deviation of one value is missing."
  },
  {
   "property": "C25",
   "status": "partial",
   "theorems": [
    "C25_alignment",
    "C25_data_with_values",
    "C25_mean",
    "C25_several",
    "C25_kernels_qualify",
    "C25_all_missing_refuted"
   ],
   "note": "Proved for every kernel that raises only ValueError and data with at least one value; with no value at all the collocation raises ValueError instead of giving missing output (refuted clause)."
  },
  {
   "property": "C26",
   "status": "proved",
   "theorems": [
    "C26_time",
    "C26_altitude",
    "C26_pressure",
    "C26_no_points"
   ],
   "note": "Pressures must be positive."
  },
  {
   "property": "C27",
   "status": "partial",
   "theorems": [
    "C27_linear",
    "C27_node",
    "C27_bounded",
    "C27_cell_bounds",
    "C27_affine",
    "C27_masked_neighbour_refuted",
    "C27_single_point_axis_refuted"
   ],
   "note": "Proved for any rank, with and without circular longitudes and missing values. Two clauses are false of the code: a sample exactly at a grid point is lost when the next lower value is missing, and with a dimension of one point every sample is lost."
  },
  {
   "property": "C28",
   "status": "proved",
   "theorems": [
    "C28_nearest"
   ],
   "note": "Any rank, dimensions of one or more points, circular or not."
  },
  {
   "property": "C29",
   "status": "partial",
   "theorems": [
    "C29_second_dimension_partial",
    "C29_first_dimension_refuted",
    "C29_one_dimension_refuted",
    "C29_circular_refuted"
   ],
   "note": "True only when dimension 1 of the data is the decreasing one; otherwise wrong values or IndexError."
  },
  {
   "property": "C57",
   "status": "partial",
   "theorems": [
    "C57_columns_partial",
    "C57_dims_refuted",
    "C57_decreasing_refuted"
   ],
   "note": "Proved when the hybrid coordinate varies along every horizontal dimension and increases with the level; false otherwise (witnesses)."
  },
  {
   "property": "C38",
   "status": "proved",
   "theorems": [
    "C38_removed_in_step",
    "C38_second_pass_changes_nothing",
    "C38_coordinates",
    "C38_objects"
   ],
   "note": "For data with one coordinate value per data value. The lazy concatenation of files is not part of this claim."
  },
  {
   "property": "C40",
   "status": "partial",
   "theorems": [
    "C40_points_partial",
    "C40_gridded_points_partial",
    "C40_single_coordinate_refuted",
    "C40_hyper_point_swapped_refuted",
    "C40_other_dimension_refuted",
    "C40_iteration_single_point_refuted"
   ],
   "note": "Views are right for data with a latitude and at least two coordinates, and for gridded data whose dimensions are all standard coordinates. False of the code: data with one coordinate report it in every field; hyper_point exchanges time and air pressure; gridded data with another dimension cannot be read; default iteration over gridded data with a dimension of one point gives wrong points."
  },
  {
   "property": "C46",
   "status": "partial",
   "theorems": [
    "C46_compatible_partial",
    "C46_prefix",
    "C46_accepts",
    "C46_rank_refuted"
   ],
   "note": "Shapes of different rank that agree on the common dimensions are accepted (zip)."
  },
  {
   "property": "C47",
   "status": "partial",
   "theorems": [
    "C47_unique",
    "C47_append_keeps",
    "C47_lookup_partial",
    "C47_single_coordinate_refuted",
    "C47_unnamed_refused_refuted"
   ],
   "note": "Uniqueness proved. Lookup is wrong in a list of one coordinate (it is found under every standard name), and two coordinates without a standard name count as duplicates."
  },
  {
   "property": "C30",
   "status": "partial",
   "theorems": [
    "C30_limits_partial",
    "C30_with_longitude_partial",
    "C30_unknown_name",
    "C30_refuted"
   ],
   "note": "Exact for data whose coordinates have their own names and limits on different coordinates (unbounded limits too); with longitude limits the longitudes are moved by whole turns. Refuted: two coordinates without standard names (DuplicateCoordinateError from the copy), single-coordinate data accept any keyword, longitude limits on empty data raise, a second keyword for a coordinate and a shape replace an earlier limit, a shape containing no point raises TypeError, list variables without remaining points raise TypeError."
  },
  {
   "property": "C31",
   "status": "partial",
   "theorems": [
    "C31_off_seam_partial",
    "C31_refuted"
   ],
   "note": "Off the 180 meridian, with data all in -180..180 or all in 0..360 and limits in either. Refuted on the seam (180, 360) and for limits reaching beyond the convention of the data on both sides."
  },
  {
   "property": "C32",
   "status": "partial",
   "theorems": [
    "C32_limits_partial",
    "C32_one_variable_partial",
    "C32_refuted"
   ],
   "note": "Refuted for shapes: only the first variable of a list gets the shape. Proved: limits without a shape apply to every variable as if alone; one variable and a shape."
  },
  {
   "property": "C33",
   "status": "partial",
   "theorems": [
    "C33_mask_partial",
    "C33_refuted"
   ],
   "note": "Exact for ndarrays with dimensions (Y, X); refuted for masked arrays (mask and-ed instead of or-ed), for (X, Y) cubes, and for shapes without any cell."
  },
  {
   "property": "C36",
   "status": "partial",
   "theorems": [
    "C36_new_dims",
    "C36_collapse_partial",
    "C36_kernels_partial",
    "C36_refuted"
   ],
   "note": "Proved: the renumbering of surviving dimensions, and that the collapse (and each kernel's output) is right for every cube whose auxiliary coordinates use, in their own numbering, the same places as the collapsed dimensions of the cube. Refuted in general: the cube's dimension numbers are used as the coordinate's own, so a multi-dimensional coordinate not starting at dimension 0 is averaged over the wrong axis on a square grid, and raises ValueError or IndexError otherwise."
  },
  {
   "property": "C37",
   "status": "partial",
   "theorems": [
    "C37_statistics_partial",
    "C37_defined",
    "C37_sizes",
    "C37_refuted"
   ],
   "note": "Proved for all pairs of arrays: the count and all statistics but the relative ones are those of exactly the pairs missing in neither data set, relative ones too when no array is masked or no valid first value is zero (or not finite); different sizes raise, fewer than two valid pairs raise. Refuted in general: with masked arrays the relative mean and deviation leave out pairs with a zero first value although they are counted. scipy's rank coefficient and regression are parameters applied to the valid pairs."
  },
  {
   "property": "C41",
   "status": "partial",
   "theorems": [
    "C41_netcdf_partial",
    "C41_netcdf_fails",
    "C41_hdf_sd",
    "C41_hdf_vd",
    "C41_modis",
    "C41_caliop",
    "C41_cloudsat_sds_partial",
    "C41_cloudsat_vds",
    "C41_refuted"
   ],
   "note": "Proved for all raw arrays and attributes, per reader: masked exactly where missing or outside the valid limits before scaling, and scaled by the product's formula. Refuted in general: netCDF reading switches the library's fill-value masking off, so _FillValue/missing_value elements are read as values; an integer variable with a scale factor but no offset raises TypeError; a valid_min/max that is not a value of the type wraps around; CloudSat's operator '>=' is not recognised."
  },
  {
   "property": "C42",
   "status": "partial",
   "theorems": [
    "C42_chosen",
    "C42_found_partial",
    "C42_named",
    "C42_refuted"
   ],
   "note": "The class chosen is right for the file (base name and the patterns, no file type error) and has the highest priority, then the first name, among all right classes; a class named by the user is taken whatever the file. That one is always found holds only if find_plugin_classes leaves no abstract class (C43): otherwise a TypeError (C42_refuted). re.match is a parameter."
  },
  {
   "property": "C43",
   "status": "partial",
   "theorems": [
    "C43_offered_partial",
    "C43_override_partial",
    "C43_refuted"
   ],
   "note": "Every non-abstract subclass, at any depth, is offered and nothing foreign is. False in general: removing from the list while iterating leaves one of two neighbouring abstract classes; find_plugins keeps only the last file's classes, so plugin precedence fails with two plugin files."
  },
  {
   "property": "C44",
   "status": "partial",
   "theorems": [
    "C44_first_kept",
    "C44_saved_partial",
    "C44_succeeds",
    "C44_wrong_size",
    "C44_refuted"
   ],
   "note": "For all names: the file holds, under each name, the first object of that name; with distinct names everything is saved. In general false: a data variable named like a coordinate's standard name (or a second coordinate of the same name) is silently not saved. netCDF4's packing is a contract; names without slash."
  },
  {
   "property": "C58",
   "status": "partial",
   "theorems": [
    "C58_round_trip_partial",
    "C58_refuted"
   ],
   "note": "Proved under stated conditions (distinct names, representable values, no element outside the limits kept as attributes, missing elements marked by those limits, coordinates named after axes). In general false: missing values come back as numbers (reading switches fill-value masking off), a valid_range that applied to unscaled values makes good values missing, coordinates without an axis name are lost."
  },
  {
   "property": "C39",
   "status": "proved",
   "theorems": [
    "C39_copy",
    "C39_slice",
    "C39_coord",
    "C39_list",
    "C39_history",
    "C39_calls",
    "C39_independent",
    "C39_copy_with_data"
   ],
   "note": "Memory model with addresses: what a copy, slice, coordinate copy or list copy can reach is disjoint from everything that existed before; disjointness is kept by every history of edits by way of either object, and no such edit is seen in the other; every sequence of the modelled calls is such an edit. copy(data) shares exactly the caller's array. By contrast make_new_with_same_coordinates shares coordinates, flattened or not (example)."
  },
  {
   "property": "C59",
   "status": "partial",
   "theorems": [
    "C59_copy_partial",
    "C59_equal_partial",
    "C59_slice_partial",
    "C59_slice_of_rest",
    "C59_range",
    "C59_refuted"
   ],
   "note": "Proved when no coordinate value is missing, metadata objects are not shared and standard names differ: everything is kept but attributes. Refuted otherwise: attributes are dropped; a copy is refused with two coordinates without standard name (None), and once a coordinate value has become missing (values copied before points are taken out)."
  },
  {
   "property": "C60",
   "status": "partial",
   "theorems": [
    "C60_partial",
    "C60_refuted"
   ],
   "note": "Proved for any sequence of calls when arrays lie in order in memory and coords() meets no missing coordinate value after data_flattened was asked for. Refuted otherwise: coords() takes points out of data but not of the flattened array kept; a flattened copy of data not in order does not follow changes."
  },
  {
   "property": "C45",
   "status": "partial",
   "theorems": [
    "C45_partial",
    "C45_two_dimensions",
    "C45_refuted"
   ],
   "note": "Hyperslab reading, the shared readers, the loading done by append and any later accesses are modelled: every element but the first holds its own slice (also a single one), over any number of files and leading dimensions. Refuted for the first: it always holds the second slice when there are two or more."
  },
  {
   "property": "C51",
   "status": "partial",
   "theorems": [
    "C51_version",
    "C51_names",
    "C51_partial",
    "C51_refuted"
   ],
   "note": "The name of every column is characterised exactly (order, numbers of repeated ones, standard names), for all header lines; names are distinct when columns cannot be taken for each other once cleaned and numbered. Refuted in general: X,X,X0; names that differ in deleted characters; two spellings of the date."
  },
  {
   "property": "C48",
   "status": "proved",
   "theorems": [
    "C48_double_underscore_refused",
    "C48_confined",
    "C48_accepted",
    "C48_decided",
    "C48_attributes"
   ],
   "note": "Python's eval is a parameter (any function of the namespace and the expression). Also proved: of the modules only numpy is visible, none of a list of 26 dangerous built-ins, and the data under their aliases. Not modelled: the history text, invalid unit strings, reserved attribute names of cubes."
  },
  {
   "property": "C52",
   "status": "partial",
   "theorems": [
    "C52_last_group_partial",
    "C52_one_group_partial",
    "C52_every_group_refuted"
   ],
   "note": "Refuted: each datagroup is saved to the same file, so only the result of the last one is left. Proved: the last one is the output, and with one datagroup it is the whole result."
  },
  {
   "property": "C61",
   "status": "partial",
   "theorems": [
    "C61_subset",
    "C61_aggregate",
    "C61_collapse",
    "C61_evaluate",
    "C61_stats",
    "C61_stats_quiet",
    "C61_inputs_kept",
    "C61_collocate_refuted"
   ],
   "note": "Proved for subset, aggregate, collapse, eval and stats; input files kept for all commands, composed with the checks on the command line (C10). Refuted for collocate with several datagroups: an error in a later one leaves the output overwritten."
  },
  {
   "property": "C62",
   "status": "partial",
   "theorems": [
    "C62_read",
    "C62_total",
    "C62_aliases_partial",
    "C62_datagroups_partial",
    "C62_one",
    "C62_alias_shift_refuted",
    "C62_surplus_refuted",
    "C62_pattern_in_eval_refuted"
   ],
   "note": "Proved: what is read, in which order, and the aliases when no variable is a pattern (also from the command-line specifications, with C09). Refuted: a pattern that finds nothing hands its alias to the next variable; surplus aliases are ignored; a pattern in eval or stats is refused when it stands for two variables."
  },
  {
   "property": "C63",
   "status": "partial",
   "theorems": [
    "C63_same_place_partial",
    "C63_other_place_refuted"
   ],
   "note": "Refuted: coordinates are never compared. Proved for data at the same coordinates."
  },
  {
   "property": "C64",
   "status": "partial",
   "theorems": [
    "C64_missing_sample_partial",
    "C64_bad_value_refuted"
   ],
   "note": "Proved for valid values and the default. Refuted: another value is only reported in the log and taken as None."
  },
  {
   "property": "C49",
   "status": "partial",
   "theorems": [
    "C49_new_partial",
    "C49_left_unchanged_partial",
    "C49_coordinate",
    "C49_one_operand_partial",
    "C49_shares_nothing",
    "C49_others",
    "C49_in_place",
    "C49_one_in_place",
    "C49_refused",
    "C49_sum_units",
    "C49_refuted"
   ],
   "note": "All of add, subtract, multiply, divide and the one-operand functions, new and in place, with numbers, arrays, ungridded and gridded right operands and broadcasting, for arbitrary element functions and unit algebra. Partial: new data needs all coordinate values present (see C59); C49_refuted: in place other data made with the same array changes too, the range stays the old one, a left operand whose metadata were stale is brought up to date, and the history does not tell a sum from a difference."
  },
  {
   "property": "C65",
   "status": "partial",
   "theorems": [
    "C65_limits",
    "C65_one_meaning",
    "C65_nothing_ignored_partial",
    "C65_refuted"
   ],
   "note": "Acceptance and meaning are proved exactly for every text. The full statement is false: a second limit for a dimension silently replaces the first, a name beginning with shape is taken for the shape, x=[10] raises TypeError and shape without = raises IndexError instead of an error message; C65_refuted shows each. int(), float() and dateutil are parameters."
  },
  {
   "property": "C66",
   "status": "partial",
   "theorems": [
    "C66_grid",
    "C66_one_meaning",
    "C66_refuted"
   ],
   "note": "Acceptance and meaning are proved exactly for every text against what the regular expression really accepts. The full statement is false: an unclosed or incomplete bracket counts as a dimension without grid and text after the bracket is ignored; C66_refuted shows each."
  },
  {
   "property": "C67",
   "status": "proved",
   "theorems": [
    "C67_attributes"
   ],
   "note": "For every text."
  },
  {
   "property": "C68",
   "status": "partial",
   "theorems": [
    "C68_bin_partial",
    "C68_exact",
    "C68_missing",
    "C68_list",
    "C68_refuted"
   ],
   "note": "Proved for samples stored upwards, and exactly which cells are lost otherwise (the first ones of a dimension stored downwards). Refuted: 'box' and the nearest neighbour kernels never work on a gridded sample, missing samples cannot be respected with a scalar coordinate, longitudes are compared in the sample's convention only."
  },
  {
   "property": "C69",
   "status": "partial",
   "theorems": [
    "C69_partial",
    "C69_undefined",
    "C69_methods",
    "C69_refuted"
   ],
   "note": "Proved for variables on one grid whose longitudes are around the world or within the sample's range, except samples between the start of the longitude range and the grid's first longitude in it, which get a missing value. Without these exceptions false of the code: four counterexamples (that gap; a grid in the western half with a sample in 0..360; a grid across the date line; two variables on different grids, the second read through the interpolator of the first)."
  },
  {
   "property": "C70",
   "status": "partial",
   "theorems": [
    "C70_partial",
    "C70_refused",
    "C70_refuted"
   ],
   "note": "Proved for every interpolation scheme (iris's interpolate is a parameter) for variables with the same dimensions in the same order and sizes. False of the code otherwise: a second variable with its dimensions in another order is transposed like the first; a sample whose scalar coordinate makes up for a dimension missing in the data is refused when it has a mask; data at a single longitude are refused."
  },
  {
   "property": "C71",
   "status": "partial",
   "theorems": [
    "C71_partial",
    "C71_bins_partial",
    "C71_read",
    "C71_described",
    "C71_one_description",
    "C71_names",
    "C71_file_types",
    "C71_refuted_height",
    "C71_refuted_bins",
    "C71_refuted_order"
   ],
   "note": "Holds when the files are described alike and their variables are on the dimensions of the times (optionally followed by one dimension of bins equal in all files). Refuted otherwise: the first file decides for all, so a station height that only a later file gives is read as 0; the bins of the first file are given to all files; a variable with its bins before the times is silently put at other times and bins. The conversion of times (cf_units) and float() are parameters."
  },
  {
   "property": "C72",
   "status": "partial",
   "theorems": [
    "C72_profiles_partial",
    "C72_cells_partial",
    "C72_missing",
    "C72_mixed",
    "C72_no_height",
    "C72_names",
    "C72_refuted_time"
   ],
   "note": "Proved for files whose variables have no factor 0 and no missing operator '>=' ; the factor, offset and valid range of Profile_time and TAI_start are not applied by the code (C72_refuted_time), so the time is that of the stored values."
  },
  {
   "property": "C73",
   "status": "partial",
   "theorems": [
    "C73_cells_partial",
    "C73_columns",
    "C73_other_levels",
    "C73_missing",
    "C73_names",
    "C73_refuted_altitudes"
   ],
   "note": "Proved when all files have the altitudes of the first and no scale factor is 0; the altitudes of later files are not read (C73_refuted_altitudes: a later file with other altitudes gets those of the first)."
  },
  {
   "property": "C74",
   "status": "partial",
   "theorems": [
    "C74_rows_partial",
    "C74_no_data",
    "C74_missing",
    "C74_not_a_number",
    "C74_names",
    "C74_refuted"
   ],
   "note": "For files without blank lines in the header and without lines of more fields than columns; refuted for those (lines are lost: C74_refuted). read_csv is modelled by contract; float() and the date parser are parameters of the theorems."
  },
  {
   "property": "C75",
   "status": "partial",
   "theorems": [
    "C75_read_partial",
    "C75_own_place_partial",
    "C75_refused",
    "C75_overhang",
    "C75_aux_time",
    "C75_names",
    "C75_offered",
    "C75_place_refuted",
    "C75_units_refuted",
    "C75_time_refuted",
    "C75_offered_refuted"
   ],
   "note": "Proved where the dimensions of heights and pressures are the first ones of the variable and the time is a dimension. Refuted otherwise: only lengths are compared, units of heights and pressures are ignored, a scalar time keeps the units of the file, an auxiliary time or heights with further dimensions make the file unreadable, an offered name may be refused. iris is modelled by contract (merging is a parameter); attributes and bounds are left out."
  },
  {
   "property": "C76",
   "status": "partial",
   "theorems": [
    "C76_statistics_partial",
    "C76_reference",
    "C76_drawn",
    "C76_marks",
    "C76_inside_folded",
    "C76_inside",
    "C76_bias_scale",
    "C76_bias_limit",
    "C76_two_dimensional_refuted",
    "C76_refuted",
    "C76_log_missing_refuted",
    "C76_log_negative_refuted",
    "C76_different_missing_refuted"
   ],
   "note": "The statistics, the law of cosines, marks, folding and extents are proved for all one-dimensional data sets missing the same points (log option: positive values, none missing); refuted: two-dimensional data (the correlation is that of the data set's first two rows), log option with missing or non-positive values, data sets missing different points. Arrays of three or more dimensions are not modelled."
  },
  {
   "property": "C77",
   "status": "partial",
   "theorems": [
    "C77_points_partial",
    "C77_longitude",
    "C77_hybrid_partial",
    "C77_heatmap_partial",
    "C77_extra_refuted",
    "C77_square_refuted",
    "C77_hybrid_refuted",
    "C77_heatmap_refuted",
    "C77_heatmap_swapped_refuted"
   ],
   "note": "Proved for points when x is across (or the data is not square), for a hybrid axis with the other across, and for bounds with x across unless there is one more column than rows. Refuted: any evenly spaced axis across (times, pressures) gets a repeated column; square data with x down are drawn transposed; a 1-D axis down beside a hybrid axis gets the transposed shape; heat maps with columns = rows + 1, or with x down, get arrays that do not fit."
  },
  {
   "property": "C78",
   "status": "partial",
   "theorems": [
    "C78_layers_partial",
    "C78_type_partial",
    "C78_multilayer",
    "C78_one_partial",
    "C78_comparative",
    "C78_comparative_two",
    "C78_taylor",
    "C78_taylor_mixed",
    "C78_type_refuted",
    "C78_one_type_refuted",
    "C78_variables_refuted",
    "C78_comparative_refuted",
    "C78_axes_refuted"
   ],
   "note": "Number, order, labels and options of the layers are proved exactly for all options. Refuted: a layer's type is passed on to the layers after it; the type given for the only datagroup is not used as the type; a datagroup of several variables makes every plot of several data objects fail; the second datagroup's options are ignored in comparative plots; with too short a list of y axes the last data objects are left out. What basic_plot draws is a parameter (see C77, C76)."
  },
  {
   "property": "C79",
   "status": "partial",
   "theorems": [
    "C79_named_partial",
    "C79_guess_partial",
    "C79_fallback_partial",
    "C79_own_coordinate",
    "C79_chosen",
    "C79_bad_type",
    "C79_compared",
    "C79_squeeze",
    "C79_layers",
    "C79_unknown_refuted",
    "C79_single_refuted",
    "C79_curtain_refuted",
    "C79_profile_refuted",
    "C79_layers_refuted"
   ],
   "note": "Proved for named coordinates that are unique and have several points, for guessed ones, for the fall-back and for types and data drawn. Refuted: a name no coordinate has (or whose coordinate has one point) is silently replaced by a guess; data of two dimensions without a y axis (time and height) raise IndexError; a pressure profile is drawn upside down; an even number of layers turns a pressure axis back."
  },
  {
   "property": "C80",
   "status": "partial",
   "theorems": [
    "C80_partial",
    "C80_moments",
    "C80_needs",
    "C80_one_way",
    "C80_read",
    "C80_names_needed",
    "C80_refuted_mixed",
    "C80_refuted_units",
    "C80_refuted_unnamed"
   ],
   "note": "Rows, names and times proved for files whose variables are on the dimensions of the times; refuted: mixtures of short and long names, units of the time variable, files without standard names (the name guessed from the variable is erased again). Variables in groups and the netCDF library are contracts."
  },
  {
   "property": "C81",
   "status": "partial",
   "theorems": [
    "C81_partial",
    "C81_stamp",
    "C81_missing",
    "C81_refuted"
   ],
   "note": "Proved for all stamps, attributes and both products. Partial: strptime, relativedelta and date2num are contracts (fields of one digit, which strptime takes too, are outside the theorem); attributes that are not texts and an aerosol cube that has a time already are not modelled. The workaround for the known bad file is refuted: it always raises NameError."
  },
  {
   "property": "C82",
   "status": "partial",
   "theorems": [
    "C82_partial",
    "C82_points",
    "C82_columns",
    "C82_refuted",
    "C82_refuted_many"
   ],
   "note": "Proved for all files of two or more observations. Partial: numpy.genfromtxt is a contract (line splitting, comments, masks, squeezing), a time that cannot be parsed is not covered; float() and dateutil's parser are parameters. Refuted for files of one observation: the array of numpy has no dimensions then."
  },
  {
   "property": "C83",
   "status": "partial",
   "theorems": [
    "C83_partial",
    "C83_refuted",
    "C83_interpolation",
    "C83_interpolation_refuted",
    "C83_missing_refuted",
    "C83_dateline_refuted"
   ],
   "note": "Proved for variables on the grid of their coordinates; interpolation proved bilinear for all fields and odd factors in Python 2. Refuted for 1 km variables (unreadable in both Pythons, missing positions used, date line). Partial: pyhdf, masking and scaling (C41) and numpy's strided slices are contracts; variables of more dimensions are C45."
  },
  {
   "property": "C84",
   "status": "partial",
   "theorems": [
    "C84_pixels_partial",
    "C84_across",
    "C84_missing_refuted",
    "C84_files_refuted",
    "C84_index_refuted",
    "C84_place_refuted",
    "C84_index_beyond"
   ],
   "note": "Proved for the first file, indexes 0-9, one extra dimension in its place, positions of the pixels' shape or of their rows. Refuted: other files are ignored, two-digit indexes, a band in another place, a missing variable without positions."
  },
  {
   "property": "C85",
   "status": "partial",
   "theorems": [
    "C85_value",
    "C85_partial",
    "C85_undated",
    "C85_refuted",
    "C85_offered",
    "C85_unquoted"
   ],
   "note": "Proved for all files whose metadata objects have one quoted value each. Partial: iris's DimCoord, Cube and merge_cube, and the parser of dates, are contracts or parameters; units and names are left out. Refuted: attributes that are not texts (AttributeError)."
  },
  {
   "property": "C86",
   "status": "partial",
   "theorems": [
    "C86_convsh_partial",
    "C86_height_units",
    "C86_names",
    "C86_pp_partial",
    "C86_history_refuted",
    "C86_pp_names_refuted",
    "C86_pp_clash_refuted",
    "C86_pressure_refuted",
    "C86_time_refuted"
   ],
   "note": "False of the code in places: files without history cannot be read together (KeyError); pressures are lost when histories differ; names with blanks get underscores from a single pp file only and may clash; t beside time is not converted. iris merging and unit conversion are contracts."
  },
  {
   "property": "C87",
   "status": "partial",
   "theorems": [
    "C87_size",
    "C87_limits_partial",
    "C87_limits_refuted",
    "C87_pressure_partial",
    "C87_pressure_refuted",
    "C87_lower_limit_refuted",
    "C87_pressure_ticks_refuted",
    "C87_map",
    "C87_map_limits",
    "C87_map_global",
    "C87_map_limits_refuted",
    "C87_coastlines",
    "C87_picture",
    "C87_times_partial",
    "C87_other_axis",
    "C87_times_refuted",
    "C87_tick_text",
    "C87_label_partial",
    "C87_label_refuted",
    "C87_contour_partial",
    "C87_contour_refuted",
    "C87_bar_step"
   ],
   "note": "False of the code: a step that does not divide the range takes the axis past its limit; on an axis of pressures both limits turn it back, the lower limit alone shows what is below it, a step leaves no ticks; borders of a map that were not given are taken in the wrong coordinates unless the central longitude is a multiple of 360; times on 2-D plots are labelled 135140 days late; a label without units ends in a blank; vstep is ignored by contour plots. matplotlib, cartopy and cf-units are contracts."
  },
  {
   "property": "C88",
   "status": "partial",
   "theorems": [
    "C88_scatter",
    "C88_comparison_partial",
    "C88_comparison_refuted",
    "C88_coordinate_refuted",
    "C88_diagonal",
    "C88_histogram",
    "C88_no_bins",
    "C88_bar_styles",
    "C88_histogram2d",
    "C88_sizes",
    "C88_line",
    "C88_line_tracks",
    "C88_line_columns_partial",
    "C88_line_refused",
    "C88_line_refuted",
    "C88_line_styles",
    "C88_line_plot"
   ],
   "note": "False of the code: variables on the same grid with their dimensions in another order are compared at different places; a coordinate of more than one point on the x axis is refused; on a square grid a line against the coordinate of the second dimension is drawn against the first. numpy's histograms and matplotlib's plot and pcolor are contracts; arithmetic is exact; NaN is not modelled."
  },
  {
   "property": "C89",
   "status": "partial",
   "theorems": [
    "C89_groups",
    "C89_exclude",
    "C89_dimensions",
    "C89_names",
    "C89_type",
    "C89_unopened",
    "C89_modis_partial",
    "C89_caliop_partial",
    "C89_cloudsat",
    "C89_errors",
    "C89_info",
    "C89_args",
    "C89_exclude_groups_refuted",
    "C89_all_refuted",
    "C89_both_refuted",
    "C89_ending_refuted",
    "C89_unreadable_refuted",
    "C89_modis_refuted",
    "C89_caliop_refuted",
    "C89_errors_refuted",
    "C89_args_product_refuted"
   ],
   "note": "Group trees of any depth; listings for any list of files. Refuted: documented type All -> ValueError; documented None -> only SD; other endings -> TypeError; unreadable HDF -> silently empty; MODIS/CALIOP judge later files by the first one's shape; exceptions without arguments -> IndexError; coordinate variables of groups are not excluded; file:product=... taken as variable:file. What pyhdf and netCDF4 report is the content of the model's files."
  },
  {
   "property": "C90",
   "status": "partial",
   "theorems": [
    "C90_commands",
    "C90_other_words",
    "C90_levels_partial",
    "C90_quiet",
    "C90_flags",
    "C90_checks_partial",
    "C90_plot_group",
    "C90_subset",
    "C90_aggregate",
    "C90_collapse",
    "C90_eval",
    "C90_collocate",
    "C90_plot",
    "C90_stats",
    "C90_goes_on",
    "C90_dimensions_partial",
    "C90_no_command_refuted",
    "C90_levels_refuted",
    "C90_before_refuted",
    "C90_contlevels_refuted",
    "C90_mandatory_plot",
    "C90_mandatory",
    "C90_chosen",
    "C90_equals_refuted",
    "C90_bare_output_refuted",
    "C90_dimensions_refuted"
   ],
   "note": "Refuted: no command -> KeyError; -vvv -> warnings only; flags before the command are lost (argparse contract: a subparser's values replace those read before); contlevels drops first and last characters, ValueError on other texts; label=a=b truncated; bare -o -> TypeError; collapse x,y t not split. argparse's own tokenising, float() and the plugin lists are parameters."
  },
  {
   "property": "C91",
   "status": "partial",
   "theorems": [
    "C91_new",
    "C91_modified_partial",
    "C91_modified_refuted",
    "C91_same_point",
    "C91_coord_tuple",
    "C91_separations",
    "C91_pressure_ratio_partial",
    "C91_pressure_ratio_refuted",
    "C91_distance",
    "C91_comparisons",
    "C91_furthest",
    "C91_furthest_twice",
    "C91_data",
    "C91_points_back",
    "C91_round_trip_partial",
    "C91_round_trip_refuted"
   ],
   "note": "Proved for all points; the round trip through data is characterised completely (C91_points_back) and is the identity for points that all have the same coordinates (latitude and longitude among them) and one value each. Refuted: `modified` ignores a time that is not a date and nests a sequence of values; the pressure ratio is not >= 1 for pressures of other sign (0: ZeroDivisionError); a later point lacking a coordinate vanishes, a coordinate lacking in the first point is lost for all, a point without a value gets 0; the empty list raises IndexError."
  },
  {
   "property": "C92",
   "status": "partial",
   "theorems": [
    "C92_columns",
    "C92_rows_partial",
    "C92_collocation_partial",
    "C92_dropna",
    "C92_coordinates_partial",
    "C92_list_partial",
    "C92_list_lengths",
    "C92_refuted"
   ],
   "note": "C92_columns characterises the frame for all data; the row-by-row statements are proved for distinct column names. Refuted: coordinates without a standard name share one column (the last wins), data named like a coordinate replace it, data of the same name in a list replace each other, and the coordinates of later items of a list are not compared with the first's. pandas' constructor, column assignment and dropna are contracts; sharing of memory (copy=False) is not modelled."
  },
  {
   "property": "C93",
   "status": "partial",
   "theorems": [
    "C93_construct",
    "C93_construct_total",
    "C93_wrong_kind",
    "C93_each",
    "C93_each_total",
    "C93_collapsed",
    "C93_collapsed_total",
    "C93_extract_partial",
    "C93_extract_total",
    "C93_extract_none",
    "C93_extract_is_none",
    "C93_extract_refuted",
    "C93_all_changed_partial",
    "C93_all_changed_total",
    "C93_half_changed",
    "C93_changed_refuted",
    "C93_files_read_partial",
    "C93_files_set_partial",
    "C93_files_refuted",
    "C93_attributes",
    "C93_attribute_removed_partial",
    "C93_attribute_removed_refuted",
    "C93_saved_on_variable_partial",
    "C93_unlimited_time",
    "C93_saved_list_refuted",
    "C93_init",
    "C93_init_error_partial",
    "C93_init_error_refuted",
    "C93_make_new_partial",
    "C93_make_new_refuted",
    "C93_history",
    "C93_kernels",
    "C93_kernel_default",
    "C93_kernel_unknown",
    "C93_moments_named",
    "C93_moments_distinct_partial",
    "C93_moments_distinct_refuted",
    "C93_first",
    "C93_default_plot"
   ],
   "note": "Refuted: one item without data makes extract and intersection return None; a failure leaves the items before it changed, and an object that is twice in a list is changed twice; all variables read together share one list of file names (adding a name to the list of data adds it once per variable, also to the caller's list), objects not read from files share the class attribute; a reserved name is not removed, an attribute set twice stays listed; attributes of variables saved in a list are written on the file; errors of construction without units surface as KeyError; the default history of make_new_with_same_coordinates is refused; 'moments' of rain and rain_std_dev clash. Iris' methods are parameters; iris.save's choice of global attributes is a contract."
  },
  {
   "property": "C94",
   "status": "partial",
   "theorems": [
    "C94_standard_name",
    "C94_if_valid",
    "C94_new",
    "C94_netcdf",
    "C94_guess_refuted",
    "C94_name",
    "C94_units",
    "C94_tidied",
    "C94_set_again_partial",
    "C94_set_again_refuted",
    "C94_equal",
    "C94_compare_partial",
    "C94_compare_refuted",
    "C94_convert",
    "C94_convertible",
    "C94_not_converted",
    "C94_there_and_back",
    "C94_degrees",
    "C94_times",
    "C94_times_told",
    "C94_times_failed",
    "C94_stamp_refuted",
    "C94_dates",
    "C94_other_units",
    "C94_dates_refuted",
    "C94_range",
    "C94_range_refuted",
    "C94_flattened_partial",
    "C94_flattened_units_partial",
    "C94_flattened_times_partial",
    "C94_flattened_times_refuted",
    "C94_flattened_units_refuted",
    "C94_history"
   ],
   "note": "Proved except for the refuted clauses listed in the statement. cf_units (linear units, the Gregorian calendar, exact numbers) and iris' table of standard names are contracts."
  },
  {
   "property": "C95",
   "status": "partial",
   "theorems": [
    "C95_read",
    "C95_listed",
    "C95_unknown_partial",
    "C95_unknown_group",
    "C95_unknown_refuted",
    "C95_many",
    "C95_hdf",
    "C95_hdf_unknown",
    "C95_hdf_datasets",
    "C95_hdf_tables_partial",
    "C95_hdf_tables_again",
    "C95_hdf_once_refuted",
    "C95_closed",
    "C95_answers",
    "C95_reader",
    "C95_reader_error",
    "C95_reader_callback"
   ],
   "note": "Proved except for the two refuted clauses listed in the statement. netCDF4 and pyhdf are contracts."
  },
  {
   "property": "C96",
   "status": "partial",
   "theorems": [
    "C96_signature",
    "C96_order",
    "C96_product",
    "C96_none",
    "C96_only_error",
    "C96_cis_files",
    "C96_netcdf",
    "C96_no_pressure",
    "C96_named",
    "C96_named_error",
    "C96_unreadable",
    "C96_source",
    "C96_product_refuted",
    "C96_format",
    "C96_no_coordinates",
    "C96_no_format",
    "C96_hierarchy_partial",
    "C96_hierarchy_refuted",
    "C96_full_name"
   ],
   "note": "Proved for CIS' own products without plugins (those are C42, C43), except for the refuted clauses listed in the statement. re.match is modelled for the expressions of the signatures; names contain no line break."
  },
  {
   "property": "C97",
   "status": "partial",
   "theorems": [
    "C97_kernels",
    "C97_kernels_unknown",
    "C97_ungridded",
    "C97_ungridded_complete",
    "C97_gridded",
    "C97_gridded_complete",
    "C97_refused",
    "C97_limit_unknown",
    "C97_kernel_refused",
    "C97_kernel_unread",
    "C97_limits_unread",
    "C97_names_grid",
    "C97_names_points_partial",
    "C97_names_from_grid",
    "C97_names_regrid_partial",
    "C97_complete",
    "C97_history_partial",
    "C97_onto",
    "C97_onto_default_partial",
    "C97_onto_default_fails",
    "C97_onto_coordinates",
    "C97_asked_refuted",
    "C97_asked_regrid_refuted",
    "C97_asked_list_refuted",
    "C97_unread_refuted",
    "C97_history_refuted",
    "C97_onto_default_refuted"
   ],
   "note": "Refuted: names asked for are dropped for ungridded data at points and for gridded data on a grid, and are the same for all variables of a list; a kernel for gridded data at points and limits of other methods than box are not read; the history of the source is lost except for gridded data on a grid; gridded.collocated_onto(UngriddedCoordinates) fails by default where sampled_from works. The reading of a limit (C12, C53), valid standard names and readable units, and texts of collocators and kernels are parameters; values are those of C25, C68-C70."
  },
  {
   "property": "C98",
   "status": "partial",
   "theorems": [
    "C98_map_partial",
    "C98_scales_partial",
    "C98_scales_never",
    "C98_grid",
    "C98_labels",
    "C98_title",
    "C98_bar",
    "C98_bar_options",
    "C98_bar_label",
    "C98_bar_orientation",
    "C98_coast_partial",
    "C98_picture_partial",
    "C98_ticks_partial",
    "C98_output",
    "C98_complete",
    "C98_projection_refuted",
    "C98_projection_limits_refuted",
    "C98_extent_refuted",
    "C98_band_refuted",
    "C98_map_refuted"
   ],
   "note": "refuted clauses: which plots are maps goes by the first letters of names, so fluxes can be maps (C98_map_refuted) and lose their logarithmic scales (C98_scales_never); limits and steps are ignored on projections that are not rectangular (C98_projection_refuted, C98_projection_limits_refuted); an area all round the Earth counts as small as it is high (C98_extent_refuted, C98_band_refuted). Tick placement by MaxNLocator and the extents cartopy reports are contracts"
  },
  {
   "property": "C99",
   "status": "partial",
   "theorems": [
    "C99_nearest_partial",
    "C99_furthest_partial",
    "C99_within_partial",
    "C99_constraint_partial",
    "C99_not_indexed",
    "C99_longitudes_refuted",
    "C99_reindexed_refuted",
    "C99_fewer"
   ],
   "note": "Proved for longitudes at most a turn apart and at most a turn east of the sample (np.fmod keeps the sign of the dividend, so positions further west are measured wrongly: C99_longitudes_refuted) and for a constraint that indexes one set of data (its memory of places is not cleared: C99_reindexed_refuted). Exact real arithmetic: rounding is outside the model; tan at the poles is taken as infinite."
  },
  {
   "property": "C100",
   "status": "partial",
   "theorems": [
    "C100_settings_partial",
    "C100_refused",
    "C100_unknown",
    "C100_ambiguous",
    "C100_tables",
    "C100_first_table",
    "C100_plot",
    "C100_info",
    "C100_collocate",
    "C100_aggregate",
    "C100_collapse",
    "C100_subset",
    "C100_stats",
    "C100_eval",
    "C100_command_partial",
    "C100_version",
    "C100_command_refuses",
    "C100_no_such_command",
    "C100_no_text",
    "C100_help",
    "C100_first_wrong",
    "C100_command_help",
    "C100_first_help",
    "C100_order_refuted",
    "C100_negative_refuted",
    "C100_expression_refuted",
    "C100_bare_refuted",
    "C100_first_refuted"
   ],
   "note": "argparse is modelled as a contract (Python 2.7.9 to 3.11); proved for settings before and after one block of arguments; arguments split by options, negative numbers in scientific notation, expressions with a leading minus sign, options without text and options before the command are refuted"
  },
  {
   "property": "C101",
   "status": "partial",
   "theorems": [
    "C101_dates_partial",
    "C101_order",
    "C101_period_partial",
    "C101_numbers",
    "C101_no_limit",
    "C101_mixed_refused",
    "C101_last_second_refuted",
    "C101_gridded_partial",
    "C101_gridded_numbers_refused",
    "C101_grid_partial",
    "C101_grid_numbers",
    "C101_grid_hours_refuted",
    "C101_gridded_unknown",
    "C101_no_grid",
    "C101_single_grid",
    "C101_no_step"
   ],
   "note": "Proved except for the refuted clauses listed in the statement. num2date and date2num are arbitrary functions (contracts); lists of points without shape are C32; iris' cells of times are datetimes and a coordinate of gridded data is named as its keyword; comparing what cannot be compared is a TypeError also where there are no points."
  },
  {
   "property": "C102",
   "status": "partial",
   "theorems": [
    "C102_subset_partial",
    "C102_subset_none",
    "C102_subset_unknown",
    "C102_limits_legible",
    "C102_shape_refuted",
    "C102_aggregate",
    "C102_collapse",
    "C102_collapse_refuted",
    "C102_evaluate",
    "C102_arithmetic",
    "C102_steps",
    "C102_files_refuted",
    "C102_comparison",
    "C102_comparison_fails",
    "C102_two_variables"
   ],
   "note": "Proved except for the refuted clauses listed in the statement; C102_subset_partial is for limits of distinct coordinates. repr and str of values, kernels and sets are parameters (a set is in any order); the items of a list get the same time; collocated data are C97."
  },
  {
   "property": "C103",
   "status": "partial",
   "theorems": [
    "C103_run",
    "C103_told",
    "C103_bad_line",
    "C103_only_interrupt",
    "C103_no_log_partial",
    "C103_no_log_refuted",
    "C103_no_command_refuted",
    "C103_format_refuted",
    "C103_one_group",
    "C103_subset",
    "C103_aggregate",
    "C103_collapse_partial",
    "C103_collapse_refuted",
    "C103_version"
   ],
   "note": "False of the code (refuted): the message of a FileFormatError is ((), {}) whatever its reasons; with a log that cannot be written, -v and -q end every run with 'list index out of range'; without a command the message is None; collapse of ungridded data goes on after its complaint and ends with an AttributeError. Proved: all else, for all lines, levels, stories and messages."
  },
  {
   "property": "C104",
   "status": "partial",
   "theorems": [
    "C104_partition",
    "C104_within_partial",
    "C104_pairs",
    "C104_answers",
    "C104_nearest",
    "C104_none_left",
    "C104_rejects",
    "C104_wrong_mask",
    "C104_one_value",
    "C104_index_unmasked",
    "C104_index_masked_partial"
   ],
   "note": "Partial only in C104_within_partial and C104_index_masked_partial: the exact list of points within a distance needs the unmasked longitudes to be within a turn, as in C99 (C99_longitudes_refuted); all the other theorems are for all inputs. The nearest point is shown not to be masked; that it is the nearest is false in general (C22). Exact arithmetic."
  },
  {
   "property": "C105",
   "status": "partial",
   "theorems": [
    "C105_one_point",
    "C105_array",
    "C105_each_alone",
    "C105_all_points",
    "C105_all_points_array",
    "C105_width",
    "C105_norm",
    "C105_fewer_partial",
    "C105_none_wanted_refuted",
    "C105_near",
    "C105_near_each_alone",
    "C105_near_width",
    "C105_matrix",
    "C105_matrix_width"
   ],
   "note": "Proved, except that one point with no neighbour wanted raises an IndexError: the search is made before the number is checked (C105_none_wanted_refuted). Distances are p-th powers (no roots), in exact arithmetic; an array is its shape and its cells in order; a search of one point is the model of C19 and C17."
  },
  {
   "property": "C106",
   "status": "partial",
   "theorems": [
    "C106_coords",
    "C106_attributes_refused",
    "C106_itself",
    "C106_shared",
    "C106_not_shared",
    "C106_duplicate",
    "C106_only",
    "C106_several",
    "C106_by_standard_name",
    "C106_not_found_partial",
    "C106_dropped_refuted",
    "C106_single_refuted",
    "C106_like",
    "C106_like_missing_refuted",
    "C106_standard_partial",
    "C106_standard_refuted"
   ],
   "note": "Proved except for the refuted clauses of the statement: get_coord tries get_coords(standard_name=name_or_coord) when nothing is found, which drops the other criteria, drops all of them when there is no name, and compares a text with a Coord when a coordinate was given. Values of attributes are texts."
  },
  {
   "property": "C107",
   "status": "partial",
   "theorems": [
    "C107_data",
    "C107_other_names",
    "C107_itself_partial",
    "C107_itself_refuted",
    "C107_symmetric_refuted",
    "C107_transitive_refuted",
    "C107_lengths",
    "C107_single",
    "C107_lengths_refuted",
    "C107_coordinates",
    "C107_kinds",
    "C107_unnamed_refuted",
    "C107_other",
    "C107_other_refuted",
    "C107_differs",
    "C107_member",
    "C107_hash_refuted"
   ],
   "note": "Proved except for the refuted clauses. The data are loaded and of one dimension, numbers exact and finite; numpy.allclose is modelled with its default tolerances, and its answer when everything is masked is left open."
  },
  {
   "property": "C108",
   "status": "partial",
   "theorems": [
    "C108_describes",
    "C108_again",
    "C108_short",
    "C108_no_range_refuted",
    "C108_empty_refuted",
    "C108_stale_refuted"
   ],
   "note": "Proved for loaded data whose coordinates have as many values as the data and none missing (C60, C64 are about the others). Refuted: that a description tells the present range of the data (after put_values it tells the old one, and the next description differs); that data with no range recorded or with an empty coordinate can be described. Texts of units and ends of ranges are parameters; the text of a range of dates with a masked end is not modelled exactly."
  },
  {
   "property": "C50",
   "status": "partial",
   "theorems": [
    "C50_dividing_step_covers_partial",
    "C50_default_step_covers",
    "C50_remainder_uncovered_refuted",
    "C50_zero_minimum_refuted"
   ],
   "note": "Holds when the step divides the range (and for the default step); false otherwise: the top of the range is in no bin, and a requested limit of 0 is ignored. Log-spaced edges not modelled."
  },
  {
   "property": "C53",
   "status": "proved",
   "theorems": [
    "C53_distances_convert",
    "C53_accepted_text_has_one_number"
   ],
   "note": "Numbers are exact decimals."
  },
  {
   "property": "C54",
   "status": "partial",
   "theorems": [
    "C54_comparison_decides",
    "C54_nan_free_partial",
    "C54_symmetry_refuted"
   ],
   "note": "False of the code: a NaN in the first array matches anything. Exact characterisation proved."
  },
  {
   "property": "C55",
   "status": "proved",
   "theorems": [
    "C55_apply_mask_is_union",
    "C55_no_mask_no_change",
    "C55_two_arrays_share_the_union",
    "C55_missing_values_masked",
    "C55_concatenate_keeps_masks",
    "C55_expand_duplicates"
   ],
   "note": ""
  },
  {
   "property": "C56",
   "status": "partial",
   "theorems": [
    "C56_method_and_args",
    "C56_bare_method",
    "C56_multi_split_keeps_text",
    "C56_blanks_removed_refuted"
   ],
   "note": "'Blank pieces are dropped' is false of the code (removal while iterating); the rest is proved."
  }
 ]
}