PROPS = [
("C01", "OrderedSet is an insertion-ordered set",
 "For every sequence of add, discard and pop calls, an OrderedSet holds exactly the elements added and not since removed, each once; iterating gives them in order of first (re-)insertion, reversed() gives the reverse, len() their number, pop() removes and returns the newest (or, with last=False, the oldest) and raises KeyError exactly when empty.",
 "all finite histories of add/discard/pop over any hashable keys",
 "The doubly linked list is rewired on every call; only an induction over histories shows that forward and backward links never diverge.",
 ["cis/utils.py: OrderedSet"]),
("C02", "index_iterator visits every cell once in row-major order",
 "index_iterator(shape) yields every index tuple of an array of that shape exactly once, in row-major (last index fastest) order, and nothing else; for a shape with an empty dimension it yields nothing.",
 "all shapes of any rank and any dimension sizes",
 "Collocation loops rely on it for every rank and size; examples cover a few shapes.",
 ["cis/utils.py: index_iterator"]),
("C03", "Input file lists expand to existing files without duplicates",
 "expand_filelist returns each matching existing file exactly once, in the order of the elements given (sorted inside a directory or wildcard), never returns a path that is not a file, and raises ValueError if and only if some non-wildcard element names neither a file nor a directory.",
 "all element lists and all file systems",
 "The space of lists and directory contents is unbounded; duplicates across elements are easily missed.",
 ["cis/data_io/data_reader.py: expand_filelist"]),
("C04", "Key=value option lists: the last value of a key wins",
 "Parsing a list of key=value strings gives a dictionary whose keys are exactly the keys mentioned, each mapped to the value of its last mention, a key without '=' to True.",
 "all lists of option strings",
 "A statement over all orders and repetitions.",
 ["cis/utils.py: parse_key_val_list, parse_key_val_string"]),
("C05", "Ungridded longitudes are wrapped into the requested 360 degree range",
 "After set_longitude_range(s) on ungridded data every longitude lies in [s, s+360), differs from its old value by a multiple of 360, values already in range are unchanged, and applying it twice is the same as once; the point-by-point view's variant does the same for values within one turn.",
 "all longitude values and range starts",
 "Wrap-around at both ends for every value.",
 ["cis/utils.py: fix_longitude_range", "cis/data_io/Coord.py: Coord.set_longitude_range", "cis/data_io/hyperpoint_view.py: UngriddedHyperPointView.set_longitude_range"]),
("C06", "Rotating gridded longitudes keeps every value with its location",
 "GriddedData.set_longitude_range(s) leaves the longitudes strictly increasing and inside [s, s+360), each a multiple of 360 from its old value, and the data column stored against a longitude is the column stored against it before.",
 "all strictly increasing longitude axes spanning less than 360 degrees, all range starts, all data",
 "Whether data and axis rotate by the same amount must hold for every split position.",
 ["cis/data_io/gridded_data.py: GriddedData.set_longitude_range"]),
("C07", "Splitting on separators ignores bracketed text and loses nothing",
 "split_outside_brackets cuts a string exactly at the separators not enclosed in brackets: pieces contain no unbracketed separator and, joined back with the separators, give the input (a trailing empty piece apart).",
 "all strings, separators and bracket pairs",
 "Nested and unbalanced brackets of any depth.",
 ["cis/parse.py: split_outside_brackets"]),
("C08", "Datagroup options are validated",
 "In a datagroup argument variable:filename[:options], every option value accepted has passed that option's check, unknown options and missing compulsory parts are errors.",
 "all argument strings",
 "The argument grammar is unbounded.",
 ["cis/parse.py: parse_colon_and_comma_separated_arguments, get_datagroups"]),
("C09", "Variable aliases are unique",
 "When parsing of eval or stats datagroups succeeds, no two variables of all the datagroups together share an alias, and each variable has exactly one alias.",
 "all lists of datagroups and alias specifications",
 "Collisions across groups depend on the whole list.",
 ["cis/parse.py: _set_aliases_for_datagroups"]),
("C10", "Existing output is never overwritten without consent",
 "A command whose output file exists goes on only if --force-overwrite was given, or CIS_FORCE_OVERWRITE is set to something other than false, or the user's first answer among y, n and empty at the prompt is y; and the output file is never one of the input files.",
 "all command lines, environments and user answers",
 "The prompt loop can be answered any number of times with anything.",
 ["cis/parse.py: _file_already_exists_and_no_overwrite, _validate_output_file, _output_file_matches_an_input_file"]),
("C11", "A partial date denotes exactly its calendar period",
 "For a partial date (year, optionally month, day, ...) with no gaps, min() and max() are the first and last whole second of the period it names, with correct month lengths in leap and common years; partial dates with gaps are rejected.",
 "all years, months, days, hours, minutes",
 "All (year, month) pairs including century leap-year rules.",
 ["cis/parse_datetime.py: _parse_partial_datetime", "cis/time_util.py: PartialDateTime, find_last_day_of_month"]),
("C12", "ISO time deltas add up",
 "A period string such as P1Y2M3DT4H5M6S denotes 365 days per year, 30 per month and the stated days, hours, minutes, seconds; each unit may be given once in any order; unknown unit letters are errors.",
 "all token sequences",
 "All subsets and orders of units with any counts.",
 ["cis/parse_datetime.py: _parse_datetime_delta, parse_datetimestr_delta_to_float_days"]),
("C13", "Seconds-since conversion denotes the same instant",
 "Converting 'seconds since reference' to standard time yields the same physical instant for every reference date-time and every number of seconds.",
 "all reference instants and second counts",
 "All reference times of day.",
 ["cis/time_util.py: convert_sec_since_to_std_time"]),
("C14", "Changing the year keeps the rest of the date",
 "set_year changes only the year; it gives no date exactly for 29 February and a common target year.",
 "all dates and target years",
 "All leap-year combinations.",
 ["cis/time_util.py: set_year, change_year_of_ungridded_data"]),
("C15", "Binned collocation puts every point in the cell containing it, exactly once",
 "The bin index over a grid with contiguous cell bounds delivers, over all cells together, each unmasked data point lying within the grid exactly once, in the cell whose half-open bounds contain it in every dimension, and no other points; cells are delivered at most once.",
 "all grids of any rank, increasing or decreasing, and all point lists",
 "Flattened cell numbers, sorting and slicing interact; one off-by-one affects only special positions.",
 ["cis/collocation/data_index.py: GridCellBinIndexInSlices"]),
("C16", "Both bin indexes agree",
 "For contiguous bounds the per-cell index and the sliced index assign every point to the same cell.",
 "all contiguous bounds and points",
 "Universally quantified equivalence.",
 ["cis/collocation/data_index.py: GridCellBinIndex, GridCellBinIndexInSlices"]),
("C17", "kd-tree radius queries return exactly the points within the radius",
 "query_ball_point (and query_ball_tree, query_pairs, count_neighbors) on a KDTree return exactly the indices (pairs, counts) at Minkowski distance at most r, without duplicates, whatever the leaf size.",
 "all point sets, dimensions, leaf sizes, radii",
 "Pruning bounds are only exercised by particular geometries.",
 ["cis/collocation/kdtree.py: KDTree"]),
("C18", "The kd-tree holds every point in exactly one leaf",
 "Building a KDTree terminates and stores each point index in exactly one leaf, every leaf within its parent's half-space and of at most leafsize points unless all its points coincide.",
 "all point sets and leaf sizes >= 1",
 "Degenerate repeats and ties need the sliding midpoint rule in every case.",
 ["cis/collocation/kdtree.py: KDTree.__init__, _build"]),
("C19", "kd-tree nearest-neighbour queries are exact",
 "KDTree.query(x, k) returns the k smallest distances in ascending order with indices attaining them.",
 "all point sets, query points and k",
 "Best-first search with pruning over all trees.",
 ["cis/collocation/kdtree.py: KDTree._query, query"]),
("C20", "Horizontal-separation box collocation selects exactly the points within h_sep",
 "With the kd-tree separation constraint the points delivered for a sample point are exactly the data points whose great-circle distance from it is at most h_sep, anywhere on the globe.",
 "all sample and data positions and separations",
 "Poles and the date line are corner geometries of the pruning bounds.",
 ["cis/collocation/kdtree.py: HaversineDistanceKDTree.query_ball_tree, RectangleHaversine", "cis/collocation/col_implementations.py: SepConstraintKdtree"]),
("C21", "Great-circle distance is a distance",
 "haversine(p, q) is symmetric, non-negative, at most pi*R, zero for equal points, invariant under adding 360 degrees to a longitude, equals R times the central angle between the points and obeys the triangle inequality.",
 "all pairs and triples of positions",
 "Real-valued identities.",
 ["cis/utils.py: haversine", "cis/data_io/hyperpoint.py: HyperPoint.haversine_dist", "cis/collocation/kdtree.py: haversine"]),
("C22", "Nearest-horizontal collocation returns the horizontally nearest point",
 "The nn_horizontal kernel (with or without the kd-tree) selects a point at minimal great-circle distance from the sample.",
 "all sample and data positions",
 "Date line and high latitudes.",
 ["cis/collocation/kdtree.py: HaversineDistanceKDTree._query", "cis/collocation/col_implementations.py: nn_horizontal, nn_horizontal_only"]),
("C23", "Separation constraints select exactly the points meeting every given limit",
 "For a sample point, the separation constraints deliver the data points that satisfy each of the limits the user gave (time, altitude, pressure ratio, horizontal) and no limit not given; both implementations select the same points up to the treatment of exact equality.",
 "all limits, samples, and data points",
 "Every combination of limits present or absent.",
 ["cis/collocation/col_implementations.py: SepConstraint, SepConstraintKdtree"]),
("C24", "Kernels depend only on the selected values",
 "mean, sum, min, max, stddev and moments give the same result for every order in which the selected points are delivered, min <= mean <= max, the number of points is their count, and every kernel yields missing data for an empty selection.",
 "all value lists and permutations",
 "Permutation invariance over all lists.",
 ["cis/collocation/col_implementations.py: kernels", "cis/collocation/col_framework.py"]),
("C25", "Collocated output lines up with the sample",
 "Collocation onto ungridded sample points returns one value per sample point, at the sample's own coordinates; the i-th value is the kernel of the points the constraint selects for the i-th sample point, missing if the selection is empty or the kernel fails; missing samples are skipped when asked for; masked data never contribute.",
 "all samples, data, constraints and kernels",
 "Alignment under all mask patterns.",
 ["cis/collocation/col_implementations.py: GeneralUngriddedCollocator.collocate"]),
("C26", "Nearest-neighbour kernels pick a minimal point",
 "nn_time, nn_altitude and nn_pressure return the value of a point whose separation from the sample is minimal among the selected points (the first such in delivery order).",
 "all point lists",
 "Ties and order.",
 ["cis/collocation/col_implementations.py: nn_time, nn_altitude, nn_pressure"]),
("C27", "Linear interpolation is exact at grid nodes and never overshoots",
 "Inside the grid, linear collocation from gridded data reproduces the data at grid points, reproduces every multi-affine field exactly, and lies between the smallest and largest value of the surrounding cell; outside it gives the fill value unless extrapolating.",
 "all grids of any rank, data and sample positions",
 "Weights over 2^n corners for all n.",
 ["cis/collocation/gridded_interpolation.py: _RegularGridInterpolator"]),
("C28", "Nearest-node interpolation picks a nearest node per dimension",
 "Nearest-neighbour collocation from gridded data returns the value at a node whose coordinate distance from the sample is minimal in every dimension.",
 "all grids and positions inside them",
 "All positions.",
 ["cis/collocation/gridded_interpolation.py: _find_indices, _evaluate_nearest"]),
("C29", "Interpolation does not depend on the direction of a coordinate axis",
 "Storing the same field with an axis in decreasing order gives the same interpolated values.",
 "all fields, axes and positions",
 "Every position of the decreasing axis among the dimensions.",
 ["cis/collocation/gridded_interpolation.py: GriddedUngriddedInterpolator.__init__"]),
("C30", "Ungridded subsetting keeps exactly the points inside the limits",
 "Subsetting ungridded data keeps, in order, exactly the points all of whose constrained coordinates lie within the inclusive limits, with data and all coordinates kept in step, and gives no result exactly when no point qualifies.",
 "all limits and data",
 "All combinations of dimensions and boundary values.",
 ["cis/subsetting/subset.py: UngriddedSubsetConstraint"]),
("C31", "Longitude limits select by position on the globe",
 "A longitude range [a,b] with b-a <= 360 selects exactly the points whose longitude is congruent mod 360 to a value in the range, whichever of the -180..180 or 0..360 conventions data and limits use.",
 "all longitudes and limits",
 "All wrap-around cases.",
 ["cis/subsetting/subset.py: UngriddedSubsetConstraint._fix_non_circular_limits, subset"]),
("C32", "A shape constraint applies to every variable of a list",
 "Subsetting several variables together applies the same constraint to each.",
 "all lists of variables",
 "Depends on list length and mutation of shared state.",
 ["cis/subsetting/subset.py: UngriddedSubsetConstraint.constrain"]),
("C33", "Gridded shape subsetting masks what is outside",
 "After subsetting gridded data by a shape a cell is missing exactly if it was missing before or lies outside the shape.",
 "all grids, masks and shapes",
 "All mask combinations.",
 ["cis/subsetting/subset.py: GriddedSubsetConstraint.constrain"]),
("C34", "Aggregation cells tile the requested range",
 "The grid built for x=[start,stop,delta] has cells of width delta whose contiguous bounds start at start, cover [start, stop) and reach less than one delta beyond stop.",
 "all starts, stops and positive deltas",
 "All ratios of range to delta.",
 ["cis/aggregation/ungridded_aggregator.py: aggregation_grid_array, UngriddedAggregator"]),
("C35", "Ungridded aggregation accounts for every point in range once",
 "Summed over all output cells the point counts equal the number of unmasked points within the grid, and each cell's value is the kernel of the values of the points inside it.",
 "all data and grids",
 "Conservation over all data sets.",
 ["cis/aggregation/ungridded_aggregator.py", "cis/collocation/data_index.py"]),
("C36", "Collapsing renumbers the remaining dimensions in order",
 "After collapsing some dimensions of a gridded variable each remaining dimension keeps its size and coordinates, and dimensions keep their relative order.",
 "all sets of collapsed dimensions",
 "All subsets of dimensions.",
 ["cis/aggregation/gridded_collapsor.py: _calc_new_dims"]),
("C37", "Statistics use exactly the pairs valid in both data sets",
 "All statistics of a comparison are computed over the same points: those missing in neither data set, whose number is the reported count.",
 "all pairs of data sets",
 "All mask combinations.",
 ["cis/stats.py: StatsAnalyzer"]),
("C38", "Points with missing coordinates are removed from data and coordinates in step",
 "After loading ungridded data no coordinate value is missing, all coordinates and data have the same length, and the i-th remaining value still belongs to the i-th remaining coordinates, in the original order; a second pass changes nothing.",
 "all mask patterns, numbers of coordinates",
 "All mask patterns.",
 ["cis/data_io/ungridded_data.py: UngriddedData._post_process, UngriddedCoordinates._post_process"]),
("C39", "A copy shares nothing with its original",
 "Changing the values of a copy or slice of ungridded data or coordinates never changes the original and vice versa.",
 "all sequences of later in-place edits",
 "Aliasing shows only in histories of mutations.",
 ["cis/data_io/ungridded_data.py: UngriddedData.copy, __getitem__", "cis/data_io/Coord.py: Coord.copy, __getitem__"]),
("C40", "Point views return each point with its own coordinates",
 "get_coordinates_points/get_all_points/hyper_point give for index i a HyperPoint carrying the i-th value of every standard coordinate in its own field, and non-masked iteration yields exactly the non-masked points with their flat indices in order.",
 "all data sets and indices",
 "All coordinate combinations.",
 ["cis/data_io/hyperpoint_view.py", "cis/data_io/ungridded_data.py: hyper_point"]),
("C41", "Values read are the scaled valid raw values",
 "Reading a variable masks exactly the values that are missing, or outside valid_min/valid_max/valid_range, judged before scaling, and every unmasked value is raw*scale_factor+add_offset (the product's own formula for MODIS, CALIOP and CloudSat).",
 "all raw arrays and attributes",
 "All attribute combinations.",
 ["cis/data_io/netcdf.py: get_data, apply_offset_and_scaling", "cis/data_io/hdf_sd.py: get_data", "cis/data_io/products/MODIS.py", "cis/data_io/products/caliop.py", "cis/data_io/products/cloudsat.py"]),
("C42", "The product chosen for a file has the highest priority among those that accept it",
 "When no product is named, a file is read by a product of maximal priority among those whose signature matches the base name and which report no error; if none, an error is raised; a named product is used whatever the file.",
 "all product sets, priorities and files",
 "All plugin sets.",
 ["cis/data_io/products/AProduct.py: __get_class"]),
("C43", "All plugin classes are found and no abstract class is offered",
 "find_plugin_classes offers every non-abstract class of every plugin file and of the built-in module and no class whose name marks it abstract.",
 "all plugin directories and class sets",
 "All class lists.",
 ["cis/plugin.py: find_plugins, find_plugin_classes"]),
("C44", "Saving writes every variable",
 "Saving ungridded data writes each coordinate and the data variable under distinct names with their own values.",
 "all names and values",
 "All name clashes.",
 ["cis/data_io/write_netcdf.py: __create_variable, write"]),
("C45", "Each element of a multi-slice MODIS L2 variable holds its own slice",
 "Reading a MODIS L2 variable with extra leading dimensions gives a list whose k-th element holds the k-th slice.",
 "all numbers of slices and access orders",
 "Lazy loading through shared, later mutated readers: depends on the schedule of accesses.",
 ["cis/data_io/products/MODIS.py: MODIS_L2.create_data_object", "cis/data_io/common_data.py: CommonDataList.append", "cis/data_io/ungridded_data.py: LazyData.data"]),
("C46", "Data lists hold only compatible data",
 "A CommonDataList only ever contains items of its own kind with the same number of coordinates of the same shapes as its first element.",
 "all sequences of append/extend",
 "Histories.",
 ["cis/data_io/common_data.py: CommonDataList.append, extend"]),
("C47", "A coordinate list built by append has unique standard names",
 "A CoordList built only by append never holds two coordinates with the same non-empty standard name, so that lookup by standard name finds at most one; a rejected append changes nothing.",
 "all append histories",
 "Histories.",
 ["cis/data_io/Coord.py: CoordList.append, get_coord, find_standard_coords"]),
("C48", "Evaluate refuses unsafe or shape-changing expressions",
 "The evaluate command rejects every expression containing a double underscore, and accepts a result only if it has the shape of the input.",
 "all expressions and results",
 "All strings.",
 ["cis/evaluate.py: Calculator.evaluate"]),
("C49", "Arithmetic on data objects does not change its operands",
 "Adding, subtracting, multiplying or dividing data objects leaves both operands unchanged; the in-place forms change only the left one; units are checked for addition and subtraction.",
 "all operands",
 "Mutation and aliasing.",
 ["cis/maths.py"]),
("C50", "Histogram bins cover the data range",
 "The bin edges are increasing, equally spaced by the step, start at the requested minimum and every data value between the minimum and maximum falls in a bin.",
 "all data, limits and steps",
 "All ratios of range to step.",
 ["cis/utils.py: calculate_histogram_bin_edges"]),
("C51", "Aeronet column names are unique",
 "The variable names derived from an Aeronet header are pairwise distinct and in column order.",
 "all header lines",
 "All repetitions of names.",
 ["cis/data_io/aeronet.py: get_aeronet_file_variables"]),
("C52", "Every collocated datagroup reaches the output",
 "Collocating several datagroups in one command writes the results of all of them.",
 "all numbers of datagroups",
 "Depends on the number of groups.",
 ["cis/cis_main.py: col_cmd"]),
("C53", "Distances with units convert exactly",
 "A distance with unit m or km is converted to the same length in km or metres; other units are rejected; without unit the number is taken as is.",
 "all numbers and unit strings",
 "All strings.",
 ["cis/utils.py: split_into_float_and_units, parse_distance_with_units_to_float_km, parse_distance_with_units_to_float_m"]),
("C54", "Array comparison including NaN is an equivalence",
 "array_equal_including_nan is true exactly for arrays of equal shape whose elements are equal or both NaN; it is reflexive and symmetric.",
 "all arrays",
 "All NaN patterns.",
 ["cis/utils.py: array_equal_including_nan"]),
("C55", "Combining masks only ever adds missing points",
 "apply_mask_to_numpy_array and apply_intersection_mask_to_two_arrays mask exactly the union of the given masks and change no value; masking for missing values masks exactly the elements equal to one of them.",
 "all arrays and masks",
 "All mask patterns.",
 ["cis/utils.py: apply_mask_to_numpy_array, apply_intersection_mask_to_two_arrays, create_masked_array_for_missing_values"]),
("C56", "method[arguments] specifications are parsed completely",
 "A method specification name[arg,...,arg] yields the name and the key=value dictionary of its arguments; a bare name yields no arguments; blank pieces are dropped and no text is lost.",
 "all method names and argument lists",
 "Unbounded grammar; blanks can occur anywhere.",
 ["cis/parse.py: extract_method_and_args, multi_split"]),
("C57", "Vertical interpolation on hybrid coordinates uses the column above the sample",
 "When gridded data have a hybrid vertical coordinate (altitude or air pressure varying over the grid), the value collocated onto a sample is the multilinear interpolation in horizontal position and in the vertical coordinate interpolated to the sample's horizontal position; samples above or below the column, or outside the grid, get a missing value.",
 "all grids, hybrid coordinates (over any of the dimensions, increasing or decreasing with the level) and samples",
 "The column is different for every sample position, and the dimensions of the coordinate may be any subset.",
 ["cis/collocation/gridded_interpolation.py: GriddedUngriddedInterpolator.__init__, _RegularGridInterpolator"]),
("C58", "What is saved is read back", "Saving ungridded data to a CIS netCDF file and reading the file back gives the same coordinates, the same values and the same missing elements.", "all names, values, masks, types and attributes", "All combinations of names, masks and attributes.", ["cis/data_io/write_netcdf.py: __create_variable, __add_metadata", "cis/data_io/netcdf.py: get_data", "cis/data_io/products/products.py: cis.create_coords"]),
("C59", "A copy or slice looks like what was copied or selected",
 "A copy of ungridded data has the same values, coordinates, metadata and attributes as its original, a slice has the values and coordinates at the selected positions, and neither changes what is seen of the original.",
 "all data, coordinates, metadata and index keys",
 "A test compares a few attributes of one copy; what is dropped or refused shows for other data.",
 ["cis/data_io/ungridded_data.py: UngriddedData.copy, __getitem__, _post_process, coords", "cis/data_io/Coord.py: Coord.copy, Coord.__getitem__, CoordList.copy, CoordList.append"]),
("C60", "data_flattened is data, flattened",
 "Whatever calls were made on ungridded data before, data_flattened of the data and of each of its coordinates holds the elements of data, in order.",
 "all sequences of calls on the data and its coordinates",
 "The flattened array is kept, so it goes stale only after particular histories.",
 ["cis/data_io/ungridded_data.py: LazyData.data, LazyData.data_flattened, UngriddedData._post_process, UngriddedData.coords", "cis/data_io/Coord.py: Coord.set_longitude_range"]),
("C61", "A command changes its output file only, and only to its whole result", "A subset, aggregate, collapse, eval, stats or collocate command changes no file but its output, never an input file (not even through links); when it succeeds the output holds the whole result; when it fails before saving, an existing output is left as it was.", "all command lines, data, failures and file systems with links", "Failures can happen at any step, and files may have several names.", ["cis/cis_main.py: col_cmd, subset_cmd, aggregate_cmd, collapse_cmd, evaluate_cmd, stats_cmd", "cis/parse.py: _validate_output_file"]),
("C62", "Requested variables are read in order and under the aliases asked for", "Reading a list of variables gives one data object per variable, wildcards standing for all variables of the files that match, in order, each under the alias asked for it; too few or too many aliases are refused; datagroups are read one after the other.", "all lists of variables, patterns, aliases, datagroups and files", "Patterns can stand for any number of variables, so positions shift.", ["cis/data_io/data_reader.py: DataReader", "cis/parse.py: _set_aliases_for_datagroups"]),
("C63", "Evaluation combines values at the same coordinates", "The result of evaluating an expression lies at the coordinates of every variable that went into it.", "all lists of data and expressions", "Only shapes are compared, so it depends on the coordinate values.", ["cis/evaluate.py: Calculator._post_process"]),
("C64", "Missing sample points are treated as asked", "Collocation treats missing sample points as the option missing_data_for_missing_sample says (true or false in any case), by default skipping them exactly when a sample variable was given; any other value is refused.", "all option texts and command lines", "All strings.", ["cis/cis_main.py: col_cmd", "cis/parse.py: check_boolean"]),
("C65","The limits given to the subset command mean what is written, and nothing written is ignored",
 "The limits text of the subset command is cut at the commas outside brackets; each piece must read name=[start,end] or name=[start] (or shape=text), with numbers for x, y and z, dates for t, either for other names, 'None' for no limit, and for x an increasing range of at most 360 degrees. Any text of this form is accepted with exactly these limits, all of them; any other text is rejected with an error message.",
 "all texts, all number and date readers",
 "The texts are unbounded and the regular expression backtracks; tests use a handful of texts",
 ["cis/parse.py: get_subset_limits, parse_float", "cis/parse_datetime.py: parse_as_number_or_datetime, parse_datetime, parse_partial_datetime", "cis/parsing/utils (split_outside_brackets)"]),
("C66","The grid given to the aggregate and collapse commands means what is written, and nothing written is ignored",
 "The grid text is cut at the commas outside brackets; each piece is a dimension name alone or name=[start,end,step], with numbers or dates for start and end and a number or period for the step, and for x an increasing range of at most 360 degrees. Any text of this form is accepted with exactly these grids, and any other text is rejected.",
 "all texts, all number and date readers",
 "The texts are unbounded and the optional parts of the regular expression can all be skipped; tests use a handful of texts",
 ["cis/parse.py: get_aggregate_grid", "cis/parse_datetime.py: parse_as_number_or_datetime, parse_as_number_or_datetime_delta"]),
("C67","The attributes given to the eval command are the pairs written",
 "The attributes text is accepted exactly if every piece between commas is key=value with both parts non-empty and without another equals sign; the result maps each key to the last value written for it.",
 "all texts",
 "The texts are unbounded",
 ["cis/parse.py: _create_attributes_dictionary"]),
("C68","Ungridded data collocated onto a grid","When ungridded data are collocated onto a gridded sample (sampled_from with 'bin'), the result has the sample's dimensions for which the data have coordinates, in the sample's order, with the sample's cells (its own bounds, or halfway between its points); each cell holds the kernel of the values of exactly the data points in it, and is missing if there are none or, on request, where the sample is missing. Every variable of a list is treated as if alone; points without a position are left out.","all samples (directions, with and without bounds, order of dimensions), all ungridded data, kernels, and longitude conventions","The assignment goes through a coordinate map, a sort of cell numbers and a transposition of the result; mistakes show only for some orders of dimensions, directions, or points on cell edges.",["cis/data_io/gridded_data.py: sampled_from","cis/collocation/col.py: collocate","cis/collocation/col_implementations.py: GeneralGriddedCollocator, BinnedCubeCellOnlyConstraint, make_coord_map","cis/collocation/data_index.py: GridCellBinIndexInSlices"]),
("C69", "Gridded data sampled at ungridded positions",
     "When gridded variables are collocated onto ungridded samples (sampled_from with '', 'lin' or 'nn'), every sample gets, for every variable, what linear interpolation (or the nearest grid point) gives at its position on that variable's grid, whatever longitude convention either side uses; missing outside the grid and, on request, where the sample is missing. The sample keeps its values and coordinates up to whole turns of longitude. A grid with a dimension the sample does not define, and an unknown method, are refused.",
     "all samples, all lists of gridded variables, both methods, both settings of missing_data_for_missing_sample, all longitude conventions",
     "The result depends on the turn each longitude is given in, on the rotation of the grid's columns, on the cyclic continuation and on an interpolator kept from the first variable; tests with one variable on a grid starting at 0 see none of it.",
     ["cis/data_io/ungridded_data.py: sampled_from, set_longitude_range", "cis/collocation/col_implementations.py: GriddedUngriddedCollocator", "cis/collocation/gridded_interpolation.py: GriddedUngriddedInterpolator", "cis/data_io/gridded_data.py: set_longitude_range"]),
("C70", "Gridded data on the grid of a sample",
     "When gridded variables are collocated onto a gridded sample (sampled_from with '', 'lin' or 'nn'), each result has the coordinates of the sample that are dimensions of the data, in the sample's order and with the sample's points, then the other dimensions of the data, unchanged; each value is the interpolation of that variable at the sample's coordinates of the cell; with missing_data_for_missing_sample exactly the cells where the sample is missing become missing too (repeated along the other dimensions), if all dimensions of the sample are in the data. The sample is not changed, the data only in the turn of their longitudes. A kernel or another method is refused.",
     "all samples, all lists of gridded variables, all orders of dimensions, masks, and interpolation schemes",
     "The order of the dimensions goes through a sort, a dictionary of names and a transposition, the mask through a repeat and a reshape: errors show only for some orders and numbers of dimensions.",
     ["cis/data_io/gridded_data.py: sampled_from, GriddedDataList", "cis/collocation/col_implementations.py: GriddedCollocator", "cis/utils.py: apply_mask_to_numpy_array"]),
("C71","Observations of several NCAR-RAF/GASSP files keep their own file's position and time","Reading a variable from a list of NCAR-RAF or GASSP NetCDF files gives the observations of all files, one file after the other; each observation carries the time (in the units and with the time stamp of its own file), the latitude, longitude, height and pressure of its own file - read from the variables or the station attributes that the (first) file's global attributes name, whatever the capitals - and its own value. Points without a complete position are left out, nothing else. Where the positions are is taken from the attributes in a fixed order of preference and never guessed.","all lists of files, attributes, variables, dimensions and values","needs the alignment of fixed station values, repeated per file, with concatenated variables for every number and size of files, and every combination of attributes",["cis/data_io/products/NCAR_NetCDF_RAF.py: NCAR_NetCDF_RAF_variable_name_selector, NCAR_NetCDF_RAF.create_data_object, create_coords, get_variable_names, get_file_type_error","cis/data_io/Coord.py: Coord.from_many_coordinates","cis/utils.py: expand_1d_to_2d_array, concatenate, dimensions_compatible"]),
("C72", "CloudSat profiles and cells",
 "Reading a variable of CloudSat files gives one point for every profile (variables given per profile) or for every cell (variables given per profile and height), file after file. Each value stands with the latitude, longitude and time (start of the granule plus time of the profile) of its own profile, and with the height of its own cell, all with factor, offset, missing marker and valid range of their own variable applied; values that cannot be placed (the variable is not in every file, is per profile in one and per cell in another, or a file has no heights) are refused; the names offered are those of the variables with a value for every profile or cell.",
 "all lists of files, all numbers of profiles and levels, all variables, markers, ranges, factors and offsets",
 "tests read one or two example files; the order of points over several files and the pairing of values with coordinates must hold for every list of files and every shape",
 ["cis/data_io/products/cloudsat.py: CloudSat", "cis/data_io/hdf.py: read, read_data, read_metadata", "cis/data_io/hdf_vd.py: get_data", "cis/data_io/hdf_sd.py: read", "cis/utils.py: expand_1d_to_2d_array"]),
("C73", "CALIOP profiles, columns and cells",
 "Reading a variable of CALIOP files (level 1, level 2, level 2 without pressure) gives one point for every cell, or for every profile if the variable is one of a column, file after file. Each value (the first of a cell's, for level 2 variables that have several) stands with the latitude, longitude and time of its own profile (of its middle shot, for level 2), the altitude of its own level of its own file in metres and, when the files give pressure at these levels, the pressure of its own cell, each with fill value, valid range, scale factor and offset of its own variable applied. Values at other levels, and variables that one of the files has not got, are refused.",
 "all lists of files, all numbers of profiles, shots and levels, all variables, fill values, ranges, scale factors and offsets",
 "tests read one example file; the pairing over several files, shots, levels and sub-cells must hold for every shape",
 ["cis/data_io/products/caliop.py: abstract_Caliop, Caliop_L1, Caliop_L2, Caliop_L2_NO_PRESSURE", "cis/data_io/hdf.py: read, read_data", "cis/data_io/hdf_vd.py: get_data", "cis/utils.py: expand_1d_to_2d_array"]),
("C74","Observations of Aeronet files","Reading a variable of Aeronet files (versions 2 and 3, SDA, Maritime Aerosol Network) gives one point for every line of data, file by file: the number under that variable on that line (missing if the text or the number is one that stands for no value), at the time its date and time say and at the longitude, latitude and altitude of that line or, for version 2, of the header of its own file (altitude 0 at sea). Points without a place are left out. A variable that a file has not got, or a text that is no number, is refused.","every list of files of any versions with any number of lines and columns; whatever float() and the date parser make of texts","The place comes from the line or from the header depending on the version of each file of the list, names are matched to fields by position, and files of different versions may be read together.",["cis/data_io/aeronet.py: load_aeronet, load_multiple_aeronet","cis/data_io/products/products.py: Aeronet"]),
("C75","Variables of gridded NetCDF files","Reading a name from gridded NetCDF files gives the one variable with that variable name, standard name or long name, with its data, names, units and dimensions as they are in the files except that its time is in standard time; to every cell it adds the altitude (from the geopotential, or else the geopotential height) and the pressure the files have for the place of that cell. A name no variable has, or several have that cannot be put together, is refused. The names offered are those of the variables over space and time, and each of them can be read.","every list of cubes of any shapes, dimensions, names and auxiliary coordinates; whatever iris makes of several cubes and whatever units mean","The variables for heights and pressures are attached by the position of their dimensions, which only shows for files where lengths agree and dimensions do not; the time is converted depending on which kind of coordinate it is.",["cis/data_io/products/gridded_NetCDF.py: NetCDF_Gridded","cis/data_io/gridded_data.py: load_cube","cis/time_util.py: convert_cube_time_coord_to_standard_time"]),
("C76","A Taylor diagram shows each data set's statistics against the first","Plotting data sets as a Taylor diagram puts each at the radius that is its standard deviation over that of the first data set, at the angle whose cosine is its correlation with the first, so that its distance from the reference point is the centred root mean square difference; the bias is the difference of the means over the reference's standard deviation. Labels are marked exactly when a data set lies outside the limits of correlation, radius or bias the user gave; only the fold option moves points, to the nearest place inside, and then every point is inside the diagram; without limits the radial axis reaches exactly to the outermost point. (It fails for data with two dimensions, whose correlation is that of the data set's own first two rows; with the log option and missing values, whose stored values take part; and for data sets that miss different points.)","every number of data sets and of values, all values, all missing points, all options","Cauchy-Schwarz and the law of cosines make the picture readable for all values; the tests compare a few images",["cis/plotting/taylor.py:Taylor.__init__","cis/plotting/plot.py:taylor_plot"]),
("C77","A 2-D plot of gridded data draws every element at its own coordinates","Plotting a two-dimensional gridded data set (heat map, contours) passes to matplotlib arrays in which every element of the data stands at the coordinates it has in the data set, whichever of the two dimensions is the x axis and whether one of the axes is a hybrid (two-dimensional) coordinate; only for longitudes around the globe one column is added, which repeats the first meridian 360 degrees on.","every shape of the data, every values of the two axes (evenly spaced or not), either dimension as x, turned or not, points or bounds","tests plot a few files and compare images",["cis/plotting/genericplot.py:Generic2DPlot.unpack_data_items", "cis/plotting/genericplot.py:Generic2DPlot._cube_manipulation"]),
("C78","Every datagroup of a plot is one layer, drawn with its own options","The plot command draws one layer for every variable of every datagroup, in the order given and on the same axes; each layer is drawn with the options its own datagroup gives (type, label, colour, ...) and with the options of the command where its datagroup gives none; comparative plots take exactly two data objects; a Taylor diagram takes markers and colours for all data objects or for none. A layer that cannot be drawn ends the command with its error.","every number of datagroups, every dictionary of options of each and of the command, every plot type, every drawing function, new or given axes","tests plot one or two layers with a few options","cis/cis_main.py:plot_cmd|cis/plotting/formatted_plot.py:Plotter|cis/plotting/plot.py:multilayer_plot|cis/plotting/plot.py:taylor_plot".split("|")),
("C79","A plot has the axes asked for and shows what was asked for","Plotting a data object puts on each axis the coordinate named for it, or the coordinate that lies along the axis if none is named, and reports an axis that cannot be found; lines, scatter plots and histograms show the data, or the y axis named; the plot type is the one asked for or the usual one for the data; the x axis shows dates if it is a time, and the y axis goes downwards exactly if it shows pressures.","every list of coordinates with any names, standard names, axes and shapes, gridded and ungridded, every shape of the data, every name asked for, every type, any number of layers","tests plot a few kinds of file","cis/plotting/plot.py:_try_coord|cis/plotting/plot.py:get_axis|cis/plotting/plot.py:basic_plot|cis/utils.py:squeeze|cis/data_io/gridded_data.py:GriddedData._get_default_plot_type|cis/data_io/ungridded_data.py:UngriddedData._get_default_plot_type|cis/data_io/Coord.py:CoordList.get_coord".split("|")),
("C80","ESA CCI Level 2 files are read with each observation's own position and time","Reading a variable from several ESA CCI Level 2 files (clouds or aerosols) gives one row per observation, file by file, with the longitude, latitude and value its own file has for it, and as time the moment its file gives - a Julian date for clouds, seconds since 1970 for aerosols; observations without a complete position are left out. Positions are those called lon and lat if all files have them (and times), else longitude and latitude; a file without them or without the variable is an error. (It fails for a mixture of files with short and long names, each of which can be read alone, the units the time variable states are ignored, and files whose coordinates do not carry three different standard names are refused, although positions and times are there.)","every number of files of any length and shape, all values and missing values, all variables, all moments","every combination of files and every moment; the tests read one file of each product",["cis/data_io/products/CCI.py:CCI_L2","cis/data_io/products/CCI.py:Cloud_CCI_L2","cis/data_io/products/CCI.py:Aerosol_CCI_L2","cis/time_util.py:convert_julian_date_to_std_time","cis/time_util.py:convert_sec_since_to_std_time"]),
("C81","The time a CCI Level 3 cube covers","A cube read from an ESA CCI Level 3 cloud or aerosol file has the coverage its file states as the bounds of its time: YYYYMMDDThhmmssZ is that moment, and the impossible 44th day of a month that monthly files give is its last day. A cloud cube keeps its time point, an aerosol cube gets the moment half-way as its time. The two attributes become bounds and go; with several files the attributes that differ from file to file go too; all others stay. A file without the attributes is refused. The file of January 2011 whose stamps are wrong, and for which the code carries the right ones, is never read: the workaround uses a name before it has a value.","all stamps (all moments, all months and years, month ends included), all attribute dictionaries, one or several files, cloud and aerosol products, all time units","Tests read a couple of real files; that every stamp (month ends of leap years, December) gives the right moment and that all other attributes are kept needs every stamp and every dictionary.",["cis/data_io/products/CCI.py: convert_time_string_to_number, Cloud_CCI_L3, Aerosol_CCI_L3"]),
("C82","Points read from text files","Reading text files of points (latitude, longitude, altitude, time and value, separated by commas) gives one row for each line that says something, in order, file after file, each with the numbers and the moment of its own line; blank lines and comments are skipped, a blank or unreadable number is missing, and points without a complete position are left out. A file without observations, or with another number of fields in a line, is refused with an I/O error. A file of a single observation is a file too (it is not: it is never read, and no other files can be read together with it).","all files (any lines, comments, blanks), any number of files, any number and time texts (readers of numbers and of times as parameters), any variable name","Tests read one or two files of a few lines, none of one line; that every line gets its own row with its own fields, and that one-line files always fail, needs every file.",["cis/data_io/products/products.py: ASCII_Hyperpoints","cis/utils.py: concatenate"]),
("C83","Where the pixels of a MODIS L2 variable are","Reading a MODIS Level 2 variable of the resolution of its coordinates from several files gives all pixels, in order, each with its own latitude, longitude, time (seconds since 1993) and value; pixels without a complete position are left out. For a variable at 1 km the positions are interpolated from the coarser grid: every middle of an old pixel keeps its position, and between them positions change linearly. (It cannot be used: in Python 3 the interpolation always fails; in Python 2 the times are not interpolated and do not fit; pixels at the edges would have no position, missing positions are taken for numbers, and across the date line longitudes go the wrong way round.)","all files (any number, any shapes that fit, any masks), any dimension name, all fields and odd interpolation factors, Python 2 and 3","Tests mock the interpolation or read one coarse file; that every fine pixel is linear between its four neighbours needs all shapes and factors, and that no 1 km variable can ever be read needs all files.",["cis/data_io/products/MODIS.py: MODIS_L2._create_coord_list, MODIS_L2.create_data_object, __field_interpolate, __get_data_scale"]),
("C84","Pixels of EarthCARE files","Reading a variable of an EarthCARE file gives one row per pixel, in order, with the pixel's own longitude, latitude and time (days since 1600 from seconds since 2000), the positions of a row serving all its columns, its height where there are heights of that shape (else the number of the column, where only rows have positions), and the value of the variable there; a variable with classes, components, bands or backgrounds gives the one asked for by a digit after a marker in the name, the first without. Pixels without a position are left out. A variable of one dimension without positions is numbered. A variable that is not there is refused. (Of several files only the first is read; an index from ten cannot be asked for; a band that is not the first dimension makes the variable unreadable; a missing variable of files without positions is returned as nothing.)","all files (any shapes of one to three dimensions, any masks), any number of files, all names with and without marker, all indexes, any extra dimensions","Tests read two or three granules, one index each; which element belongs to which pixel must hold for all shapes, masks and indexes.",["cis/data_io/products/EarthCARE.py: EarthCARE_MSI_ATL._create_coord_list, create_data_object","cis/data_io/netcdf.py: read_many_files_individually","cis/utils.py: expand_1d_to_2d_array"]),
("C85","The time and grid of MODIS Level 3 files","The cube read from a MODIS Level 3 file has the file's latitudes along its first dimension, its longitudes along the second, its values in their places, and as its time the moment half-way between the beginning and the end the file states in its metadata objects (RANGEBEGINNINGDATE etc.), which are the bounds; these are found wherever among the attributes the object stands and whatever other objects say. Several files give one cube each, in order, for iris to merge. A file without the objects is refused. Variables offered are those on the grid's two dimensions. (An attribute that is not a text makes the file unreadable when it comes first.)","all attribute texts and orders, all object values without quotations or line ends, all grids going up or down, any number of files, any parser of dates and any merging","Tests read one or two real files; that the right quotation is found must hold for all surrounding texts.",["cis/data_io/products/MODIS.py: MODIS_L3._parse_datetime, _get_start_date, _get_end_date, _create_cube, get_variable_names","cis/time_util.py: calculate_mid_time"]),
("C86", "HadGEM files give the variable asked for, with heights in metres and standard times", "Reading a variable of HadGEM NetCDF files (CONVSH) gives the one cube of that variable name, standard name or long name, with its values unchanged; a coordinate Hybrid height is in metres and the time, also if it is only called t, is in standard time; of several files, the cubes to be merged are without history and without dimensions of length one, every cell keeping its value and coordinates; the heights and pressures of the files are added, the same from several files as from each. Variables of pp files get the name of the cube, or that name with underscores for blanks, as the name for output, from one file as from several, and can be asked for by it.", "all cubes in the files (shapes, attributes, coordinates, names), all variables asked for, one or several files, all ways iris may merge", "files of every shape, with every combination of attributes and names", ["cis/data_io/products/HadGEM.py: HadGEM_CONVSH, HadGEM_PP", "cis/data_io/products/gridded_NetCDF.py: _create_cube, _add_available_aux_coords", "cis/time_util.py: convert_cube_time_coord_to_standard_time"]),
("C87","The size, the limits, the ticks, the labels and the levels of a plot are those asked for",
 "A figure has the width and height asked for (one of them missing: sides as 4 to 3). An axis begins and ends at the limits asked for, with ticks at the lower limit and every step from it, whatever it shows: in particular an axis of pressures still has the greatest pressure at the bottom, and shows what is above the lower limit. A map begins at the longitude the limit or the data call for and its other borders stay where they are. A tick on an axis of times names the time of the data drawn there. A label is the name and the units in brackets, and no more. A contour plot has the levels, the number of levels or the step asked for.",
 "all widths, heights, limits, steps, extents, longitudes, times, names, units and options",
 "Widths, limits, steps and times are numbers of any size, and a step that divides the range, a map centred on Greenwich or an axis upwards, as in a test, hides what goes wrong in the others.",
 ["cis/plotting/formatted_plot.py: Plotter.set_width_and_height, apply_axis_limits, apply_map_axis_limits, get_x_wrap_start","cis/plotting/plot.py: get_label, format_units, set_x_axis_as_time, drawcoastlines, drawbluemarble, basic_plot","cis/plotting/genericplot.py: GenericPlot.__init__, Generic2DPlot.__init__","cis/plotting/contourplot.py: ContourPlot","cis/utils.py: find_longitude_wrap_start"]),
("C88","Comparative scatter plots, histograms, lines and scatter plots show every value where it belongs",
 "A scatter plot or a line has a point for each element of the data, at its own coordinate; a comparison of two variables has a point for each place, of the values both have there, whatever the order of their dimensions, and may have a coordinate on the x axis; a bar of a histogram counts the values in its part of the range, every value is counted once and missing ones are not; a rectangle of a two-dimensional histogram counts the places with both values there, empty ones are not coloured, and every place with both values is counted once; the line through equal values covers the axes and does not change them; styles that do not exist and arrays that do not fit are refused.",
 "all arrays of any shape and size, masks, numbers of bins, limits and styles",
 "Whether every value is counted once depends on the values on the edges of the bins, on the masks and on the order of the dimensions: any sample of arrays leaves others, and two arrays of the same shape hide the confusion of dimensions.",
 ["cis/plotting/comparativescatter.py: ComparativeScatter","cis/plotting/histogram.py: Histogram","cis/plotting/histogram2d.py: Histogram2D","cis/plotting/lineplot.py: LinePlot","cis/plotting/scatterplot.py: ScatterPlot","cis/utils.py: apply_intersection_mask_to_two_arrays, no_autoscale"]),
("C89", "The variables listed for files are those the files have; what the info command prints", "For files whose names end in .nc, .h5 or .hdf the names listed are exactly those of the NetCDF variables (in groups at any depth, under their full path names, all of whose dimensions the product can use) and of the HDF datasets or tables asked for, each once; CALIOP, MODIS L2 and CloudSat list the data that lie on their own coordinates; an error in a product is reported with its message; info prints each requested variable in order until one cannot be read, or the list of names; its argument is [variables:]files[:product=...].", "every nesting of groups, variables and dimensions; every list of files, type and product; every text of the argument", "The nestings, files and requests are unbounded; tests list a few sample files. Model clauses refuted: the documented type All raises ValueError, the documented None gives only SD, other endings raise TypeError, unreadable HDF files list as empty, later files of other size are judged by the first file's shape (MODIS, CALIOP), exceptions without arguments end in IndexError, file:product=... takes the file for a variable.", ["cis/info.py:info", "cis/cis_main.py:info_cmd", "cis/parse.py:validate_info_args", "cis/data_io/products/AProduct.py:AProduct.get_variable_names,get_variables", "cis/data_io/netcdf.py:get_netcdf_file_variables,_get_all_fully_qualified_variables,remove_variables_with_non_spatiotemporal_dimensions", "cis/data_io/hdf.py:get_hdf4_file_variables", "cis/data_io/products/caliop.py:abstract_Caliop.get_variable_names", "cis/data_io/products/MODIS.py:MODIS_L2.get_variable_names", "cis/data_io/products/cloudsat.py:CloudSat.get_variable_names"]),
("C90", "From the command line to the arguments a command runs with", "Each documented word for a command has the arguments validated and the routine run that it names, and other words are refused; -v, -q and --force-overwrite take effect; a datagroup of plot yields its variable, files and exactly the options given, each checked as its kind of text; a command goes on exactly if its datagroups, limits, grid or attributes are valid and its output may be written: with consent and on none of the files read; stats demands exactly two variables.", "every word, sequence of flags, datagroup text, option text, file environment and answers", "Texts, tables and environments are unbounded; unit tests parse a few command lines. Refuted clauses: no command at all ends in KeyError; three or more -v give less than two; flags before the command are forgotten (--force-overwrite too); contlevels drops its first and last characters unseen and other texts end in ValueError; label=a=b keeps only a; a bare -o ends in TypeError; collapse with commas and blanks mixed is not split.", ["cis/parse.py:parse_args,initialise_top_parser,validators,aliases,get_plot_datagroups,get_basic_datagroups,get_aggregate_datagroups,get_col_samplegroup,check_float,check_int,check_color,check_boolean,check_plot_type,check_product,check_aggregate_kernel,convert_to_list_of_floats,validate_plot_args,validate_col_args,validate_aggregate_args,validate_collapse_args,validate_subset_args,validate_eval_args,validate_stats_args", "cis/cis_main.py:commands,parse_and_run_arguments"]),
("C91","Points in space and time keep their coordinates","A HyperPoint holds the coordinates, the time (dates as days since 1600-01-01) and the values it was made with; `modified` changes exactly what is given; the same-point tests are true exactly when the coordinates agree (both absent or equal); the coordinate tuple lists exactly the coordinates present, sorted by name; time and altitude separations are absolute differences, the pressure separation is the ratio of the larger to the smaller, always at least 1; the comparisons are true exactly when the second point is strictly closer; the furthest point is the antipode (half the circumference away, no point is further, all else unchanged) and taking it twice gives the position back up to 360 degrees; data made from a list of points have the coordinates (with names and units) and values of the points, and the points of these data are the points they were made from.","all points (any coordinates absent), all arguments, all lists of points","tests use single points; the distances are real-valued functions on the sphere, and losing a coordinate, a value or a whole point depends on which points of a list lack a coordinate",["cis/data_io/hyperpoint.py: HyperPoint, HyperPointList","cis/data_io/ungridded_data.py: UngriddedData.from_points_array"]),
("C92","Data frames hold the rows of the data","The data frame of ungridded data has one row for each point whose coordinates are all present, in order: labelled by its time (as a date) when the time index is wanted and there is a time coordinate, with one column for every other coordinate under its standard name and one for the data under the given name or the data's own; masked values become NaN. The frame of coordinates without data is the same without the data column; the frame of a list has the coordinates of the first item and one column per item, and items of different length are refused. Collocation looks for samples in exactly the rows with all coordinates and for data in exactly those of them with a value.","all ungridded data (any coordinates, masks, names), all time units, all lists of data","rows silently misplaced or columns silently replaced depend on the combination of masks, names and lengths",["cis/data_io/ungridded_data.py: UngriddedData.as_data_frame, UngriddedCoordinates.as_data_frame, UngriddedDataList.as_data_frame, _coords_as_data_frame, _to_flat_ndarray","cis/collocation/col_implementations.py: GeneralUngriddedCollocator.collocate"]),
("C93","Gridded data and lists of gridded data","A GriddedDataList built from cubes holds those very objects, in order, each as gridded data (a plain cube keeps all its contents); anything that is not gridded is refused with TypeError. Methods over the list (aggregated_by, interpolate, regrid, extract, intersection, collapsed) give, in order, the result of the method on every item and leave the items unchanged; extract and intersection give None only when all data are excluded. transpose, add_aux_coord, remove_coord, add_dim_coord, add_history and set_longitude_range change every item once, or none when they fail. The file names of a list are those of its items, and naming files for one object does not name them for another. Added attributes can be read back, removed ones are gone, and attributes added to a variable are saved on that variable; time, if there is one, is saved as the unlimited dimension. Unknown standard names and units are left out of a new object and everything else that is wrong is reported as such; a new object with the same coordinates can be made with the default arguments; history is kept entry by entry. The collapse kernel is 'moments' unless another one is named, and the collapsed variables have different names.","all heaps of cubes shared in any way, all lists, all per-item methods, all attributes, names and kernels","what matters is sharing of objects and failures half-way, for every list",["cis/data_io/gridded_data.py: make_from_cube, GriddedData, GriddedDataList, _collapse_gridded","cis/data_io/common_data.py: CommonData.filenames, CommonDataList","cis/aggregation/collapse_kernels.py","cis/data_io/data_reader.py: DataReader.read_data_list"]),
("C94","Names, units and times of ungridded data mean what they say","A standard name of ungridded data is a valid one, the one given or (for NetCDF files only a valid one in the file, for others) the one its name suggests; an invalid one is refused and nothing changes. Units given as text are tidied and read; metadata are equal when their names and units are. Converting units keeps every amount and missing value, converting there and back gives the same values, and units that cannot be converted are an error that leaves the data as they were. Converting a coordinate to standard time gives the days of the moments it told, by its units, as dates, or by the first word of its units and the file's time stamp, and fails without changing anything if it tells none; standard times become dates and the same times again. The range is that of the values present, the flattened data are the data, and the history has one line per entry in order. (It fails: latent_heat_flux is taken for a latitude; comparing metadata of which one has unreadable units is an error; setting an object's own units again can change them; the range and, in some cases, the flattened data are not updated by conversions; the time stamp is not used for units such as day; asking twice for dates is an error.)","every text of names and units, every table of standard names and reading of units, all values and missing values, all sequences of history entries","every unit text, name and value; the tests try a few",["cis/data_io/ungridded_data.py:Metadata","cis/data_io/ungridded_data.py:LazyData.convert_units","cis/data_io/ungridded_data.py:LazyData.update_range","cis/data_io/ungridded_data.py:LazyData.data_flattened","cis/data_io/ungridded_data.py:LazyData.add_history","cis/data_io/Coord.py:Coord.convert_to_std_time","cis/data_io/Coord.py:Coord.convert_standard_time_to_datetime","cis/time_util.py:convert_time_using_time_stamp_info_to_std_time","cis/utils.py:set_standard_name_if_valid","cis/data_io/netcdf.py:get_metadata"]),
("C95","A name reads the variable it spells","In a NetCDF file with groups a name reads exactly the variable at the end of the path it spells, so exactly the names that the info command lists can be read; a name that spells none is an InvalidVariableError. Reading several names of many files gives every name once with one variable of each file in the order of the files, and succeeds exactly if every file has them all. In HDF4 files a name reads the datasets of the files or, where a file has none, its tables, in order; a file without either is an InvalidVariableError and a file not called .hdf an error. Whatever is asked of an HDF4 dataset and however that fails, no file is left open and every later question is answered as if it were the only one. Data objects made of several handles need handles of one class with a known reader. (It fails: an unknown group is a KeyError; an HDF4 name asked for twice reads the dataset and the table.)","every tree of groups, every list of names and files, every sequence of questions and failures","every nesting of groups, every order of names and failures; the tests open a few files",["cis/data_io/netcdf.py:read","cis/data_io/netcdf.py:read_many_files_individually","cis/data_io/hdf.py:read","cis/data_io/hdf.py:_read_hdf4","cis/data_io/hdf_sd.py:HDF_SDS","cis/data_io/hdf_sd.py:read","cis/data_io/hdf_vd.py:read","cis/data_io/ungridded_data.py:LazyData"]),
("C96","A file is read by the first product whose name and contents fit","A product's signatures describe exactly the names of its files (capital letters or not; the name, not its directories). Without a named product, a file is read by the first product, in the order of priority and then of names, whose names fit and whose contents, where the product looks at them, fit: files written by CIS by the CIS product, files of NCAR-RAF or GASSP conventions by that product, and any NetCDF file by some product; if none fits, ClassNotFoundError. A named product is taken as it is; a name that is none is ClassNotFoundError. The format of files is the format of that product for the first file, a hierarchy parent/format/version, and needs readable coordinates; the full name is CIS/product/version. (It fails: a .nc file that cannot be opened, or whose source is not a text, stops the search; formats of Aeronet files lack the slash after ASCII.)","every file name, every set of attributes and lines of the file, every list of files and named product","every name, capitalisation and set of attributes; the tests try a few names",["cis/data_io/products/AProduct.py:__get_class","cis/data_io/products/AProduct.py:get_file_format","cis/data_io/products/AProduct.py:get_product_full_name","cis/data_io/products/products.py:cis","cis/data_io/products/NCAR_NetCDF_RAF.py:NCAR_NetCDF_RAF","cis/data_io/products","cis/data_io/aeronet.py:get_aeronet_version"]),
("C97","Methods, kernels, limits, names and history of collocated data","For every collocation through sampled_from or collocated_onto, the method is the one named (by default binning for ungridded data on a grid, box for ungridded data at points, linear interpolation for gridded data) and the kernel the one named or given (by default moments); a method not offered for that combination, an unknown kernel or another kind of source is a ValueError; a box checks exactly the separations given and not None, and an argument that is no separation is a TypeError. The results are, for every variable in order, the outputs of the kernel with the names, units and standard names of the variable or those asked for, and each gets exactly one history entry that names sample, version, variables, files, collocator and kernel; a.collocated_onto(b) does what b.sampled_from(a) does.","every kind of sample and source (data, lists of any length, coordinates), every method text, kernel argument, set of limits and every name asked for","tests call a few combinations of method and kernel; names asked for are dropped, and kernels or limits silently not read, only in some of the combinations",["cis/data_io/gridded_data.py: GriddedData.sampled_from","cis/data_io/ungridded_data.py: UngriddedData.sampled_from, UngriddedCoordinates.sampled_from, _ungridded_sampled_from","cis/data_io/common_data.py: collocated_onto","cis/collocation/col.py: collocate, get_kernel","cis/collocation/col_implementations.py: moments.get_variable_details, SepConstraintKdtree.__init__, GeneralGriddedCollocator"]),
("C98", "What a finished plot shows: scales, bars, titles, coast lines, ticks and output", "A plot of longitude against latitude is drawn on a map; logarithmic scales, grid lines, labels and titles are those the user asked for, and where the user asked for none, those of the plot; a colour bar is shown exactly on two-dimensional plots with it switched on, with its step, scale, label and orientation as given; coast lines and background pictures are drawn on maps only, at the resolution for the size of the area shown; the ticks of maps go by the given steps or are round numbers on the globe; the plot is saved to the file named or shown.", "every plot kind, pair of coordinates, option setting, projection and extent", "the settings are applied in several steps that overwrite one another, so each combination of options, plot kinds and extents would have to be drawn and looked at", ["cis/plotting/genericplot.py:is_map", "cis/plotting/genericplot.py:set_log_scales", "cis/plotting/genericplot.py:Generic2DPlot", "cis/plotting/formatted_plot.py:format_plot", "cis/plotting/formatted_plot.py:apply_map_axis_limits", "cis/plotting/plot.py:drawcoastlines", "cis/plotting/plot.py:drawbluemarble", "cis/plotting/plot.py:get_best_map_ticks", "cis/plotting/plot.py:set_map_ticks", "cis/plotting/plot.py:add_color_bar"]),
("C99","Places within a distance of a position on the globe","The distance from a position to a rectangle of latitudes and longitudes is the great-circle distance to the nearest place of the rectangle, and the greatest distance that to its furthest place; a search of a tree of positions for one position and a distance gives the number of every position at most that far away along the surface, each once; a separation constraint that has indexed the data gives, for any succession of samples (some at the same place), exactly the rows within the distance and within the limits of height, pressure and time, a distance of zero or none being no limit; before any data are indexed the distance is not looked at. True for longitudes at most one turn apart and not more than a turn east of the sample; false otherwise (data at 300 to 350 degrees are not found from -30 degrees), and false once other data are indexed: places asked about before keep their old answers.","all rectangles of the globe, positions, trees, distances, data sets, limits and successions of samples","the pruning of the tree is by distances on a sphere, with cases for the poles, the date line and the side of the rectangle that is nearer; tests try a few rectangles, and one sample at a time, so that neither missed pruning nor the memory of earlier answers shows",["cis/collocation/kdtree.py:RectangleHaversine.min_distance_point,RectangleHaversine.max_distance_point,RectangleHaversine._min_distance_point,geodesic_to_line_of_longitude_crossing_latitude,line_of_longitude_segment_nearer_end_latitude,haversine_distance_from_radians,HaversineDistanceKDTree._query_ball_point","cis/collocation/haversinedistancekdtreeindex.py:HaversineDistanceKDTreeIndex.index_data,find_points_within_distance","cis/collocation/col_implementations.py:SepConstraintKdtree.constrain_points"]),
("C100","The words of a command and the values of its options","For every command: an option may be written with any of its names or with the beginning of exactly one long name, its text may follow as the next word, after an equals sign or, for a short name, directly; options may stand before and after the arguments of the command. Each attribute then has the value of the last option given for it (flags: true or false, -v: the number of times, texts: as read by the type of the option or one of its choices), the arguments are shared among the positional arguments, and every attribute that no option or argument sets has its documented default, or is absent for a plot. A text that is not understood, -v together with -q, the wrong number of arguments, unknown or ambiguous options and unknown commands are refused. Each command offers exactly the documented options. Refuted: arguments on both sides of an option are refused or shared wrongly; a negative number in scientific notation is taken for an option; an evaluation whose expression begins with a minus sign is misread without a word; an option without its text takes the first argument; options before the command are accepted and forgotten.","every command, every list of settings in every spelling before and after the arguments, every list of arguments, every word that is no option, all names of plot types, colours and projections","tests try a few command lines; spellings, orders and combinations of options are unbounded",["cis/parse.py:initialise_top_parser","cis/parse.py:AliasedSubParsersAction.add_parser","cis/parse.py:add_plot_parser_arguments","cis/parse.py:add_info_parser_arguments","cis/parse.py:add_col_parser_arguments","cis/parse.py:add_aggregate_parser_arguments","cis/parse.py:add_collapse_parser_arguments","cis/parse.py:add_subset_parser_arguments","cis/parse.py:add_eval_parser_arguments","cis/parse.py:add_stats_parser_arguments"]),
("C101","Limits and grids given as dates",
 "The limits given to `subset` may be numbers, dates, or a partial date (a period such as 2008 or 2008-02), written as a slice, a pair or a list of one; exactly the points whose time lies within the limits (both ends included) are kept, in their order, whatever the units of the time, and several limits keep the points that meet them all. A period keeps the points whose date has its components; its limits are its first and last second. Limits that are numbers mean the same as in C30. A limit may be left open at one end, also if the other is a date. A value that is no limit is refused. The same holds for gridded data, along each dimension. The grid of an aggregation may be given as dates, or as a period, with a length of time as its step: its edges lie at the start and every such length after it. Refuted: a limit of a date and an open end, or of two partial dates, is refused with TypeError; a point in the last second of a period, after its beginning, is lost; numbers are refused for the times of gridded data, an open end too; a length of time is always counted in days, so it is wrong when the times are in hours.",
 "all ungridded data whose coordinates have distinct names, all gridded dimensions, all keyword arguments, all time units",
 "Which points survive depends on the calendar, on the units and on the way the limit is written, for every date; tests use whole years and standard units.",
 ["cis/subsetting/subset.py subset, UngriddedSubsetConstraint, GriddedSubsetConstraint","cis/data_io/ungridded_data.py _aggregate_ungridded","cis/data_io/gridded_data.py","cis/time_util.py PartialDateTime"]),
("C102","Histories and reports of results",
 "A result tells how it was made. A subset adds one entry to the history of every variable: the limits in the order given, each with the name of its coordinate and its ends, the smallest or largest point standing for an end that was not given; names and ends can be read back from it. Aggregated data tell the version, the variables, the files they were read from, the grid and the kernel; evaluated data tell the expression and every variable, with its alias if it has another name, and its files; arithmetic tells the operation. After any sequence of such steps the history consists of what there was before (unless a step starts a new history, as aggregation and evaluation do) and one dated entry for every step since, in their order. The comparison of two variables prints a frame and then every result, saves each under a name of its own, naming the variables and every file once, and refuses other numbers of variables. Refuted: the history of a collapse names the results, not the variable and files that were collapsed; no result knows the files its data came from, so later steps tell none; of a shape, only its bounding box is told.",
 "all data, lists of data, limits, grids, expressions, sequences of steps and comparisons",
 "That nothing is lost or reordered must hold for every sequence of operations and every number of variables; tests look at one operation and one text.",
 ["cis/subsetting/subset.py subset, SubsetConstraint.__str__","cis/data_io/ungridded_data.py _aggregate_ungridded, add_history","cis/data_io/gridded_data.py _collapse_gridded, add_history","cis/evaluate.py Calculator._make_history, _make_var_info","cis/maths.py _math_op_common","cis/stats.py","cis/cis_main.py stats_cmd"]),
("C103","How a run ends and what it tells","Every run ends with a status: 0 if its command finished, 2 if the line was not accepted (with the usage on stderr), 1 if anything failed; only an interrupt gets out. A failing run says why: its message is the last thing on stderr and on the screen, however quiet, and the trace is in the log. The screen shows what is printed and just the records at the asked level or above, the log every record, in their order; without a writable log everything goes on with a warning. Commands for one datagroup read nothing when given several; a subset of nothing, a grid for gridded data and ungridded data to collapse are told.","all lines of the user, levels, exceptions with their messages, actions of validators and commands, with and without a writable log","a test runs one command that fails in one way; the property is about every command, every way to fail, every level and every sequence of messages",["cis/cis_main.py: main, __error_occurred, parse_and_run_arguments, subset_cmd, aggregate_cmd, collapse_cmd, version_cmd","cis/logging.conf","cis/exceptions.py: FileFormatError, UserPrintableException","cis/parse.py: parse_args"]),
("C104","Masked points of a tree are left out and the rest keep their numbers","A haversine tree built of points with a mask answers every query as the tree of the points that are not masked does, by their numbers among all the points: its leaves hold each unmasked number once, the points within a distance of a position are exactly the unmasked ones that are, pairs, counts and distance matrices are of unmasked points only, a masked sample gets an empty list, the nearest point is never a masked one, whatever the masked rows hold. If all are masked every answer is empty. One mask value stands for all the points, data without a mask give the tree of all points; a mask of another length, leaves of less than one point and no points are refused.","all data, masks, leaf sizes, positions, distances, norms and tolerances","the tree is built and pruned from extremes over the rows that are left while the rows keep their old numbers; a tests' mask of a few points in one leaf never shows a wrong number or a split by a masked row",["cis/collocation/kdtree.py:HaversineDistanceKDTree.__init__,KDTree._build,HaversineDistanceKDTree._query_ball_point,HaversineDistanceKDTree.query_ball_tree,KDTree.query_pairs,KDTree.count_neighbors,KDTree.sparse_distance_matrix","cis/collocation/haversinedistancekdtreeindex.py:create_index"]),
("C105","Arrays of points asked of a tree of positions, and matrices of distances","Asked for the k nearest neighbours of one point, a tree gives k distances and k row numbers, the neighbours nearest first and then infinite distances with a number that is no row's; two plain numbers when k is one. Asked about an array of points of any shape it gives arrays of that shape, with one more dimension of size k when k is more than one, and in each place the answer it gives for the point that is there alone, also with an error and a bound. When no number is wanted it gives all the points, nearest first; for an array, a list in each place. Points of another number of coordinates, a norm of order less than one and fewer than one neighbour are a ValueError (refuted for one point and no neighbour: an IndexError). Asked for the points within a distance of each of an array of points it gives a list in each place, with exactly the rows within the distance of the point there. A matrix of distances holds the distance of every pair of rows, whichever way it is computed and whatever was in memory before; matrices of different widths are refused.","Every set of points, tree, array of points of any shape (also empty), number of neighbours, error, bound, order of the norm, distance, threshold and content of the memory used.","The arrays may be of any shape and size, the place of an answer depends on all the shape, and the method of the matrix on its size: tests try a few shapes.",["cis/collocation/kdtree.py:KDTree.query","cis/collocation/kdtree.py:KDTree.query_ball_point","cis/collocation/kdtree.py:distance_matrix","cis/collocation/kdtree.py:minkowski_distance_p"]),
("C106","Coordinates looked up by name, standard name, long name, axis, variable name, attributes or likeness","Asked for the coordinates that meet some criteria (a name or another coordinate, standard name, long name, attributes, axis letter in either case, variable name), a coordinate list gives exactly those that meet all of them, in their order; without any criterion it gives the list itself, so that what is appended to it is appended to the data, and otherwise a new list. Asked for one coordinate it gives the only one that meets the criteria; if several do, a CoordinateNotFoundError; if none does and a name was given, the only coordinate with that standard name, and otherwise a CoordinateNotFoundError. Refuted: the other criteria are then dropped, so a coordinate may be given that does not meet them; in a list of one coordinate that one is given for any criteria without a name; looking for a coordinate like another that is not there is an AttributeError. The standard coordinates are each the only one with its standard name, or none (refuted for a list of one coordinate, which stands for all five).","Every list of coordinates, every combination of criteria.","Any subset of six criteria may be given on any list; tests look up one or two names in a fixed list.",["cis/data_io/Coord.py:CoordList.get_coords","cis/data_io/Coord.py:CoordList.get_coord","cis/data_io/Coord.py:CoordList.find_standard_coords","cis/data_io/ungridded_data.py:UngriddedData.coords","cis/data_io/ungridded_data.py:UngriddedData.coord"]),
("C107","Equality of data and of coordinates","Two ungridded data of the same length are equal exactly when their names and units are the same and, wherever neither is masked, both have numbers that agree up to the tolerance; data are equal to themselves and to copies of themselves unless there is a nan among them (refuted: nan) or all is masked; data of different lengths are a ValueError (refuted: a single value equals any number of copies of it). Equality is neither symmetric nor transitive (refuted by pairs at the tolerance). Two coordinates are equal exactly when they have the same standard name, whatever their values, and it is not empty (refuted: a coordinate with an empty standard name is not equal to itself); comparing a coordinate with something that is no data is an AttributeError (refuted). Data and a coordinate are compared in the way of the one on the left. Not equal is the opposite of equal. An object is in a list when it is one of it or one of it is equal to it. Refuted: equal data have equal hashes (they have different ones, and coordinates have none).","Every pair of data or coordinates: names, units, values masked, nan or numbers, lengths; every list.","The result depends on all the values, on the tolerance at every scale and on the kinds of both objects: tests compare a few.",["cis/data_io/ungridded_data.py:LazyData.__eq__","cis/data_io/ungridded_data.py:LazyData.__ne__","cis/data_io/ungridded_data.py:LazyData.__hash__","cis/data_io/Coord.py:Coord.__eq__","cis/data_io/ungridded_data.py:Metadata.__eq__"]),
("C108","A printed description of data is complete, and tells the range recorded before","For data and coordinates that have values, and a range recorded for the data, describing the data (str, summary) gives exactly: a heading with the name (the first of standard, long and variable name that is not empty, or 'unknown') and the units; the shape; the number of points and of those not masked; the metadata (long and standard name, units, missing value, range, history, other attributes with titles for names), indented by 5; then each coordinate in order, its name and its metadata, indented by 10, with the range that its values have now. Nothing but ranges is changed. For the data themselves the range told is the one recorded before; describing also records the present range, so a second description changes nothing more, tells the present range of the data, and is the first one again if nothing was recorded anew. The short description is the heading, and repr is made of it. After new values have been put in, the first description tells the range of the old ones and the second one differs. Data with no range recorded or with an empty coordinate cannot be described.","every data with its coordinates, names, units, ranges, histories, attributes, shapes and masks; every reading of units; every text of units and of ends of ranges","tests look for a few lines in a few descriptions; that each line is there, in order, and which range it tells holds for all data and histories of it",["cis/data_io/ungridded_data.py: UngriddedData.summary","cis/data_io/ungridded_data.py: Metadata.summary","cis/data_io/ungridded_data.py: UngriddedData._post_process"]),
]

CLAIMS = [
("C01", "proved", ["C01_ordered_set_refines_insertion_list"], ""),
("C02", "proved", ["C02_index_iterator_enumerates", "C02_index_iterator_position", "C02_unravel_index_inverts"], ""),
("C03", "partial", ["C03_expand_filelist", "C03_only_files_partial", "C03_only_files_refuted", "C03_command_line_file_list"],
 "Everything but 'never returns a path that is not a file' holds for all file systems; that clause is false of the code: a wildcard matching a directory returns the directory (C03_only_files_refuted)."),
("C04", "proved", ["C04_last_mention_wins", "C04_keys_unique", "C04_every_element_mentions_a_key"], ""),
("C05", "proved", ["C05_ungridded_wrap", "C05_views_wrap", "C05_detected_range_contains_points", "C05_wrap_pair"], "Exact rationals stand for floats."),
("C06", "partial", ["C06_rotation_keeps_columns_partial", "C06_axis_outside_range_unchanged", "C06_into_range_refuted"],
 "Proved for axes with a longitude in the range asked for; false of the code for axes wholly outside it, which are left unchanged."),
("C07", "proved", ["C07_split_outside_brackets"], ""),
("C08", "partial", ["C08_escaped_colons_round_trip", "C08_accepted_values_checked_partial", "C08_valid_options_accepted", "C08_single_option_unchecked_refuted"],
 "False of the code when exactly one optional option is declared (subset, collocate, stats, eval, info datagroups): its value is stored unchecked. Proved for every other case."),
("C09", "proved", ["C09_aliases_unique"], ""),
("C10", "proved", ["C10_overwrite_needs_consent", "C10_validated_output"], ""),
("C11", "partial", ["C11_range_is_the_period_partial", "C11_gaps_rejected", "C11_constructor_total", "C11_text_is_read_back", "C11_last_year_refuted"],
 "Proved for every partial date except year 9999 without a month / December 9999 without a day, where max() raises OverflowError."),
("C12", "proved", ["C12_period_adds_up", "C12_unknown_units_rejected", "C12_days", "C12_fraction_misread"], "Text that is not made of tokens is outside the property; C12_fraction_misread records what happens to it."),
("C13", "partial", ["C13_ordinals_count_days", "C13_right_iff_reference_at_midnight_refuted", "C13_counted_from_midnight_partial"],
 "False of the code unless the reference is at midnight: its time of day is dropped. Exact characterisation proved."),
("C14", "proved", ["C14_set_year", "C14_change_year_of_all"], "Target years 1..9999."),
("C15", "partial", ["C15_binned_once_partial", "C15_binned_characterised", "C15_one_cell_only", "C15_decreasing_refuted", "C15_no_points"],
  "Proved for increasing coordinates; the exact set of delivered points is characterised for every mix of directions; for decreasing coordinates the claim is false (points in the first cell are dropped): refuted with a witness."),
 ("C16", "partial", ["C16_lookup", "C16_agree_partial", "C16_agree_refuted"],
  "The lookup index is exact in both directions; the two indexes agree for increasing coordinates and disagree for decreasing ones (refuted with a witness)."),
 ("C17", "proved", ["C17_ball_point_exact", "C17_ball_point_eps", "C17_ball_point_wrong_length", "C17_ball_tree_exact", "C17_pairs_exact", "C17_count_exact", "C17_sparse_exact"], "Exact rational coordinates; the order of the norm is a natural number or infinity. Haversine trees are C20-C22."),
("C18", "partial", ["C18_partition_partial", "C18_rejects", "C18_leafsize_refuted"], "Partition and half-spaces proved; the bound on leaves holds up to a shared coordinate, the stronger clause (all points coincide) is refuted by a witness."),
("C19", "proved", ["C19_query_exact", "C19_query_eps_bound"], "For every heap that pops an entry of least distance; k >= 1. Distances as p-th powers."),
("C34", "partial", ["C34_cells_partial", "C34_empty_range", "C34_refuted"], "All positive steps and ranges upwards: cells of the step's width from start to less than a step beyond stop, contiguous and covering [start, stop). Refuted clauses: a range not wider than the step gives one cell of the range's width with its point possibly outside; latitude cells are clipped at the poles, so that the pole itself may be in no cell."),
("C35", "partial", ["C35_aggregation_partial", "C35_missing_coordinates", "C35_counted_partial", "C35_conservation_partial", "C35_list", "C35_binned_conservation_partial", "C35_refuted"], "Whole UngriddedData.aggregate for upward ranges, any kernel on the values and any argsort: dimensions, cells, values, counts; every unmasked point counted once when the requested ranges are usual. Refuted: longitude ranges across 180 (-10..350), first cell straddling 0, default stop, downward steps lose points; a grid on a coordinate without a standard name is ignored."),
("C20", "partial", ["C20_shape", "C20_sound_partial", "C20_complete_partial", "C20_equator_exact_partial", "C20_misses_close_point_refuted", "C20_includes_far_point_refuted"], "Refuted as stated: the rectangle bounds of the haversine tree are unsound in both directions (two one-point witnesses). Proved: shape for all inputs; nothing too far in one hemisphere within 90 degrees of longitude; completeness up to a factor cos(phi) between latitudes +-phi without wrapping; exactness on the equator."),
("C21", "proved", ["C21_is_great_circle", "C21_symmetric", "C21_bounds", "C21_zero", "C21_triangle", "C21_periodic"], "Over the real numbers (no rounding)."),
("C22", "partial", ["C22_kernel_nearest_partial", "C22_kernel_empty", "C22_kernel_column_order_refuted", "C22_tree_nearest_partial", "C22_tree_nearest_refuted"], "The kernel is right when both data sets have latitude and longitude as their first coordinates; refuted when longitude comes first (AERONET and others), because it reads the first two columns. The kd-tree shortcut is right for at most 10 data points and refuted with 12, for every priority queue meeting its contract."),
("C23", "partial", ["C23_simple", "C23_tree_no_distance", "C23_agree", "C23_tree_equator_partial", "C23_tree_anywhere_partial", "C23_zero_distance_refuted"], "Time, altitude and pressure limits: exact for all inputs with positive pressures. With a distance the tree constraint is exact on the equator within 90 degrees of longitude, elsewhere only as C20 allows; a distance of zero is ignored (refuted)."),
("C24", "proved", ["C24_order_independent", "C24_values", "C24_mean_between", "C24_no_points"], "Over exact real numbers. The standard deviation of one value is missing."),
("C25", "partial", ["C25_alignment", "C25_data_with_values", "C25_mean", "C25_several", "C25_kernels_qualify", "C25_all_missing_refuted"], "Proved for every kernel that raises only ValueError and data with at least one value; with no value at all the collocation raises ValueError instead of giving missing output (refuted clause)."),
("C26", "proved", ["C26_time", "C26_altitude", "C26_pressure", "C26_no_points"], "Pressures must be positive."),
("C27", "partial", ["C27_linear", "C27_node", "C27_bounded", "C27_cell_bounds", "C27_affine", "C27_masked_neighbour_refuted", "C27_single_point_axis_refuted"], "Proved for any rank, with and without circular longitudes and missing values. Two clauses are false of the code: a sample exactly at a grid point is lost when the next lower value is missing, and with a dimension of one point every sample is lost."),
("C28", "proved", ["C28_nearest"], "Any rank, dimensions of one or more points, circular or not."),
("C29", "partial", ["C29_second_dimension_partial", "C29_first_dimension_refuted", "C29_one_dimension_refuted", "C29_circular_refuted"], "True only when dimension 1 of the data is the decreasing one; otherwise wrong values or IndexError."),
("C57", "partial", ["C57_columns_partial", "C57_dims_refuted", "C57_decreasing_refuted"], "Proved when the hybrid coordinate varies along every horizontal dimension and increases with the level; false otherwise (witnesses)."),
("C38", "proved", ["C38_removed_in_step", "C38_second_pass_changes_nothing", "C38_coordinates", "C38_objects"], "For data with one coordinate value per data value. The lazy concatenation of files is not part of this claim."),
("C40", "partial", ["C40_points_partial", "C40_gridded_points_partial", "C40_single_coordinate_refuted", "C40_hyper_point_swapped_refuted", "C40_other_dimension_refuted", "C40_iteration_single_point_refuted"], "Views are right for data with a latitude and at least two coordinates, and for gridded data whose dimensions are all standard coordinates. False of the code: data with one coordinate report it in every field; hyper_point exchanges time and air pressure; gridded data with another dimension cannot be read; default iteration over gridded data with a dimension of one point gives wrong points."),
("C46", "partial", ["C46_compatible_partial", "C46_prefix", "C46_accepts", "C46_rank_refuted"], "Shapes of different rank that agree on the common dimensions are accepted (zip)."),
("C47", "partial", ["C47_unique", "C47_append_keeps", "C47_lookup_partial", "C47_single_coordinate_refuted", "C47_unnamed_refused_refuted"], "Uniqueness proved. Lookup is wrong in a list of one coordinate (it is found under every standard name), and two coordinates without a standard name count as duplicates."),
("C30","partial",["C30_limits_partial","C30_with_longitude_partial","C30_unknown_name","C30_refuted"],"Exact for data whose coordinates have their own names and limits on different coordinates (unbounded limits too); with longitude limits the longitudes are moved by whole turns. Refuted: two coordinates without standard names (DuplicateCoordinateError from the copy), single-coordinate data accept any keyword, longitude limits on empty data raise, a second keyword for a coordinate and a shape replace an earlier limit, a shape containing no point raises TypeError, list variables without remaining points raise TypeError."),
("C31","partial",["C31_off_seam_partial","C31_refuted"],"Off the 180 meridian, with data all in -180..180 or all in 0..360 and limits in either. Refuted on the seam (180, 360) and for limits reaching beyond the convention of the data on both sides."),
("C32","partial",["C32_limits_partial","C32_one_variable_partial","C32_refuted"],"Refuted for shapes: only the first variable of a list gets the shape. Proved: limits without a shape apply to every variable as if alone; one variable and a shape."),
("C33","partial",["C33_mask_partial","C33_refuted"],"Exact for ndarrays with dimensions (Y, X); refuted for masked arrays (mask and-ed instead of or-ed), for (X, Y) cubes, and for shapes without any cell."),
("C36","partial",["C36_new_dims","C36_collapse_partial","C36_kernels_partial","C36_refuted"],"Proved: the renumbering of surviving dimensions, and that the collapse (and each kernel's output) is right for every cube whose auxiliary coordinates use, in their own numbering, the same places as the collapsed dimensions of the cube. Refuted in general: the cube's dimension numbers are used as the coordinate's own, so a multi-dimensional coordinate not starting at dimension 0 is averaged over the wrong axis on a square grid, and raises ValueError or IndexError otherwise."),
("C37","partial",["C37_statistics_partial","C37_defined","C37_sizes","C37_refuted"],"Proved for all pairs of arrays: the count and all statistics but the relative ones are those of exactly the pairs missing in neither data set, relative ones too when no array is masked or no valid first value is zero (or not finite); different sizes raise, fewer than two valid pairs raise. Refuted in general: with masked arrays the relative mean and deviation leave out pairs with a zero first value although they are counted. scipy's rank coefficient and regression are parameters applied to the valid pairs."),
("C41","partial",["C41_netcdf_partial","C41_netcdf_fails","C41_hdf_sd","C41_hdf_vd","C41_modis","C41_caliop","C41_cloudsat_sds_partial","C41_cloudsat_vds","C41_refuted"],"Proved for all raw arrays and attributes, per reader: masked exactly where missing or outside the valid limits before scaling, and scaled by the product's formula. Refuted in general: netCDF reading switches the library's fill-value masking off, so _FillValue/missing_value elements are read as values; an integer variable with a scale factor but no offset raises TypeError; a valid_min/max that is not a value of the type wraps around; CloudSat's operator '>=' is not recognised."),
("C42", "partial", ["C42_chosen", "C42_found_partial", "C42_named", "C42_refuted"], "The class chosen is right for the file (base name and the patterns, no file type error) and has the highest priority, then the first name, among all right classes; a class named by the user is taken whatever the file. That one is always found holds only if find_plugin_classes leaves no abstract class (C43): otherwise a TypeError (C42_refuted). re.match is a parameter."),
("C43", "partial", ["C43_offered_partial", "C43_override_partial", "C43_refuted"], "Every non-abstract subclass, at any depth, is offered and nothing foreign is. False in general: removing from the list while iterating leaves one of two neighbouring abstract classes; find_plugins keeps only the last file's classes, so plugin precedence fails with two plugin files."),
("C44", "partial", ["C44_first_kept", "C44_saved_partial", "C44_succeeds", "C44_wrong_size", "C44_refuted"], "For all names: the file holds, under each name, the first object of that name; with distinct names everything is saved. In general false: a data variable named like a coordinate's standard name (or a second coordinate of the same name) is silently not saved. netCDF4's packing is a contract; names without slash."),
("C58", "partial", ["C58_round_trip_partial", "C58_refuted"], "Proved under stated conditions (distinct names, representable values, no element outside the limits kept as attributes, missing elements marked by those limits, coordinates named after axes). In general false: missing values come back as numbers (reading switches fill-value masking off), a valid_range that applied to unscaled values makes good values missing, coordinates without an axis name are lost."),
("C39", "proved", ["C39_copy", "C39_slice", "C39_coord", "C39_list", "C39_history", "C39_calls", "C39_independent", "C39_copy_with_data"], "Memory model with addresses: what a copy, slice, coordinate copy or list copy can reach is disjoint from everything that existed before; disjointness is kept by every history of edits by way of either object, and no such edit is seen in the other; every sequence of the modelled calls is such an edit. copy(data) shares exactly the caller's array. By contrast make_new_with_same_coordinates shares coordinates, flattened or not (example)."),
("C59", "partial", ["C59_copy_partial", "C59_equal_partial", "C59_slice_partial", "C59_slice_of_rest", "C59_range", "C59_refuted"], "Proved when no coordinate value is missing, metadata objects are not shared and standard names differ: everything is kept but attributes. Refuted otherwise: attributes are dropped; a copy is refused with two coordinates without standard name (None), and once a coordinate value has become missing (values copied before points are taken out)."),
("C60", "partial", ["C60_partial", "C60_refuted"], "Proved for any sequence of calls when arrays lie in order in memory and coords() meets no missing coordinate value after data_flattened was asked for. Refuted otherwise: coords() takes points out of data but not of the flattened array kept; a flattened copy of data not in order does not follow changes."),
("C45", "partial", ["C45_partial", "C45_two_dimensions", "C45_refuted"], "Hyperslab reading, the shared readers, the loading done by append and any later accesses are modelled: every element but the first holds its own slice (also a single one), over any number of files and leading dimensions. Refuted for the first: it always holds the second slice when there are two or more."),
("C51", "partial", ["C51_version", "C51_names", "C51_partial", "C51_refuted"], "The name of every column is characterised exactly (order, numbers of repeated ones, standard names), for all header lines; names are distinct when columns cannot be taken for each other once cleaned and numbered. Refuted in general: X,X,X0; names that differ in deleted characters; two spellings of the date."),
("C48", "proved", ["C48_double_underscore_refused", "C48_confined", "C48_accepted", "C48_decided", "C48_attributes"], "Python's eval is a parameter (any function of the namespace and the expression). Also proved: of the modules only numpy is visible, none of a list of 26 dangerous built-ins, and the data under their aliases. Not modelled: the history text, invalid unit strings, reserved attribute names of cubes."),
("C52", "partial", ["C52_last_group_partial", "C52_one_group_partial", "C52_every_group_refuted"], "Refuted: each datagroup is saved to the same file, so only the result of the last one is left. Proved: the last one is the output, and with one datagroup it is the whole result."),
("C61", "partial", ["C61_subset", "C61_aggregate", "C61_collapse", "C61_evaluate", "C61_stats", "C61_stats_quiet", "C61_inputs_kept", "C61_collocate_refuted"], "Proved for subset, aggregate, collapse, eval and stats; input files kept for all commands, composed with the checks on the command line (C10). Refuted for collocate with several datagroups: an error in a later one leaves the output overwritten."),
("C62", "partial", ["C62_read", "C62_total", "C62_aliases_partial", "C62_datagroups_partial", "C62_one", "C62_alias_shift_refuted", "C62_surplus_refuted", "C62_pattern_in_eval_refuted"], "Proved: what is read, in which order, and the aliases when no variable is a pattern (also from the command-line specifications, with C09). Refuted: a pattern that finds nothing hands its alias to the next variable; surplus aliases are ignored; a pattern in eval or stats is refused when it stands for two variables."),
("C63", "partial", ["C63_same_place_partial", "C63_other_place_refuted"], "Refuted: coordinates are never compared. Proved for data at the same coordinates."),
("C64", "partial", ["C64_missing_sample_partial", "C64_bad_value_refuted"], "Proved for valid values and the default. Refuted: another value is only reported in the log and taken as None."),
("C49","partial",["C49_new_partial","C49_left_unchanged_partial","C49_coordinate","C49_one_operand_partial","C49_shares_nothing","C49_others","C49_in_place","C49_one_in_place","C49_refused","C49_sum_units","C49_refuted"],"All of add, subtract, multiply, divide and the one-operand functions, new and in place, with numbers, arrays, ungridded and gridded right operands and broadcasting, for arbitrary element functions and unit algebra. Partial: new data needs all coordinate values present (see C59); C49_refuted: in place other data made with the same array changes too, the range stays the old one, a left operand whose metadata were stale is brought up to date, and the history does not tell a sum from a difference."),
("C65", "partial", ["C65_limits", "C65_one_meaning", "C65_nothing_ignored_partial", "C65_refuted"], "Acceptance and meaning are proved exactly for every text. The full statement is false: a second limit for a dimension silently replaces the first, a name beginning with shape is taken for the shape, x=[10] raises TypeError and shape without = raises IndexError instead of an error message; C65_refuted shows each. int(), float() and dateutil are parameters."),
("C66", "partial", ["C66_grid", "C66_one_meaning", "C66_refuted"], "Acceptance and meaning are proved exactly for every text against what the regular expression really accepts. The full statement is false: an unclosed or incomplete bracket counts as a dimension without grid and text after the bracket is ignored; C66_refuted shows each."),
("C67", "proved", ["C67_attributes"], "For every text."),
("C68","partial",["C68_bin_partial","C68_exact","C68_missing","C68_list","C68_refuted"],"Proved for samples stored upwards, and exactly which cells are lost otherwise (the first ones of a dimension stored downwards). Refuted: 'box' and the nearest neighbour kernels never work on a gridded sample, missing samples cannot be respected with a scalar coordinate, longitudes are compared in the sample's convention only."),
("C69", "partial", ["C69_partial", "C69_undefined", "C69_methods", "C69_refuted"], "Proved for variables on one grid whose longitudes are around the world or within the sample's range, except samples between the start of the longitude range and the grid's first longitude in it, which get a missing value. Without these exceptions false of the code: four counterexamples (that gap; a grid in the western half with a sample in 0..360; a grid across the date line; two variables on different grids, the second read through the interpolator of the first)."),
("C70", "partial", ["C70_partial", "C70_refused", "C70_refuted"], "Proved for every interpolation scheme (iris's interpolate is a parameter) for variables with the same dimensions in the same order and sizes. False of the code otherwise: a second variable with its dimensions in another order is transposed like the first; a sample whose scalar coordinate makes up for a dimension missing in the data is refused when it has a mask; data at a single longitude are refused."),
("C71","partial",["C71_partial","C71_bins_partial","C71_read","C71_described","C71_one_description","C71_names","C71_file_types","C71_refuted_height","C71_refuted_bins","C71_refuted_order"],"Holds when the files are described alike and their variables are on the dimensions of the times (optionally followed by one dimension of bins equal in all files). Refuted otherwise: the first file decides for all, so a station height that only a later file gives is read as 0; the bins of the first file are given to all files; a variable with its bins before the times is silently put at other times and bins. The conversion of times (cf_units) and float() are parameters."),
("C72", "partial", ["C72_profiles_partial", "C72_cells_partial", "C72_missing", "C72_mixed", "C72_no_height", "C72_names", "C72_refuted_time"], "Proved for files whose variables have no factor 0 and no missing operator '>=' ; the factor, offset and valid range of Profile_time and TAI_start are not applied by the code (C72_refuted_time), so the time is that of the stored values."),
("C73", "partial", ["C73_cells_partial", "C73_columns", "C73_other_levels", "C73_missing", "C73_names", "C73_refuted_altitudes"], "Proved when all files have the altitudes of the first and no scale factor is 0; the altitudes of later files are not read (C73_refuted_altitudes: a later file with other altitudes gets those of the first)."),
("C74","partial",["C74_rows_partial","C74_no_data","C74_missing","C74_not_a_number","C74_names","C74_refuted"],"For files without blank lines in the header and without lines of more fields than columns; refuted for those (lines are lost: C74_refuted). read_csv is modelled by contract; float() and the date parser are parameters of the theorems."),
("C75","partial",["C75_read_partial","C75_own_place_partial","C75_refused","C75_overhang","C75_aux_time","C75_names","C75_offered","C75_place_refuted","C75_units_refuted","C75_time_refuted","C75_offered_refuted"],"Proved where the dimensions of heights and pressures are the first ones of the variable and the time is a dimension. Refuted otherwise: only lengths are compared, units of heights and pressures are ignored, a scalar time keeps the units of the file, an auxiliary time or heights with further dimensions make the file unreadable, an offered name may be refused. iris is modelled by contract (merging is a parameter); attributes and bounds are left out."),
("C76","partial",["C76_statistics_partial","C76_reference","C76_drawn","C76_marks","C76_inside_folded","C76_inside","C76_bias_scale","C76_bias_limit","C76_two_dimensional_refuted","C76_refuted","C76_log_missing_refuted","C76_log_negative_refuted","C76_different_missing_refuted"],"The statistics, the law of cosines, marks, folding and extents are proved for all one-dimensional data sets missing the same points (log option: positive values, none missing); refuted: two-dimensional data (the correlation is that of the data set's first two rows), log option with missing or non-positive values, data sets missing different points. Arrays of three or more dimensions are not modelled."),
("C77","partial",["C77_points_partial","C77_longitude","C77_hybrid_partial","C77_heatmap_partial","C77_extra_refuted","C77_square_refuted","C77_hybrid_refuted","C77_heatmap_refuted","C77_heatmap_swapped_refuted"],"Proved for points when x is across (or the data is not square), for a hybrid axis with the other across, and for bounds with x across unless there is one more column than rows. Refuted: any evenly spaced axis across (times, pressures) gets a repeated column; square data with x down are drawn transposed; a 1-D axis down beside a hybrid axis gets the transposed shape; heat maps with columns = rows + 1, or with x down, get arrays that do not fit."),
("C78","partial",["C78_layers_partial","C78_type_partial","C78_multilayer","C78_one_partial","C78_comparative","C78_comparative_two","C78_taylor","C78_taylor_mixed","C78_type_refuted","C78_one_type_refuted","C78_variables_refuted","C78_comparative_refuted","C78_axes_refuted"],"Number, order, labels and options of the layers are proved exactly for all options. Refuted: a layer's type is passed on to the layers after it; the type given for the only datagroup is not used as the type; a datagroup of several variables makes every plot of several data objects fail; the second datagroup's options are ignored in comparative plots; with too short a list of y axes the last data objects are left out. What basic_plot draws is a parameter (see C77, C76)."),
("C79","partial",["C79_named_partial","C79_guess_partial","C79_fallback_partial","C79_own_coordinate","C79_chosen","C79_bad_type","C79_compared","C79_squeeze","C79_layers","C79_unknown_refuted","C79_single_refuted","C79_curtain_refuted","C79_profile_refuted","C79_layers_refuted"],"Proved for named coordinates that are unique and have several points, for guessed ones, for the fall-back and for types and data drawn. Refuted: a name no coordinate has (or whose coordinate has one point) is silently replaced by a guess; data of two dimensions without a y axis (time and height) raise IndexError; a pressure profile is drawn upside down; an even number of layers turns a pressure axis back."),
("C80","partial",["C80_partial","C80_moments","C80_needs","C80_one_way","C80_read","C80_names_needed","C80_refuted_mixed","C80_refuted_units","C80_refuted_unnamed"],"Rows, names and times proved for files whose variables are on the dimensions of the times; refuted: mixtures of short and long names, units of the time variable, files without standard names (the name guessed from the variable is erased again). Variables in groups and the netCDF library are contracts."),
("C81","partial",["C81_partial","C81_stamp","C81_missing","C81_refuted"],"Proved for all stamps, attributes and both products. Partial: strptime, relativedelta and date2num are contracts (fields of one digit, which strptime takes too, are outside the theorem); attributes that are not texts and an aerosol cube that has a time already are not modelled. The workaround for the known bad file is refuted: it always raises NameError."),
("C82","partial",["C82_partial","C82_points", "C82_columns","C82_refuted","C82_refuted_many"],"Proved for all files of two or more observations. Partial: numpy.genfromtxt is a contract (line splitting, comments, masks, squeezing), a time that cannot be parsed is not covered; float() and dateutil's parser are parameters. Refuted for files of one observation: the array of numpy has no dimensions then."),
("C83","partial",["C83_partial","C83_refuted","C83_interpolation","C83_interpolation_refuted","C83_missing_refuted","C83_dateline_refuted"],"Proved for variables on the grid of their coordinates; interpolation proved bilinear for all fields and odd factors in Python 2. Refuted for 1 km variables (unreadable in both Pythons, missing positions used, date line). Partial: pyhdf, masking and scaling (C41) and numpy's strided slices are contracts; variables of more dimensions are C45."),
("C84","partial",["C84_pixels_partial","C84_across","C84_missing_refuted","C84_files_refuted","C84_index_refuted","C84_place_refuted", "C84_index_beyond"],"Proved for the first file, indexes 0-9, one extra dimension in its place, positions of the pixels' shape or of their rows. Refuted: other files are ignored, two-digit indexes, a band in another place, a missing variable without positions."),
("C85","partial",["C85_value","C85_partial","C85_undated","C85_refuted","C85_offered", "C85_unquoted"],"Proved for all files whose metadata objects have one quoted value each. Partial: iris's DimCoord, Cube and merge_cube, and the parser of dates, are contracts or parameters; units and names are left out. Refuted: attributes that are not texts (AttributeError)."),
("C86", "partial", ["C86_convsh_partial","C86_height_units", "C86_names", "C86_pp_partial", "C86_history_refuted", "C86_pp_names_refuted", "C86_pp_clash_refuted", "C86_pressure_refuted", "C86_time_refuted"], "False of the code in places: files without history cannot be read together (KeyError); pressures are lost when histories differ; names with blanks get underscores from a single pp file only and may clash; t beside time is not converted. iris merging and unit conversion are contracts."),
("C87", "partial", ["C87_size","C87_limits_partial","C87_limits_refuted","C87_pressure_partial","C87_pressure_refuted","C87_lower_limit_refuted","C87_pressure_ticks_refuted","C87_map","C87_map_limits","C87_map_global","C87_map_limits_refuted","C87_coastlines","C87_picture","C87_times_partial","C87_other_axis","C87_times_refuted","C87_tick_text","C87_label_partial","C87_label_refuted","C87_contour_partial","C87_contour_refuted","C87_bar_step"],
 "False of the code: a step that does not divide the range takes the axis past its limit; on an axis of pressures both limits turn it back, the lower limit alone shows what is below it, a step leaves no ticks; borders of a map that were not given are taken in the wrong coordinates unless the central longitude is a multiple of 360; times on 2-D plots are labelled 135140 days late; a label without units ends in a blank; vstep is ignored by contour plots. matplotlib, cartopy and cf-units are contracts."),
("C88", "partial", ["C88_scatter","C88_comparison_partial","C88_comparison_refuted","C88_coordinate_refuted","C88_diagonal","C88_histogram","C88_no_bins","C88_bar_styles","C88_histogram2d","C88_sizes","C88_line","C88_line_tracks","C88_line_columns_partial","C88_line_refused","C88_line_refuted","C88_line_styles","C88_line_plot"],
 "False of the code: variables on the same grid with their dimensions in another order are compared at different places; a coordinate of more than one point on the x axis is refused; on a square grid a line against the coordinate of the second dimension is drawn against the first. numpy's histograms and matplotlib's plot and pcolor are contracts; arithmetic is exact; NaN is not modelled."),
("C89","partial",["C89_groups","C89_exclude","C89_dimensions","C89_names","C89_type","C89_unopened","C89_modis_partial","C89_caliop_partial","C89_cloudsat","C89_errors","C89_info","C89_args","C89_exclude_groups_refuted","C89_all_refuted","C89_both_refuted","C89_ending_refuted","C89_unreadable_refuted","C89_modis_refuted","C89_caliop_refuted","C89_errors_refuted","C89_args_product_refuted"],"Group trees of any depth; listings for any list of files. Refuted: documented type All -> ValueError; documented None -> only SD; other endings -> TypeError; unreadable HDF -> silently empty; MODIS/CALIOP judge later files by the first one's shape; exceptions without arguments -> IndexError; coordinate variables of groups are not excluded; file:product=... taken as variable:file. What pyhdf and netCDF4 report is the content of the model's files."),
("C90","partial",["C90_commands","C90_other_words","C90_levels_partial","C90_quiet","C90_flags","C90_checks_partial","C90_plot_group","C90_subset","C90_aggregate","C90_collapse","C90_eval","C90_collocate","C90_plot","C90_stats","C90_goes_on","C90_dimensions_partial","C90_no_command_refuted","C90_levels_refuted","C90_before_refuted","C90_contlevels_refuted","C90_mandatory_plot","C90_mandatory","C90_chosen","C90_equals_refuted","C90_bare_output_refuted","C90_dimensions_refuted"],"Refuted: no command -> KeyError; -vvv -> warnings only; flags before the command are lost (argparse contract: a subparser's values replace those read before); contlevels drops first and last characters, ValueError on other texts; label=a=b truncated; bare -o -> TypeError; collapse x,y t not split. argparse's own tokenising, float() and the plugin lists are parameters."),
("C91","partial",["C91_new","C91_modified_partial","C91_modified_refuted","C91_same_point","C91_coord_tuple","C91_separations","C91_pressure_ratio_partial","C91_pressure_ratio_refuted","C91_distance","C91_comparisons","C91_furthest","C91_furthest_twice","C91_data","C91_points_back","C91_round_trip_partial","C91_round_trip_refuted"],"Proved for all points; the round trip through data is characterised completely (C91_points_back) and is the identity for points that all have the same coordinates (latitude and longitude among them) and one value each. Refuted: `modified` ignores a time that is not a date and nests a sequence of values; the pressure ratio is not >= 1 for pressures of other sign (0: ZeroDivisionError); a later point lacking a coordinate vanishes, a coordinate lacking in the first point is lost for all, a point without a value gets 0; the empty list raises IndexError."),
("C92","partial",["C92_columns","C92_rows_partial","C92_collocation_partial","C92_dropna","C92_coordinates_partial","C92_list_partial","C92_list_lengths","C92_refuted"],"C92_columns characterises the frame for all data; the row-by-row statements are proved for distinct column names. Refuted: coordinates without a standard name share one column (the last wins), data named like a coordinate replace it, data of the same name in a list replace each other, and the coordinates of later items of a list are not compared with the first's. pandas' constructor, column assignment and dropna are contracts; sharing of memory (copy=False) is not modelled."),
("C93","partial",["C93_construct","C93_construct_total","C93_wrong_kind","C93_each","C93_each_total","C93_collapsed","C93_collapsed_total","C93_extract_partial","C93_extract_total","C93_extract_none","C93_extract_is_none","C93_extract_refuted","C93_all_changed_partial","C93_all_changed_total","C93_half_changed","C93_changed_refuted","C93_files_read_partial","C93_files_set_partial","C93_files_refuted","C93_attributes","C93_attribute_removed_partial","C93_attribute_removed_refuted","C93_saved_on_variable_partial","C93_unlimited_time","C93_saved_list_refuted","C93_init","C93_init_error_partial","C93_init_error_refuted","C93_make_new_partial","C93_make_new_refuted","C93_history","C93_kernels","C93_kernel_default","C93_kernel_unknown","C93_moments_named","C93_moments_distinct_partial","C93_moments_distinct_refuted","C93_first","C93_default_plot"],"Refuted: one item without data makes extract and intersection return None; a failure leaves the items before it changed, and an object that is twice in a list is changed twice; all variables read together share one list of file names (adding a name to the list of data adds it once per variable, also to the caller's list), objects not read from files share the class attribute; a reserved name is not removed, an attribute set twice stays listed; attributes of variables saved in a list are written on the file; errors of construction without units surface as KeyError; the default history of make_new_with_same_coordinates is refused; 'moments' of rain and rain_std_dev clash. Iris' methods are parameters; iris.save's choice of global attributes is a contract."),
("C94","partial",["C94_standard_name","C94_if_valid","C94_new","C94_netcdf","C94_guess_refuted","C94_name","C94_units","C94_tidied","C94_set_again_partial","C94_set_again_refuted","C94_equal","C94_compare_partial","C94_compare_refuted","C94_convert","C94_convertible","C94_not_converted","C94_there_and_back","C94_degrees","C94_times","C94_times_told","C94_times_failed","C94_stamp_refuted","C94_dates","C94_other_units","C94_dates_refuted","C94_range","C94_range_refuted","C94_flattened_partial","C94_flattened_units_partial","C94_flattened_times_partial","C94_flattened_times_refuted","C94_flattened_units_refuted","C94_history"],"Proved except for the refuted clauses listed in the statement. cf_units (linear units, the Gregorian calendar, exact numbers) and iris' table of standard names are contracts."),
("C95","partial",["C95_read","C95_listed","C95_unknown_partial","C95_unknown_group","C95_unknown_refuted","C95_many","C95_hdf","C95_hdf_unknown","C95_hdf_datasets","C95_hdf_tables_partial","C95_hdf_tables_again","C95_hdf_once_refuted","C95_closed","C95_answers","C95_reader","C95_reader_error","C95_reader_callback"],"Proved except for the two refuted clauses listed in the statement. netCDF4 and pyhdf are contracts."),
("C96","partial",["C96_signature","C96_order","C96_product","C96_none","C96_only_error","C96_cis_files","C96_netcdf","C96_no_pressure","C96_named","C96_named_error","C96_unreadable","C96_source","C96_product_refuted","C96_format","C96_no_coordinates","C96_no_format","C96_hierarchy_partial","C96_hierarchy_refuted","C96_full_name"],"Proved for CIS' own products without plugins (those are C42, C43), except for the refuted clauses listed in the statement. re.match is modelled for the expressions of the signatures; names contain no line break."),
("C97","partial",["C97_kernels","C97_kernels_unknown","C97_ungridded","C97_ungridded_complete","C97_gridded","C97_gridded_complete","C97_refused","C97_limit_unknown","C97_kernel_refused","C97_kernel_unread","C97_limits_unread","C97_names_grid","C97_names_points_partial","C97_names_from_grid","C97_names_regrid_partial","C97_complete","C97_history_partial","C97_onto","C97_onto_default_partial","C97_onto_default_fails","C97_onto_coordinates","C97_asked_refuted","C97_asked_regrid_refuted","C97_asked_list_refuted","C97_unread_refuted","C97_history_refuted","C97_onto_default_refuted"],"Refuted: names asked for are dropped for ungridded data at points and for gridded data on a grid, and are the same for all variables of a list; a kernel for gridded data at points and limits of other methods than box are not read; the history of the source is lost except for gridded data on a grid; gridded.collocated_onto(UngriddedCoordinates) fails by default where sampled_from works. The reading of a limit (C12, C53), valid standard names and readable units, and texts of collocators and kernels are parameters; values are those of C25, C68-C70."),
("C98","partial",["C98_map_partial","C98_scales_partial","C98_scales_never","C98_grid","C98_labels","C98_title","C98_bar","C98_bar_options","C98_bar_label","C98_bar_orientation","C98_coast_partial","C98_picture_partial","C98_ticks_partial","C98_output","C98_complete","C98_projection_refuted","C98_projection_limits_refuted","C98_extent_refuted","C98_band_refuted","C98_map_refuted"],"refuted clauses: which plots are maps goes by the first letters of names, so fluxes can be maps (C98_map_refuted) and lose their logarithmic scales (C98_scales_never); limits and steps are ignored on projections that are not rectangular (C98_projection_refuted, C98_projection_limits_refuted); an area all round the Earth counts as small as it is high (C98_extent_refuted, C98_band_refuted). Tick placement by MaxNLocator and the extents cartopy reports are contracts"),
("C99","partial",["C99_nearest_partial","C99_furthest_partial","C99_within_partial","C99_constraint_partial","C99_not_indexed","C99_longitudes_refuted","C99_reindexed_refuted","C99_fewer"],"Proved for longitudes at most a turn apart and at most a turn east of the sample (np.fmod keeps the sign of the dividend, so positions further west are measured wrongly: C99_longitudes_refuted) and for a constraint that indexes one set of data (its memory of places is not cleared: C99_reindexed_refuted). Exact real arithmetic: rounding is outside the model; tan at the poles is taken as infinite."),
("C100","partial",["C100_settings_partial","C100_refused","C100_unknown","C100_ambiguous","C100_tables","C100_first_table","C100_plot","C100_info","C100_collocate","C100_aggregate","C100_collapse","C100_subset","C100_stats","C100_eval","C100_command_partial","C100_version","C100_command_refuses","C100_no_such_command","C100_no_text","C100_help","C100_first_wrong","C100_command_help","C100_first_help","C100_order_refuted","C100_negative_refuted","C100_expression_refuted","C100_bare_refuted","C100_first_refuted"],"argparse is modelled as a contract (Python 2.7.9 to 3.11); proved for settings before and after one block of arguments; arguments split by options, negative numbers in scientific notation, expressions with a leading minus sign, options without text and options before the command are refuted"),
("C101","partial",["C101_dates_partial","C101_order","C101_period_partial","C101_numbers","C101_no_limit","C101_mixed_refused","C101_last_second_refuted","C101_gridded_partial","C101_gridded_numbers_refused","C101_grid_partial","C101_grid_numbers","C101_grid_hours_refuted","C101_gridded_unknown","C101_no_grid","C101_single_grid","C101_no_step"],"Proved except for the refuted clauses listed in the statement. num2date and date2num are arbitrary functions (contracts); lists of points without shape are C32; iris' cells of times are datetimes and a coordinate of gridded data is named as its keyword; comparing what cannot be compared is a TypeError also where there are no points."),
("C102","partial",["C102_subset_partial","C102_subset_none","C102_subset_unknown","C102_limits_legible","C102_shape_refuted","C102_aggregate","C102_collapse","C102_collapse_refuted","C102_evaluate","C102_arithmetic","C102_steps","C102_files_refuted","C102_comparison","C102_comparison_fails","C102_two_variables"],"Proved except for the refuted clauses listed in the statement; C102_subset_partial is for limits of distinct coordinates. repr and str of values, kernels and sets are parameters (a set is in any order); the items of a list get the same time; collocated data are C97."),
("C103","partial",["C103_run","C103_told","C103_bad_line","C103_only_interrupt","C103_no_log_partial","C103_no_log_refuted","C103_no_command_refuted","C103_format_refuted","C103_one_group","C103_subset","C103_aggregate","C103_collapse_partial","C103_collapse_refuted","C103_version"],"False of the code (refuted): the message of a FileFormatError is ((), {}) whatever its reasons; with a log that cannot be written, -v and -q end every run with 'list index out of range'; without a command the message is None; collapse of ungridded data goes on after its complaint and ends with an AttributeError. Proved: all else, for all lines, levels, stories and messages."),
("C104","partial",["C104_partition","C104_within_partial","C104_pairs","C104_answers","C104_nearest","C104_none_left","C104_rejects","C104_wrong_mask","C104_one_value","C104_index_unmasked","C104_index_masked_partial"],"Partial only in C104_within_partial and C104_index_masked_partial: the exact list of points within a distance needs the unmasked longitudes to be within a turn, as in C99 (C99_longitudes_refuted); all the other theorems are for all inputs. The nearest point is shown not to be masked; that it is the nearest is false in general (C22). Exact arithmetic."),
("C105","partial",["C105_one_point","C105_array","C105_each_alone","C105_all_points","C105_all_points_array","C105_width","C105_norm","C105_fewer_partial","C105_none_wanted_refuted","C105_near","C105_near_each_alone","C105_near_width","C105_matrix","C105_matrix_width"],"Proved, except that one point with no neighbour wanted raises an IndexError: the search is made before the number is checked (C105_none_wanted_refuted). Distances are p-th powers (no roots), in exact arithmetic; an array is its shape and its cells in order; a search of one point is the model of C19 and C17."),
("C106","partial",["C106_coords","C106_attributes_refused","C106_itself","C106_shared","C106_not_shared","C106_duplicate","C106_only","C106_several","C106_by_standard_name","C106_not_found_partial","C106_dropped_refuted","C106_single_refuted","C106_like","C106_like_missing_refuted","C106_standard_partial","C106_standard_refuted"],"Proved except for the refuted clauses of the statement: get_coord tries get_coords(standard_name=name_or_coord) when nothing is found, which drops the other criteria, drops all of them when there is no name, and compares a text with a Coord when a coordinate was given. Values of attributes are texts."),
("C107","partial",["C107_data","C107_other_names","C107_itself_partial","C107_itself_refuted","C107_symmetric_refuted","C107_transitive_refuted","C107_lengths","C107_single","C107_lengths_refuted","C107_coordinates","C107_kinds","C107_unnamed_refuted","C107_other","C107_other_refuted","C107_differs","C107_member","C107_hash_refuted"],"Proved except for the refuted clauses. The data are loaded and of one dimension, numbers exact and finite; numpy.allclose is modelled with its default tolerances, and its answer when everything is masked is left open."),
("C108","partial",["C108_describes","C108_again","C108_short","C108_no_range_refuted","C108_empty_refuted","C108_stale_refuted"],"Proved for loaded data whose coordinates have as many values as the data and none missing (C60, C64 are about the others). Refuted: that a description tells the present range of the data (after put_values it tells the old one, and the next description differs); that data with no range recorded or with an empty coordinate can be described. Texts of units and ends of ranges are parameters; the text of a range of dates with a masked end is not modelled exactly."),
("C50", "partial", ["C50_dividing_step_covers_partial", "C50_default_step_covers", "C50_remainder_uncovered_refuted", "C50_zero_minimum_refuted"],
 "Holds when the step divides the range (and for the default step); false otherwise: the top of the range is in no bin, and a requested limit of 0 is ignored. Log-spaced edges not modelled."),
("C53", "proved", ["C53_distances_convert", "C53_accepted_text_has_one_number"], "Numbers are exact decimals."),
("C54", "partial", ["C54_comparison_decides", "C54_nan_free_partial", "C54_symmetry_refuted"],
 "False of the code: a NaN in the first array matches anything. Exact characterisation proved."),
("C55", "proved", ["C55_apply_mask_is_union", "C55_no_mask_no_change", "C55_two_arrays_share_the_union", "C55_missing_values_masked", "C55_concatenate_keeps_masks", "C55_expand_duplicates"], ""),
("C56", "partial", ["C56_method_and_args", "C56_bare_method", "C56_multi_split_keeps_text", "C56_blanks_removed_refuted"],
 "'Blank pieces are dropped' is false of the code (removal while iterating); the rest is proved."),
]
