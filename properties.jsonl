{"id": "C01", "title": "OrderedSet is an insertion-ordered set", "statement": "For every sequence of add, discard and pop calls, an OrderedSet holds exactly the elements added and not since removed, each once; iterating gives them in order of first (re-)insertion, reversed() gives the reverse, len() their number, pop() removes and returns the newest (or, with last=False, the oldest) and raises KeyError exactly when empty.", "quantifier": "all finite histories of add/discard/pop over any hashable keys", "why_tests_cant": "The doubly linked list is rewired on every call; only an induction over histories shows that forward and backward links never diverge.", "anchors": ["cis/utils.py: OrderedSet"]}
{"id": "C02", "title": "index_iterator visits every cell once in row-major order", "statement": "index_iterator(shape) yields every index tuple of an array of that shape exactly once, in row-major (last index fastest) order, and nothing else; for a shape with an empty dimension it yields nothing.", "quantifier": "all shapes of any rank and any dimension sizes", "why_tests_cant": "Collocation loops rely on it for every rank and size; examples cover a few shapes.", "anchors": ["cis/utils.py: index_iterator"]}
{"id": "C03", "title": "Input file lists expand to existing files without duplicates", "statement": "expand_filelist returns each matching existing file exactly once, in the order of the elements given (sorted inside a directory or wildcard), never returns a path that is not a file, and raises ValueError if and only if some non-wildcard element names neither a file nor a directory.", "quantifier": "all element lists and all file systems", "why_tests_cant": "The space of lists and directory contents is unbounded; duplicates across elements are easily missed.", "anchors": ["cis/data_io/data_reader.py: expand_filelist"]}
{"id": "C04", "title": "Key=value option lists: the last value of a key wins", "statement": "Parsing a list of key=value strings gives a dictionary whose keys are exactly the keys mentioned, each mapped to the value of its last mention, a key without '=' to True.", "quantifier": "all lists of option strings", "why_tests_cant": "A statement over all orders and repetitions.", "anchors": ["cis/utils.py: parse_key_val_list, parse_key_val_string"]}
{"id": "C05", "title": "Ungridded longitudes are wrapped into the requested 360 degree range", "statement": "After set_longitude_range(s) on ungridded data every longitude lies in [s, s+360), differs from its old value by a multiple of 360, values already in range are unchanged, and applying it twice is the same as once; the point-by-point view's variant does the same for values within one turn.", "quantifier": "all longitude values and range starts", "why_tests_cant": "Wrap-around at both ends for every value.", "anchors": ["cis/utils.py: fix_longitude_range", "cis/data_io/Coord.py: Coord.set_longitude_range", "cis/data_io/hyperpoint_view.py: UngriddedHyperPointView.set_longitude_range"]}
{"id": "C06", "title": "Rotating gridded longitudes keeps every value with its location", "statement": "GriddedData.set_longitude_range(s) leaves the longitudes strictly increasing and inside [s, s+360), each a multiple of 360 from its old value, and the data column stored against a longitude is the column stored against it before.", "quantifier": "all strictly increasing longitude axes spanning less than 360 degrees, all range starts, all data", "why_tests_cant": "Whether data and axis rotate by the same amount must hold for every split position.", "anchors": ["cis/data_io/gridded_data.py: GriddedData.set_longitude_range"]}
{"id": "C07", "title": "Splitting on separators ignores bracketed text and loses nothing", "statement": "split_outside_brackets cuts a string exactly at the separators not enclosed in brackets: pieces contain no unbracketed separator and, joined back with the separators, give the input (a trailing empty piece apart).", "quantifier": "all strings, separators and bracket pairs", "why_tests_cant": "Nested and unbalanced brackets of any depth.", "anchors": ["cis/parse.py: split_outside_brackets"]}
{"id": "C08", "title": "Datagroup options are validated", "statement": "In a datagroup argument variable:filename[:options], every option value accepted has passed that option's check, unknown options and missing compulsory parts are errors.", "quantifier": "all argument strings", "why_tests_cant": "The argument grammar is unbounded.", "anchors": ["cis/parse.py: parse_colon_and_comma_separated_arguments, get_datagroups"]}
{"id": "C09", "title": "Variable aliases are unique", "statement": "When parsing of eval or stats datagroups succeeds, no two variables of all the datagroups together share an alias, and each variable has exactly one alias.", "quantifier": "all lists of datagroups and alias specifications", "why_tests_cant": "Collisions across groups depend on the whole list.", "anchors": ["cis/parse.py: _set_aliases_for_datagroups"]}
{"id": "C10", "title": "Existing output is never overwritten without consent", "statement": "A command whose output file exists goes on only if --force-overwrite was given, or CIS_FORCE_OVERWRITE is set to something other than false, or the user's first answer among y, n and empty at the prompt is y; and the output file is never one of the input files.", "quantifier": "all command lines, environments and user answers", "why_tests_cant": "The prompt loop can be answered any number of times with anything.", "anchors": ["cis/parse.py: _file_already_exists_and_no_overwrite, _validate_output_file, _output_file_matches_an_input_file"]}
{"id": "C11", "title": "A partial date denotes exactly its calendar period", "statement": "For a partial date (year, optionally month, day, ...) with no gaps, min() and max() are the first and last whole second of the period it names, with correct month lengths in leap and common years; partial dates with gaps are rejected.", "quantifier": "all years, months, days, hours, minutes", "why_tests_cant": "All (year, month) pairs including century leap-year rules.", "anchors": ["cis/parse_datetime.py: _parse_partial_datetime", "cis/time_util.py: PartialDateTime, find_last_day_of_month"]}
{"id": "C12", "title": "ISO time deltas add up", "statement": "A period string such as P1Y2M3DT4H5M6S denotes 365 days per year, 30 per month and the stated days, hours, minutes, seconds; each unit may be given once in any order; unknown unit letters are errors.", "quantifier": "all token sequences", "why_tests_cant": "All subsets and orders of units with any counts.", "anchors": ["cis/parse_datetime.py: _parse_datetime_delta, parse_datetimestr_delta_to_float_days"]}
{"id": "C13", "title": "Seconds-since conversion denotes the same instant", "statement": "Converting 'seconds since reference' to standard time yields the same physical instant for every reference date-time and every number of seconds.", "quantifier": "all reference instants and second counts", "why_tests_cant": "All reference times of day.", "anchors": ["cis/time_util.py: convert_sec_since_to_std_time"]}
{"id": "C14", "title": "Changing the year keeps the rest of the date", "statement": "set_year changes only the year; it gives no date exactly for 29 February and a common target year.", "quantifier": "all dates and target years", "why_tests_cant": "All leap-year combinations.", "anchors": ["cis/time_util.py: set_year, change_year_of_ungridded_data"]}
{"id": "C15", "title": "Binned collocation puts every point in the cell containing it, exactly once", "statement": "The bin index over a grid with contiguous cell bounds delivers, over all cells together, each unmasked data point lying within the grid exactly once, in the cell whose half-open bounds contain it in every dimension, and no other points; cells are delivered at most once.", "quantifier": "all grids of any rank, increasing or decreasing, and all point lists", "why_tests_cant": "Flattened cell numbers, sorting and slicing interact; one off-by-one affects only special positions.", "anchors": ["cis/collocation/data_index.py: GridCellBinIndexInSlices"]}
{"id": "C16", "title": "Both bin indexes agree", "statement": "For contiguous bounds the per-cell index and the sliced index assign every point to the same cell.", "quantifier": "all contiguous bounds and points", "why_tests_cant": "Universally quantified equivalence.", "anchors": ["cis/collocation/data_index.py: GridCellBinIndex, GridCellBinIndexInSlices"]}
{"id": "C17", "title": "kd-tree radius queries return exactly the points within the radius", "statement": "query_ball_point (and query_ball_tree, query_pairs, count_neighbors) on a KDTree return exactly the indices (pairs, counts) at Minkowski distance at most r, without duplicates, whatever the leaf size.", "quantifier": "all point sets, dimensions, leaf sizes, radii", "why_tests_cant": "Pruning bounds are only exercised by particular geometries.", "anchors": ["cis/collocation/kdtree.py: KDTree"]}
{"id": "C18", "title": "The kd-tree holds every point in exactly one leaf", "statement": "Building a KDTree terminates and stores each point index in exactly one leaf, every leaf within its parent's half-space and of at most leafsize points unless all its points coincide.", "quantifier": "all point sets and leaf sizes >= 1", "why_tests_cant": "Degenerate repeats and ties need the sliding midpoint rule in every case.", "anchors": ["cis/collocation/kdtree.py: KDTree.__init__, _build"]}
{"id": "C19", "title": "kd-tree nearest-neighbour queries are exact", "statement": "KDTree.query(x, k) returns the k smallest distances in ascending order with indices attaining them.", "quantifier": "all point sets, query points and k", "why_tests_cant": "Best-first search with pruning over all trees.", "anchors": ["cis/collocation/kdtree.py: KDTree._query, query"]}
{"id": "C20", "title": "Horizontal-separation box collocation selects exactly the points within h_sep", "statement": "With the kd-tree separation constraint the points delivered for a sample point are exactly the data points whose great-circle distance from it is at most h_sep, anywhere on the globe.", "quantifier": "all sample and data positions and separations", "why_tests_cant": "Poles and the date line are corner geometries of the pruning bounds.", "anchors": ["cis/collocation/kdtree.py: HaversineDistanceKDTree.query_ball_tree, RectangleHaversine", "cis/collocation/col_implementations.py: SepConstraintKdtree"]}
{"id": "C21", "title": "Great-circle distance is a distance", "statement": "haversine(p, q) is symmetric, non-negative, at most pi*R, zero for equal points, invariant under adding 360 degrees to a longitude, equals R times the central angle between the points and obeys the triangle inequality.", "quantifier": "all pairs and triples of positions", "why_tests_cant": "Real-valued identities.", "anchors": ["cis/utils.py: haversine", "cis/data_io/hyperpoint.py: HyperPoint.haversine_dist", "cis/collocation/kdtree.py: haversine"]}
{"id": "C22", "title": "Nearest-horizontal collocation returns the horizontally nearest point", "statement": "The nn_horizontal kernel (with or without the kd-tree) selects a point at minimal great-circle distance from the sample.", "quantifier": "all sample and data positions", "why_tests_cant": "Date line and high latitudes.", "anchors": ["cis/collocation/kdtree.py: HaversineDistanceKDTree._query", "cis/collocation/col_implementations.py: nn_horizontal, nn_horizontal_only"]}
{"id": "C23", "title": "Separation constraints select exactly the points meeting every given limit", "statement": "For a sample point, the separation constraints deliver the data points that satisfy each of the limits the user gave (time, altitude, pressure ratio, horizontal) and no limit not given; both implementations select the same points up to the treatment of exact equality.", "quantifier": "all limits, samples, and data points", "why_tests_cant": "Every combination of limits present or absent.", "anchors": ["cis/collocation/col_implementations.py: SepConstraint, SepConstraintKdtree"]}
{"id": "C24", "title": "Kernels depend only on the selected values", "statement": "mean, sum, min, max, stddev and moments give the same result for every order in which the selected points are delivered, min <= mean <= max, the number of points is their count, and every kernel yields missing data for an empty selection.", "quantifier": "all value lists and permutations", "why_tests_cant": "Permutation invariance over all lists.", "anchors": ["cis/collocation/col_implementations.py: kernels", "cis/collocation/col_framework.py"]}
{"id": "C25", "title": "Collocated output lines up with the sample", "statement": "Collocation onto ungridded sample points returns one value per sample point, at the sample's own coordinates; the i-th value is the kernel of the points the constraint selects for the i-th sample point, missing if the selection is empty or the kernel fails; missing samples are skipped when asked for; masked data never contribute.", "quantifier": "all samples, data, constraints and kernels", "why_tests_cant": "Alignment under all mask patterns.", "anchors": ["cis/collocation/col_implementations.py: GeneralUngriddedCollocator.collocate"]}
{"id": "C26", "title": "Nearest-neighbour kernels pick a minimal point", "statement": "nn_time, nn_altitude and nn_pressure return the value of a point whose separation from the sample is minimal among the selected points (the first such in delivery order).", "quantifier": "all point lists", "why_tests_cant": "Ties and order.", "anchors": ["cis/collocation/col_implementations.py: nn_time, nn_altitude, nn_pressure"]}
{"id": "C27", "title": "Linear interpolation is exact at grid nodes and never overshoots", "statement": "Inside the grid, linear collocation from gridded data reproduces the data at grid points, reproduces every multi-affine field exactly, and lies between the smallest and largest value of the surrounding cell; outside it gives the fill value unless extrapolating.", "quantifier": "all grids of any rank, data and sample positions", "why_tests_cant": "Weights over 2^n corners for all n.", "anchors": ["cis/collocation/gridded_interpolation.py: _RegularGridInterpolator"]}
{"id": "C28", "title": "Nearest-node interpolation picks a nearest node per dimension", "statement": "Nearest-neighbour collocation from gridded data returns the value at a node whose coordinate distance from the sample is minimal in every dimension.", "quantifier": "all grids and positions inside them", "why_tests_cant": "All positions.", "anchors": ["cis/collocation/gridded_interpolation.py: _find_indices, _evaluate_nearest"]}
{"id": "C29", "title": "Interpolation does not depend on the direction of a coordinate axis", "statement": "Storing the same field with an axis in decreasing order gives the same interpolated values.", "quantifier": "all fields, axes and positions", "why_tests_cant": "Every position of the decreasing axis among the dimensions.", "anchors": ["cis/collocation/gridded_interpolation.py: GriddedUngriddedInterpolator.__init__"]}
{"id": "C30", "title": "Ungridded subsetting keeps exactly the points inside the limits", "statement": "Subsetting ungridded data keeps, in order, exactly the points all of whose constrained coordinates lie within the inclusive limits, with data and all coordinates kept in step, and gives no result exactly when no point qualifies.", "quantifier": "all limits and data", "why_tests_cant": "All combinations of dimensions and boundary values.", "anchors": ["cis/subsetting/subset.py: UngriddedSubsetConstraint"]}
{"id": "C31", "title": "Longitude limits select by position on the globe", "statement": "A longitude range [a,b] with b-a <= 360 selects exactly the points whose longitude is congruent mod 360 to a value in the range, whichever of the -180..180 or 0..360 conventions data and limits use.", "quantifier": "all longitudes and limits", "why_tests_cant": "All wrap-around cases.", "anchors": ["cis/subsetting/subset.py: UngriddedSubsetConstraint._fix_non_circular_limits, subset"]}
{"id": "C32", "title": "A shape constraint applies to every variable of a list", "statement": "Subsetting several variables together applies the same constraint to each.", "quantifier": "all lists of variables", "why_tests_cant": "Depends on list length and mutation of shared state.", "anchors": ["cis/subsetting/subset.py: UngriddedSubsetConstraint.constrain"]}
{"id": "C33", "title": "Gridded shape subsetting masks what is outside", "statement": "After subsetting gridded data by a shape a cell is missing exactly if it was missing before or lies outside the shape.", "quantifier": "all grids, masks and shapes", "why_tests_cant": "All mask combinations.", "anchors": ["cis/subsetting/subset.py: GriddedSubsetConstraint.constrain"]}
{"id": "C34", "title": "Aggregation cells tile the requested range", "statement": "The grid built for x=[start,stop,delta] has cells of width delta whose contiguous bounds start at start, cover [start, stop) and reach less than one delta beyond stop.", "quantifier": "all starts, stops and positive deltas", "why_tests_cant": "All ratios of range to delta.", "anchors": ["cis/aggregation/ungridded_aggregator.py: aggregation_grid_array, UngriddedAggregator"]}
{"id": "C35", "title": "Ungridded aggregation accounts for every point in range once", "statement": "Summed over all output cells the point counts equal the number of unmasked points within the grid, and each cell's value is the kernel of the values of the points inside it.", "quantifier": "all data and grids", "why_tests_cant": "Conservation over all data sets.", "anchors": ["cis/aggregation/ungridded_aggregator.py", "cis/collocation/data_index.py"]}
{"id": "C36", "title": "Collapsing renumbers the remaining dimensions in order", "statement": "After collapsing some dimensions of a gridded variable each remaining dimension keeps its size and coordinates, and dimensions keep their relative order.", "quantifier": "all sets of collapsed dimensions", "why_tests_cant": "All subsets of dimensions.", "anchors": ["cis/aggregation/gridded_collapsor.py: _calc_new_dims"]}
{"id": "C37", "title": "Statistics use exactly the pairs valid in both data sets", "statement": "All statistics of a comparison are computed over the same points: those missing in neither data set, whose number is the reported count.", "quantifier": "all pairs of data sets", "why_tests_cant": "All mask combinations.", "anchors": ["cis/stats.py: StatsAnalyzer"]}
{"id": "C38", "title": "Points with missing coordinates are removed from data and coordinates in step", "statement": "After loading ungridded data no coordinate value is missing, all coordinates and data have the same length, and the i-th remaining value still belongs to the i-th remaining coordinates, in the original order; a second pass changes nothing.", "quantifier": "all mask patterns, numbers of coordinates", "why_tests_cant": "All mask patterns.", "anchors": ["cis/data_io/ungridded_data.py: UngriddedData._post_process, UngriddedCoordinates._post_process"]}
{"id": "C39", "title": "A copy shares nothing with its original", "statement": "Changing the values of a copy or slice of ungridded data or coordinates never changes the original and vice versa.", "quantifier": "all sequences of later in-place edits", "why_tests_cant": "Aliasing shows only in histories of mutations.", "anchors": ["cis/data_io/ungridded_data.py: UngriddedData.copy, __getitem__", "cis/data_io/Coord.py: Coord.copy, __getitem__"]}
{"id": "C40", "title": "Point views return each point with its own coordinates", "statement": "get_coordinates_points/get_all_points/hyper_point give for index i a HyperPoint carrying the i-th value of every standard coordinate in its own field, and non-masked iteration yields exactly the non-masked points with their flat indices in order.", "quantifier": "all data sets and indices", "why_tests_cant": "All coordinate combinations.", "anchors": ["cis/data_io/hyperpoint_view.py", "cis/data_io/ungridded_data.py: hyper_point"]}
{"id": "C41", "title": "Values read are the scaled valid raw values", "statement": "Reading a variable masks exactly the values that are missing, or outside valid_min/valid_max/valid_range, judged before scaling, and every unmasked value is raw*scale_factor+add_offset (the product's own formula for MODIS, CALIOP and CloudSat).", "quantifier": "all raw arrays and attributes", "why_tests_cant": "All attribute combinations.", "anchors": ["cis/data_io/netcdf.py: get_data, apply_offset_and_scaling", "cis/data_io/hdf_sd.py: get_data", "cis/data_io/products/MODIS.py", "cis/data_io/products/caliop.py", "cis/data_io/products/cloudsat.py"]}
{"id": "C42", "title": "The product chosen for a file has the highest priority among those that accept it", "statement": "When no product is named, a file is read by a product of maximal priority among those whose signature matches the base name and which report no error; if none, an error is raised; a named product is used whatever the file.", "quantifier": "all product sets, priorities and files", "why_tests_cant": "All plugin sets.", "anchors": ["cis/data_io/products/AProduct.py: __get_class"]}
{"id": "C43", "title": "All plugin classes are found and no abstract class is offered", "statement": "find_plugin_classes offers every non-abstract class of every plugin file and of the built-in module and no class whose name marks it abstract.", "quantifier": "all plugin directories and class sets", "why_tests_cant": "All class lists.", "anchors": ["cis/plugin.py: find_plugins, find_plugin_classes"]}
{"id": "C44", "title": "Saving writes every variable", "statement": "Saving ungridded data writes each coordinate and the data variable under distinct names with their own values.", "quantifier": "all names and values", "why_tests_cant": "All name clashes.", "anchors": ["cis/data_io/write_netcdf.py: __create_variable, write"]}
{"id": "C45", "title": "Each element of a multi-slice MODIS L2 variable holds its own slice", "statement": "Reading a MODIS L2 variable with extra leading dimensions gives a list whose k-th element holds the k-th slice.", "quantifier": "all numbers of slices and access orders", "why_tests_cant": "Lazy loading through shared, later mutated readers: depends on the schedule of accesses.", "anchors": ["cis/data_io/products/MODIS.py: MODIS_L2.create_data_object", "cis/data_io/common_data.py: CommonDataList.append", "cis/data_io/ungridded_data.py: LazyData.data"]}
{"id": "C46", "title": "Data lists hold only compatible data", "statement": "A CommonDataList only ever contains items of its own kind with the same number of coordinates of the same shapes as its first element.", "quantifier": "all sequences of append/extend", "why_tests_cant": "Histories.", "anchors": ["cis/data_io/common_data.py: CommonDataList.append, extend"]}
{"id": "C47", "title": "A coordinate list built by append has unique standard names", "statement": "A CoordList built only by append never holds two coordinates with the same non-empty standard name, so that lookup by standard name finds at most one; a rejected append changes nothing.", "quantifier": "all append histories", "why_tests_cant": "Histories.", "anchors": ["cis/data_io/Coord.py: CoordList.append, get_coord, find_standard_coords"]}
{"id": "C48", "title": "Evaluate refuses unsafe or shape-changing expressions", "statement": "The evaluate command rejects every expression containing a double underscore, and accepts a result only if it has the shape of the input.", "quantifier": "all expressions and results", "why_tests_cant": "All strings.", "anchors": ["cis/evaluate.py: Calculator.evaluate"]}
{"id": "C49", "title": "Arithmetic on data objects does not change its operands", "statement": "Adding, subtracting, multiplying or dividing data objects leaves both operands unchanged; the in-place forms change only the left one; units are checked for addition and subtraction.", "quantifier": "all operands", "why_tests_cant": "Mutation and aliasing.", "anchors": ["cis/maths.py"]}
{"id": "C50", "title": "Histogram bins cover the data range", "statement": "The bin edges are increasing, equally spaced by the step, start at the requested minimum and every data value between the minimum and maximum falls in a bin.", "quantifier": "all data, limits and steps", "why_tests_cant": "All ratios of range to step.", "anchors": ["cis/utils.py: calculate_histogram_bin_edges"]}
{"id": "C51", "title": "Aeronet column names are unique", "statement": "The variable names derived from an Aeronet header are pairwise distinct and in column order.", "quantifier": "all header lines", "why_tests_cant": "All repetitions of names.", "anchors": ["cis/data_io/aeronet.py: get_aeronet_file_variables"]}
{"id": "C52", "title": "Every collocated datagroup reaches the output", "statement": "Collocating several datagroups in one command writes the results of all of them.", "quantifier": "all numbers of datagroups", "why_tests_cant": "Depends on the number of groups.", "anchors": ["cis/cis_main.py: col_cmd"]}
{"id": "C53", "title": "Distances with units convert exactly", "statement": "A distance with unit m or km is converted to the same length in km or metres; other units are rejected; without unit the number is taken as is.", "quantifier": "all numbers and unit strings", "why_tests_cant": "All strings.", "anchors": ["cis/utils.py: split_into_float_and_units, parse_distance_with_units_to_float_km, parse_distance_with_units_to_float_m"]}
{"id": "C54", "title": "Array comparison including NaN is an equivalence", "statement": "array_equal_including_nan is true exactly for arrays of equal shape whose elements are equal or both NaN; it is reflexive and symmetric.", "quantifier": "all arrays", "why_tests_cant": "All NaN patterns.", "anchors": ["cis/utils.py: array_equal_including_nan"]}
{"id": "C55", "title": "Combining masks only ever adds missing points", "statement": "apply_mask_to_numpy_array and apply_intersection_mask_to_two_arrays mask exactly the union of the given masks and change no value; masking for missing values masks exactly the elements equal to one of them.", "quantifier": "all arrays and masks", "why_tests_cant": "All mask patterns.", "anchors": ["cis/utils.py: apply_mask_to_numpy_array, apply_intersection_mask_to_two_arrays, create_masked_array_for_missing_values"]}
{"id": "C56", "title": "method[arguments] specifications are parsed completely", "statement": "A method specification name[arg,...,arg] yields the name and the key=value dictionary of its arguments; a bare name yields no arguments; blank pieces are dropped and no text is lost.", "quantifier": "all method names and argument lists", "why_tests_cant": "Unbounded grammar; blanks can occur anywhere.", "anchors": ["cis/parse.py: extract_method_and_args, multi_split"]}
{"id": "C57", "title": "Vertical interpolation on hybrid coordinates uses the column above the sample", "statement": "When gridded data have a hybrid vertical coordinate (altitude or air pressure varying over the grid), the value collocated onto a sample is the multilinear interpolation in horizontal position and in the vertical coordinate interpolated to the sample's horizontal position; samples above or below the column, or outside the grid, get a missing value.", "quantifier": "all grids, hybrid coordinates (over any of the dimensions, increasing or decreasing with the level) and samples", "why_tests_cant": "The column is different for every sample position, and the dimensions of the coordinate may be any subset.", "anchors": ["cis/collocation/gridded_interpolation.py: GriddedUngriddedInterpolator.__init__, _RegularGridInterpolator"]}
{"id": "C58", "title": "What is saved is read back", "statement": "Saving ungridded data to a CIS netCDF file and reading the file back gives the same coordinates, the same values and the same missing elements.", "quantifier": "all names, values, masks, types and attributes", "why_tests_cant": "All combinations of names, masks and attributes.", "anchors": ["cis/data_io/write_netcdf.py: __create_variable, __add_metadata", "cis/data_io/netcdf.py: get_data", "cis/data_io/products/products.py: cis.create_coords"]}
{"id": "C59", "title": "A copy or slice looks like what was copied or selected", "statement": "A copy of ungridded data has the same values, coordinates, metadata and attributes as its original, a slice has the values and coordinates at the selected positions, and neither changes what is seen of the original.", "quantifier": "all data, coordinates, metadata and index keys", "why_tests_cant": "A test compares a few attributes of one copy; what is dropped or refused shows for other data.", "anchors": ["cis/data_io/ungridded_data.py: UngriddedData.copy, __getitem__, _post_process, coords", "cis/data_io/Coord.py: Coord.copy, Coord.__getitem__, CoordList.copy, CoordList.append"]}
{"id": "C60", "title": "data_flattened is data, flattened", "statement": "Whatever calls were made on ungridded data before, data_flattened of the data and of each of its coordinates holds the elements of data, in order.", "quantifier": "all sequences of calls on the data and its coordinates", "why_tests_cant": "The flattened array is kept, so it goes stale only after particular histories.", "anchors": ["cis/data_io/ungridded_data.py: LazyData.data, LazyData.data_flattened, UngriddedData._post_process, UngriddedData.coords", "cis/data_io/Coord.py: Coord.set_longitude_range"]}
{"id": "C61", "title": "A command changes its output file only, and only to its whole result", "statement": "A subset, aggregate, collapse, eval, stats or collocate command changes no file but its output, never an input file (not even through links); when it succeeds the output holds the whole result; when it fails before saving, an existing output is left as it was.", "quantifier": "all command lines, data, failures and file systems with links", "why_tests_cant": "Failures can happen at any step, and files may have several names.", "anchors": ["cis/cis_main.py: col_cmd, subset_cmd, aggregate_cmd, collapse_cmd, evaluate_cmd, stats_cmd", "cis/parse.py: _validate_output_file"]}
{"id": "C62", "title": "Requested variables are read in order and under the aliases asked for", "statement": "Reading a list of variables gives one data object per variable, wildcards standing for all variables of the files that match, in order, each under the alias asked for it; too few or too many aliases are refused; datagroups are read one after the other.", "quantifier": "all lists of variables, patterns, aliases, datagroups and files", "why_tests_cant": "Patterns can stand for any number of variables, so positions shift.", "anchors": ["cis/data_io/data_reader.py: DataReader", "cis/parse.py: _set_aliases_for_datagroups"]}
{"id": "C63", "title": "Evaluation combines values at the same coordinates", "statement": "The result of evaluating an expression lies at the coordinates of every variable that went into it.", "quantifier": "all lists of data and expressions", "why_tests_cant": "Only shapes are compared, so it depends on the coordinate values.", "anchors": ["cis/evaluate.py: Calculator._post_process"]}
{"id": "C64", "title": "Missing sample points are treated as asked", "statement": "Collocation treats missing sample points as the option missing_data_for_missing_sample says (true or false in any case), by default skipping them exactly when a sample variable was given; any other value is refused.", "quantifier": "all option texts and command lines", "why_tests_cant": "All strings.", "anchors": ["cis/cis_main.py: col_cmd", "cis/parse.py: check_boolean"]}
{"id": "C65", "title": "The limits given to the subset command mean what is written, and nothing written is ignored", "statement": "The limits text of the subset command is cut at the commas outside brackets; each piece must read name=[start,end] or name=[start] (or shape=text), with numbers for x, y and z, dates for t, either for other names, 'None' for no limit, and for x an increasing range of at most 360 degrees. Any text of this form is accepted with exactly these limits, all of them; any other text is rejected with an error message.", "quantifier": "all texts, all number and date readers", "why_tests_cant": "The texts are unbounded and the regular expression backtracks; tests use a handful of texts", "anchors": ["cis/parse.py: get_subset_limits, parse_float", "cis/parse_datetime.py: parse_as_number_or_datetime, parse_datetime, parse_partial_datetime", "cis/parsing/utils (split_outside_brackets)"]}
{"id": "C66", "title": "The grid given to the aggregate and collapse commands means what is written, and nothing written is ignored", "statement": "The grid text is cut at the commas outside brackets; each piece is a dimension name alone or name=[start,end,step], with numbers or dates for start and end and a number or period for the step, and for x an increasing range of at most 360 degrees. Any text of this form is accepted with exactly these grids, and any other text is rejected.", "quantifier": "all texts, all number and date readers", "why_tests_cant": "The texts are unbounded and the optional parts of the regular expression can all be skipped; tests use a handful of texts", "anchors": ["cis/parse.py: get_aggregate_grid", "cis/parse_datetime.py: parse_as_number_or_datetime, parse_as_number_or_datetime_delta"]}
{"id": "C67", "title": "The attributes given to the eval command are the pairs written", "statement": "The attributes text is accepted exactly if every piece between commas is key=value with both parts non-empty and without another equals sign; the result maps each key to the last value written for it.", "quantifier": "all texts", "why_tests_cant": "The texts are unbounded", "anchors": ["cis/parse.py: _create_attributes_dictionary"]}
{"id": "C68", "title": "Ungridded data collocated onto a grid", "statement": "When ungridded data are collocated onto a gridded sample (sampled_from with 'bin'), the result has the sample's dimensions for which the data have coordinates, in the sample's order, with the sample's cells (its own bounds, or halfway between its points); each cell holds the kernel of the values of exactly the data points in it, and is missing if there are none or, on request, where the sample is missing. Every variable of a list is treated as if alone; points without a position are left out.", "quantifier": "all samples (directions, with and without bounds, order of dimensions), all ungridded data, kernels, and longitude conventions", "why_tests_cant": "The assignment goes through a coordinate map, a sort of cell numbers and a transposition of the result; mistakes show only for some orders of dimensions, directions, or points on cell edges.", "anchors": ["cis/data_io/gridded_data.py: sampled_from", "cis/collocation/col.py: collocate", "cis/collocation/col_implementations.py: GeneralGriddedCollocator, BinnedCubeCellOnlyConstraint, make_coord_map", "cis/collocation/data_index.py: GridCellBinIndexInSlices"]}
{"id": "C69", "title": "Gridded data sampled at ungridded positions", "statement": "When gridded variables are collocated onto ungridded samples (sampled_from with '', 'lin' or 'nn'), every sample gets, for every variable, what linear interpolation (or the nearest grid point) gives at its position on that variable's grid, whatever longitude convention either side uses; missing outside the grid and, on request, where the sample is missing. The sample keeps its values and coordinates up to whole turns of longitude. A grid with a dimension the sample does not define, and an unknown method, are refused.", "quantifier": "all samples, all lists of gridded variables, both methods, both settings of missing_data_for_missing_sample, all longitude conventions", "why_tests_cant": "The result depends on the turn each longitude is given in, on the rotation of the grid's columns, on the cyclic continuation and on an interpolator kept from the first variable; tests with one variable on a grid starting at 0 see none of it.", "anchors": ["cis/data_io/ungridded_data.py: sampled_from, set_longitude_range", "cis/collocation/col_implementations.py: GriddedUngriddedCollocator", "cis/collocation/gridded_interpolation.py: GriddedUngriddedInterpolator", "cis/data_io/gridded_data.py: set_longitude_range"]}
{"id": "C70", "title": "Gridded data on the grid of a sample", "statement": "When gridded variables are collocated onto a gridded sample (sampled_from with '', 'lin' or 'nn'), each result has the coordinates of the sample that are dimensions of the data, in the sample's order and with the sample's points, then the other dimensions of the data, unchanged; each value is the interpolation of that variable at the sample's coordinates of the cell; with missing_data_for_missing_sample exactly the cells where the sample is missing become missing too (repeated along the other dimensions), if all dimensions of the sample are in the data. The sample is not changed, the data only in the turn of their longitudes. A kernel or another method is refused.", "quantifier": "all samples, all lists of gridded variables, all orders of dimensions, masks, and interpolation schemes", "why_tests_cant": "The order of the dimensions goes through a sort, a dictionary of names and a transposition, the mask through a repeat and a reshape: errors show only for some orders and numbers of dimensions.", "anchors": ["cis/data_io/gridded_data.py: sampled_from, GriddedDataList", "cis/collocation/col_implementations.py: GriddedCollocator", "cis/utils.py: apply_mask_to_numpy_array"]}
{"id": "C71", "title": "Observations of several NCAR-RAF/GASSP files keep their own file's position and time", "statement": "Reading a variable from a list of NCAR-RAF or GASSP NetCDF files gives the observations of all files, one file after the other; each observation carries the time (in the units and with the time stamp of its own file), the latitude, longitude, height and pressure of its own file - read from the variables or the station attributes that the (first) file's global attributes name, whatever the capitals - and its own value. Points without a complete position are left out, nothing else. Where the positions are is taken from the attributes in a fixed order of preference and never guessed.", "quantifier": "all lists of files, attributes, variables, dimensions and values", "why_tests_cant": "needs the alignment of fixed station values, repeated per file, with concatenated variables for every number and size of files, and every combination of attributes", "anchors": ["cis/data_io/products/NCAR_NetCDF_RAF.py: NCAR_NetCDF_RAF_variable_name_selector, NCAR_NetCDF_RAF.create_data_object, create_coords, get_variable_names, get_file_type_error", "cis/data_io/Coord.py: Coord.from_many_coordinates", "cis/utils.py: expand_1d_to_2d_array, concatenate, dimensions_compatible"]}
{"id": "C72", "title": "CloudSat profiles and cells", "statement": "Reading a variable of CloudSat files gives one point for every profile (variables given per profile) or for every cell (variables given per profile and height), file after file. Each value stands with the latitude, longitude and time (start of the granule plus time of the profile) of its own profile, and with the height of its own cell, all with factor, offset, missing marker and valid range of their own variable applied; values that cannot be placed (the variable is not in every file, is per profile in one and per cell in another, or a file has no heights) are refused; the names offered are those of the variables with a value for every profile or cell.", "quantifier": "all lists of files, all numbers of profiles and levels, all variables, markers, ranges, factors and offsets", "why_tests_cant": "tests read one or two example files; the order of points over several files and the pairing of values with coordinates must hold for every list of files and every shape", "anchors": ["cis/data_io/products/cloudsat.py: CloudSat", "cis/data_io/hdf.py: read, read_data, read_metadata", "cis/data_io/hdf_vd.py: get_data", "cis/data_io/hdf_sd.py: read", "cis/utils.py: expand_1d_to_2d_array"]}
{"id": "C73", "title": "CALIOP profiles, columns and cells", "statement": "Reading a variable of CALIOP files (level 1, level 2, level 2 without pressure) gives one point for every cell, or for every profile if the variable is one of a column, file after file. Each value (the first of a cell's, for level 2 variables that have several) stands with the latitude, longitude and time of its own profile (of its middle shot, for level 2), the altitude of its own level of its own file in metres and, when the files give pressure at these levels, the pressure of its own cell, each with fill value, valid range, scale factor and offset of its own variable applied. Values at other levels, and variables that one of the files has not got, are refused.", "quantifier": "all lists of files, all numbers of profiles, shots and levels, all variables, fill values, ranges, scale factors and offsets", "why_tests_cant": "tests read one example file; the pairing over several files, shots, levels and sub-cells must hold for every shape", "anchors": ["cis/data_io/products/caliop.py: abstract_Caliop, Caliop_L1, Caliop_L2, Caliop_L2_NO_PRESSURE", "cis/data_io/hdf.py: read, read_data", "cis/data_io/hdf_vd.py: get_data", "cis/utils.py: expand_1d_to_2d_array"]}
{"id": "C74", "title": "Observations of Aeronet files", "statement": "Reading a variable of Aeronet files (versions 2 and 3, SDA, Maritime Aerosol Network) gives one point for every line of data, file by file: the number under that variable on that line (missing if the text or the number is one that stands for no value), at the time its date and time say and at the longitude, latitude and altitude of that line or, for version 2, of the header of its own file (altitude 0 at sea). Points without a place are left out. A variable that a file has not got, or a text that is no number, is refused.", "quantifier": "every list of files of any versions with any number of lines and columns; whatever float() and the date parser make of texts", "why_tests_cant": "The place comes from the line or from the header depending on the version of each file of the list, names are matched to fields by position, and files of different versions may be read together.", "anchors": ["cis/data_io/aeronet.py: load_aeronet, load_multiple_aeronet", "cis/data_io/products/products.py: Aeronet"]}
{"id": "C75", "title": "Variables of gridded NetCDF files", "statement": "Reading a name from gridded NetCDF files gives the one variable with that variable name, standard name or long name, with its data, names, units and dimensions as they are in the files except that its time is in standard time; to every cell it adds the altitude (from the geopotential, or else the geopotential height) and the pressure the files have for the place of that cell. A name no variable has, or several have that cannot be put together, is refused. The names offered are those of the variables over space and time, and each of them can be read.", "quantifier": "every list of cubes of any shapes, dimensions, names and auxiliary coordinates; whatever iris makes of several cubes and whatever units mean", "why_tests_cant": "The variables for heights and pressures are attached by the position of their dimensions, which only shows for files where lengths agree and dimensions do not; the time is converted depending on which kind of coordinate it is.", "anchors": ["cis/data_io/products/gridded_NetCDF.py: NetCDF_Gridded", "cis/data_io/gridded_data.py: load_cube", "cis/time_util.py: convert_cube_time_coord_to_standard_time"]}
{"id": "C76", "title": "A Taylor diagram shows each data set's statistics against the first", "statement": "Plotting data sets as a Taylor diagram puts each at the radius that is its standard deviation over that of the first data set, at the angle whose cosine is its correlation with the first, so that its distance from the reference point is the centred root mean square difference; the bias is the difference of the means over the reference's standard deviation. Labels are marked exactly when a data set lies outside the limits of correlation, radius or bias the user gave; only the fold option moves points, to the nearest place inside, and then every point is inside the diagram; without limits the radial axis reaches exactly to the outermost point. (It fails for data with two dimensions, whose correlation is that of the data set's own first two rows; with the log option and missing values, whose stored values take part; and for data sets that miss different points.)", "quantifier": "every number of data sets and of values, all values, all missing points, all options", "why_tests_cant": "Cauchy-Schwarz and the law of cosines make the picture readable for all values; the tests compare a few images", "anchors": ["cis/plotting/taylor.py:Taylor.__init__", "cis/plotting/plot.py:taylor_plot"]}
{"id": "C77", "title": "A 2-D plot of gridded data draws every element at its own coordinates", "statement": "Plotting a two-dimensional gridded data set (heat map, contours) passes to matplotlib arrays in which every element of the data stands at the coordinates it has in the data set, whichever of the two dimensions is the x axis and whether one of the axes is a hybrid (two-dimensional) coordinate; only for longitudes around the globe one column is added, which repeats the first meridian 360 degrees on.", "quantifier": "every shape of the data, every values of the two axes (evenly spaced or not), either dimension as x, turned or not, points or bounds", "why_tests_cant": "tests plot a few files and compare images", "anchors": ["cis/plotting/genericplot.py:Generic2DPlot.unpack_data_items", "cis/plotting/genericplot.py:Generic2DPlot._cube_manipulation"]}
{"id": "C78", "title": "Every datagroup of a plot is one layer, drawn with its own options", "statement": "The plot command draws one layer for every variable of every datagroup, in the order given and on the same axes; each layer is drawn with the options its own datagroup gives (type, label, colour, ...) and with the options of the command where its datagroup gives none; comparative plots take exactly two data objects; a Taylor diagram takes markers and colours for all data objects or for none. A layer that cannot be drawn ends the command with its error.", "quantifier": "every number of datagroups, every dictionary of options of each and of the command, every plot type, every drawing function, new or given axes", "why_tests_cant": "tests plot one or two layers with a few options", "anchors": ["cis/cis_main.py:plot_cmd", "cis/plotting/formatted_plot.py:Plotter", "cis/plotting/plot.py:multilayer_plot", "cis/plotting/plot.py:taylor_plot"]}
{"id": "C79", "title": "A plot has the axes asked for and shows what was asked for", "statement": "Plotting a data object puts on each axis the coordinate named for it, or the coordinate that lies along the axis if none is named, and reports an axis that cannot be found; lines, scatter plots and histograms show the data, or the y axis named; the plot type is the one asked for or the usual one for the data; the x axis shows dates if it is a time, and the y axis goes downwards exactly if it shows pressures.", "quantifier": "every list of coordinates with any names, standard names, axes and shapes, gridded and ungridded, every shape of the data, every name asked for, every type, any number of layers", "why_tests_cant": "tests plot a few kinds of file", "anchors": ["cis/plotting/plot.py:_try_coord", "cis/plotting/plot.py:get_axis", "cis/plotting/plot.py:basic_plot", "cis/utils.py:squeeze", "cis/data_io/gridded_data.py:GriddedData._get_default_plot_type", "cis/data_io/ungridded_data.py:UngriddedData._get_default_plot_type", "cis/data_io/Coord.py:CoordList.get_coord"]}
{"id": "C80", "title": "ESA CCI Level 2 files are read with each observation's own position and time", "statement": "Reading a variable from several ESA CCI Level 2 files (clouds or aerosols) gives one row per observation, file by file, with the longitude, latitude and value its own file has for it, and as time the moment its file gives - a Julian date for clouds, seconds since 1970 for aerosols; observations without a complete position are left out. Positions are those called lon and lat if all files have them (and times), else longitude and latitude; a file without them or without the variable is an error. (It fails for a mixture of files with short and long names, each of which can be read alone, the units the time variable states are ignored, and files whose coordinates do not carry three different standard names are refused, although positions and times are there.)", "quantifier": "every number of files of any length and shape, all values and missing values, all variables, all moments", "why_tests_cant": "every combination of files and every moment; the tests read one file of each product", "anchors": ["cis/data_io/products/CCI.py:CCI_L2", "cis/data_io/products/CCI.py:Cloud_CCI_L2", "cis/data_io/products/CCI.py:Aerosol_CCI_L2", "cis/time_util.py:convert_julian_date_to_std_time", "cis/time_util.py:convert_sec_since_to_std_time"]}
{"id": "C81", "title": "The time a CCI Level 3 cube covers", "statement": "A cube read from an ESA CCI Level 3 cloud or aerosol file has the coverage its file states as the bounds of its time: YYYYMMDDThhmmssZ is that moment, and the impossible 44th day of a month that monthly files give is its last day. A cloud cube keeps its time point, an aerosol cube gets the moment half-way as its time. The two attributes become bounds and go; with several files the attributes that differ from file to file go too; all others stay. A file without the attributes is refused. The file of January 2011 whose stamps are wrong, and for which the code carries the right ones, is never read: the workaround uses a name before it has a value.", "quantifier": "all stamps (all moments, all months and years, month ends included), all attribute dictionaries, one or several files, cloud and aerosol products, all time units", "why_tests_cant": "Tests read a couple of real files; that every stamp (month ends of leap years, December) gives the right moment and that all other attributes are kept needs every stamp and every dictionary.", "anchors": ["cis/data_io/products/CCI.py: convert_time_string_to_number, Cloud_CCI_L3, Aerosol_CCI_L3"]}
{"id": "C82", "title": "Points read from text files", "statement": "Reading text files of points (latitude, longitude, altitude, time and value, separated by commas) gives one row for each line that says something, in order, file after file, each with the numbers and the moment of its own line; blank lines and comments are skipped, a blank or unreadable number is missing, and points without a complete position are left out. A file without observations, or with another number of fields in a line, is refused with an I/O error. A file of a single observation is a file too (it is not: it is never read, and no other files can be read together with it).", "quantifier": "all files (any lines, comments, blanks), any number of files, any number and time texts (readers of numbers and of times as parameters), any variable name", "why_tests_cant": "Tests read one or two files of a few lines, none of one line; that every line gets its own row with its own fields, and that one-line files always fail, needs every file.", "anchors": ["cis/data_io/products/products.py: ASCII_Hyperpoints", "cis/utils.py: concatenate"]}
{"id": "C83", "title": "Where the pixels of a MODIS L2 variable are", "statement": "Reading a MODIS Level 2 variable of the resolution of its coordinates from several files gives all pixels, in order, each with its own latitude, longitude, time (seconds since 1993) and value; pixels without a complete position are left out. For a variable at 1 km the positions are interpolated from the coarser grid: every middle of an old pixel keeps its position, and between them positions change linearly. (It cannot be used: in Python 3 the interpolation always fails; in Python 2 the times are not interpolated and do not fit; pixels at the edges would have no position, missing positions are taken for numbers, and across the date line longitudes go the wrong way round.)", "quantifier": "all files (any number, any shapes that fit, any masks), any dimension name, all fields and odd interpolation factors, Python 2 and 3", "why_tests_cant": "Tests mock the interpolation or read one coarse file; that every fine pixel is linear between its four neighbours needs all shapes and factors, and that no 1 km variable can ever be read needs all files.", "anchors": ["cis/data_io/products/MODIS.py: MODIS_L2._create_coord_list, MODIS_L2.create_data_object, __field_interpolate, __get_data_scale"]}
{"id": "C84", "title": "Pixels of EarthCARE files", "statement": "Reading a variable of an EarthCARE file gives one row per pixel, in order, with the pixel's own longitude, latitude and time (days since 1600 from seconds since 2000), the positions of a row serving all its columns, its height where there are heights of that shape (else the number of the column, where only rows have positions), and the value of the variable there; a variable with classes, components, bands or backgrounds gives the one asked for by a digit after a marker in the name, the first without. Pixels without a position are left out. A variable of one dimension without positions is numbered. A variable that is not there is refused. (Of several files only the first is read; an index from ten cannot be asked for; a band that is not the first dimension makes the variable unreadable; a missing variable of files without positions is returned as nothing.)", "quantifier": "all files (any shapes of one to three dimensions, any masks), any number of files, all names with and without marker, all indexes, any extra dimensions", "why_tests_cant": "Tests read two or three granules, one index each; which element belongs to which pixel must hold for all shapes, masks and indexes.", "anchors": ["cis/data_io/products/EarthCARE.py: EarthCARE_MSI_ATL._create_coord_list, create_data_object", "cis/data_io/netcdf.py: read_many_files_individually", "cis/utils.py: expand_1d_to_2d_array"]}
{"id": "C85", "title": "The time and grid of MODIS Level 3 files", "statement": "The cube read from a MODIS Level 3 file has the file's latitudes along its first dimension, its longitudes along the second, its values in their places, and as its time the moment half-way between the beginning and the end the file states in its metadata objects (RANGEBEGINNINGDATE etc.), which are the bounds; these are found wherever among the attributes the object stands and whatever other objects say. Several files give one cube each, in order, for iris to merge. A file without the objects is refused. Variables offered are those on the grid's two dimensions. (An attribute that is not a text makes the file unreadable when it comes first.)", "quantifier": "all attribute texts and orders, all object values without quotations or line ends, all grids going up or down, any number of files, any parser of dates and any merging", "why_tests_cant": "Tests read one or two real files; that the right quotation is found must hold for all surrounding texts.", "anchors": ["cis/data_io/products/MODIS.py: MODIS_L3._parse_datetime, _get_start_date, _get_end_date, _create_cube, get_variable_names", "cis/time_util.py: calculate_mid_time"]}
{"id": "C86", "title": "HadGEM files give the variable asked for, with heights in metres and standard times", "statement": "Reading a variable of HadGEM NetCDF files (CONVSH) gives the one cube of that variable name, standard name or long name, with its values unchanged; a coordinate Hybrid height is in metres and the time, also if it is only called t, is in standard time; of several files, the cubes to be merged are without history and without dimensions of length one, every cell keeping its value and coordinates; the heights and pressures of the files are added, the same from several files as from each. Variables of pp files get the name of the cube, or that name with underscores for blanks, as the name for output, from one file as from several, and can be asked for by it.", "quantifier": "all cubes in the files (shapes, attributes, coordinates, names), all variables asked for, one or several files, all ways iris may merge", "why_tests_cant": "files of every shape, with every combination of attributes and names", "anchors": ["cis/data_io/products/HadGEM.py: HadGEM_CONVSH, HadGEM_PP", "cis/data_io/products/gridded_NetCDF.py: _create_cube, _add_available_aux_coords", "cis/time_util.py: convert_cube_time_coord_to_standard_time"]}
{"id": "C87", "title": "The size, the limits, the ticks, the labels and the levels of a plot are those asked for", "statement": "A figure has the width and height asked for (one of them missing: sides as 4 to 3). An axis begins and ends at the limits asked for, with ticks at the lower limit and every step from it, whatever it shows: in particular an axis of pressures still has the greatest pressure at the bottom, and shows what is above the lower limit. A map begins at the longitude the limit or the data call for and its other borders stay where they are. A tick on an axis of times names the time of the data drawn there. A label is the name and the units in brackets, and no more. A contour plot has the levels, the number of levels or the step asked for.", "quantifier": "all widths, heights, limits, steps, extents, longitudes, times, names, units and options", "why_tests_cant": "Widths, limits, steps and times are numbers of any size, and a step that divides the range, a map centred on Greenwich or an axis upwards, as in a test, hides what goes wrong in the others.", "anchors": ["cis/plotting/formatted_plot.py: Plotter.set_width_and_height, apply_axis_limits, apply_map_axis_limits, get_x_wrap_start", "cis/plotting/plot.py: get_label, format_units, set_x_axis_as_time, drawcoastlines, drawbluemarble, basic_plot", "cis/plotting/genericplot.py: GenericPlot.__init__, Generic2DPlot.__init__", "cis/plotting/contourplot.py: ContourPlot", "cis/utils.py: find_longitude_wrap_start"]}
{"id": "C88", "title": "Comparative scatter plots, histograms, lines and scatter plots show every value where it belongs", "statement": "A scatter plot or a line has a point for each element of the data, at its own coordinate; a comparison of two variables has a point for each place, of the values both have there, whatever the order of their dimensions, and may have a coordinate on the x axis; a bar of a histogram counts the values in its part of the range, every value is counted once and missing ones are not; a rectangle of a two-dimensional histogram counts the places with both values there, empty ones are not coloured, and every place with both values is counted once; the line through equal values covers the axes and does not change them; styles that do not exist and arrays that do not fit are refused.", "quantifier": "all arrays of any shape and size, masks, numbers of bins, limits and styles", "why_tests_cant": "Whether every value is counted once depends on the values on the edges of the bins, on the masks and on the order of the dimensions: any sample of arrays leaves others, and two arrays of the same shape hide the confusion of dimensions.", "anchors": ["cis/plotting/comparativescatter.py: ComparativeScatter", "cis/plotting/histogram.py: Histogram", "cis/plotting/histogram2d.py: Histogram2D", "cis/plotting/lineplot.py: LinePlot", "cis/plotting/scatterplot.py: ScatterPlot", "cis/utils.py: apply_intersection_mask_to_two_arrays, no_autoscale"]}
{"id": "C89", "title": "The variables listed for files are those the files have; what the info command prints", "statement": "For files whose names end in .nc, .h5 or .hdf the names listed are exactly those of the NetCDF variables (in groups at any depth, under their full path names, all of whose dimensions the product can use) and of the HDF datasets or tables asked for, each once; CALIOP, MODIS L2 and CloudSat list the data that lie on their own coordinates; an error in a product is reported with its message; info prints each requested variable in order until one cannot be read, or the list of names; its argument is [variables:]files[:product=...].", "quantifier": "every nesting of groups, variables and dimensions; every list of files, type and product; every text of the argument", "why_tests_cant": "The nestings, files and requests are unbounded; tests list a few sample files. Model clauses refuted: the documented type All raises ValueError, the documented None gives only SD, other endings raise TypeError, unreadable HDF files list as empty, later files of other size are judged by the first file's shape (MODIS, CALIOP), exceptions without arguments end in IndexError, file:product=... takes the file for a variable.", "anchors": ["cis/info.py:info", "cis/cis_main.py:info_cmd", "cis/parse.py:validate_info_args", "cis/data_io/products/AProduct.py:AProduct.get_variable_names,get_variables", "cis/data_io/netcdf.py:get_netcdf_file_variables,_get_all_fully_qualified_variables,remove_variables_with_non_spatiotemporal_dimensions", "cis/data_io/hdf.py:get_hdf4_file_variables", "cis/data_io/products/caliop.py:abstract_Caliop.get_variable_names", "cis/data_io/products/MODIS.py:MODIS_L2.get_variable_names", "cis/data_io/products/cloudsat.py:CloudSat.get_variable_names"]}
{"id": "C90", "title": "From the command line to the arguments a command runs with", "statement": "Each documented word for a command has the arguments validated and the routine run that it names, and other words are refused; -v, -q and --force-overwrite take effect; a datagroup of plot yields its variable, files and exactly the options given, each checked as its kind of text; a command goes on exactly if its datagroups, limits, grid or attributes are valid and its output may be written: with consent and on none of the files read; stats demands exactly two variables.", "quantifier": "every word, sequence of flags, datagroup text, option text, file environment and answers", "why_tests_cant": "Texts, tables and environments are unbounded; unit tests parse a few command lines. Refuted clauses: no command at all ends in KeyError; three or more -v give less than two; flags before the command are forgotten (--force-overwrite too); contlevels drops its first and last characters unseen and other texts end in ValueError; label=a=b keeps only a; a bare -o ends in TypeError; collapse with commas and blanks mixed is not split.", "anchors": ["cis/parse.py:parse_args,initialise_top_parser,validators,aliases,get_plot_datagroups,get_basic_datagroups,get_aggregate_datagroups,get_col_samplegroup,check_float,check_int,check_color,check_boolean,check_plot_type,check_product,check_aggregate_kernel,convert_to_list_of_floats,validate_plot_args,validate_col_args,validate_aggregate_args,validate_collapse_args,validate_subset_args,validate_eval_args,validate_stats_args", "cis/cis_main.py:commands,parse_and_run_arguments"]}
{"id": "C91", "title": "Points in space and time keep their coordinates", "statement": "A HyperPoint holds the coordinates, the time (dates as days since 1600-01-01) and the values it was made with; `modified` changes exactly what is given; the same-point tests are true exactly when the coordinates agree (both absent or equal); the coordinate tuple lists exactly the coordinates present, sorted by name; time and altitude separations are absolute differences, the pressure separation is the ratio of the larger to the smaller, always at least 1; the comparisons are true exactly when the second point is strictly closer; the furthest point is the antipode (half the circumference away, no point is further, all else unchanged) and taking it twice gives the position back up to 360 degrees; data made from a list of points have the coordinates (with names and units) and values of the points, and the points of these data are the points they were made from.", "quantifier": "all points (any coordinates absent), all arguments, all lists of points", "why_tests_cant": "tests use single points; the distances are real-valued functions on the sphere, and losing a coordinate, a value or a whole point depends on which points of a list lack a coordinate", "anchors": ["cis/data_io/hyperpoint.py: HyperPoint, HyperPointList", "cis/data_io/ungridded_data.py: UngriddedData.from_points_array"]}
{"id": "C92", "title": "Data frames hold the rows of the data", "statement": "The data frame of ungridded data has one row for each point whose coordinates are all present, in order: labelled by its time (as a date) when the time index is wanted and there is a time coordinate, with one column for every other coordinate under its standard name and one for the data under the given name or the data's own; masked values become NaN. The frame of coordinates without data is the same without the data column; the frame of a list has the coordinates of the first item and one column per item, and items of different length are refused. Collocation looks for samples in exactly the rows with all coordinates and for data in exactly those of them with a value.", "quantifier": "all ungridded data (any coordinates, masks, names), all time units, all lists of data", "why_tests_cant": "rows silently misplaced or columns silently replaced depend on the combination of masks, names and lengths", "anchors": ["cis/data_io/ungridded_data.py: UngriddedData.as_data_frame, UngriddedCoordinates.as_data_frame, UngriddedDataList.as_data_frame, _coords_as_data_frame, _to_flat_ndarray", "cis/collocation/col_implementations.py: GeneralUngriddedCollocator.collocate"]}
{"id": "C93", "title": "Gridded data and lists of gridded data", "statement": "A GriddedDataList built from cubes holds those very objects, in order, each as gridded data (a plain cube keeps all its contents); anything that is not gridded is refused with TypeError. Methods over the list (aggregated_by, interpolate, regrid, extract, intersection, collapsed) give, in order, the result of the method on every item and leave the items unchanged; extract and intersection give None only when all data are excluded. transpose, add_aux_coord, remove_coord, add_dim_coord, add_history and set_longitude_range change every item once, or none when they fail. The file names of a list are those of its items, and naming files for one object does not name them for another. Added attributes can be read back, removed ones are gone, and attributes added to a variable are saved on that variable; time, if there is one, is saved as the unlimited dimension. Unknown standard names and units are left out of a new object and everything else that is wrong is reported as such; a new object with the same coordinates can be made with the default arguments; history is kept entry by entry. The collapse kernel is 'moments' unless another one is named, and the collapsed variables have different names.", "quantifier": "all heaps of cubes shared in any way, all lists, all per-item methods, all attributes, names and kernels", "why_tests_cant": "what matters is sharing of objects and failures half-way, for every list", "anchors": ["cis/data_io/gridded_data.py: make_from_cube, GriddedData, GriddedDataList, _collapse_gridded", "cis/data_io/common_data.py: CommonData.filenames, CommonDataList", "cis/aggregation/collapse_kernels.py", "cis/data_io/data_reader.py: DataReader.read_data_list"]}
{"id": "C94", "title": "Names, units and times of ungridded data mean what they say", "statement": "A standard name of ungridded data is a valid one, the one given or (for NetCDF files only a valid one in the file, for others) the one its name suggests; an invalid one is refused and nothing changes. Units given as text are tidied and read; metadata are equal when their names and units are. Converting units keeps every amount and missing value, converting there and back gives the same values, and units that cannot be converted are an error that leaves the data as they were. Converting a coordinate to standard time gives the days of the moments it told, by its units, as dates, or by the first word of its units and the file's time stamp, and fails without changing anything if it tells none; standard times become dates and the same times again. The range is that of the values present, the flattened data are the data, and the history has one line per entry in order. (It fails: latent_heat_flux is taken for a latitude; comparing metadata of which one has unreadable units is an error; setting an object's own units again can change them; the range and, in some cases, the flattened data are not updated by conversions; the time stamp is not used for units such as day; asking twice for dates is an error.)", "quantifier": "every text of names and units, every table of standard names and reading of units, all values and missing values, all sequences of history entries", "why_tests_cant": "every unit text, name and value; the tests try a few", "anchors": ["cis/data_io/ungridded_data.py:Metadata", "cis/data_io/ungridded_data.py:LazyData.convert_units", "cis/data_io/ungridded_data.py:LazyData.update_range", "cis/data_io/ungridded_data.py:LazyData.data_flattened", "cis/data_io/ungridded_data.py:LazyData.add_history", "cis/data_io/Coord.py:Coord.convert_to_std_time", "cis/data_io/Coord.py:Coord.convert_standard_time_to_datetime", "cis/time_util.py:convert_time_using_time_stamp_info_to_std_time", "cis/utils.py:set_standard_name_if_valid", "cis/data_io/netcdf.py:get_metadata"]}
{"id": "C95", "title": "A name reads the variable it spells", "statement": "In a NetCDF file with groups a name reads exactly the variable at the end of the path it spells, so exactly the names that the info command lists can be read; a name that spells none is an InvalidVariableError. Reading several names of many files gives every name once with one variable of each file in the order of the files, and succeeds exactly if every file has them all. In HDF4 files a name reads the datasets of the files or, where a file has none, its tables, in order; a file without either is an InvalidVariableError and a file not called .hdf an error. Whatever is asked of an HDF4 dataset and however that fails, no file is left open and every later question is answered as if it were the only one. Data objects made of several handles need handles of one class with a known reader. (It fails: an unknown group is a KeyError; an HDF4 name asked for twice reads the dataset and the table.)", "quantifier": "every tree of groups, every list of names and files, every sequence of questions and failures", "why_tests_cant": "every nesting of groups, every order of names and failures; the tests open a few files", "anchors": ["cis/data_io/netcdf.py:read", "cis/data_io/netcdf.py:read_many_files_individually", "cis/data_io/hdf.py:read", "cis/data_io/hdf.py:_read_hdf4", "cis/data_io/hdf_sd.py:HDF_SDS", "cis/data_io/hdf_sd.py:read", "cis/data_io/hdf_vd.py:read", "cis/data_io/ungridded_data.py:LazyData"]}
{"id": "C96", "title": "A file is read by the first product whose name and contents fit", "statement": "A product's signatures describe exactly the names of its files (capital letters or not; the name, not its directories). Without a named product, a file is read by the first product, in the order of priority and then of names, whose names fit and whose contents, where the product looks at them, fit: files written by CIS by the CIS product, files of NCAR-RAF or GASSP conventions by that product, and any NetCDF file by some product; if none fits, ClassNotFoundError. A named product is taken as it is; a name that is none is ClassNotFoundError. The format of files is the format of that product for the first file, a hierarchy parent/format/version, and needs readable coordinates; the full name is CIS/product/version. (It fails: a .nc file that cannot be opened, or whose source is not a text, stops the search; formats of Aeronet files lack the slash after ASCII.)", "quantifier": "every file name, every set of attributes and lines of the file, every list of files and named product", "why_tests_cant": "every name, capitalisation and set of attributes; the tests try a few names", "anchors": ["cis/data_io/products/AProduct.py:__get_class", "cis/data_io/products/AProduct.py:get_file_format", "cis/data_io/products/AProduct.py:get_product_full_name", "cis/data_io/products/products.py:cis", "cis/data_io/products/NCAR_NetCDF_RAF.py:NCAR_NetCDF_RAF", "cis/data_io/products", "cis/data_io/aeronet.py:get_aeronet_version"]}
{"id": "C97", "title": "Methods, kernels, limits, names and history of collocated data", "statement": "For every collocation through sampled_from or collocated_onto, the method is the one named (by default binning for ungridded data on a grid, box for ungridded data at points, linear interpolation for gridded data) and the kernel the one named or given (by default moments); a method not offered for that combination, an unknown kernel or another kind of source is a ValueError; a box checks exactly the separations given and not None, and an argument that is no separation is a TypeError. The results are, for every variable in order, the outputs of the kernel with the names, units and standard names of the variable or those asked for, and each gets exactly one history entry that names sample, version, variables, files, collocator and kernel; a.collocated_onto(b) does what b.sampled_from(a) does.", "quantifier": "every kind of sample and source (data, lists of any length, coordinates), every method text, kernel argument, set of limits and every name asked for", "why_tests_cant": "tests call a few combinations of method and kernel; names asked for are dropped, and kernels or limits silently not read, only in some of the combinations", "anchors": ["cis/data_io/gridded_data.py: GriddedData.sampled_from", "cis/data_io/ungridded_data.py: UngriddedData.sampled_from, UngriddedCoordinates.sampled_from, _ungridded_sampled_from", "cis/data_io/common_data.py: collocated_onto", "cis/collocation/col.py: collocate, get_kernel", "cis/collocation/col_implementations.py: moments.get_variable_details, SepConstraintKdtree.__init__, GeneralGriddedCollocator"]}
{"id": "C98", "title": "What a finished plot shows: scales, bars, titles, coast lines, ticks and output", "statement": "A plot of longitude against latitude is drawn on a map; logarithmic scales, grid lines, labels and titles are those the user asked for, and where the user asked for none, those of the plot; a colour bar is shown exactly on two-dimensional plots with it switched on, with its step, scale, label and orientation as given; coast lines and background pictures are drawn on maps only, at the resolution for the size of the area shown; the ticks of maps go by the given steps or are round numbers on the globe; the plot is saved to the file named or shown.", "quantifier": "every plot kind, pair of coordinates, option setting, projection and extent", "why_tests_cant": "the settings are applied in several steps that overwrite one another, so each combination of options, plot kinds and extents would have to be drawn and looked at", "anchors": ["cis/plotting/genericplot.py:is_map", "cis/plotting/genericplot.py:set_log_scales", "cis/plotting/genericplot.py:Generic2DPlot", "cis/plotting/formatted_plot.py:format_plot", "cis/plotting/formatted_plot.py:apply_map_axis_limits", "cis/plotting/plot.py:drawcoastlines", "cis/plotting/plot.py:drawbluemarble", "cis/plotting/plot.py:get_best_map_ticks", "cis/plotting/plot.py:set_map_ticks", "cis/plotting/plot.py:add_color_bar"]}
{"id": "C99", "title": "Places within a distance of a position on the globe", "statement": "The distance from a position to a rectangle of latitudes and longitudes is the great-circle distance to the nearest place of the rectangle, and the greatest distance that to its furthest place; a search of a tree of positions for one position and a distance gives the number of every position at most that far away along the surface, each once; a separation constraint that has indexed the data gives, for any succession of samples (some at the same place), exactly the rows within the distance and within the limits of height, pressure and time, a distance of zero or none being no limit; before any data are indexed the distance is not looked at. True for longitudes at most one turn apart and not more than a turn east of the sample; false otherwise (data at 300 to 350 degrees are not found from -30 degrees), and false once other data are indexed: places asked about before keep their old answers.", "quantifier": "all rectangles of the globe, positions, trees, distances, data sets, limits and successions of samples", "why_tests_cant": "the pruning of the tree is by distances on a sphere, with cases for the poles, the date line and the side of the rectangle that is nearer; tests try a few rectangles, and one sample at a time, so that neither missed pruning nor the memory of earlier answers shows", "anchors": ["cis/collocation/kdtree.py:RectangleHaversine.min_distance_point,RectangleHaversine.max_distance_point,RectangleHaversine._min_distance_point,geodesic_to_line_of_longitude_crossing_latitude,line_of_longitude_segment_nearer_end_latitude,haversine_distance_from_radians,HaversineDistanceKDTree._query_ball_point", "cis/collocation/haversinedistancekdtreeindex.py:HaversineDistanceKDTreeIndex.index_data,find_points_within_distance", "cis/collocation/col_implementations.py:SepConstraintKdtree.constrain_points"]}
{"id": "C100", "title": "The words of a command and the values of its options", "statement": "For every command: an option may be written with any of its names or with the beginning of exactly one long name, its text may follow as the next word, after an equals sign or, for a short name, directly; options may stand before and after the arguments of the command. Each attribute then has the value of the last option given for it (flags: true or false, -v: the number of times, texts: as read by the type of the option or one of its choices), the arguments are shared among the positional arguments, and every attribute that no option or argument sets has its documented default, or is absent for a plot. A text that is not understood, -v together with -q, the wrong number of arguments, unknown or ambiguous options and unknown commands are refused. Each command offers exactly the documented options. Refuted: arguments on both sides of an option are refused or shared wrongly; a negative number in scientific notation is taken for an option; an evaluation whose expression begins with a minus sign is misread without a word; an option without its text takes the first argument; options before the command are accepted and forgotten.", "quantifier": "every command, every list of settings in every spelling before and after the arguments, every list of arguments, every word that is no option, all names of plot types, colours and projections", "why_tests_cant": "tests try a few command lines; spellings, orders and combinations of options are unbounded", "anchors": ["cis/parse.py:initialise_top_parser", "cis/parse.py:AliasedSubParsersAction.add_parser", "cis/parse.py:add_plot_parser_arguments", "cis/parse.py:add_info_parser_arguments", "cis/parse.py:add_col_parser_arguments", "cis/parse.py:add_aggregate_parser_arguments", "cis/parse.py:add_collapse_parser_arguments", "cis/parse.py:add_subset_parser_arguments", "cis/parse.py:add_eval_parser_arguments", "cis/parse.py:add_stats_parser_arguments"]}
{"id": "C101", "title": "Limits and grids given as dates", "statement": "The limits given to `subset` may be numbers, dates, or a partial date (a period such as 2008 or 2008-02), written as a slice, a pair or a list of one; exactly the points whose time lies within the limits (both ends included) are kept, in their order, whatever the units of the time, and several limits keep the points that meet them all. A period keeps the points whose date has its components; its limits are its first and last second. Limits that are numbers mean the same as in C30. A limit may be left open at one end, also if the other is a date. A value that is no limit is refused. The same holds for gridded data, along each dimension. The grid of an aggregation may be given as dates, or as a period, with a length of time as its step: its edges lie at the start and every such length after it. Refuted: a limit of a date and an open end, or of two partial dates, is refused with TypeError; a point in the last second of a period, after its beginning, is lost; numbers are refused for the times of gridded data, an open end too; a length of time is always counted in days, so it is wrong when the times are in hours.", "quantifier": "all ungridded data whose coordinates have distinct names, all gridded dimensions, all keyword arguments, all time units", "why_tests_cant": "Which points survive depends on the calendar, on the units and on the way the limit is written, for every date; tests use whole years and standard units.", "anchors": ["cis/subsetting/subset.py subset, UngriddedSubsetConstraint, GriddedSubsetConstraint", "cis/data_io/ungridded_data.py _aggregate_ungridded", "cis/data_io/gridded_data.py", "cis/time_util.py PartialDateTime"]}
{"id": "C102", "title": "Histories and reports of results", "statement": "A result tells how it was made. A subset adds one entry to the history of every variable: the limits in the order given, each with the name of its coordinate and its ends, the smallest or largest point standing for an end that was not given; names and ends can be read back from it. Aggregated data tell the version, the variables, the files they were read from, the grid and the kernel; evaluated data tell the expression and every variable, with its alias if it has another name, and its files; arithmetic tells the operation. After any sequence of such steps the history consists of what there was before (unless a step starts a new history, as aggregation and evaluation do) and one dated entry for every step since, in their order. The comparison of two variables prints a frame and then every result, saves each under a name of its own, naming the variables and every file once, and refuses other numbers of variables. Refuted: the history of a collapse names the results, not the variable and files that were collapsed; no result knows the files its data came from, so later steps tell none; of a shape, only its bounding box is told.", "quantifier": "all data, lists of data, limits, grids, expressions, sequences of steps and comparisons", "why_tests_cant": "That nothing is lost or reordered must hold for every sequence of operations and every number of variables; tests look at one operation and one text.", "anchors": ["cis/subsetting/subset.py subset, SubsetConstraint.__str__", "cis/data_io/ungridded_data.py _aggregate_ungridded, add_history", "cis/data_io/gridded_data.py _collapse_gridded, add_history", "cis/evaluate.py Calculator._make_history, _make_var_info", "cis/maths.py _math_op_common", "cis/stats.py", "cis/cis_main.py stats_cmd"]}
{"id": "C103", "title": "How a run ends and what it tells", "statement": "Every run ends with a status: 0 if its command finished, 2 if the line was not accepted (with the usage on stderr), 1 if anything failed; only an interrupt gets out. A failing run says why: its message is the last thing on stderr and on the screen, however quiet, and the trace is in the log. The screen shows what is printed and just the records at the asked level or above, the log every record, in their order; without a writable log everything goes on with a warning. Commands for one datagroup read nothing when given several; a subset of nothing, a grid for gridded data and ungridded data to collapse are told.", "quantifier": "all lines of the user, levels, exceptions with their messages, actions of validators and commands, with and without a writable log", "why_tests_cant": "a test runs one command that fails in one way; the property is about every command, every way to fail, every level and every sequence of messages", "anchors": ["cis/cis_main.py: main, __error_occurred, parse_and_run_arguments, subset_cmd, aggregate_cmd, collapse_cmd, version_cmd", "cis/logging.conf", "cis/exceptions.py: FileFormatError, UserPrintableException", "cis/parse.py: parse_args"]}
{"id": "C104", "title": "Masked points of a tree are left out and the rest keep their numbers", "statement": "A haversine tree built of points with a mask answers every query as the tree of the points that are not masked does, by their numbers among all the points: its leaves hold each unmasked number once, the points within a distance of a position are exactly the unmasked ones that are, pairs, counts and distance matrices are of unmasked points only, a masked sample gets an empty list, the nearest point is never a masked one, whatever the masked rows hold. If all are masked every answer is empty. One mask value stands for all the points, data without a mask give the tree of all points; a mask of another length, leaves of less than one point and no points are refused.", "quantifier": "all data, masks, leaf sizes, positions, distances, norms and tolerances", "why_tests_cant": "the tree is built and pruned from extremes over the rows that are left while the rows keep their old numbers; a tests' mask of a few points in one leaf never shows a wrong number or a split by a masked row", "anchors": ["cis/collocation/kdtree.py:HaversineDistanceKDTree.__init__,KDTree._build,HaversineDistanceKDTree._query_ball_point,HaversineDistanceKDTree.query_ball_tree,KDTree.query_pairs,KDTree.count_neighbors,KDTree.sparse_distance_matrix", "cis/collocation/haversinedistancekdtreeindex.py:create_index"]}
{"id": "C105", "title": "Arrays of points asked of a tree of positions, and matrices of distances", "statement": "Asked for the k nearest neighbours of one point, a tree gives k distances and k row numbers, the neighbours nearest first and then infinite distances with a number that is no row's; two plain numbers when k is one. Asked about an array of points of any shape it gives arrays of that shape, with one more dimension of size k when k is more than one, and in each place the answer it gives for the point that is there alone, also with an error and a bound. When no number is wanted it gives all the points, nearest first; for an array, a list in each place. Points of another number of coordinates, a norm of order less than one and fewer than one neighbour are a ValueError (refuted for one point and no neighbour: an IndexError). Asked for the points within a distance of each of an array of points it gives a list in each place, with exactly the rows within the distance of the point there. A matrix of distances holds the distance of every pair of rows, whichever way it is computed and whatever was in memory before; matrices of different widths are refused.", "quantifier": "Every set of points, tree, array of points of any shape (also empty), number of neighbours, error, bound, order of the norm, distance, threshold and content of the memory used.", "why_tests_cant": "The arrays may be of any shape and size, the place of an answer depends on all the shape, and the method of the matrix on its size: tests try a few shapes.", "anchors": ["cis/collocation/kdtree.py:KDTree.query", "cis/collocation/kdtree.py:KDTree.query_ball_point", "cis/collocation/kdtree.py:distance_matrix", "cis/collocation/kdtree.py:minkowski_distance_p"]}
{"id": "C106", "title": "Coordinates looked up by name, standard name, long name, axis, variable name, attributes or likeness", "statement": "Asked for the coordinates that meet some criteria (a name or another coordinate, standard name, long name, attributes, axis letter in either case, variable name), a coordinate list gives exactly those that meet all of them, in their order; without any criterion it gives the list itself, so that what is appended to it is appended to the data, and otherwise a new list. Asked for one coordinate it gives the only one that meets the criteria; if several do, a CoordinateNotFoundError; if none does and a name was given, the only coordinate with that standard name, and otherwise a CoordinateNotFoundError. Refuted: the other criteria are then dropped, so a coordinate may be given that does not meet them; in a list of one coordinate that one is given for any criteria without a name; looking for a coordinate like another that is not there is an AttributeError. The standard coordinates are each the only one with its standard name, or none (refuted for a list of one coordinate, which stands for all five).", "quantifier": "Every list of coordinates, every combination of criteria.", "why_tests_cant": "Any subset of six criteria may be given on any list; tests look up one or two names in a fixed list.", "anchors": ["cis/data_io/Coord.py:CoordList.get_coords", "cis/data_io/Coord.py:CoordList.get_coord", "cis/data_io/Coord.py:CoordList.find_standard_coords", "cis/data_io/ungridded_data.py:UngriddedData.coords", "cis/data_io/ungridded_data.py:UngriddedData.coord"]}
{"id": "C107", "title": "Equality of data and of coordinates", "statement": "Two ungridded data of the same length are equal exactly when their names and units are the same and, wherever neither is masked, both have numbers that agree up to the tolerance; data are equal to themselves and to copies of themselves unless there is a nan among them (refuted: nan) or all is masked; data of different lengths are a ValueError (refuted: a single value equals any number of copies of it). Equality is neither symmetric nor transitive (refuted by pairs at the tolerance). Two coordinates are equal exactly when they have the same standard name, whatever their values, and it is not empty (refuted: a coordinate with an empty standard name is not equal to itself); comparing a coordinate with something that is no data is an AttributeError (refuted). Data and a coordinate are compared in the way of the one on the left. Not equal is the opposite of equal. An object is in a list when it is one of it or one of it is equal to it. Refuted: equal data have equal hashes (they have different ones, and coordinates have none).", "quantifier": "Every pair of data or coordinates: names, units, values masked, nan or numbers, lengths; every list.", "why_tests_cant": "The result depends on all the values, on the tolerance at every scale and on the kinds of both objects: tests compare a few.", "anchors": ["cis/data_io/ungridded_data.py:LazyData.__eq__", "cis/data_io/ungridded_data.py:LazyData.__ne__", "cis/data_io/ungridded_data.py:LazyData.__hash__", "cis/data_io/Coord.py:Coord.__eq__", "cis/data_io/ungridded_data.py:Metadata.__eq__"]}
{"id": "C108", "title": "A printed description of data is complete, and tells the range recorded before", "statement": "For data and coordinates that have values, and a range recorded for the data, describing the data (str, summary) gives exactly: a heading with the name (the first of standard, long and variable name that is not empty, or 'unknown') and the units; the shape; the number of points and of those not masked; the metadata (long and standard name, units, missing value, range, history, other attributes with titles for names), indented by 5; then each coordinate in order, its name and its metadata, indented by 10, with the range that its values have now. Nothing but ranges is changed. For the data themselves the range told is the one recorded before; describing also records the present range, so a second description changes nothing more, tells the present range of the data, and is the first one again if nothing was recorded anew. The short description is the heading, and repr is made of it. After new values have been put in, the first description tells the range of the old ones and the second one differs. Data with no range recorded or with an empty coordinate cannot be described.", "quantifier": "every data with its coordinates, names, units, ranges, histories, attributes, shapes and masks; every reading of units; every text of units and of ends of ranges", "why_tests_cant": "tests look for a few lines in a few descriptions; that each line is there, in order, and which range it tells holds for all data and histories of it", "anchors": ["cis/data_io/ungridded_data.py: UngriddedData.summary", "cis/data_io/ungridded_data.py: Metadata.summary", "cis/data_io/ungridded_data.py: UngriddedData._post_process"]}
