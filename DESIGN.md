# Formal model of cedadev/cis in Rocq (Coq 8.16.1)

Layout (all under `rocq/theories`, logical name `Verif`):

* `<Area>Model.v`  - Gallina definitions, each with a comment citing `file:lines` in /repo and any simplification;
* `<Area>Spec.v`   - the small, separate specification the theorems are stated with (no model helpers);
* `<Area>Proofs.v` - lemmas;
* `<Area>Props.v`  - the property theorems only, each `exact`-ing a lemma, each followed by `Print Assumptions`
  and by an `Example` showing a concrete non-trivial case that meets its hypotheses.

Naming: `Cnn_...` theorems prove property Cnn (or part of it); the suffix `_partial` marks a proper part of the
property; the suffix `_refuted` marks a theorem that exhibits a concrete input on which the (faithful) model of the
code violates the full English property - a finding about the code.

## Modelling conventions

* Python exceptions are values (`Raises e`/`None`), never silent defaults.
* Numbers: comparisons/arithmetic on floats are modelled over exact `Q` (or `Z` where the values are integers and
  `R` where trigonometry is involved); NaN is an explicit constructor where the property is about NaN.
  Rounding and overflow of IEEE doubles are **not** modelled.
* numpy arrays are lists (flattened, C order) with an explicit shape where the shape matters; masked arrays are
  lists of (value, mask-bit) pairs.
* Python dicts are association lists/functions with last-write-wins update; insertion order kept where observable.
* Mutable objects whose aliasing matters (linked list nodes, shared lazy readers, array buffers) are modelled with an
  explicit heap (map from locations to cells).
* External libraries (numpy, iris, pandas, cf_units, pyhdf, netCDF4, the file system, `re`) are modelled by their
  documented contract at the call site, stated in the model comment, or are function arguments of the model
  (quantified over in the theorem).

## Plan per property

| id | files | what is modelled | how it is proved |
|----|-------|------------------|------------------|
| C01 | OSet* | heap of `[key, prev, next]` nodes + map | refinement to a list of keys, induction over operation histories |
| C02 | Index* | the odometer loop with carry | loop invariant vs. recursive row-major enumeration |
| C03 | FileList* | loop over elements with file-system oracle (`glob`,`isdir`,`listdir`,`isfile`) | induction; uses C01; refuted for directories named by patterns |
| C04 | FileList* | `split('=')`, dict update | induction, lookup = last occurrence |
| C05 | Lon* | `wrap_lons` formula over Q, np.where variant | floor arithmetic |
| C06 | Lon* | searchsorted, roll, shift over Q lists | list arithmetic; refuted for axes wholly below/above the range |
| C07 | Parse* | the character loop with bracket stack | loop invariant, positions of the cuts characterised |
| C08 | Parse* | option loop incl. "single remaining option" shortcut | decision theorem; refuted for the shortcut |
| C09 | Parse* | the alias loop over datagroups with used-alias set | induction |
| C10 | Parse* | prompt loop with list of answers | induction on answers |
| C11 | Date* | datetime arithmetic on civil dates (days-from-civil), text of partial dates | month/leap argument by lia; refuted in year 9999 |
| C12 | Date* | token scanner with regex `findall` contract | induction on tokens |
| C13 | Date* | `offset.days` arithmetic | refuted for non-midnight references, exact characterisation |
| C14 | Date* | `datetime.replace` contract | case analysis |
| C15,C16 | GridIndex* | searchsorted, flip, tensordot cell numbers, stable argsort, slice loop; lookup index | injectivity of mixed radix, sorting lemmas; refuted for decreasing axes |
| C17-C19 | KD* | `_build` with fuel (= number of points), ball/pair/count/sparse queries, best-first `_query` | pruning theorem + Minkowski bounds; permutation invariant; heap invariant |
| C20-C22 | Hav* | haversine over R, rectangle bounds, tree queries, brute-force kernel | trig identities, chord vectors, exact trig witnesses for the refutations |
| C23-C26 | Col* | both separation constraints, all kernels, the collocation loop | decision equivalences, permutation lemmas, pointwise theorem |
| C27-C29,C57 | Interp* | `_find_indices`, `_evaluate_linear`, `_evaluate_nearest`, reversal bookkeeping, hybrid coordinates | induction over dimensions; refuted where the bookkeeping is wrong |
| C30-C33 | Subset* | limit fixing, mask building, list constraint, shape masks | pointwise; mod 360 arithmetic; refutations by witnesses |
| C34,C35 | Agg* | `np.arange` contract, bounds guess, index + kernel composition | arithmetic; counting over C15 |
| C36 | Collapse* | `_calc_new_dims`, collapse of cubes and coordinates | rank characterisation; refuted for multi-dimensional coordinates |
| C37 | Stats* | mask union, all statistics over R | pointwise; refuted for relative statistics |
| C38,C40,C46,C47 | Ungr*, GView* | `_post_process`, hyperpoint views, CoordList, data lists | alignment of the filter, pointwise, invariants |
| C39,C59,C60 | Heap* | heap of arrays, buffers, metadata, attribute dictionaries; constructors, copy, slices, coords(), data_flattened | reachability invariants, frame theorems for arbitrary histories of edits |
| C41 | Read* | masking and scaling of each reader | pointwise per reader; refuted for netCDF fill values |
| C42,C43 | Prod* | class tree, `__subclasses__` walk, remove-while-iterating, stable sort by priority | list induction, maximum argument; refuted for neighbouring abstract classes |
| C44,C58 | Write* | write_netcdf.py, the product that reads it back | induction over variables; refuted for clashes and lost masks |
| C45 | Modis* | shared reader heap, lazy data, append | refuted for the first slice; proved for all others |
| C48,C63 | Eval* | expression checks, namespace, output | decision theorems; eval itself is a parameter |
| C49 | Math* | cis/maths.py on the heap with numpy broadcasting | heap frame theorems |
| C50,C54,C55 | Util* | bin edges, comparisons, masks | pointwise; refuted for non-dividing steps and NaN |
| C51 | Aero* | header lines, renaming of columns | exact characterisation; refuted with witnesses |
| C52,C61,C64 | Cmd* | the commands over a file map with links | induction over files written; refuted for several datagroups |
| C53 | Dist* | regex split + unit table | case analysis over strings |
| C56 | Parse* | method[arguments] texts | string induction; refuted for blank pieces |
| C62 | Rdr* | pattern expansion, alias assignment, reading | induction over requests; refuted for patterns that find nothing |
| C65-C67 | Args*, Re* | get_subset_limits, get_aggregate_grid, attribute texts, a backtracking regex matcher | exact acceptance theorems for every text |
| C68 | GCol* | sampled_from of ungridded data onto a cube, guessed bounds, coordinate map, the binned index, transposition | each cell against a membership specification in either direction; negative theorems for box, nn and scalar coordinates |
| C69 | GU* | sampled_from of gridded variables at ungridded positions: longitude ranges of both, rotated columns, the interpolator kept between variables | the answer on the rotated grid is carried to the grid as given (C27/C28 on the rotated axis); four counterexamples outside the hypotheses |
| C70 | GG* | GriddedCollocator: name matching, sorted layout, transposition, repeated mask; iris's interpolate is a parameter (any scheme) | the layout against an order-preserving selection, the mask by C-order positions (C02); three counterexamples outside the hypotheses |
| C71 | Raf* | the variable selector (attribute precedence, station attributes, pressure, time stamps, auxiliary coordinate), file types, coordinates built per file and concatenated, auxiliary coordinate stretched | columns as one relation per coordinate over the list of (file, point), rows from columns, post-processing from C38; refutations by concrete files |
| C72 | Hdf* | hdf.read over several files (SD before vdata, missing variables), CloudSat coordinates per profile and per cell, time array, expansion over heights, choice of SD or vdata, names offered | columns as one relation per coordinate over the list of (file, profile) or (file, profile, level), rows from columns, post-processing from C38; refutation by a concrete file |
| C73 | Hdf*, Cal* | CALIOP: handles from the SD datasets, altitudes of the first file, column of the middle shot, expansion over levels and profiles, pressure when the shapes agree, one-dimensional coordinates, first of several values, names offered | as C72; an array per file of known shape gives the column over all (file, profile, level); refutation by two concrete files |
| C74 | Sun* | Aeronet: read_csv by contract (blank lines, short and long lines, missing texts and markers), place from the line or the header by version, concatenation of the columns of the files, coordinates, post_process; float() and the date parser are parameters | per file a column of values, one per line of data, for each key; columns of the files in order; rows_of_columns; refutation by two concrete files |
| C75 | Ncg* | gridded NetCDF: choice of the cube by its three names, auxiliary coordinates made from geopotential, geopotential height and air pressure by position, time coordinate to standard time, names offered; merging and the meaning of units are parameters | filter as a relation; check of the dimensions by induction (fits, overhangs, other); case analysis on time coordinates; refutations by concrete cubes |
| C76 | Taylor* | `Taylor.__init__` over reals (numpy.ma's mean, std with ddof 1, corrcoef of two rows, log followed by `.data`, masks, marks, folding, extents) | `TaylorModel/Spec/Proofs/Props`: Cauchy-Schwarz by a non-negative sum of squares over lists; the law of cosines; marks and folding by relating the call to the same call with nothing to mark; partial and refuted |
| C77 | Mesh* | `Generic2DPlot.unpack_data_items`, `_cube_manipulation` over matrices (lists of rows) and rational coordinates: transposition, hybrid axes, cartopy's add_cyclic_point (numpy.allclose tolerances), numpy.meshgrid, matplotlib's shape rule for pcolormesh in the spec; whether iris turns the plot is a parameter | `MeshModel/Spec/Proofs/Mesh2Proofs/Props`: cell-by-cell equations for transposition, mesh and the cyclic column; counterexamples and general non-fitting theorems |
| C78 | Layer* | `plot_cmd`, the plotting part of `Plotter`, `multilayer_plot`, the options of `taylor_plot` over dictionaries of options; drawing a layer is a parameter that may raise; the axes are the list of the layers drawn | `LayerModel/Spec/Proofs/Layer2Proofs/Props`: dictionary lookups after merging and popping, induction over the layers with the type as state |
| C79 | Axis* | `_try_coord`, `get_axis`, the choices of `basic_plot` (type, axes, data drawn, dates, upside down), `squeeze`, default plot types, coordinate lookup of both kinds of data (iris's by contract) | `AxisModel/Spec/Proofs/Props`: lookups as filters with exactly one result; the layers' turning over as parity |
| C80 | Cci* | `CCI_L2._create_coord_list` and `create_data_object`, both `_fix_time`s, `read_many_files_individually`, standard names | `CciModel/Spec/Proofs/Props`: columns of all files as in C71; Julian dates and seconds as linear maps of moments |
| C81 | L3* | the callbacks of the Level 3 CCI products, strptime of the two formats as a contract | bounds of every stamp, month ends, attributes kept; refuted: the workaround for the known file |
| C82 | Txt* | ASCII_Hyperpoints over a contract of genfromtxt (lines, comments, fields, squeezing) and utils.concatenate | rows of all lines, refused files; refuted: files of one observation |
| C83 | Km* | MODIS_L2 coordinates, the loops of __field_interpolate on strided slices, the choice by dimension name, gluing of files | rows of all pixels; bilinear interpolation for all odd factors; refuted: every 1 km variable |
| C84 | Ec* | EarthCARE_MSI_ATL: names with markers, required shape, expanded coordinates, heights, slices of extra dimensions | rows of all pixels of the first file, any shapes; refuted: several files, two-digit indexes, bands elsewhere |
| C85 | M3* | MODIS_L3: str.find and slices with negative indexes, the regular expression on lines, dates, the cube of a file, names offered | value found for all texts and orders; cube of every file; refuted: attributes that are not texts |
| C86 | Had* | HadGEM_CONVSH (callback: history, iris.util.squeeze; hybrid height, t) and HadGEM_PP (var_name) over the gridded NetCDF model | reading for all cubes and all merges; every cell keeps value and coordinates when squeezed; refuted: history, lost pressures, names of several pp files |
| C87 | Fmt* | figure size, limits and ticks of an axis, wrap start and limits of a map, scales of coastlines and picture, times on an x axis, labels, levels of contours; `set_lim`, `set_ticks`, `set_extent`, unit conversion and matplotlib's dates are contracts | case analysis, ceilings for `arange`, folds for the smallest longitude |
| C88 | Cmp* | `ComparativeScatter`, `Histogram`, `Histogram2D`, `LinePlot`, `ScatterPlot` over arrays with shapes and masks; numpy's bins (`searchsorted` over equal parts), `ma.masked_array`, `plot` and `pcolor` are contracts | the bin of a value is unique (edges increase); counting by induction; double sums over bins |
| C89 | Lst* | variables of NetCDF group trees, HDF files, CALIOP/MODIS/CloudSat listings, plugin errors, info and its argument | induction over group trees (flat listing of paths, injective joins), over files with the remembered type; nine refuted clauses |
| C90 | Top* | command words, flags, checks of the plot options, validators of all commands | case analysis over the tables, parse_one soundness and completeness (C08) instantiated, C10 for outputs; seven refuted clauses |
| C91 | Pt* | HyperPoint (constructor, modified, comparisons, separations, furthest point), HyperPointList, from_points_array | every clause, over all points; distance over the reals with the great circle of C21; complete characterisation of points -> data -> points; refuted: modified, pressures of other sign, points lacking coordinates or values |
| C92 | Fr* | as_data_frame of data, coordinates and lists; the frames of collocation | columns for all data; rows for distinct names; lists; refuted: colliding names, coordinates of later list items |
| C93 | Gl* | heap of cubes and file-name lists; GriddedDataList construction, per-item methods, in-place methods, file names; attributes, saving arguments, construction, history, kernel choice and names | induction over lists with heap invariants (kept, fresh, NoDup); witnesses for sharing and half-done failures |
| C94 | Mt* | `Metadata` (names, units, equality), `set_standard_name_if_valid`, NetCDF `get_metadata`, `LazyData`'s `convert_units`, `update_range`, `data_flattened`, `add_history`, `name`, `Coord`'s time conversions | `MtModel/Spec/Proofs/Mt2Proofs/Mt3Proofs/Props`: cf_units as linear units; tidying against a relation on pieces of text; state after failures |
| C95 | Nam* | NetCDF `read`, `read_many_files_individually`, HDF4 `read` (datasets and tables), `HDF_SDS` handles, the readers of `LazyData` | `NamModel/Spec/Proofs/Props`: names against paths of groups; open files as a state machine over all sequences of questions and failures |
| C96 | Wh* | signatures, priorities and checks of all products, `__get_class`, `get_file_format`, `get_product_full_name` | `WhModel/Spec/Proofs/Wh2Proofs/Wh3Proofs/Props`: a small regular-expression matcher run on the code's own patterns, against names described in words |
| C97 | Cn* | sampled_from and collocated_onto of all kinds of data, get_kernel, SepConstraintKdtree's arguments, names from get_variable_details and the collocators, the history of collocate | equivalence of plans with tables of methods and kernels; induction over limits and variables; refuted clauses by witnesses |
| C98 | Lk* | format_plot, set_log_scales, is_map, add_color_bar, _get_extent, drawcoastlines, drawbluemarble, get_best_map_ticks, set_map_ticks and the plots' output as steps on a record of the axes | each setting of the finished axes in terms of the options alone; completeness; the refuted clauses by general theorems or concrete maps |
| C99 | Ball* | RectangleHaversine's distances, _query_ball_point, find_points_within_distance and SepConstraintKdtree.constrain_points with its cache, in exact reals | for every rectangle the computed distances are the least and the greatest great-circle distance and are attained (spherical trigonometry: the nearest place of a meridian, by the crossing of the perpendicular great circle or the nearer end); tree search by induction on the tree; the cache by an invariant over histories |
| C100 | Opt* | option tables of parse.py 48-66, 90-269 and the argparse rules for words, prefixes, attached texts, positional arguments and sub-commands | settings → attributes by induction over the settings with an invariant (inv) on the namespace; refusals as the converse; tables by computation; five refuted clauses by concrete command lines |
| C101 | Ds* | subset's limits as slices, pairs, lists, dates and partial dates; gridded limits; grids of _aggregate_ungridded given as dates | exactly the points inside are kept, in all spellings; periods = components; grids' edges; refutations (mixed limits, last second, gridded numbers, hours) |
| C102 | Hs* | the texts that subset, aggregate, collapse, evaluate, arithmetic and stats add to histories; the printed and saved results of a comparison | exact entries; legible limits; history after any sequence of steps (induction); 14 results under distinct names; refutations (collapse, files, shape) |
| C103 | Run* | main, __error_occurred, parse_and_run_arguments and the commands' own messages (cis_main.py 15-25, 102-171, 225-290), the handlers of logging.conf, str() of exceptions (exceptions.py); validators, commands and library calls are procedures (actions, then a value or an exception) | every run as a story (validated, announced, run, reported) and what screen, log file and stderr hold of it by induction on its actions; status; refuted: the reasons of a FileFormatError, runs without a writable log and with -v or -q, no command, collapse of ungridded data |
| C104 | Msk* | HaversineDistanceKDTree.__init__ with its mask, create_index | renumbering commutes with building and with every query (functional relabelling of the tree by a strictly increasing numbering), so each exactness theorem of C17, C18 and C99 carries over |
| C105 | Pq* | query and query_ball_point of the tree for one point and for arrays of points (numpy.ndindex over the shape, the result arrays filled cell by cell, k absent, one, more, zero or negative), distance_matrix in its three ways | each place holds the answer for its point alone, by induction over the cells filled; with the exactness of C17 and C19; the three ways of the matrix by induction over the loops; refusals |
| C106 | Crt* | CoordList.get_coords with all its criteria, get_coord with its second attempt, find_standard_coords, the list given out and whether it is the data's own | the filters composed into one test, shown to be the specification's; three cases (one, several, none) for a single coordinate; agrees with the search of C47 (older_search); witnesses for the refuted clauses |
| C107 | Eqv* | LazyData.__eq__, __ne__, __hash__, Coord.__eq__, numpy.allclose on masked cells with broadcasting in one dimension, the dispatch of == between kinds | equality of names of C94 and agreement cell by cell; witnesses for the refuted clauses |
| C108 | Sum* | Metadata.summary, UngriddedData.summary and repr; the ranges that are recorded on the way | the lines are specified one by one, independent of the concatenation in the model; titles by positions, shapes by pieces |

## What is modelled and what is not

The comment above every definition names the file and lines. By source file:

| file | modelled | not modelled |
|------|----------|--------------|
| cis/utils.py | OrderedSet, index iterators, key=value options, longitudes, bin edges, masks and array comparison, distances with units, dimensions_compatible, concatenate, expand_1d_to_2d | log-spaced bins, plotting helpers, `deprecated` and profiling decorators |
| cis/parse.py | expand_file_list, split_outside_brackets, multi_split, datagroups and their options, aliases, output checks and overwrite prompts, method[args], limits, grids, attributes, command words and flags, checks of the plot options, the validators | argparse's tokenising and help texts, the plot command's --options |
| cis/parse_datetime.py, cis/time_util.py | partial dates, deltas, conversions to days since 1600, set_year | dateutil's own grammar (a parameter), time zones |
| cis/cis_main.py | subset, aggregate, collapse, collocate, eval and stats commands over files, dispatch of commands, info | plot_cmd, version; logging |
| cis/evaluate.py, cis/maths.py | checks and namespace, output, all arithmetic | the text of histories; Python's `eval` (a parameter) |
| cis/stats.py | all statistics | output tables |
| cis/plugin.py, products/AProduct.py, cis/info.py | discovery and choice of classes, listing of variables, reported errors, info | importing files (its result is a parameter) |
| cis/collocation/* | kd-tree, haversine tree, constraints, kernels, ungridded collocator, grid indexes, binned collocation as used by aggregation and sampled_from, interpolation of gridded data, the gridded-gridded collocator | iris' own interpolation (a parameter of the theorems) |
| cis/subsetting/*, cis/aggregation/* | limits, shape masks, aggregation, collapse | shapely's geometry (a parameter) |
| cis/data_io/ungridded_data.py, Coord.py, common_data.py, hyperpoint*.py | objects, copies, slices, coordinates, views, points, lists, lazy loading, data frames | pandas' own behaviour (contracts) |
| cis/data_io/gridded_data.py | set_longitude_range, collapse, lists and their methods, attributes, history, construction, save arguments, hyperpoint view, sampled_from | iris cubes' own behaviour (contracts) |
| cis/data_io/netcdf.py, hdf*.py, products/* | masking and scaling, MODIS L2 slices and coordinates, MODIS L3, names of Aeronet columns and values of Aeronet files, the product that reads CIS files, NCAR_NetCDF_RAF, CloudSat, CALIOP, NetCDF_Gridded, HadGEM, CCI Level 2 and the callbacks of Level 3, EarthCARE, text files of points, write_netcdf | the netCDF4, pyhdf and pandas libraries (contracts), coordinates of the other products |
| cis/plotting/* | the numbers of a Taylor diagram (`Taylor.__init__`), the arrays of 2-D plots of gridded data (`_cube_manipulation`), the layers of a plot and their options (`multilayer_plot`, `Plotter`, `plot_cmd`), the size, limits, ticks, labels and levels of a plot, what comparative scatter plots, histograms, lines and scatter plots draw, the choice of axes and type (`get_axis`, `basic_plot`) | colours, markers, axes and drawing: its effects are pictures |

Simplifications that run through the model: numbers are exact (Q, Z or R; no rounding, overflow or signed zero); texts are lists of 8-bit characters;
Python's recursion limits, memory exhaustion and warnings are left out. External libraries appear as the contract stated at the call, or as parameters the
theorems quantify over. Nothing was run: the model is faithful by reading.

## Trusted base

* Coq 8.16.1's kernel (with its `vm_compute` machine), and the standard library. No other library is used by any theorem.
* Axioms: none of our own. Theorems that speak of real numbers (haversine distances, collocation with distances, statistics) rest on the axioms of the
  standard library's `Reals`: `ClassicalDedekindReals.sig_forall_dec`, `ClassicalDedekindReals.sig_not_dec`,
  `FunctionalExtensionality.functional_extensionality_dep` and, through a few lemmas of `Reals`, `Classical_Prop.classic`. All other theorems are closed.
  The list per theorem is at the end of this file (made by `tools/mkassum.py` from `Print Assumptions`).
* The model and the specifications (`*Model.v`, `*Spec.v`), and the contracts of external libraries stated in the comments of the model.

## How the theorems were tested

`seeded/LOG.jsonl` lists the seeded bugs: each edits one definition of a `*Model.v` file in a scratch copy (`tools/mutate.py`), rebuilds, and records which
theorems stop proving. Where a theorem of the property concerned survived, the specification was tightened (usually by giving it its own tables and
definitions instead of the model's) and the edit tried again.

## Assumptions per theorem (output of Print Assumptions)

<!-- assumptions -->
* **closed under the global context** (no axioms) - 738 theorems:
  C01_ordered_set_refines_insertion_list, C02_index_iterator_enumerates, C02_index_iterator_position, C02_unravel_index_inverts, C03_command_line_file_list, C03_expand_filelist, C03_only_files_partial, C03_only_files_refuted, C04_every_element_mentions_a_key, C04_keys_unique, C04_last_mention_wins, C05_detected_range_contains_points, C05_ungridded_wrap, C05_views_wrap, C05_wrap_pair, C06_axis_outside_range_unchanged, C06_into_range_refuted, C06_rotation_keeps_columns_partial, C07_split_outside_brackets, C08_accepted_values_checked_partial, C08_escaped_colons_round_trip, C08_single_option_unchecked_refuted, C08_valid_options_accepted, C09_aliases_unique, C100_aggregate, C100_ambiguous, C100_bare_refuted, C100_collapse, C100_collocate, C100_command_help, C100_command_partial, C100_command_refuses, C100_eval, C100_expression_refuted, C100_first_help, C100_first_refuted, C100_first_table, C100_first_wrong, C100_help, C100_info, C100_negative_refuted, C100_no_such_command, C100_no_text, C100_order_refuted, C100_plot, C100_refused, C100_settings_partial, C100_stats, C100_subset, C100_tables, C100_unknown, C100_version, C101_dates_partial, C101_grid_hours_refuted, C101_grid_numbers, C101_grid_partial, C101_gridded_numbers_refused, C101_gridded_partial, C101_gridded_unknown, C101_last_second_refuted, C101_mixed_refused, C101_no_grid, C101_no_limit, C101_no_step, C101_numbers, C101_order, C101_period_partial, C101_single_grid, C102_aggregate, C102_arithmetic, C102_collapse, C102_collapse_refuted, C102_evaluate, C102_files_refuted, C102_limits_legible, C102_shape_refuted, C102_steps, C102_subset_none, C102_subset_partial, C102_subset_unknown, C103_aggregate, C103_bad_line, C103_collapse_partial, C103_collapse_refuted, C103_format_refuted, C103_no_command_refuted, C103_no_log_partial, C103_no_log_refuted, C103_one_group, C103_only_interrupt, C103_run, C103_subset, C103_told, C103_version, C104_index_unmasked, C104_one_value, C104_pairs, C104_partition, C104_rejects, C104_wrong_mask, C105_all_points, C105_all_points_array, C105_array, C105_each_alone, C105_fewer_partial, C105_matrix, C105_matrix_width, C105_near, C105_near_each_alone, C105_near_width, C105_none_wanted_refuted, C105_norm, C105_one_point, C105_width, C106_attributes_refused, C106_by_standard_name, C106_coords, C106_dropped_refuted, C106_duplicate, C106_itself, C106_like, C106_like_missing_refuted, C106_not_found_partial, C106_not_shared, C106_only, C106_several, C106_shared, C106_single_refuted, C106_standard_partial, C106_standard_refuted, C107_coordinates, C107_data, C107_differs, C107_hash_refuted, C107_itself_partial, C107_itself_refuted, C107_kinds, C107_lengths, C107_lengths_refuted, C107_member, C107_other, C107_other_names, C107_other_refuted, C107_single, C107_symmetric_refuted, C107_transitive_refuted, C107_unnamed_refuted, C108_again, C108_describes, C108_empty_refuted, C108_no_range_refuted, C108_short, C108_stale_refuted, C10_overwrite_needs_consent, C10_validated_output, C11_constructor_total, C11_gaps_rejected, C11_last_year_refuted, C11_range_is_the_period_partial, C11_text_is_read_back, C12_days, C12_fraction_misread, C12_period_adds_up, C12_unknown_units_rejected, C13_counted_from_midnight_partial, C13_ordinals_count_days, C13_right_iff_reference_at_midnight_refuted, C14_change_year_of_all, C14_set_year, C15_binned_characterised, C15_binned_once_partial, C15_decreasing_refuted, C15_no_points, C15_one_cell_only, C16_agree_partial, C16_agree_refuted, C16_lookup, C17_ball_point_eps, C17_ball_point_exact, C17_ball_point_wrong_length, C17_ball_tree_exact, C17_count_exact, C17_pairs_exact, C17_sparse_exact, C18_leafsize_refuted, C18_partition_partial, C18_rejects, C19_query_eps_bound, C19_query_exact, C25_data_with_values, C26_no_points, C27_affine, C27_bounded, C27_cell_bounds, C27_linear, C27_masked_neighbour_refuted, C27_node, C27_single_point_axis_refuted, C28_nearest, C29_circular_refuted, C29_first_dimension_refuted, C29_one_dimension_refuted, C29_second_dimension_partial, C30_limits_partial, C30_refuted, C30_unknown_name, C30_with_longitude_partial, C31_off_seam_partial, C31_refuted, C32_limits_partial, C32_one_variable_partial, C32_refuted, C33_mask_partial, C33_refuted, C34_cells_partial, C34_empty_range, C34_refuted, C35_aggregation_partial, C35_binned_conservation_partial, C35_conservation_partial, C35_counted_partial, C35_list, C35_missing_coordinates, C35_refuted, C36_collapse_partial, C36_kernels_partial, C36_new_dims, C36_refuted, C38_coordinates, C38_objects, C38_removed_in_step, C38_second_pass_changes_nothing, C39_calls, C39_coord, C39_copy, C39_copy_with_data, C39_history, C39_independent, C39_list, C39_slice, C40_gridded_points_partial, C40_hyper_point_swapped_refuted, C40_iteration_single_point_refuted, C40_other_dimension_refuted, C40_points_partial, C40_single_coordinate_refuted, C41_caliop, C41_cloudsat_sds_partial, C41_cloudsat_vds, C41_hdf_sd, C41_hdf_vd, C41_modis, C41_netcdf_fails, C41_netcdf_partial, C41_refuted, C42_chosen, C42_found_partial, C42_named, C42_refuted, C43_offered_partial, C43_override_partial, C43_refuted, C44_first_kept, C44_refuted, C44_saved_partial, C44_succeeds, C44_wrong_size, C45_partial, C45_refuted, C45_two_dimensions, C46_accepts, C46_compatible_partial, C46_prefix, C46_rank_refuted, C47_append_keeps, C47_lookup_partial, C47_single_coordinate_refuted, C47_unique, C47_unnamed_refused_refuted, C48_accepted, C48_attributes, C48_confined, C48_decided, C48_double_underscore_refused, C49_coordinate, C49_in_place, C49_left_unchanged_partial, C49_new_partial, C49_one_in_place, C49_one_operand_partial, C49_others, C49_refused, C49_refuted, C49_shares_nothing, C49_sum_units, C50_default_step_covers, C50_dividing_step_covers_partial, C50_remainder_uncovered_refuted, C50_zero_minimum_refuted, C51_names, C51_partial, C51_refuted, C51_version, C52_every_group_refuted, C52_last_group_partial, C52_one_group_partial, C53_accepted_text_has_one_number, C53_distances_convert, C54_comparison_decides, C54_nan_free_partial, C54_symmetry_refuted, C55_apply_mask_is_union, C55_concatenate_keeps_masks, C55_expand_duplicates, C55_missing_values_masked, C55_no_mask_no_change, C55_two_arrays_share_the_union, C56_bare_method, C56_blanks_removed_refuted, C56_method_and_args, C56_multi_split_keeps_text, C57_columns_partial, C57_decreasing_refuted, C57_dims_refuted, C58_refuted, C58_round_trip_partial, C59_copy_partial, C59_equal_partial, C59_range, C59_refuted, C59_slice_of_rest, C59_slice_partial, C60_partial, C60_refuted, C61_aggregate, C61_collapse, C61_collocate_refuted, C61_evaluate, C61_inputs_kept, C61_stats, C61_stats_quiet, C61_subset, C62_alias_shift_refuted, C62_aliases_partial, C62_datagroups_partial, C62_one, C62_pattern_in_eval_refuted, C62_read, C62_surplus_refuted, C62_total, C63_other_place_refuted, C63_same_place_partial, C64_bad_value_refuted, C64_missing_sample_partial, C65_limits, C65_nothing_ignored_partial, C65_one_meaning, C65_refuted, C66_grid, C66_one_meaning, C66_refuted, C67_attributes, C68_bin_partial, C68_exact, C68_list, C68_missing, C68_refuted, C69_methods, C69_partial, C69_refuted, C69_undefined, C70_partial, C70_refused, C70_refuted, C71_bins_partial, C71_described, C71_file_types, C71_names, C71_one_description, C71_partial, C71_read, C71_refuted_bins, C71_refuted_height, C71_refuted_order, C72_cells_partial, C72_missing, C72_mixed, C72_names, C72_no_height, C72_profiles_partial, C72_refuted_time, C73_cells_partial, C73_columns, C73_missing, C73_names, C73_other_levels, C73_refuted_altitudes, C74_missing, C74_names, C74_no_data, C74_not_a_number, C74_refuted, C74_rows_partial, C75_aux_time, C75_names, C75_offered, C75_offered_refuted, C75_overhang, C75_own_place_partial, C75_place_refuted, C75_read_partial, C75_refused, C75_time_refuted, C75_units_refuted, C77_extra_refuted, C77_heatmap_partial, C77_heatmap_refuted, C77_heatmap_swapped_refuted, C77_hybrid_partial, C77_hybrid_refuted, C77_longitude, C77_points_partial, C77_square_refuted, C78_axes_refuted, C78_comparative, C78_comparative_refuted, C78_comparative_two, C78_layers_partial, C78_multilayer, C78_one_partial, C78_one_type_refuted, C78_taylor, C78_taylor_mixed, C78_type_partial, C78_type_refuted, C78_variables_refuted, C79_bad_type, C79_chosen, C79_compared, C79_curtain_refuted, C79_fallback_partial, C79_guess_partial, C79_layers, C79_layers_refuted, C79_named_partial, C79_own_coordinate, C79_profile_refuted, C79_single_refuted, C79_squeeze, C79_unknown_refuted, C80_moments, C80_names_needed, C80_needs, C80_one_way, C80_partial, C80_read, C80_refuted_mixed, C80_refuted_units, C80_refuted_unnamed, C81_missing, C81_partial, C81_refuted, C81_stamp, C82_columns, C82_partial, C82_points, C82_refuted, C82_refuted_many, C83_dateline_refuted, C83_interpolation, C83_interpolation_refuted, C83_missing_refuted, C83_partial, C83_refuted, C84_across, C84_files_refuted, C84_index_beyond, C84_index_refuted, C84_missing_refuted, C84_pixels_partial, C84_place_refuted, C85_offered, C85_partial, C85_refuted, C85_undated, C85_unquoted, C85_value, C86_convsh_partial, C86_height_units, C86_history_refuted, C86_names, C86_pp_clash_refuted, C86_pp_names_refuted, C86_pp_partial, C86_pressure_refuted, C86_time_refuted, C87_bar_step, C87_coastlines, C87_contour_partial, C87_contour_refuted, C87_label_partial, C87_label_refuted, C87_limits_partial, C87_limits_refuted, C87_lower_limit_refuted, C87_map, C87_map_global, C87_map_limits, C87_map_limits_refuted, C87_other_axis, C87_picture, C87_pressure_partial, C87_pressure_refuted, C87_pressure_ticks_refuted, C87_size, C87_tick_text, C87_times_partial, C87_times_refuted, C88_bar_styles, C88_comparison_partial, C88_comparison_refuted, C88_coordinate_refuted, C88_diagonal, C88_histogram, C88_histogram2d, C88_line, C88_line_columns_partial, C88_line_plot, C88_line_refused, C88_line_refuted, C88_line_styles, C88_line_tracks, C88_no_bins, C88_scatter, C88_sizes, C89_all_refuted, C89_args, C89_args_product_refuted, C89_both_refuted, C89_caliop_partial, C89_caliop_refuted, C89_cloudsat, C89_dimensions, C89_ending_refuted, C89_errors, C89_errors_refuted, C89_exclude, C89_exclude_groups_refuted, C89_groups, C89_info, C89_modis_partial, C89_modis_refuted, C89_names, C89_type, C89_unopened, C89_unreadable_refuted, C90_aggregate, C90_bare_output_refuted, C90_before_refuted, C90_checks_partial, C90_chosen, C90_collapse, C90_collocate, C90_commands, C90_contlevels_refuted, C90_dimensions_partial, C90_dimensions_refuted, C90_equals_refuted, C90_eval, C90_flags, C90_goes_on, C90_levels_partial, C90_levels_refuted, C90_mandatory, C90_mandatory_plot, C90_no_command_refuted, C90_other_words, C90_plot, C90_plot_group, C90_quiet, C90_stats, C90_subset, C91_coord_tuple, C91_data, C91_modified_partial, C91_modified_refuted, C91_new, C91_points_back, C91_pressure_ratio_partial, C91_pressure_ratio_refuted, C91_round_trip_partial, C91_round_trip_refuted, C91_same_point, C91_separations, C92_collocation_partial, C92_columns, C92_coordinates_partial, C92_dropna, C92_list_lengths, C92_list_partial, C92_refuted, C92_rows_partial, C93_all_changed_partial, C93_all_changed_total, C93_attribute_removed_partial, C93_attribute_removed_refuted, C93_attributes, C93_changed_refuted, C93_collapsed, C93_collapsed_total, C93_construct, C93_construct_total, C93_default_plot, C93_each, C93_each_total, C93_extract_is_none, C93_extract_none, C93_extract_partial, C93_extract_refuted, C93_extract_total, C93_files_read_partial, C93_files_refuted, C93_files_set_partial, C93_first, C93_half_changed, C93_history, C93_init, C93_init_error_partial, C93_init_error_refuted, C93_kernel_default, C93_kernel_unknown, C93_kernels, C93_make_new_partial, C93_make_new_refuted, C93_moments_distinct_partial, C93_moments_distinct_refuted, C93_moments_named, C93_saved_list_refuted, C93_saved_on_variable_partial, C93_unlimited_time, C93_wrong_kind, C94_compare_partial, C94_compare_refuted, C94_convert, C94_convertible, C94_dates, C94_dates_refuted, C94_degrees, C94_equal, C94_flattened_partial, C94_flattened_times_partial, C94_flattened_times_refuted, C94_flattened_units_partial, C94_flattened_units_refuted, C94_guess_refuted, C94_history, C94_if_valid, C94_name, C94_netcdf, C94_new, C94_not_converted, C94_other_units, C94_range, C94_range_refuted, C94_set_again_partial, C94_set_again_refuted, C94_stamp_refuted, C94_standard_name, C94_there_and_back, C94_tidied, C94_times, C94_times_failed, C94_times_told, C94_units, C95_answers, C95_closed, C95_hdf, C95_hdf_datasets, C95_hdf_once_refuted, C95_hdf_tables_again, C95_hdf_tables_partial, C95_hdf_unknown, C95_listed, C95_many, C95_read, C95_reader, C95_reader_callback, C95_reader_error, C95_unknown_group, C95_unknown_partial, C95_unknown_refuted, C96_cis_files, C96_format, C96_full_name, C96_hierarchy_partial, C96_hierarchy_refuted, C96_named, C96_named_error, C96_netcdf, C96_no_coordinates, C96_no_format, C96_no_pressure, C96_none, C96_only_error, C96_order, C96_product, C96_product_refuted, C96_signature, C96_source, C96_unreadable, C97_asked_list_refuted, C97_asked_refuted, C97_asked_regrid_refuted, C97_complete, C97_gridded, C97_gridded_complete, C97_history_partial, C97_history_refuted, C97_kernel_refused, C97_kernel_unread, C97_kernels, C97_kernels_unknown, C97_limit_unknown, C97_limits_unread, C97_names_from_grid, C97_names_grid, C97_names_points_partial, C97_names_regrid_partial, C97_onto, C97_onto_coordinates, C97_onto_default_fails, C97_onto_default_partial, C97_onto_default_refuted, C97_refused, C97_ungridded, C97_ungridded_complete, C97_unread_refuted, C98_map_partial

* `ClassicalDedekindReals.sig_forall_dec`, `ClassicalDedekindReals.sig_not_dec`, `Classical_Prop.classic`, `FunctionalExtensionality.functional_extensionality_dep` - 76 theorems:
  C104_answers, C104_index_masked_partial, C104_nearest, C104_none_left, C104_within_partial, C20_complete_partial, C20_equator_exact_partial, C20_includes_far_point_refuted, C20_misses_close_point_refuted, C20_shape, C20_sound_partial, C21_bounds, C21_is_great_circle, C21_periodic, C21_symmetric, C21_triangle, C21_zero, C22_kernel_column_order_refuted, C22_kernel_empty, C22_kernel_nearest_partial, C22_tree_nearest_partial, C22_tree_nearest_refuted, C23_agree, C23_simple, C23_tree_anywhere_partial, C23_tree_equator_partial, C23_tree_no_distance, C23_zero_distance_refuted, C25_alignment, C25_all_missing_refuted, C25_kernels_qualify, C25_mean, C25_several, C76_bias_limit, C76_bias_scale, C76_different_missing_refuted, C76_drawn, C76_inside, C76_inside_folded, C76_log_missing_refuted, C76_log_negative_refuted, C76_marks, C76_refuted, C76_statistics_partial, C76_two_dimensional_refuted, C91_comparisons, C91_distance, C91_furthest, C91_furthest_twice, C98_band_refuted, C98_bar, C98_bar_label, C98_bar_options, C98_bar_orientation, C98_coast_partial, C98_complete, C98_extent_refuted, C98_grid, C98_labels, C98_map_refuted, C98_output, C98_picture_partial, C98_projection_limits_refuted, C98_projection_refuted, C98_scales_never, C98_scales_partial, C98_ticks_partial, C98_title, C99_constraint_partial, C99_fewer, C99_furthest_partial, C99_longitudes_refuted, C99_nearest_partial, C99_not_indexed, C99_reindexed_refuted, C99_within_partial

* `ClassicalDedekindReals.sig_forall_dec`, `ClassicalDedekindReals.sig_not_dec`, `FunctionalExtensionality.functional_extensionality_dep` - 11 theorems:
  C102_comparison, C102_comparison_fails, C102_two_variables, C24_no_points, C24_order_independent, C24_values, C37_defined, C37_refuted, C37_sizes, C37_statistics_partial, C76_reference

* `ClassicalDedekindReals.sig_forall_dec`, `FunctionalExtensionality.functional_extensionality_dep` - 4 theorems:
  C24_mean_between, C26_altitude, C26_pressure, C26_time
