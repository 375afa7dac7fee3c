{"id": "C01", "title": "Rank bounds partition a dimension", "statement": "For an even split of n elements over s ranks, the half-open ranges returned by get_rank_bounds for ranks 0..s-1 are consecutive, start at 0, end at n, never overlap, and their lengths differ by at most one; a rank that gets no elements gets None.", "quantifier": "every element count n >= 0, every rank count s >= 1, every rank", "why_tests_cant": "The numbers of elements and ranks are unbounded; off-by-one losses show up only for particular remainders.", "anchors": ["src/ocgis/vmachine/mpi.py: get_rank_bounds"]}
{"id": "C02", "title": "Index decompositions cover the index space exactly once", "statement": "create_slices(length, size) with 1 <= size <= length returns size non-empty, consecutive slices that together select every index of range(length) exactly once; create_nd_slices(splits, shape) returns one slice tuple per cell of the split lattice, and every index tuple of the shape belongs to exactly one of them. If a dimension is asked for more pieces than it has elements the call raises.", "quantifier": "every length and size; every shape and split tuple of every rank", "why_tests_cant": "Shapes and split counts are unbounded and the property concerns every index of the array.", "anchors": ["src/ocgis/vmachine/mpi.py: create_slices, create_nd_slices"]}
{"id": "C03", "title": "Updating a distribution gives every element of one dimension to exactly one rank", "statement": "After OcgDist.update_dimension_bounds at most one dimension stays distributed (a longest one); the local bounds of that dimension on the non-empty ranks are consecutive and cover the whole dimension, each rank's size and source index agree with its bounds, the remaining ranks are empty, and the other dimensions are unchanged and no longer distributed. A second update raises.", "quantifier": "every set of dimensions, rank count and minimum element count", "why_tests_cant": "The number of ranks, dimensions and sizes is unbounded, and the property relates the state of all ranks at once.", "anchors": ["src/ocgis/vmachine/mpi.py: OcgDist.update_dimension_bounds, get_rank_bounds", "src/ocgis/variable/dimension.py: Dimension.set_size, Dimension.convert_to_empty"]}
{"id": "C04", "title": "Global slices translate to the local part of the slice", "statement": "get_global_to_local_slice((start, stop), (lower, upper)) returns the local positions of exactly the global indices that lie both in [start, stop) and in [lower, upper), and None exactly when there is no such index (negative and omitted ends follow the function's documented treatment).", "quantifier": "all integer starts, stops and local bounds", "why_tests_cant": "The four-way case split on integers has boundary cases (touching, contained, inverted) that sampling misses.", "anchors": ["src/ocgis/vmachine/mpi.py: get_global_to_local_slice"]}
{"id": "C05", "title": "A distributed slice equals the serial slice of the gathered dimension", "statement": "When every rank slices its part of a distributed dimension with the same global slice, the concatenation over ranks of the selected source indices equals the slice of the undistributed dimension, the new global bounds are (0, total), and the new local bounds of non-empty ranks are consecutive from 0 to total.", "quantifier": "every distribution of every length over any number of ranks, every slice", "why_tests_cant": "Requires running with arbitrarily many ranks and relating all of them.", "anchors": ["src/ocgis/variable/dimension.py: Dimension.get_distributed_slice", "src/ocgis/vmachine/mpi.py: get_global_to_local_slice, get_nonempty_ranks"]}
{"id": "C06", "title": "Distributed dimensions created from local sizes get prefix-sum bounds", "statement": "create_distributed_dimension called with local sizes s_0..s_{k-1} gives rank i the local bounds (s_0+..+s_{i-1}, s_0+..+s_i) and the common global bounds (0, sum); ranks with size zero are empty.", "quantifier": "every number of ranks and every list of local sizes", "why_tests_cant": "The start index travels through a chain of rank-to-rank messages whose length is the number of ranks.", "anchors": ["src/ocgis/variable/dimension.py: create_distributed_dimension"]}
{"id": "C07", "title": "Global identifiers are unique and consecutive across ranks", "statement": "arange_from_dimension on a distributed dimension, and Variable.create_ugid_global, give the elements, read in rank order, the consecutive values start, start+1, ...; hence no two elements on any ranks share an identifier.", "quantifier": "every number of ranks, every local size (zero included), every start value", "why_tests_cant": "Concerns all ranks at once and arbitrarily many of them.", "anchors": ["src/ocgis/util/helpers.py: arange_from_dimension", "src/ocgis/variable/base.py: Variable.create_ugid, create_typed_variable_from_data_model", "src/ocgis/variable/base.py: Variable.create_ugid_global"]}
{"id": "C08", "title": "Scatter followed by gather is the identity", "statement": "Scattering a variable along its distributed dimension according to rank bounds and gathering it on the root returns the original values, mask and dimension size; empty ranks contribute nothing.", "quantifier": "every array length and content, every consecutive distribution over any number of ranks", "why_tests_cant": "Round trip over arbitrarily many ranks and sizes.", "anchors": ["src/ocgis/vmachine/mpi.py: variable_scatter, variable_gather, hgather, vgather"]}
{"id": "C09", "title": "Globally unique array", "statement": "create_unique_global_array returns, over all ranks together, every distinct input value exactly once, and each rank only returns values it was given.", "quantifier": "every number of ranks and every non-empty list of values per rank (a rank without values makes the call raise)", "why_tests_cant": "The exchange depends on which ranks overlap; the number of ranks and values is unbounded.", "anchors": ["src/ocgis/util/helpers.py: create_unique_global_array"]}
{"id": "C10", "title": "Coordinate index reduction is correct under every message schedule", "statement": "reduce_reindex_coordinate_index: whenever the exchange completes, equal old indices are mapped to equal new indices on all ranks, different ones to different ones, new indices are 0..k-1 (plus the start index), and the returned unique array indexed by the new index gives back the old index. The exchange always completes.", "quantifier": "every number of ranks, every content, every interleaving of message delivery", "why_tests_cant": "Interleavings of asynchronous messages cannot be enumerated by tests.", "anchors": ["src/ocgis/spatial/geomc.py: reduce_reindex_coordinate_index, run_rr_root, run_rr_nonroot, search_for_destinations"]}
{"id": "C11", "title": "Communicator scopes are always undone", "statement": "After any well-nested sequence of vm.scoped blocks, whether the bodies finish or raise, the current communicator and the set of live sub-communicators are what they were before; inside a block exactly the requested ranks are live.", "quantifier": "every nesting depth, every rank set, every point at which a body raises", "why_tests_cant": "Histories of scopes are unbounded and failures can happen anywhere.", "anchors": ["src/ocgis/vmachine/core.py: OcgVM.scoped, OcgVM.create_subcomm, OcgVM.free_subcomm, OcgVM.set_comm, OcgVM.is_live"]}
{"id": "C12", "title": "Slicing a dimension gives the length Python slicing gives", "statement": "len(dim[slc]) equals len(range(len(dim))[slc]) for every slice, integer, index array and boolean array that is valid for the dimension.", "quantifier": "every dimension length and every slice", "why_tests_cant": "Slice ends range over all integers and None.", "anchors": ["src/ocgis/variable/dimension.py: Dimension.__getitem__, Dimension.__getitem_main__"]}
{"id": "C13", "title": "Source indices follow slicing", "statement": "After slicing, the source indices of a dimension are the slice of its previous source indices, whether they are stored as bounds or as an index array, so that loading a sliced variable reads the same elements as slicing the loaded variable; this holds along any sequence of slices.", "quantifier": "every source index, every slice, every sequence of slices", "why_tests_cant": "Sequences of slices are unbounded; two representations must agree on all inputs.", "anchors": ["src/ocgis/variable/dimension.py: slice_source_index, Dimension._src_idx, Dimension.__getitem_main__"]}
{"id": "C14", "title": "Formatted slices select what was asked for", "statement": "get_formatted_slice turns an integer i into a slice selecting element i, None into the full slice, leaves slices unchanged, and keeps the number of dimensions.", "quantifier": "every integer, every slice, every number of dimensions", "why_tests_cant": "Integers are unbounded and negative indices are a corner.", "anchors": ["src/ocgis/util/helpers.py: get_formatted_slice, get_reduced_slice, get_slice, get_added_slice"]}
{"id": "C15", "title": "Optimised slices read the same elements", "statement": "get_optimal_slice_from_array and get_reduced_slice may replace an index array by a slice only if the slice selects the same elements in the same order.", "quantifier": "every index array", "why_tests_cant": "The arrays are unbounded; ordering and repetition are the corner cases.", "anchors": ["src/ocgis/util/helpers.py: get_optimal_slice_from_array, get_reduced_slice"]}
{"id": "C16", "title": "Trimming by mask keeps every unmasked element and is minimal", "statement": "get_trimmed_array_by_mask returns a sub-rectangle containing every unmasked element, with an unmasked element on each of its four sides, values unchanged, and reports the adjustment slices that produce it; it raises if everything is masked.", "quantifier": "every two-dimensional mask", "why_tests_cant": "All mask patterns of all sizes.", "anchors": ["src/ocgis/util/helpers.py: get_trimmed_array_by_mask, get_reduced_slice"]}
{"id": "C17", "title": "Swap chains produce the desired order", "statement": "Applying the swaps returned by get_swap_chain(actual, desired) to the actual dimension order yields the desired order, for orders that are permutations of each other.", "quantifier": "every pair of permutations of any length", "why_tests_cant": "n! orders for every n.", "anchors": ["src/ocgis/util/broadcaster.py: get_swap_chain"]}
{"id": "C18", "title": "Broadcasting by names moves axes and nothing else", "statement": "broadcast_array_by_dimension_names returns an array whose element at a position given by dimension names is the element of the source at the same named position, with extra singleton dimensions inserted or removed only where asked.", "quantifier": "every array rank, shape, content, and order of names", "why_tests_cant": "All ranks, shapes and orders.", "anchors": ["src/ocgis/util/broadcaster.py: broadcast_array_by_dimension_names, get_swap_chain, broadcast_variable"]}
{"id": "C19", "title": "Mask updates only add masked elements, never change values", "statement": "Variable.set_mask(mask, update=True) yields the element-wise OR of old and new mask, update=False the new mask; the values, dimensions and other variables are unchanged, and a mask of the wrong shape raises.", "quantifier": "every variable content and mask, every history of set_mask calls", "why_tests_cant": "Histories of mask updates are unbounded.", "anchors": ["src/ocgis/variable/base.py: Variable.set_mask, Variable.get_mask"]}
{"id": "C20", "title": "Masks cascade along shared dimensions", "statement": "Setting a mask on a collection from one variable masks, in every other variable sharing its dimensions, exactly the elements whose coordinates on the shared dimensions are masked (together with already masked ones), and leaves variables without these dimensions alone.", "quantifier": "every set of variables, dimensions, shapes and masks", "why_tests_cant": "Variables and dimension layouts are arbitrary.", "anchors": ["src/ocgis/variable/base.py: set_mask_by_variable, VariableCollection.set_mask"]}
{"id": "C21", "title": "Range selection returns exactly the elements in range", "statement": "Variable.get_between(lower, upper) selects exactly the elements whose value (or whose bounds interval, if bounds are used) meets the range, open or closed as requested, in order; it raises EmptySubsetError exactly when there are none.", "quantifier": "every value list, bounds, range and flag combination", "why_tests_cant": "All contents and range boundaries.", "anchors": ["src/ocgis/variable/base.py: Variable.get_between"]}
{"id": "C22", "title": "Temporal grouping puts every time step in exactly one group", "statement": "For groupings by date parts and for \"all\", every time step belongs to exactly one group, no group is empty, two steps are in the same group exactly when the grouped date parts agree, and group bounds enclose the members.", "quantifier": "every time vector and every combination of date parts", "why_tests_cant": "Time vectors are unbounded.", "anchors": ["src/ocgis/variable/temporal.py: TemporalVariable.get_grouping, _get_grouping_other_, _get_grouping_all_"]}
{"id": "C23", "title": "Seasonal grouping assigns steps by month", "statement": "For seasonal groupings, a step is in a season's group exactly when its month is in the season (and, for yearly seasons, its season year matches); steps whose month is in no season are in no group, and no requested season with data is dropped.", "quantifier": "every time vector and every list of seasons", "why_tests_cant": "Time vectors and season lists are unbounded.", "anchors": ["src/ocgis/variable/temporal.py: _get_grouping_seasonal_unique_, _get_grouping_seasonal_, get_sorted_seasons, get_time_regions, get_is_interannual"]}
{"id": "C24", "title": "Time regions select by month and year", "statement": "get_time_region({month, year}) and TemporalVariable.get_subset_by_function-style region subsets keep exactly the steps whose month and year are listed; None means no restriction.", "quantifier": "every time vector, month list and year list", "why_tests_cant": "Unbounded vectors.", "anchors": ["src/ocgis/variable/temporal.py: TemporalVariable.get_time_region, iter_boolean_groups_from_time_regions, get_time_regions"]}
{"id": "C25", "title": "Month-based time units round-trip", "statement": "get_difference_in_months terminates and counts calendar months; decoding \"months since\" values and encoding them again gives the same values.", "quantifier": "every pair of dates; every list of offsets", "why_tests_cant": "Dates are unbounded; the decoder is incremental.", "anchors": ["src/ocgis/variable/temporal.py: get_difference_in_months, get_datetime_from_months_time_units, get_num_from_months_time_units"]}
{"id": "C26", "title": "Date-within-bounds tests agree with the calendar", "statement": "get_is_date_between accepts exactly the dates whose requested part lies in the bounds' parts, including intervals that cross the turn of the year.", "quantifier": "every date and bounds", "why_tests_cant": "All dates; wrap-around intervals are corner cases.", "anchors": ["src/ocgis/util/helpers.py: get_is_date_between"]}
{"id": "C27", "title": "Moving windows are centred and complete", "statement": "For an odd width k the moving window calculation at step t uses exactly the steps t-k//2 .. t+k//2 that exist; mode \"valid\" computes exactly the steps with a full window and leaves the others masked; masked input elements stay masked.", "quantifier": "every series length, content and width", "why_tests_cant": "All lengths and widths.", "anchors": ["src/ocgis/calc/library/statistics.py: MovingWindow.calculate, MovingWindow._iter_kernel_values_"]}
{"id": "C28", "title": "Duration calculations see exactly the maximal runs", "statement": "The durations summarised by duration and freq_duration are the lengths of the maximal runs of consecutive steps satisfying the condition, each run counted once.", "quantifier": "every series and condition", "why_tests_cant": "All series.", "anchors": ["src/ocgis/calc/library/index/duration.py: Duration._iter_consecutive_, FrequencyDuration._get_summary_"]}
{"id": "C29", "title": "Freeze-thaw events alternate and are counted once", "statement": "freezethaw counts each change between frozen and thawed state once; recorded events alternate in sign, occur at increasing times and only where the accumulated degree days since a crossing reach the threshold.", "quantifier": "every temperature series and threshold", "why_tests_cant": "All series.", "anchors": ["src/ocgis/calc/library/index/freeze_thaw.py: freezethaw1d"]}
{"id": "C30", "title": "Tile schemas cover the grid exactly once", "statement": "get_tile_schema(nrow, ncol, tdim) returns tiles numbered 0..m-1 such that every (row, col) lies in exactly one tile, and no tile exceeds tdim on a side.", "quantifier": "every nrow, ncol, tdim >= 1", "why_tests_cant": "All sizes and remainders.", "anchors": ["src/ocgis/calc/tile.py: get_tile_schema, get_slices"]}
{"id": "C31", "title": "Tiled computation equals whole computation", "statement": "large_array.compute writes, for every grid cell, the value the calculation gives for that cell, whatever the tile size; cells are written once, and the environment flags it changes are restored, also when a tile raises.", "quantifier": "every grid size, tile size, cell-wise calculation and failure point", "why_tests_cant": "All grid and tile sizes; failures at any tile.", "anchors": ["src/ocgis/util/large_array.py: compute", "src/ocgis/calc/tile.py: get_tile_schema"]}
{"id": "C32", "title": "Wrapping longitudes is exact and reversible", "statement": "Wrapping maps coordinates in [0, 360] to (-180, 180] and unwrapping maps [-180, 180] to [0, 360), each shifting only by multiples of 360; wrapping then unwrapping (and vice versa) returns the original coordinate except at the seam; both are idempotent.", "quantifier": "every coordinate", "why_tests_cant": "Continuum of values; the seam is a corner.", "anchors": ["src/ocgis/spatial/wrap.py: CoordinateArrayWrapper, GeometryWrapper", "src/ocgis/constants.py: WRAPPED constants"]}
{"id": "C33", "title": "Longitude reordering permutes all data consistently", "statement": "Grid.reorder rotates every row so that coordinates ascend through the seam, applies the same rotation to every variable that has the longitude dimension, and loses no element.", "quantifier": "every grid shape and content", "why_tests_cant": "All shapes and split positions.", "anchors": ["src/ocgis/spatial/grid.py: Grid.reorder, reorder_array"]}
{"id": "C34", "title": "Dimension maps survive conversion to and from dictionaries", "statement": "DimensionMap.from_dict(dmap.as_dict()) equals dmap.", "quantifier": "every dimension map, groups nested to any depth", "why_tests_cant": "Nesting is unbounded; every key must survive.", "anchors": ["src/ocgis/driver/dimension_map.py: DimensionMap.as_dict, DimensionMap.from_dict"]}
{"id": "C35", "title": "Dimension map entries: last write wins, attributes have precedence order", "statement": "After set_variable, get_variable/get_bounds/get_dimension return what was set and no other entry changes; attributes follow existing-map > variable > default; setting None removes the entry; disallowed keys raise.", "quantifier": "every history of operations on a dimension map", "why_tests_cant": "Histories are unbounded.", "anchors": ["src/ocgis/driver/dimension_map.py: DimensionMap.set_variable, get_variable, set_bounds, _get_entry_, _get_element_"]}
{"id": "C36", "title": "Variable collections stay consistent", "statement": "In every collection reachable through adding, removing, renaming and extracting variables, every variable is stored under its own name, its dimensions are registered in the collection with agreeing sizes, and its parent is the collection; conflicting dimensions or duplicate names raise and leave the collection usable.", "quantifier": "every history of collection operations", "why_tests_cant": "Histories are unbounded.", "anchors": ["src/ocgis/variable/base.py: VariableCollection.add_variable, remove_variable, rename_dimension, add_dimension, Variable.extract"]}
{"id": "C37", "title": "Tags are consistent", "statement": "append_to_tags never stores a name twice under a tag, get_by_tag returns exactly the tagged variables still present in order, and removing a variable removes it from all tags.", "quantifier": "every history of tag operations", "why_tests_cant": "Histories are unbounded.", "anchors": ["src/ocgis/variable/base.py: VariableCollection.append_to_tags, get_by_tag, remove_variable"]}
{"id": "C38", "title": "Destination chunks partition the grid and re-assemble it", "statement": "iter_dst_grid_slices yields slices such that every destination cell belongs to exactly one chunk; inserting the chunk results into the master file (insert_weighted) therefore writes every cell once with its own value. With yield_idx only that chunk is yielded.", "quantifier": "every grid shape and chunk counts", "why_tests_cant": "All shapes and chunk counts.", "anchors": ["src/ocgis/driver/nc.py: _gc_iter_dst_grid_slices_", "src/ocgis/spatial/grid_chunker.py: iter_dst_grid_slices, insert_weighted", "src/ocgis/driver/nc.py: create_slices_for_dimension"]}
{"id": "C39", "title": "Merged weights address global cells", "statement": "create_merged_weight_file concatenates the chunk weight files in order and replaces each chunk-local 1-based index by the 1-based row-major global index of the same cell; applying the merged matrix therefore equals applying the chunk matrices.", "quantifier": "every grid shape, chunking and weight list", "why_tests_cant": "All shapes, chunkings and weights.", "anchors": ["src/ocgis/spatial/grid_chunker.py: create_merged_weight_file, _gc_remap_weight_variable_", "src/ocgis/spatial/grid.py: Grid._gc_create_global_indices_"]}
{"id": "C40", "title": "Spatial decomposition with a chunk index yields that chunk", "statement": "iter_spatial_decomposition(..., yield_idx=i) yields exactly the i-th piece of the decomposition; without yield_idx it yields all pieces in order, and the split polygons tile the extent.", "quantifier": "every split shape and index", "why_tests_cant": "All split counts and indices.", "anchors": ["src/ocgis/spatial/base.py: iter_spatial_decomposition, create_split_polygons, create_split_polygons_from_meshgrid_vectors"]}
{"id": "C41", "title": "Record iteration yields each element once", "statement": "Iterating a variable with followers yields one record per unmasked element of the leading variable in row-major order, each follower value being the one at the same coordinates; melted iteration yields one record per element and melted variable.", "quantifier": "every shape, mask, set of followers", "why_tests_cant": "All shapes and masks.", "anchors": ["src/ocgis/variable/iterator.py: Iterator.__iter__, get_record"]}
{"id": "C42", "title": "The slice parameter selects the requested elements", "statement": "For the slice operation parameter an integer selects that single element, a pair the half-open range, and None everything, per dimension.", "quantifier": "every integer, pair", "why_tests_cant": "Integers unbounded, negative indices.", "anchors": ["src/ocgis/ops/parms/definition.py: Slice"]}
{"id": "C43", "title": "Operation parameters reject ill-formed values", "statement": "Range parameters accept exactly two-element non-decreasing sequences; unique sequence parameters accept exactly duplicate-free sequences; boolean parameters accept exactly the documented spellings; calculation aliases must be distinct.", "quantifier": "every input value", "why_tests_cant": "Inputs unbounded.", "anchors": ["src/ocgis/ops/parms/base.py: IterableParameter.parse, BooleanParameter", "src/ocgis/ops/parms/definition.py: LevelRange, TimeRange, Calc, CalcGrouping"]}
{"id": "C44", "title": "Interpolated bounds are contiguous and contain their centroids", "statement": "For increasing (or decreasing) coordinates, the bounds produced for consecutive cells share an edge, each cell contains its coordinate, and for regular spacing the coordinate is the midpoint.", "quantifier": "every strictly monotone coordinate vector of length >= 2", "why_tests_cant": "All vectors.", "anchors": ["src/ocgis/util/helpers.py: get_bounds_vector_from_centroids, get_bounds_from_1d"]}
{"id": "C45", "title": "Corner conversions between OCGIS and ESMF are inverse", "statement": "create_ocgis_corners_from_esmf_corners(get_esmf_corners_from_ocgis_corners(c)) = c for every corner array whose neighbouring cells share corners, and every ESMF corner array is recovered from its OCGIS form.", "quantifier": "every grid shape and corner values", "why_tests_cant": "All shapes.", "anchors": ["src/ocgis/util/helpers.py: get_esmf_corners_from_ocgis_corners, create_ocgis_corners_from_esmf_corners"]}
{"id": "C46", "title": "Temporary changes are undone on every exit path", "statement": "grid_abstraction_scope, broadcast_scope, orphaned, renamed_dimensions and renamed_dimensions_on_variables leave abstraction, dimension order, parent and names as they were, whether the body returns or raises.", "quantifier": "every state, body effect class and failure", "why_tests_cant": "Failures anywhere in the body.", "anchors": ["src/ocgis/base.py: grid_abstraction_scope, orphaned, renamed_dimensions, renamed_dimensions_on_variables", "src/ocgis/util/broadcaster.py: broadcast_scope"]}
{"id": "C47", "title": "Spatial collections file fields under their container", "statement": "Every field added to a spatial collection is found again under its container identifier and name; iteration yields every field once, in insertion order of containers and fields; adding a second field with the same name to a container raises unless forced.", "quantifier": "every history of add_field calls", "why_tests_cant": "Histories unbounded.", "anchors": ["src/ocgis/collection/spatial.py: SpatialCollection.add_field, get_element, iter_fields"]}
{"id": "C48", "title": "Each requested calculation is executed", "statement": "CalculationEngine.execute evaluates every function in the calculation list, in order, on every field, each with its own definition, marking progress once per function and field.", "quantifier": "every list of calculations and fields", "why_tests_cant": "Lists unbounded.", "anchors": ["src/ocgis/calc/engine.py: CalculationEngine.execute"]}
{"id": "C49", "title": "Data availability checks for time subsets", "statement": "validate_time_subset returns True exactly when some date of the range meets the region.", "quantifier": "every date range and region", "why_tests_cant": "All ranges.", "anchors": ["src/ocgis/util/helpers.py: validate_time_subset"]}
{"id": "C50", "title": "Sorting datasets by time keeps every dataset", "statement": "get_sorted_uris_by_time_dimension returns a permutation of its input in increasing order of time.", "quantifier": "every list of datasets", "why_tests_cant": "Ties are the corner.", "anchors": ["src/ocgis/util/helpers.py: get_sorted_uris_by_time_dimension"]}
{"id": "C51", "title": "Daily percentile windows", "statement": "A date takes part in the percentile basis of a calendar day exactly when it is within half the window of that calendar day in the previous, same or next year; 29 February is taken as the gap between 28 February and 1 March in non-leap years, or is not looked for there if only leap years are asked for. The result has one entry for every calendar day that occurs in the data.", "quantifier": "every date, calendar day and odd window", "why_tests_cant": "All dates.", "anchors": ["src/ocgis/calc/library/statistics.py: DailyPercentile.get_masked, get_dict_caldays"]}
{"id": "C52", "title": "Multi-part coordinate splitting loses nothing", "statement": "Joining the pieces of iter_multipart_coordinates with the break value gives the original array, and no piece contains the break value.", "quantifier": "every array and break value", "why_tests_cant": "All arrays.", "anchors": ["src/ocgis/spatial/geomc.py: iter_multipart_coordinates"]}
{"id": "C53", "title": "Global extents enclose all local extents tightly", "statement": "get_extent_global returns the componentwise minimum and maximum over ranks: it contains every rank's extent and each side is attained.", "quantifier": "every number of ranks and extents", "why_tests_cant": "All ranks.", "anchors": ["src/ocgis/spatial/base.py: get_extent_global"]}
{"id": "C54", "title": "Serial message emulation delivers what was sent", "statement": "With the dummy communicator, a receive posted for a source and tag delivers the payload sent under that destination and tag; each sent message is received once.", "quantifier": "every history of sends and receives", "why_tests_cant": "Histories unbounded.", "anchors": ["src/ocgis/vmachine/mpi.py: DummyMPIComm, DummyRequest"]}
{"id": "C55", "title": "Environment parameters: explicit value, then environment, then default", "statement": "An environment parameter returns the explicitly set value if any, else the formatted process environment value, else the default, and reset returns to the latter two.", "quantifier": "every history of sets and resets", "why_tests_cant": "Histories.", "anchors": ["src/ocgis/environment.py: EnvParm.value, Environment.__setattr__, Environment.reset"]}
{"id": "C56", "title": "Coordinate selection inside a box", "statement": "arr_intersects_bounds and get_xyz_select select exactly the coordinates inside the box, boundary included iff touches are kept, and reject inverted ranges.", "quantifier": "every coordinate array and box", "why_tests_cant": "All arrays and boxes.", "anchors": ["src/ocgis/spatial/grid.py: arr_intersects_bounds, get_hint_mask_from_geometry_bounds", "src/ocgis/spatial/geomc.py: get_xyz_select"]}
{"id": "C57", "title": "Threshold counts", "statement": "threshold and between count, per group and cell, exactly the unmasked steps satisfying the condition; sample sizes count the unmasked steps, so the count never exceeds the sample size.", "quantifier": "every masked series and threshold", "why_tests_cant": "All series.", "anchors": ["src/ocgis/calc/library/thresholds.py: Threshold, Between", "src/ocgis/calc/base.py: get_sample_size"]}
{"id": "C58", "title": "Aggregation by group uses exactly the members of the group", "statement": "A temporal aggregation writes for every group the function of exactly that group's time steps, for every extra dimension index, and nothing else.", "quantifier": "every array shape, grouping and function", "why_tests_cant": "All shapes.", "anchors": ["src/ocgis/calc/base.py: AbstractUnivariateSetFunction, _iter_conformed_arrays_, _get_extra_indices_itr_and_src_names_"]}
{"id": "C59", "title": "Renaming keeps the source name", "statement": "An object's source name stays the name it was first given however often it is renamed, its current name is always among its aliases.", "quantifier": "every history of set_name and append_alias", "why_tests_cant": "Histories unbounded.", "anchors": ["src/ocgis/base.py: AbstractNamedObject.set_name, source_name, append_alias"]}
{"id": "C60", "title": "Zero-padded identifiers order and identify like integers", "statement": "create_zero_padded_integer gives distinct strings of the requested width for distinct in-range integers, ordered like the integers.", "quantifier": "every integer and width", "why_tests_cant": "All integers.", "anchors": ["src/ocgis/util/helpers.py: create_zero_padded_integer"]}
{"id": "C61", "title": "Grouped calculations use the field's own time", "statement": "CalculationEngine.execute with a temporal grouping groups every field of the collection by that field's own time steps.", "quantifier": "every collection of fields and grouping", "why_tests_cant": "All collections, names and times.", "anchors": ["src/ocgis/calc/engine.py: CalculationEngine.execute"]}
{"id": "C62", "title": "The touching barrier refuses touching boxes", "statement": "With no_touching, a selection raises NoTouching exactly when the box touches a coordinate, for grids and for point sets.", "quantifier": "every coordinate array and box", "why_tests_cant": "All arrays and boxes; the offending coincidence may be anywhere.", "anchors": ["src/ocgis/spatial/grid.py: get_hint_mask_from_geometry_bounds", "src/ocgis/spatial/geomc.py: get_xyz_select", "src/ocgis/spatial/grid.py: arr_intersects_bounds"]}
{"id": "C63", "title": "Iterating a variable does not change it", "statement": "Making a record iterator of a variable (get_iter) leaves the variable as it was, so that records are the same however often it is iterated.", "quantifier": "every variable and number of iterations", "why_tests_cant": "Effects may only show after repeated use.", "anchors": ["src/ocgis/variable/base.py: Variable.get_iter", "src/ocgis/variable/iterator.py: Iterator.__init__"]}
{"id": "C64", "title": "Tiled computation leaves the operations as given", "statement": "After large_array.compute returns or raises, the operations object it was given has the same callback as before, so that a second run reports progress in the same way.", "quantifier": "every operations object, tile size and failure point", "why_tests_cant": "Failures can happen at any point of the run; the object may be used again any number of times.", "anchors": ["src/ocgis/util/large_array.py: compute"]}
{"id": "C65", "title": "Slicing a collection slices dimensions and variables alike", "statement": "Slicing a collection with a dictionary from dimension names to slices (or a variable that belongs to one, with one slice per dimension) selects, in every dimension named, the elements Python indexing selects, and in every variable with such a dimension the elements of value and mask at those positions, axis by axis; other dimensions and variables stay as they are, every variable's shape agrees with its dimensions afterwards, and unknown dimensions are refused.", "quantifier": "every collection of variables sharing dimensions, every slice dictionary (integers, slices, index and boolean arrays or lists, None)", "why_tests_cant": "Combinations of dimensions, slice kinds and variables are unbounded; the arrays have any size.", "anchors": ["src/ocgis/variable/base.py: VariableCollection.__getitem__, AbstractContainer.__getitem__, Variable._getitem_main_", "src/ocgis/util/helpers.py: get_formatted_slice"]}
{"id": "C66", "title": "Slicing a field by standard names", "statement": "Field.get_field_slice with a dictionary from standard names (time, y, x, level, realization, geom) to slices returns the field sliced along the dimensions these names stand for in its dimension map, with its own dimension names, and with the same meaning as slicing by those dimension names; names the field does not have are refused, or skipped when strict is false; the field, its dimension map and the dictionary given are left as they were, whether slicing succeeds or raises.", "quantifier": "every field with any dimensions and variables, every dimension map, slice dictionary and failure point", "why_tests_cant": "Dimensions are renamed in place for the duration of the slice; combinations of names, maps, slices and failures are unbounded.", "anchors": ["src/ocgis/collection/field.py: Field.get_field_slice, get_name_mapping", "src/ocgis/base.py: renamed_dimensions_on_variables, revert_renamed_dimensions_on_variables"]}
{"id": "C67", "title": "Tables hold every record", "statement": "Writing a sequence of collections as CSV, shapefile or GeoJSON leaves a file with the records of all collections that are not empty, each once, in order, with every value under its own column, on any number of ranks; a file left from an earlier run is refused, or replaced when overwriting is allowed.", "quantifier": "every sequence of collections with any number of containers, fields, ranks, records and columns, empty or not, and every earlier file", "why_tests_cant": "Build and append modes, empty collections, several fields per collection and ranks interact; the sequences are unbounded.", "anchors": ["src/ocgis/conv/base.py: AbstractCollectionConverter.write, __iter__", "src/ocgis/conv/csv_.py: CsvConverter._write_coll_", "src/ocgis/conv/fiona_.py: AbstractFionaConverter._write_coll_", "src/ocgis/driver/base.py: write_variable_collection, _get_write_modes_", "src/ocgis/driver/csv_.py: DriverCSV._write_variable_collection_main_", "src/ocgis/driver/vector.py: DriverVector._write_variable_collection_main_, format_record_for_fiona, write_records_to_fiona"]}
{"id": "C68", "title": "A collection is empty when a part of it is", "statement": "is_empty of a collection is true exactly when the collection, one of its variables or one of its descendants is empty, whatever the number and order of its children.", "quantifier": "every tree of collections", "why_tests_cant": "Trees have any depth and any number of children.", "anchors": ["src/ocgis/variable/base.py: get_is_empty_recursive, VariableCollection.is_empty"]}
{"id": "C69", "title": "Reading a CSV table gives its cells", "statement": "The values a rank reads for a variable of a CSV file are the cells of that column in the rows it holds; ranks holding all rows between them read the whole column; what was written is read back.", "quantifier": "every table, column and distribution of the rows over ranks", "why_tests_cant": "Tables, distributions and ranges of rows are unbounded.", "anchors": ["src/ocgis/driver/csv_.py: DriverCSV.get_variable_value, _get_metadata_main_"]}
{"id": "C70", "title": "The features selected from a vector file are those asked for", "statement": "Reading geometries yields each feature satisfying the selection (identifiers, WHERE clause, or slice, alone or combined) exactly once, in file order for identifiers and clauses, with its properties and a usable identifier; a selection of nothing is refused; the length announced is the number of features yielded.", "quantifier": "every vector file, identifier column, list of identifiers, clause and slice", "why_tests_cant": "Files, selections and index arrays are unbounded, and the slices reach the loop through several normalizations.", "anchors": ["src/ocgis/spatial/geom_cabinet.py: GeomCabinetIterator, GeomCabinet.iter_geoms, _get_features_object_, get_uid_from_properties", "src/ocgis/util/helpers.py: get_formatted_slice, get_optimal_slice_from_array"]}
{"id": "C71", "title": "A variable of a vector file holds the values of its features", "statement": "After any sequence of slices of the geometry dimension, the values loaded for a property are what the same slices select from the column of the file, in the same order.", "quantifier": "every vector file, property and history of slices", "why_tests_cant": "Histories of slices and index arrays are unbounded; the source index is normalized a second time when the file is read.", "anchors": ["src/ocgis/driver/vector.py: DriverVector.get_variable_value", "src/ocgis/variable/dimension.py: Dimension.__getitem__", "src/ocgis/spatial/geom_cabinet.py: GeomCabinet.iter_geoms"]}
{"id": "C72", "title": "A string expression computes what it says", "statement": "A calculation given as a string is evaluated with every variable name replaced by that variable's values and every enabled function by NumPy's, and nothing else changed; the text before the equals sign names the result; unknown names and expressions without exactly one equals sign are refused; an expression is multivariate exactly if it uses two or more variables.", "quantifier": "every expression and every set of variable names", "why_tests_cant": "Expressions and names are unbounded texts, and names overlap in each other, in function names and in the replacements.", "anchors": ["src/ocgis/calc/eval_function.py: EvalFunction._get_eval_string_, is_multivariate", "src/ocgis/constants.py: ENABLED_NUMPY_UFUNCS"]}
{"id": "C73", "title": "Subsetting by a geometry selects its cells and leaves the field as it was", "statement": "Subsetting a field by a selection geometry returns the smallest window around the cells whose place lies in the geometry, masks the other cells of the window and nothing else, raises EmptySubsetError exactly when no cell lies inside, and leaves the field's coordinates, coordinate system and masks as they were.", "quantifier": "every field, coordinate system, range of longitudes, selection geometry and outcome", "why_tests_cant": "The field is changed before and restored after the selection, and results share memory with it; which paths restore it depends on the coordinate system, the longitudes and the exception.", "anchors": ["src/ocgis/spatial/spatial_subset.py: SpatialSubsetOperation.get_spatial_subset, _prepare_target_, _finalize_target", "src/ocgis/spatial/grid.py: get_spatial_subset_operation", "src/ocgis/variable/base.py: set_mask_by_variable"]}
{"id": "C74", "title": "Geometries and datasets of one request do not get in each other's way", "statement": "A request over several datasets and selection geometries gives for each pair, in order, what a request with that dataset and that geometry alone gives, in the coordinate system and the range of longitudes asked for; an exception is one that the pair raises alone.", "quantifier": "every list of datasets, list of geometries, output coordinate system and wrapping", "why_tests_cant": "Later geometries work on what earlier ones left of the same field, and results are views read after the whole request; the interference depends on the history.", "anchors": ["src/ocgis/ops/engine.py: OperationsEngine._process_subsettables_, _process_geometries_, _update_aggregation_wrapping_crs_, _update_wrapping_, _get_slice_or_snippet_", "src/ocgis/collection/field.py: Field.get_field_slice"]}
{"id": "C75", "title": "A spatial average is the area-weighted mean of the unmasked cells, on any number of processes", "statement": "Aggregating a field over its geometries unites exactly the unmasked geometries and replaces each data variable by the mean over the unmasked cells, weighted by their area (by count for points), for every element of the other dimensions; an element without cells is masked; the order of dimensions and variables and the number of processes do not matter.", "quantifier": "every grid, mask, set of variables, order of their dimensions and partition of the cells over processes", "why_tests_cant": "The mean must be right for every mask and every distribution; what goes wrong depends on how cells are split over processes and on the values of earlier elements.", "anchors": ["src/ocgis/variable/geom.py: GeometryVariable.get_unioned, area, weights", "src/ocgis/util/helpers.py: get_swap_chain"]}
{"id": "C76", "title": "What is written to netCDF is what is read back", "statement": "Writing a collection to netCDF - on one process, spread over several, or piece by piece as aggregated outputs are - and reading it, whole or in any block, gives the same variables, dimensions with their lengths and kinds, values, masks and public attributes; groups become groups; strings can be spelled from their characters.", "quantifier": "every collection of arrays, mask, attribute dictionary, tree of groups, partition over processes or pieces, and block that is read", "why_tests_cant": "Which cells end up masked and how large a dimension is made depend on which process holds which part; tests use a few partitions.", "anchors": ["src/ocgis/driver/nc.py: DriverNetcdf.write_variable, _write_variable_collection_main_, create_dimension_or_pass, get_variable_value", "src/ocgis/driver/base.py: write_variable_collection, get_variable_write_value", "src/ocgis/variable/attributes.py: write_attributes_to_netcdf_object", "src/ocgis/variable/base.py: set_string_max_length_global"]}
{"id": "C77", "title": "A field is written with its own coordinate system, whatever was opened before", "statement": "In every session, a field made from a dataset is written to netCDF with the coordinate system of that dataset, and a new grid marks its axes, no matter which other datasets have been opened before.", "quantifier": "every history of opening datasets, writing fields and making grids", "why_tests_cant": "The outcome depends on datasets opened earlier in the process; tests reset the environment in between.", "anchors": ["src/ocgis/driver/nc.py: DriverNetcdfCF.create_dimension_map, _get_field_write_target_", "src/ocgis/spatial/grid.py: Grid.__init__", "src/ocgis/environment.py: COORDSYS_ACTUAL, SET_GRID_AXIS_ATTRS"]}
{"id": "C78", "title": "Geometries survive the conversion to node coordinates and back", "statement": "Converting an array of points, polygons or multi-polygons to node coordinates with a connectivity, and back, gives the same geometries (rings run through counter-clockwise), in order, with the same elements masked. Packed nodes are all different, every node is used, and each row names the vertices of its geometry. Polygons with holes are refused.", "quantifier": "every array of geometries, mask, packing, repetition of the last node, row length, start index and break value", "why_tests_cant": "The conversion numbers shared vertices, parts and rings in one pass; tests convert a few shapes with the default start index.", "anchors": ["src/ocgis/variable/geom.py: GeometryVariable.convert_to, get_geom_type, get_ccw_oriented_and_valid_shapely_polygon", "src/ocgis/spatial/geomc.py: AbstractGeometryCoordinates.get_geometry_iterable, iter_multipart_coordinates", "src/ocgis/util/helpers.py: find_index"]}
{"id": "C79", "title": "Reading the geometries of a mesh gives its elements and does not change it", "statement": "Iterating over the geometries of a UGRID or ESMF mesh yields each element that is not masked as the polygon its connectivity names, nothing for masked ones, and leaves the mesh as it was, so that a second pass yields the same.", "quantifier": "every mesh (nodes, connectivity in rows or as one vector with counts), start index, mask and number of passes", "why_tests_cant": "Whether reading changes what is read shows only in later reads, and elements of different sizes, start indices and masks combine.", "anchors": ["src/ocgis/spatial/geomc.py: AbstractGeometryCoordinates.get_geometry_iterable, PolygonGC.get_element_node_connectivity_by_index, start_index", "src/ocgis/driver/nc_esmf_unstruct.py: DriverESMFUnstruct"]}
{"id": "C80", "title": "Reducing a mesh keeps its elements and drops unused nodes", "statement": "After reduce_global the mesh has the same elements with the same vertices, the same start index and mask, and every node left is used by an element.", "quantifier": "every mesh and start index", "why_tests_cant": "All indices are renumbered; the result must be right for every subset of nodes in use.", "anchors": ["src/ocgis/spatial/geomc.py: AbstractGeometryCoordinates.reduce_global, reduce_reindex_coordinate_index, cindex"]}
{"id": "C81", "title": "A spatial subset of a mesh has exactly the elements that intersect", "statement": "Subsetting a mesh by a geometry keeps, in order, exactly the elements that are not masked and that intersect it; the slice returned says which they were; the mesh itself is unchanged.", "quantifier": "every mesh or set of points, mask, and subset geometry (any predicate on geometries)", "why_tests_cant": "It must hold for every combination of masked and intersecting elements, including none and all.", "anchors": ["src/ocgis/spatial/geomc.py: AbstractGeometryCoordinates.get_spatial_subset_operation, get_distributed_slice"]}
{"id": "C82", "title": "A distributed mesh is written to the ESMF format with all its elements", "statement": "Writing a UGRID mesh that is spread over processes in the ESMF unstructured format gives a file whose elements are those of the processes, one after the other, each with its own vertices.", "quantifier": "every number of processes, mesh on each, start index and break value", "why_tests_cant": "The indices of each process are shifted by what the processes before it send; errors show only on several processes.", "anchors": ["src/ocgis/driver/nc_esmf_unstruct.py: DriverESMFUnstruct._convert_from_ugrid_"]}
{"id": "C83", "title": "Regridding treats every slice of every data variable alike", "statement": "Each element of a regridded field is the weighted sum of the source elements that have the same time, level etc., with the weights of its cell; this is so for every data variable and whether or not the field is split into slices. Cells that no source cell reaches are masked, all others are not. A RegriddingError is raised if nothing overlaps.", "quantifier": "every pair of grids, list of data variables with their dimensions in any order, sizes, values, fill value, weights and splitting", "why_tests_cant": "Dimensions are permuted, sliced, squeezed and put back; a wrong axis shows only for some orders and sizes.", "anchors": ["src/ocgis/regrid/base.py: regrid_field, iter_esmf_fields, create_esmf_grid, check_fields_for_regridding", "src/ocgis/base.py: iter_dict_slices"]}
{"id": "C84", "title": "Masked values take no part in regridding", "statement": "Changing the values of masked source elements does not change the regridded field; elements in masked destination cells are masked.", "quantifier": "every field, masks of grid and data, mask given by the caller, values below the masks", "why_tests_cant": "It compares the results for all pairs of inputs that differ only below the mask.", "anchors": ["src/ocgis/regrid/base.py: iter_esmf_fields, create_esmf_grid, regrid_field"]}
{"id": "C85", "title": "A grid is periodic exactly if its columns cover the circle", "statement": "A regular grid is handed to ESMF as periodic in longitude if and only if its columns go once around the globe, whatever longitude it starts at and however its columns are spread over processes.", "quantifier": "every number of columns, spacing, first longitude and distribution over processes", "why_tests_cant": "Tests use a few global grids; extents, spacings and distributions are unbounded.", "anchors": ["src/ocgis/regrid/base.py: get_periodicity_parameters", "src/ocgis/driver/nc.py: DriverNetcdfCF.array_resolution"]}
{"id": "C86", "title": "The resolution of evenly spaced coordinates is their spacing", "statement": "The resolution of a coordinate variable or grid axis with evenly spaced values is the spacing, or the width of the cells if there are bounds.", "quantifier": "every first value, spacing of either sign, number of values", "why_tests_cant": "A resolution is the mean of up to a hundred differences; where the values lie matters.", "anchors": ["src/ocgis/driver/nc.py: DriverNetcdfCF.array_resolution", "src/ocgis/variable/base.py: Variable.resolution"]}
{"id": "C87", "title": "A grid converted to an ESMF grid and back is the same grid", "statement": "Converting a structured grid to an ESMF grid and the result back to a grid gives the same cell centres, the same corners and the same mask, with the dimensions in their order; the result can be converted again; the grid that was converted is left as it was.", "quantifier": "every grid (vectors or arrays, with or without bounds or corners and mask), regridding method, mask given by the caller, periodic or not", "why_tests_cant": "Axes are swapped, corners are turned into shared nodes and back; an exchanged corner or axis shows only for some shapes and masks, and after more than one conversion.", "anchors": ["src/ocgis/regrid/base.py: create_esmf_grid, get_ocgis_grid_from_esmf_grid", "src/ocgis/spatial/grid.py: expand_grid, Grid.get_value_stacked"]}
{"id": "C88", "title": "A field converted to an ESMF field and back has the same data variable", "statement": "Converting a field with one data variable to an ESMF field and back gives the variable with the same dimensions in the same order, the same values and the same mask, whatever order its dimensions are in and whether or not there is time; the field that was converted is left as it was.", "quantifier": "every field, order and sizes of dimensions, values, masks", "why_tests_cant": "The variable is permuted twice each way; only some orders and sizes show a wrong axis.", "anchors": ["src/ocgis/regrid/base.py: get_esmf_field_from_ocgis_field, get_ocgis_field_from_esmf_field"]}
{"id": "C89", "title": "A regrid operation changes neither field and its result is in the system of the source", "statement": "Executing a regrid operation returns the regridded field in the coordinate system of the source, whatever the systems of source and destination; source and destination are afterwards as they were (the destination if reverting is asked for), also if regridding raises; several sources regridded to one destination give what each gives on its own.", "quantifier": "every coordinate systems of source and destination, subset, options, sequence of operations", "why_tests_cant": "It is about the state left behind after any sequence of operations, with and without failures.", "anchors": ["src/ocgis/regrid/base.py: RegridOperation"]}
{"id": "C90", "title": "A wrapped or unwrapped polygon covers the same places", "statement": "Wrapping a polygon or multi-polygon (and unwrapping one) gives a geometry that covers exactly the places the original covers, with longitudes in the new range: a point is covered if and only if it, or the point a whole turn away, was covered before; holes stay holes; wrapping and unwrapping again gives the same places.", "quantifier": "every polygon and multi-polygon, with or without holes, crossing the meridians or not; every point", "why_tests_cant": "Tests compare a few coordinates; the region has infinitely many points and the cuts depend on where the shape touches the meridians.", "anchors": ["src/ocgis/spatial/wrap.py: GeometryWrapper.wrap, GeometryWrapper.unwrap", "src/ocgis/util/helpers.py: iter_exploded_geometries"]}
{"id": "C91", "title": "The wrapped state depends on the coordinates only", "statement": "The wrapped state of a grid or geometry variable is the same whatever the order of its elements and however they are spread over processes: unwrapped if a longitude is beyond 180, wrapped if one is negative, unknown otherwise; and the wrapping action found for two states does away with their difference.", "quantifier": "every list of geometries, masks, distribution over processes (some of them empty)", "why_tests_cant": "Orders and distributions are unbounded; empty processes show up only in some runs.", "anchors": ["src/ocgis/variable/crs.py: get_wrapped_state, get_wrap_action, _get_wrapped_state_from_array_, _get_wrapped_state_from_geometry_"]}
{"id": "C92", "title": "A box prepared for subsetting covers its longitudes on any grid", "statement": "A bounding box prepared for a target grid, wrapped or unwrapped, covers exactly those points of the grid whose longitude, up to whole turns, lies in the box, also if the box reaches across the zero meridian or the 180th (e.g. because of a margin).", "quantifier": "every box, wrapped state of box and grid, and point", "why_tests_cant": "Continuum of boxes; the corner cases are boxes with a margin at the edges of global grids.", "anchors": ["src/ocgis/variable/crs.py: prepare_geometry_variable, wrap_or_unwrap", "src/ocgis/variable/geom.py: GeometryVariable.prepare", "src/ocgis/spatial/grid_chunker.py: iter_src_grid_subsets"]}
{"id": "C93", "title": "A spatial selection keeps exactly the geometries that intersect", "statement": "Selecting the geometries of a geometry variable that intersect a geometry returns the smallest block of the variable that holds them all, with exactly the selected geometries unmasked; geometries that only touch are selected only if that is asked for; masked geometries never are; with the spatial index or without it, and on one process or many, the result is the same; if nothing is selected an exception says so.", "quantifier": "every geometry variable of one or two dimensions with any mask, every geometry, both settings of the index and of touching, every distribution over processes", "why_tests_cant": "The index is an optimisation that must agree with the plain loop on every input; distributions and masks are unbounded.", "anchors": ["src/ocgis/variable/geom.py: GeometryVariable.get_intersects, get_mask_from_intersects, get_masking_slice, geometryvariable_get_mask_from_intersects", "src/ocgis/spatial/index.py: SpatialIndex.iter_intersects"]}
{"id": "C94", "title": "An intersection clips the selected geometries and changes nothing else", "statement": "Intersecting a geometry variable with a geometry replaces exactly the selected geometries by their intersections with it; the variable itself stays as it was unless the operation is in place; the slice is returned if it is asked for.", "quantifier": "every geometry variable, geometry and combination of options", "why_tests_cant": "Aliasing between the variable and its slices shows up only for some combinations of options.", "anchors": ["src/ocgis/variable/geom.py: GeometryVariable.get_intersection"]}
{"id": "C95", "title": "The nearest geometry is the nearest one", "statement": "The nearest geometry to a target is an unmasked geometry such that no other unmasked one is nearer to the target; its indices are returned if they are asked for; for variables and grids.", "quantifier": "every geometry variable, grid, mask and target", "why_tests_cant": "A minimum over all geometries, for every distance function.", "anchors": ["src/ocgis/variable/geom.py: GeometryVariable.get_nearest", "src/ocgis/spatial/grid.py: get_nearest"]}
{"id": "C96", "title": "A buffer buffers every geometry", "statement": "Buffering a geometry variable gives a variable of the same shape in which every unmasked geometry is replaced by its buffer and nothing else is.", "quantifier": "every geometry variable, with or without a mask", "why_tests_cant": "Any number of geometries and any mask; the failure is silent.", "anchors": ["src/ocgis/variable/geom.py: GeometryVariable.get_buffer"]}
{"id": "C97", "title": "Splitting removes holes and covers the same places once", "statement": "Converting polygons with holes to unstructured coordinates with split_interiors gives parts that have no holes and that cover every place the polygon covers, exactly once, and no other place.", "quantifier": "every polygon and multi-polygon with any number of holes; every place off the lines along which it is split", "why_tests_cant": "A region has infinitely many points and polygons any number of holes.", "anchors": ["src/ocgis/variable/geom.py: GeometrySplitter, GeometryVariable.convert_to(split_interiors=True)"]}
{"id": "C98", "title": "Splitting by nodes covers the same places with few nodes", "statement": "Converting polygons with node_threshold gives parts that together cover exactly what the polygon covers, none with more nodes than the threshold; polygons within the threshold stay as they are.", "quantifier": "every polygon and multi-polygon, every threshold; every place off the grid along which it is split", "why_tests_cant": "The number of nodes and parts is unbounded, and nodes may crowd anywhere.", "anchors": ["src/ocgis/variable/geom.py: get_split_polygon_by_node_threshold, GeometryVariable.convert_to(node_threshold=...)", "src/ocgis/spatial/base.py: create_split_polygons"]}
{"id": "C99", "title": "Removing self-intersections leaves a valid polygon with each node once", "statement": "Removing self-intersections from a polygon returns a valid polygon with the same nodes in the same order, each of them once; a valid polygon without repeated nodes is returned unchanged; polygons with holes are treated alike.", "quantifier": "every ring of nodes with any repetitions, every polygon", "why_tests_cant": "Repetitions may occur any number of times and anywhere in the ring.", "anchors": ["src/ocgis/variable/geom.py: do_remove_self_intersects, do_remove_self_intersects_multi"]}
{"id": "C100", "title": "Geometries that cannot be split are left out, the others are not affected", "statement": "With allow_splitting_excs the geometries whose preparation fails are left out of the converted coordinates and a warning names them; all others are converted as if the failing ones were not there; without it a failure raises an exception.", "quantifier": "every list of geometries and combination of options", "why_tests_cant": "Any subset of the geometries may fail, for any of three reasons.", "anchors": ["src/ocgis/variable/geom.py: GeometryVariable.convert_to(allow_splitting_excs=True)"]}
{"id": "C101", "title": "Conforming units keeps the quantities", "statement": "After conforming a variable to other units of the same kind, its value and its bounds stand for the same quantities as before, masked as before, and the units attribute tells the new units; converting back gives the old numbers, and converting through other units gives the same numbers as converting at once.", "quantifier": "every variable with any value, mask and bounds, all pairs of affine units of one kind, both units packages", "why_tests_cant": "There are infinitely many numbers, units and combinations of data type and bounds.", "anchors": ["src/ocgis/variable/base.py: Variable.cfunits_conform, Variable.set_value", "src/ocgis/util/units.py: get_conformed_units"]}
{"id": "C102", "title": "A failed conversion of units leaves the variable as it was", "statement": "If conforming units raises an exception, the variable and its bounds are as before the call.", "quantifier": "every variable and all units, known or not, convertible or not", "why_tests_cant": "The exception may come from any of several places for any input.", "anchors": ["src/ocgis/variable/base.py: Variable.cfunits_conform"]}
{"id": "C103", "title": "Conforming one selection does not change another", "statement": "When operations conform the units of the data variables of several selections of a field, every selection holds the quantities it held before, and the field itself does not change.", "quantifier": "every number of selections that share memory in any way", "why_tests_cant": "Selections may overlap in any pattern.", "anchors": ["src/ocgis/ops/engine.py: OperationsEngine._process_subsettables_ (conform_units_to)", "src/ocgis/util/units.py: get_conformed_units"]}
{"id": "C104", "title": "Conforming time units keeps the instants", "statement": "After conforming a time variable to other time units, its times and its bounds are the same instants as before.", "quantifier": "every time variable with values and bounds given as numbers or dates, all time units", "why_tests_cant": "There are infinitely many times and units, and four combinations of numbers and dates.", "anchors": ["src/ocgis/variable/temporal.py: TemporalVariable._get_to_conform_value_, _set_to_conform_value_, value_numtime", "src/ocgis/variable/base.py: Variable.cfunits_conform, Variable.units"]}
{"id": "C105", "title": "Numeric and calendar times always agree with the value", "statement": "At any time the numeric times and the dates read from a time variable are those of its current value in its current units, with its current mask.", "quantifier": "every history of reading, setting value, mask and units, slicing and converting", "why_tests_cant": "Histories are unbounded; the answer depends on what was read before.", "anchors": ["src/ocgis/variable/temporal.py: TemporalVariable.value_numtime, value_datetime, set_value, units, _getitem_finalize_"]}
{"id": "C106", "title": "Units of a request are applied to the variables they are given for", "statement": "units and conform_units_to of a request dataset apply element by element: each variable loaded holds, in the units to conform to, the quantities its numbers are in the units given; sequences of another length, unknown units and units of another kind are refused with a validation error; strings and units objects are accepted alike.", "quantifier": "every number of variables and every combination of units", "why_tests_cant": "Any number of variables with any units may be requested.", "anchors": ["src/ocgis/driver/request/core.py: RequestDataset.units, conform_units_to, validate_units, validate_unit_equivalence", "src/ocgis/driver/base.py: AbstractDriver.init_variable_value", "src/ocgis/driver/nc.py: init_variable_using_metadata_for_netcdf"]}
{"id": "C107", "title": "The driver fits the type of the file", "statement": "A request for one or several files without a driver argument uses the driver for the type of the files, told by their endings; files of no known type or of different types are refused with a validation error. A driver argument is followed, or refused if no driver has that key.", "quantifier": "every sequence of URIs and every driver argument", "why_tests_cant": "Any path may be given, with any directories and any number of files.", "anchors": ["src/ocgis/driver/request/core.py: get_autodiscovered_driver, get_driver", "src/ocgis/driver/registry.py: get_driver_class, driver_registry"]}
{"id": "C108", "title": "Files are found in the data directories", "statement": "A file name that does not exist as such is looked for in the configured data directories and everything below them, in the order of the directories; the path found exists and has that name; a name found nowhere raises ValueError; existing paths and remote addresses are used as they are.", "quantifier": "every file system and every list of data directories and URIs", "why_tests_cant": "Directory trees are unbounded, and names may occur several times.", "anchors": ["src/ocgis/driver/request/core.py: get_uri", "src/ocgis/util/helpers.py: locate"]}
{"id": "C109", "title": "Variables of a request keep or get the right names", "statement": "The field read for a request has as data variables exactly the variables asked for, in order, under their own or their new names, each with the data of the variable asked for, and no other variable of the file is lost. The field has the name given, the name of its one variable, or the default name. Iterating over the request gives each variable with its own units.", "quantifier": "every metadata, every list of variables and of new names", "why_tests_cant": "Any names may be given, in any number and order.", "anchors": ["src/ocgis/driver/request/core.py: RequestDataset.variable, rename_variable, rename_variable_map, metadata, field_name, __iter__, create_field", "src/ocgis/driver/base.py: AbstractDriver.create_field, create_raw_field, create_variables"]}
{"id": "C110", "title": "A request of several datasets acts like one", "statement": "A request made of several datasets gives the field of the first with the data variables of the others added, each read from its own file; a name that occurs twice is refused. Its names and units go together. Looking at its metadata changes nothing.", "quantifier": "every number of datasets and variables", "why_tests_cant": "Any number of datasets with any variables may be joined, and attributes may be read at any time.", "anchors": ["src/ocgis/driver/request/multi_request.py: MultiRequestDataset"]}
{"id": "C111", "title": "Data variables are found by their dimensions", "statement": "When no variable is asked for, the data variables of a netCDF-CF file are exactly the variables that have the dimensions of the time, the X and the Y coordinate.", "quantifier": "every metadata and dimension map", "why_tests_cant": "Files have any number of variables and dimensions.", "anchors": ["src/ocgis/driver/nc.py: DriverNetcdfCF.get_data_variable_names", "src/ocgis/driver/request/core.py: RequestDataset.variable"]}
{"id": "C112", "title": "The coordinate system of a file is the one it declares", "statement": "The coordinate system of a field read from a netCDF-CF file is the one described by the grid mapping that its variables name, with the projection parameters and the shape of the Earth given there; without a grid mapping it is the default, and a coordinate system given with the request takes precedence. Every file that follows the CF conventions can be opened.", "quantifier": "every metadata of variables and attributes", "why_tests_cant": "Files have any number of variables, attributes and parameter values.", "anchors": ["src/ocgis/variable/crs.py: CFCoordinateReferenceSystem.load_from_metadata, get_projection_coordinate, CFSpherical, CFLambertConformal, CFRotatedPole, Proj4CoordinateReferenceSystem", "src/ocgis/driver/nc.py: DriverNetcdfCF.get_crs, get_crs_variable", "src/ocgis/driver/request/core.py: crs"]}
{"id": "C113", "title": "Coordinate systems survive writing and reading", "statement": "A coordinate system written to a netCDF file and read back with the file is the same coordinate system. The PROJ.4 string is written when asked for.", "quantifier": "every coordinate system and every set of variables in the file", "why_tests_cant": "Any parameters and any names of variables may occur.", "anchors": ["src/ocgis/variable/crs.py: write_to_rootgrp, load_from_metadata"]}
{"id": "C114", "title": "Equality of coordinate systems is an equivalence", "statement": "Comparing coordinate systems with == is reflexive, symmetric and transitive, and distinguishes coordinate systems in which the same numbers mean different places.", "quantifier": "every two or three coordinate systems", "why_tests_cant": "There are unboundedly many dictionaries of parameters.", "anchors": ["src/ocgis/variable/crs.py: CoordinateReferenceSystem.__eq__, WGS84.__eq__, Spherical, Cartesian"]}
{"id": "C115", "title": "Coordinate systems are what their description says", "statement": "A coordinate system made from a dictionary, a PROJ.4 string or an EPSG code is the one described; nothing given is an error. create_crs keeps everything in the dictionary and the name asked for, and gives a sphere or WGS84 only if the dictionary describes it.", "quantifier": "every dictionary, in any order of its keys, string and code", "why_tests_cant": "Dictionaries have any keys in any order.", "anchors": ["src/ocgis/variable/crs.py: CoordinateReferenceSystem.__init__, create_crs, fuzzy_check"]}
{"id": "C116", "title": "Changing the coordinate system keeps the places", "statement": "After field.update_crs(to_crs) every grid point, grid corner and geometry of the field, masked or not, holes of polygons included, means the same place in the new coordinate system as it did in the old one, and the field is in the new coordinate system. This holds between any two coordinate systems the package has; a field without a coordinate system, and a missing destination, are refused.", "quantifier": "every field with any grid and geometries, every two coordinate systems, every behaviour of the projection libraries that is right point by point", "why_tests_cant": "Fields have any number of points and geometries, and there are infinitely many pairs of coordinate systems.", "anchors": ["src/ocgis/spatial/base.py: AbstractXYZSpatialContainer.update_crs, crs", "src/ocgis/spatial/geomc.py: GeometryVariable.update_crs", "src/ocgis/spatial/grid.py: Grid.update_crs", "src/ocgis/collection/field.py: Field.update_crs, crs", "src/ocgis/variable/crs.py: transform_grid, transform_geometry, transform_coordinates, update_with_rotated_pole_transformation"]}
{"id": "C117", "title": "Coordinates are described correctly after a transformation", "statement": "After a change of the coordinate system the units and the standard name of the horizontal coordinates are those of the new coordinate system, or are absent when it prescribes none; every other attribute, and every attribute of the level, is as before. When the field is written its data variables name the coordinate system, and the file can be opened again.", "quantifier": "every field, coordinate system and dictionary of attributes", "why_tests_cant": "Attributes are arbitrary dictionaries.", "anchors": ["src/ocgis/variable/crs.py: format_spatial_object, _update_attr_", "src/ocgis/spatial/base.py: update_crs, crs", "src/ocgis/driver/nc.py: write_variable_collection"]}
{"id": "C118", "title": "Spherical and Cartesian coordinates are converted correctly", "statement": "Transforming longitudes, latitudes and distances to Cartesian coordinates gives the point of space they mean, and transforming back gives the same longitudes, latitudes and distances, for arrays of any size; Cartesian coordinates transformed to spherical ones and back are the same too. Longitudes for which this is not so are refused.", "quantifier": "every list of points with real coordinates, degrees or radians", "why_tests_cant": "The claims are about all real numbers.", "anchors": ["src/ocgis/variable/crs.py: AbstractSphericalCoordinateReferenceSystem.transform_coordinates, transform_geometry", "src/ocgis/constants.py: ConversionFactor"]}
{"id": "C119", "title": "Stacking puts variables one after the other", "statement": "Stacking variables or collections along a dimension gives their values and masks one after the other in the order given, with the name, the units, the bounds and the other dimensions of each; variables that do not fit together (other units, other dimensions, differing unstacked variables, variables missing from a collection) are converted or refused, never mixed.", "quantifier": "every list of variables or collections of any shapes, masks and units, and every dimension", "why_tests_cant": "Any number of variables of any shape and rank.", "anchors": ["src/ocgis/variable/base.py: stack, Variable.__setitem__", "src/ocgis/collection/field.py: get_field_property"]}
{"id": "C120", "title": "A field made from records has their geometries, identifiers and attributes", "statement": "A field made from vector records has their geometries in order, their unique identifiers (their own, or 1, 2, ... if they have none), and for each attribute a variable with the value of each record, masked where the record has none.", "quantifier": "every sequence of records with any attributes, every schema and identifier name", "why_tests_cant": "Any number of records with any attributes of any types.", "anchors": ["src/ocgis/collection/field.py: Field.from_records", "src/ocgis/driver/vector.py: get_fiona_type_from_pydata, get_dtype_from_fiona_type", "src/ocgis/variable/base.py: Variable.get_mask, set_mask, get_value"]}
{"id": "C121", "title": "Groups become a dimension with the values of each group at its place", "statement": "Turning the groups of a collection into a variable puts, for every variable that shares the new dimension, the values of each group at its place along it, keeps masks, units and bounds, labels the places with the names of the groups and leaves the other variables alone.", "quantifier": "every collection of groups with any variables", "why_tests_cant": "Any number of groups and variables of any shape.", "anchors": ["src/ocgis/variable/base.py: VariableCollection.groups_to_variable, remove_variable, add_variable, add_dimension"]}
{"id": "C122", "title": "The geometry parameter means what was given", "statement": "Geometries given as dictionaries, numbers or strings are used as given: in their order, with their attributes or identifiers 1, 2, ..., each in its own coordinate system, two numbers a point and four a box; anything else is refused as no geometry.", "quantifier": "every list of dictionaries, every list of numbers and every string of numbers", "why_tests_cant": "Any number of dictionaries with any keys.", "anchors": ["src/ocgis/ops/parms/definition.py: Geom.parse, Geom.parse_string"]}
{"id": "C123", "title": "Coordinate variables are found from the metadata of a file", "statement": "For each axis (realization, time, level, y, x) of a netCDF-CF file, the variable that holds it is the one variable that declares it by its axis attribute or has a usual name for it; with none or several, the axis is absent. The dimensions along it are its first or last dimension for y and x and those it has otherwise. Standard names replace the horizontal axes where spherical coordinates are asked for. The result does not depend on the order of the variables in the file, and no variable holds two axes.", "quantifier": "every file: any number of variables with any names, dimensions and attributes, in any order", "why_tests_cant": "Any number of variables with any attributes, in every order.", "anchors": ["src/ocgis/driver/nc.py: AbstractDriverNetcdfCF.create_dimension_map, _create_dimension_map_entries_dict_, _update_dimension_map_with_entries_, create_dimension_map_entry, DriverNetcdfCF.create_dimension_map", "src/ocgis/driver/base.py: create_dimension_map"]}
{"id": "C124", "title": "The bounds of an axis are those its variable names", "statement": "The bounds of an axis are the variable of the file named by the bounds attribute of its coordinate variable (or by climatology for time), and absent otherwise; every file with readable metadata can be opened.", "quantifier": "every file with any variables and attributes", "why_tests_cant": "Any attributes on any number of variables.", "anchors": ["src/ocgis/driver/nc.py: _create_dimension_map_entries_dict_, create_dimension_map_entry"]}
{"id": "C125", "title": "The axes of a group are those of its own metadata", "statement": "The dimension map of a group, addressed by the path of the group, has the axes of the metadata of that group, for groups at any depth and whatever the names of other groups.", "quantifier": "every tree of groups", "why_tests_cant": "Groups nest to any depth with any names.", "anchors": ["src/ocgis/driver/dimension_map.py: DimensionMap.from_metadata, get_group, set_group", "src/ocgis/util/helpers.py: get_group"]}
{"id": "C126", "title": "A file is distributed along the larger of its horizontal dimensions", "statement": "Opening a file in parallel distributes, in the root and in each group with horizontal coordinates, the larger of the two horizontal dimensions (the one of x for the ESMF decomposition), and nothing where there are no such coordinates; every readable file can be opened.", "quantifier": "every tree of groups, with any variables and dimension sizes", "why_tests_cant": "Any sizes, any dimensions, any depth of groups.", "anchors": ["src/ocgis/driver/nc.py: DriverNetcdfCF.get_distributed_dimension_name", "src/ocgis/driver/base.py: AbstractDriver.create_dist, iter_all_group_keys", "src/ocgis/driver/dimension_map.py: update_dimensions_from_metadata"]}
{"id": "C127", "title": "A dimension map given by the user is used as given", "statement": "Axes, dimensions and bounds of a dimension map given by the user are kept when the file is opened; dimensions that are not given are those of the variable in the file.", "quantifier": "every dimension map and every file", "why_tests_cant": "Any combination of given and missing entries.", "anchors": ["src/ocgis/driver/dimension_map.py: DimensionMap.update_dimensions_from_metadata, set_variable"]}
{"id": "C128", "title": "The coordinates and the elements of a mesh are found from its host", "statement": "For a UGRID mesh the x and y coordinates of its nodes and of the centres of its faces are the variables the mesh names, and the mesh is distributed along its elements, whether it has nodes or only face centres.", "quantifier": "every file with a mesh topology variable", "why_tests_cant": "Any names, any number of variables.", "anchors": ["src/ocgis/driver/nc_ugrid.py: DriverNetcdfUGRID.create_dimension_map, get_distributed_dimension_name", "src/ocgis/driver/nc_ugrid.py: set_coordinate_dmap_variables"]}
{"id": "C129", "title": "Existing output is not touched without permission to overwrite", "statement": "With OVERWRITE off, a run whose output exists changes no file at any point; a run with a directory of its own never changes anything outside of it.", "quantifier": "every number of ranks, every work of the ranks, every content of the output directory, every schedule and every point of interruption", "why_tests_cant": "Ranks interleave in any order and may be interrupted anywhere.", "anchors": ["src/ocgis/ops/interpreter.py: OcgInterpreter.execute", "src/ocgis/conv/base.py: AbstractFileConverter.__init__, AbstractCollectionConverter.write"]}
{"id": "C130", "title": "Every rank of a run comes to an end", "statement": "Whatever happens, a refusal or an exception on any rank, each rank of a parallel run returns or raises; none waits for ever.", "quantifier": "every number of ranks, every work and every schedule", "why_tests_cant": "A deadlock needs one of infinitely many schedules.", "anchors": ["src/ocgis/ops/interpreter.py: OcgInterpreter.execute"]}
{"id": "C131", "title": "The output of a run is what its ranks wrote", "statement": "The directory of a run that returned on every rank holds exactly the files the ranks wrote with what they wrote last, nothing of an earlier run, and does not depend on the schedule.", "quantifier": "every number of ranks, every work, every earlier content and every schedule", "why_tests_cant": "All interleavings of any number of ranks.", "anchors": ["src/ocgis/ops/interpreter.py: OcgInterpreter.execute", "src/ocgis/conv/base.py: AbstractCollectionConverter.write"]}
{"id": "C132", "title": "A run that fails leaves no output", "statement": "When a run fails, on whichever rank, what it wrote is removed and the output of an earlier run is as it was.", "quantifier": "every number of ranks, every work, every place of an exception and every schedule", "why_tests_cant": "An exception at any point of any rank while the others go on.", "anchors": ["src/ocgis/ops/interpreter.py: OcgInterpreter.execute"]}
{"id": "C133", "title": "A run can be repeated after an interruption", "statement": "Wherever a run is interrupted, the directory never mixes old and new files, and running again gives the output of a run that was never interrupted.", "quantifier": "every number of ranks, every work, every schedule and every point of interruption", "why_tests_cant": "A crash may happen between any two steps.", "anchors": ["src/ocgis/ops/interpreter.py: OcgInterpreter.execute"]}
{"id": "C134", "title": "Extrapolated corners enclose the cell centres", "statement": "When bounds are extrapolated for a grid of cell centres given as arrays, neighbouring cells share their corners, an inner corner is the mean of the four centres around it, the corners of evenly spaced centres are half a step away from the centre, and every cell contains its centre.", "quantifier": "every number of rows and columns and all coordinates", "why_tests_cant": "Any spacing, orientation, size and data type of the coordinates.", "anchors": ["src/ocgis/variable/base.py: Variable.set_extrapolated_bounds", "src/ocgis/util/helpers.py: get_extrapolated_corners_esmf, get_ocgis_corners_from_esmf_corners"]}
{"id": "C135", "title": "Vectors and arrays of the same coordinates get the same bounds", "statement": "Extrapolated bounds do not depend on whether the coordinates of a regular grid are kept as vectors or as arrays.", "quantifier": "all coordinates", "why_tests_cant": "Two different algorithms have to agree on every input.", "anchors": ["src/ocgis/variable/base.py: Variable.set_extrapolated_bounds", "src/ocgis/util/helpers.py: get_bounds_from_1d, get_extrapolated_corners_esmf"]}
{"id": "C136", "title": "Extrapolated bounds do not depend on the distribution", "statement": "Extrapolating the bounds of a distributed coordinate vector gives, gathered, the bounds of the vector on one process.", "quantifier": "all coordinates and every way of splitting them over ranks", "why_tests_cant": "Every distribution over any number of ranks.", "anchors": ["src/ocgis/variable/base.py: Variable.set_extrapolated_bounds"]}
{"id": "C137", "title": "The geometries of a grid are its cells", "statement": "The geometry variable of a grid holds every cell once in row-major order, without geometry exactly where masked; get_point gives the cell centres, get_polygon the cells described by the bounds or corners, and expanding the grid does not change them; asking for polygons where there are no bounds raises.", "quantifier": "every grid, mask and abstraction", "why_tests_cant": "All sizes, masks, orientations and representations of coordinates.", "anchors": ["src/ocgis/spatial/grid.py: GridGeometryProcessor, Grid.get_point, Grid.get_polygon, get_geometry_variable, expand_grid"]}
{"id": "C138", "title": "Assigning a part of a variable or grid sets its values and mask", "statement": "After v[slc] = w the variable (or grid) has the values, bounds and mask of w in the indexed part and its own elsewhere.", "quantifier": "all variables, masks, bounds and slices", "why_tests_cant": "All shapes, slices and combinations of masks.", "anchors": ["src/ocgis/variable/base.py: Variable.__setitem__", "src/ocgis/spatial/grid.py: Grid.__setitem__"]}
{"id": "C139", "title": "Redistribution moves data between ranks without changing it", "statement": "After redistribute_by_src_idx the variables of the collection, gathered in rank order, have the values they had before; only their division over the ranks is more even.", "quantifier": "every number of ranks, every division of the dimension over them, every selection of source elements and all variables of the collection", "why_tests_cant": "Any earlier subset over any number of ranks, with empty ranks anywhere.", "anchors": ["src/ocgis/vmachine/mpi.py: redistribute_by_src_idx, variable_scatter, OcgDist.update_dimension_bounds", "src/ocgis/driver/nc.py: get_variable_value"]}
{"id": "C140", "title": "Splits of an index space", "statement": "get_optimal_splits gives at least one and at most as many splits as elements along every axis, and as many pieces in total as can be made without exceeding the number asked for.", "quantifier": "all sizes and shapes", "why_tests_cant": "Unbounded sizes and numbers of axes.", "anchors": ["src/ocgis/vmachine/mpi.py: get_optimal_splits"]}
{"id": "C141", "title": "Scattering a collection keeps its variables and groups", "statement": "A collection scattered from the root rank has, on every rank, all its variables and groups.", "quantifier": "all collections of variables with groups to any depth", "why_tests_cant": "Trees of groups of unbounded depth.", "anchors": ["src/ocgis/vmachine/mpi.py: variable_collection_scatter"]}
{"id": "C142", "title": "The distributed slice of a variable is the slice of the whole", "statement": "get_distributed_slice of a variable gives on every rank the elements of the slice of the whole variable that lie in the part of the rank, and an empty variable if there are none, for every slice that is valid for the whole variable.", "quantifier": "any number of dimensions and ranks, any distribution and all slices", "why_tests_cant": "Every distribution and slice, in any number of dimensions.", "anchors": ["src/ocgis/variable/base.py: Variable.get_distributed_slice", "src/ocgis/variable/dimension.py: Dimension.get_distributed_slice", "src/ocgis/vmachine/mpi.py: get_global_to_local_slice"]}
{"id": "C143", "title": "A regridding chunk gets the source cells it needs", "statement": "The part of the source grid that GridChunker cuts out for a chunk of the destination gives every destination cell of the chunk the value it gets from the whole source grid, with the default buffer and with any buffer that is at least as large as the reach of the regridding method.", "quantifier": "all rectilinear grids, fields, chunks, buffers and every regridding method with a finite reach", "why_tests_cant": "Every combination of grids, chunks and methods.", "anchors": ["src/ocgis/spatial/grid_chunker.py: GridChunker.buffer_value, iter_src_grid_subsets", "src/ocgis/spatial/grid.py: Grid.get_spatial_subset_operation, get_hint_mask_from_geometry_bounds"]}
{"id": "C144", "title": "Regridding by chunks is regridding", "statement": "Writing the chunks, regridding each and inserting the results into the master file gives the field that regridding the whole source to the whole destination gives, for any number of chunks; destination cells without source cells stay unmapped.", "quantifier": "all rectilinear grids, fields, numbers of chunks and every regridding method with a finite reach", "why_tests_cant": "Every division of grids of any size.", "anchors": ["src/ocgis/spatial/grid_chunker.py: GridChunker.write_chunks, insert_weighted, iter_dst_grid_subsets", "src/ocgis/regrid/base.py: smm"]}
{"id": "C145", "title": "Chunks keep the mask of the source grid", "statement": "A source cell that is masked in the source grid is masked in the source part of every chunk.", "quantifier": "all masked rectilinear source grids, destination grids and chunks", "why_tests_cant": "Every mask and chunk.", "anchors": ["src/ocgis/spatial/grid.py: Grid.get_spatial_subset_operation", "src/ocgis/spatial/grid_chunker.py: GridChunker.iter_src_grid_subsets"]}
{"id": "C146", "title": "Assigning an attribute of operations is like constructing with it", "statement": "OcgOperations whose attributes are assigned after construction, in any order and with refused assignments in between, are the operations that are constructed with the final values, and the last assignment raises exactly what that construction raises.", "quantifier": "all arguments, all attributes and all finite histories of assignments", "why_tests_cant": "Histories of any length over all attributes.", "anchors": ["src/ocgis/ops/core.py: OcgOperations.__init__, __setattr__, _update_dependents_", "src/ocgis/ops/parms/definition.py: Geom, OutputFormat, RegridDestination"]}
{"id": "C147", "title": "A refused assignment does not change the operations", "statement": "If assigning an attribute of OcgOperations raises, the operations are as they were before and later assignments are judged as if it had not been made.", "quantifier": "all operations, attributes and values", "why_tests_cant": "Every combination of settings and values.", "anchors": ["src/ocgis/ops/core.py: OcgOperations.__setattr__, _validate_", "src/ocgis/ops/parms/base.py: AbstractParameter._set_value_"]}
{"id": "C148", "title": "A request is accepted exactly if it meets the rules", "statement": "OcgOperations accept a request if and only if it meets the rules of its drivers, output format, regridding, coordinate systems, snippets, slices and of every one of its calculations; every refusal is a DefinitionValidationError.", "quantifier": "all requests", "why_tests_cant": "The rules interact over all combinations of settings and lists of calculations of any length.", "anchors": ["src/ocgis/ops/core.py: OcgOperations._validate_", "src/ocgis/conv/nc.py: NcConverter.validate_ops", "src/ocgis/conv/fiona_.py: GeoJsonConverter.validate_ops", "src/ocgis/conv/meta.py: MetaJSONConverter.validate_ops", "src/ocgis/conv/esmpy.py: ESMPyConverter.validate_ops", "src/ocgis/driver/base.py: AbstractDriver.validate_ops", "src/ocgis/calc/base.py: validate"]}
{"id": "C149", "title": "Regridding options are checked whatever was assigned before", "statement": "Assigning unknown or malformed regridding options to OcgOperations is refused, whatever was assigned before, and the options always have the entries regridding needs.", "quantifier": "all histories of assignments", "why_tests_cant": "The check depends on earlier assignments.", "anchors": ["src/ocgis/ops/core.py: OcgOperations.__setattr__", "src/ocgis/ops/parms/definition.py: RegridOptions._parse_"]}
{"id": "C150", "title": "The output coordinate system is the one last asked for", "statement": "The output coordinate system of OcgOperations is the one given at construction or assigned last, however other attributes change; data on a rotated pole that is clipped or aggregated is written in the spherical system for as long as it is.", "quantifier": "all histories of assignments", "why_tests_cant": "Histories of any length.", "anchors": ["src/ocgis/ops/core.py: OcgOperations._validate_"]}
{"id": "C151", "title": "The selection geometries are those asked for", "statement": "The selection geometries used are those given that have one of the selected identifiers and meet the condition, one by one, or all in one if agg_selection is set.", "quantifier": "all ways to give geometries, identifiers, conditions", "why_tests_cant": "Every file and combination of settings.", "anchors": ["src/ocgis/ops/parms/definition.py: Geom", "src/ocgis/spatial/geom_cabinet.py: GeomCabinetIterator"]}
{"id": "C152", "title": "Tiled computation asks for acceptable requests", "statement": "The requests that tiled computation (ocgis.util.large_array.compute) derives from accepted netCDF operations, for the empty file, for the offset and for every tile, are accepted, and differ from the given request only in the geometry, the slice and the format.", "quantifier": "all accepted netCDF operations", "why_tests_cant": "Every combination of settings.", "anchors": ["src/ocgis/util/large_array.py: compute", "src/ocgis/ops/core.py: OcgOperations.__setattr__, _validate_"]}
{"id": "C153", "title": "Times written as YYYYMMDD.fraction are read as written", "statement": "Time values with the units 'day as %Y%m%d.%f' are read as the dates and times of day that they write, to the minute, one for each value and in the same order, and the units become the default ones; the same holds for time bounds and for variables that are read from a file.", "quantifier": "all dates, fractions of the day, and numbers of values", "why_tests_cant": "Every date and every fraction of the day.", "anchors": ["src/ocgis/variable/temporal.py: TemporalVariable.set_value, get_datetime_from_template_time_units, get_datetime_or_netcdftime"]}
{"id": "C154", "title": "The origin of month units is the date that they write", "statement": "The origin of time units of the form 'months since <date>' is the date written after the second word, in any of the ways of the CF conventions: year and month, date, date and hour, date and time.", "quantifier": "all texts of units", "why_tests_cant": "Every text and every date.", "anchors": ["src/ocgis/variable/temporal.py: get_origin_datetime_from_months_units"]}
{"id": "C155", "title": "The archive of an output holds its files", "statement": "The archive that ocgis.format_return makes of an output, and the stream of Zipper.get_zip_stream, hold all the files of the output folder, each under a name of its own, and nothing else; calling format_return again gives the same archive.", "quantifier": "all folders, formats and numbers of calls", "why_tests_cant": "Every tree of files.", "anchors": ["src/ocgis/util/zipper.py: format_return, get_items, get_zipped_path, Zipper"]}
{"id": "C156", "title": "The progress of an execution never goes back and ends at 100", "statement": "The percentages with which OcgOperations.execute calls the callback never decrease, lie between 0 and 100, and the last one of a successful execution is 100.", "quantifier": "all numbers of datasets, geometries, calculations and messages", "why_tests_cant": "Every combination of datasets, geometries and calculations, and every sequence of messages.", "anchors": ["src/ocgis/util/logging_ocgis.py: ProgressOcgOperations", "src/ocgis/ops/engine.py: OperationsEngine._iter_collections_", "src/ocgis/calc/engine.py: CalculationEngine.execute", "src/ocgis/ops/interpreter.py: OcgInterpreter.execute"]}
{"id": "C157", "title": "The progress of a tiled computation covers the tiles evenly", "statement": "ocgis.util.large_array.compute calls the callback of the operations with percentages that never decrease, lie between 0 and 100 and end at 100, each tile having an equal share; afterwards the operations have their own callback again.", "quantifier": "all numbers of tiles, all progress of the executions for the tiles, and all numbers of computations with the same operations", "why_tests_cant": "Every number of tiles and every history of computations.", "anchors": ["src/ocgis/util/large_array.py: compute"]}
{"id": "C158", "title": "Setting a coordinate variable of a field changes that coordinate only", "statement": "After set_time, set_level, set_x, set_y, set_realization or set_level_repr of a field, the variable given is that coordinate of the field, the variable that was before has left the field with its bounds, and all other variables and coordinates are as before; None removes the coordinate; when an exception is raised the field is as before.", "quantifier": "all fields, variables and keys", "why_tests_cant": "Every field, and every overlap of names between the field and the variable's own collection.", "anchors": ["src/ocgis/collection/field.py: set_field_property, get_field_property, Field.set_time, Field.set_level, Field.set_x, Field.set_y", "src/ocgis/variable/base.py: VariableCollection.add_variable, remove_variable", "src/ocgis/driver/dimension_map.py: DimensionMap.set_variable"]}
{"id": "C159", "title": "Setting the coordinate system or the geometry of a field", "statement": "After Field.set_crs the coordinate system given is that of the field (None: there is none), the one before has left and everything else is as before; with should_add=False no variable of the field changes. After Field.set_geom the variable given is the geometry of the field, in the coordinate system of the geometry when it has one; None removes the geometry.", "quantifier": "all fields, geometries and coordinate systems", "why_tests_cant": "Every field and every combination of coordinate systems.", "anchors": ["src/ocgis/collection/field.py: Field.set_crs, Field.set_geom, Field.crs", "src/ocgis/driver/dimension_map.py: get_crs, get_variable_from_field"]}
{"id": "C160", "title": "The records of a field have its data variables and coordinates under standard headers", "statement": "Field.iter gives records with the data variables (or the variable named) first, then the followers given, the geometry, the realization, the time and the level, each once; with standardize the coordinates have the standard headers and nothing else is renamed; records of one named variable can be melted; the list of followers given is not changed.", "quantifier": "all fields and arguments, and all numbers of calls", "why_tests_cant": "Every combination of coordinates and arguments, and every history of calls.", "anchors": ["src/ocgis/collection/field.py: Field.iter, update_header_rename_bounds_names", "src/ocgis/variable/base.py: get_bounds_names_1d"]}
{"id": "C161", "title": "Searching a collection finds every variable that matches, once", "statement": "find_by_attribute returns the variables of the collection with an attribute (of the key, if one is given) that has the value or satisfies the predicate, each once and in the order of the collection, and refuses a call with neither; iter_variables_by_dimensions yields, in that order, the variables that have all the dimensions asked for.", "quantifier": "all collections, keys, values, predicates and lists of dimension names", "why_tests_cant": "Every collection of variables and attributes and every search.", "anchors": ["src/ocgis/variable/base.py: VariableCollection.find_by_attribute, iter_variables_by_dimensions"]}
{"id": "C162", "title": "The type of a geometry variable is that of its geometries", "statement": "geom_type is the type of the geometries of the variable, and a multi type when one of them has it, whenever it is read; geom_type_global is, on every rank, the type of all the geometries whatever their distribution to the ranks.", "quantifier": "all arrays of geometries with gaps, all distributions to ranks and all histories of reading and setting", "why_tests_cant": "Every array of geometries, every distribution and every order of reads and writes.", "anchors": ["src/ocgis/variable/geom.py: get_geom_type, GeometryVariable.geom_type, geom_type_global, set_value"]}
{"id": "C163", "title": "Weights and extents are those of the elements that are not masked", "statement": "The weights of a geometry variable keep its mask and are otherwise the areas over the largest, above 0 and at most 1, with the largest geometry at 1 and no geometry outweighing a larger one; the extent of a variable is the smallest and the largest of its values, or of its bounds, that are not masked, and a variable masked everywhere is refused.", "quantifier": "all arrays of geometries and masks and all variables with and without bounds", "why_tests_cant": "Every combination of areas, of masks and of bounds.", "anchors": ["src/ocgis/variable/geom.py: GeometryVariable.area, weights", "src/ocgis/variable/base.py: Variable.extent, _get_extent_target_"]}
{"id": "C164", "title": "An index array recreates the values it indexes", "statement": "create_index_array gives, for a source of any shape whose values are all in the destination, the array that creates the source when it slices the destination, or the given indices at these places, and refuses values that are not there; arange_from_bool_ndarray gives the range that its documentation promises and selects what the boolean array selects.", "quantifier": "all sources and destinations, with and without indices, and all boolean arrays", "why_tests_cant": "Every array of values, with repetitions, and every boolean array.", "anchors": ["src/ocgis/util/helpers.py: create_index_array, arange_from_bool_ndarray"]}
{"id": "C165", "title": "The datasets of a request have different identifiers", "statement": "Iterating over the datasets of a request gives each an identifier: the one it has, otherwise its place in the request, and no two datasets have the same.", "quantifier": "all requests with any number of datasets, with and without identifiers", "why_tests_cant": "Every combination of given and missing identifiers.", "anchors": ["src/ocgis/ops/parms/definition.py: Dataset.__iter__"]}
{"id": "C166", "title": "A query string gives one dataset for each URI", "statement": "The datasets parsed from a query have, in order, each URI with the variable, field name and new variable name in its place; a query whose lists do not have the same length, or without a URI, is refused with an error that says so, and one variable given for several URIs is used for each.", "quantifier": "all lists of URIs, variables and names joined by the separator", "why_tests_cant": "Every number of URIs and every combination of the other lists.", "anchors": ["src/ocgis/ops/parms/definition.py: Dataset.from_query"]}
{"id": "C167", "title": "Subsetting time by a function gives the steps at the indices it returns", "statement": "get_subset_by_function returns the time steps at the indices that the function returns, in that order and as often as they occur; a function that returns no index makes the subset empty, with the error of an empty subset.", "quantifier": "all time variables without bounds and all functions", "why_tests_cant": "Every function of the dates, with indices in every order and with repetitions.", "anchors": ["src/ocgis/variable/temporal.py: TemporalVariable.get_subset_by_function", "src/ocgis/util/helpers.py: get_formatted_slice, get_optimal_slice_from_array"]}
{"id": "C168", "title": "The subsets of time and level of a request are applied together", "statement": "A request with a time range, a time region, a function and a level range keeps exactly the time steps that are in the range and the region and at the indices of the function among these, and the levels in the range; when nothing is left, or there are no levels, it is refused as an empty subset.", "quantifier": "all fields without bounds and all combinations of the four arguments", "why_tests_cant": "Every combination of arguments and every set of times and levels.", "anchors": ["src/ocgis/ops/engine.py: OperationsEngine._get_nonspatial_subset_"]}
{"id": "C169", "title": "The coordinate variables and axes of a field are all there, once, with their sizes", "statement": "The coordinate variables of a field are its realization, time, level, y and x, each once if present and in the same order for every field; its bounds variables are the bounds of these; and the shapes of its axes give the size of each axis, with a coordinate of no dimension counting as none.", "quantifier": "all fields, with and without a grid, with coordinates of every shape", "why_tests_cant": "Every combination of present and missing coordinates and every shape of each.", "anchors": ["src/ocgis/collection/field.py: Field.coordinate_variables, bounds_variables, axes_shapes", "src/ocgis/spatial/base.py: coordinate_variables"]}
{"id": "C170", "title": "An unstructured grid lists its coordinates once and chooses its highest abstraction", "statement": "The coordinate variables of an unstructured grid are those of its geometries, each once; the abstractions available are those of its geometries, and the automatic choice is polygon before line before point.", "quantifier": "all lists of geometries", "why_tests_cant": "Every number of geometries, sharing coordinates in every way.", "anchors": ["src/ocgis/spatial/grid.py: GridUnstruct.coordinate_variables, _get_auto_abstraction_, _get_available_abstractions_"]}
