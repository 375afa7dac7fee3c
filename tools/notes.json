{
 "C03": "Proved when the dimension has at least min_elements elements or there is one rank. Refuted otherwise: a shorter distributed dimension is given to no rank.",
 "C05": "Both ends given and 0 <= start < stop; boolean masks in full. Refuted for start > stop (slice(5, 3) of a length-10 dimension gives length 8).",
 "C09": "For non-empty values on every rank; an empty one raises (also proved).",
 "C10": "The exchange is modelled as a transition system: one program counter per rank, FIFO mailboxes per pair of ranks and tag, any interleaving, optionally with the loss of a message between Test and Cancel. C10_unique, C10_correct, C10_same and C10_range hold for every number of ranks, content and schedule (even with losses). Completion: C10_completes_partial proves that from every reachable state all ranks can still finish when no message is lost and the ranks other than the root can be put on levels so that questions go down (always with one or two ranks, C10_two_ranks). The full claim is false: C10_deadlock_refuted (three ranks, two of them ask each other, each has polled before the other's question arrived: nobody ever stops) and C10_lost_refuted (two ranks, a question arrives between Test and Cancel). C10_empty_rank: an empty rank is refused with ValueError. Old indices and start index are taken non-negative (the code asserts it). Shape restoration and dtype are not modelled.",
 "C11": "Restoration proved for every program whose scopes over no ranks do not reuse an open name; refuted otherwise. In serial the names stay registered.",
 "C12": "Proved for in-range arguments. Refuted: slice(2, 10) on length 5 gives length 5, slice(None, 3) gives 5.",
 "C13": "Proved for in-range arguments, any sequence. Refuted: with a source index, dim[-1] raises ValueError and one-ended slices raise TypeError.",
 "C14": "Proved for everything except the index -1, which becomes slice(-1, 0) and selects nothing (refuted).",
 "C15": "Proved for increasing index arrays. Refuted for repeated and decreasing ones ([2, 2, 2] becomes slice(2, 3)).",
 "C20": "Proved in full for update=True. For update=False (the default) a variable with the same dimensions loses its own mask (refuted).",
 "C21": "Selection proved except for an empty open range with bounds and mixed orientations (refuted); with return_indices a single run raises AttributeError (refuted).",
 "C22": "Proved for every grouping by year, month and day and for 'all'; groupings with hours, minutes or seconds raise NotImplementedError (refuted).",
 "C23": "Seasons by month, by calendar year and unique seasons, with the exact condition for success. Refuted: a season without data, two empty season-years, one-year data and missing years.",
 "C24": "Proved in full without bounds. With bounds the selection is proved in terms of get_is_date_between; refuted that a step whose month is listed is kept, and all-None regions raise.",
 "C25": "Difference proved for all dates; the round trip for everything that decodes; decoding raises for jumps of more than a year (refuted).",
 "C26": "Acceptance is sound for all bounds; complete for bounds within a year ending at a month start or at new year. Refuted across the turn of the year and for upper bounds inside a month.",
 "C27": "Windows and the computed steps are proved for both modes and every operation along time. False in the code: a masked input element becomes unmasked (both modes), and a series shorter than the window raises NameError in mode 'valid'.",
 "C28": "duration is proved for every summary that maps equal values to that value (mean, median, max, min); freq_duration when some run has two or more steps. False in the code: if all runs are isolated steps they are collapsed to a single run of length 1, so counts and sums are wrong.",
 "C29": "Events, their alternation, their times and completeness are proved for every positive threshold. False in the code: without any event the count is -1 instead of 0.",
 "C31": "One data variable; an element stands for the values of all other dimensions. The calculation is any function that gives each cell its own value on whatever box it succeeds on. Failure at any tile, in the template, in the geometry subset and in the checks is covered. Exceptions raised by a progress callback are not modelled.",
 "C32": "Proved over exact rationals for arrays, distributed grids and uncut geometries without holes, and in binary64: wrapping 0..360 is exact and unwrapping gives the value back. Refuted: wrapping a polygon drops its holes; in binary64 small negative longitudes unwrap to 360 and unwrap-then-wrap is inexact. Missing: polygons cut at the axis (geometry library).",
 "C33": "Proved for every grid whose rows all have a negative longitude: same rotation for values and masks of every variable over both grid dimensions, rows ascend. Refuted: variables with only the longitude dimension (x bounds) are not rotated; a row without a negative longitude raises TypeError.",
 "C34": "Proved for maps built by successful set calls, groups nested to any depth. Refuted: asking for an absent entry or group, a refused set_variable, topologies, grid abstractions, spatial mask attributes and bounds set on the coordinate system all break the round trip. Sequences of group names are not modelled.",
 "C35": "Proved for every history of operations, including reads and refused operations in between.",
 "C36": "Proved over an inductive set of histories (construct, add, remove, extract, copy, rename, bounds, tags, caught exceptions) with names that are free and nothing forced, plus the exact effect of each operation. Not covered: children, attributes, values beyond their shape, distribution. False in the code: see the _refuted theorems (adding a variable the collection has, taken names, failed constructors, dimensions shared with copies, forced additions, the source of a move, clean extraction with bounds).",
 "C37": "The one-name, append and get theorems hold for every history. Removal is proved for consistent collections. False in the code: a renamed variable is not found by its tag, and dropped bounds stay tagged.",
 "C38": "Refuted for a dimension of length one that is split (all chunks are empty). Proved otherwise: every destination cell is in exactly one chunk, yield_idx gives that chunk, and inserting the chunk blocks rebuilds the whole field, for two dimensions and for each time of three.",
 "C39": "Structured sides (boxes in the index file) and unstructured sides (lists of identifiers). Application is proved for any associative addition with a left identity.",
 "C40": "Refuted: with yield_idx nothing is ever yielded. Proved without it, in exact arithmetic, for every jitter below the buffer.",
 "C41": "Proved for variables and for iterators with formatters, repeated entries and unmasked values: one record per (unmasked) element in row-major order, follower values at the same coordinates, later entries of the same name win; refused followers; header maps. Proved for collection iteration, for the iterator a variable makes of itself and for entries to be repeated. Melted iteration proved when the melted variables repeat the same names and another variable is present. Refuted: a lone variable melted yields nothing; entries repeated by one melted variable stay in the records of the next; a follower skipping its masked elements under a lead that does not raises TypeError; get_iter of a variable with bounds raises TypeError without add_bounds.",
 "C42": "Proved for five entries that are None, integers from -1 up, or pairs of integers, for sequences of every length. Refuted: an integer below -1 selects more than its element (slice(-2, None)), and a sixth entry is silently ignored.",
 "C43": "Proved for all inputs: boolean texts, time ranges (with strptime as a parameter), integer identifiers, time regions; with the stated side conditions: level ranges without NaN, groupings with at most one flag, calculations not ending in an expression. Refuted: any integer is a boolean, NaN passes as a level, '1' and 1 give equal identifiers, repeated or double flags in a grouping, a trailing expression switches off the alias check and two expressions are rejected.",
 "C44": "Edges shared, inner cells contain their coordinate, regular spacing gives midpoints, exact criterion for the outer cells. Refuted: irregular outer cells may miss their coordinate; integer coordinates are truncated.",
 "C45": "Inverse up to transposition; refuted as stated because the ESMF array is indexed (column, row).",
 "C46": "Proved: broadcast_scope with permuted names; grid_abstraction_scope (abstraction as before on every exit); orphaned for a variable with a parent; renamed_dimensions and renamed_dimensions_on_variables restored on every exit when the body adds or renames no variable; inside the scope every dimension carries its new name when the new names are fresh. Refuted: a singleton dimension dropped by a broadcast; an automatic abstraction is fixed by the scope; nested orphaned scopes lose the cached dimensions, orphaning a variable without parent gives it one; renamed_dimensions_on_variables raises KeyError and leaves variables renamed if the body added one; swapping two names loses a dimension. Environment scopes: see C55.",
 "C47": "Proved for every history of add_field calls with containers that have no fields yet: lookups by identifier or container field, iteration order, melted iteration, the first field, archetype and container geometries, refusals. Refuted: get_element(container_ugid=None) searches the first container, not the one filed under None; a refused call with a populated new container still registers the container.",
 "C48": "Proved when at most the first definition of the list is an expression (a definition without a name). False in the code: every expression after the first evaluates the first definition of the list (engine.py:108), and a KeyError raised inside any function constructor has the same effect.",
 "C49": "Proved for regions of years: true exactly if every year has a date in the range, which is the property for one year and its soundness for several. Refuted: several years need all of them; with months the start month is missed and the month after the end counted; a region with both entries None raises TypeError.",
 "C50": "Proved for datasets with different times (a sorted permutation) and in general (sorted, the last dataset of each time). Refuted for equal times: all but one are lost.",
 "C53": "An empty rank raises on that rank, so the statement is for non-empty ranks.",
 "C54": "Proved when no message is sent over one not yet received under the same destination and tag; refuted otherwise (the first is lost).",
 "C55": "Proved for every history of assignments and resets, for every parameter of the table (explicit value) and every parameter not fixed at start (process value, then default); the table of ocgis is shown to meet the conditions. Refuted: DEFAULT_COORDSYS cannot be assigned, the text use_env is not a value, PREFER_NETCDFTIME and USE_NETCDF4_MPI ignore later changes of the process environment.",
 "C56": "All selectors proved; only the grid hint mask accepts an inverted range (refuted part).",
 "C58": "Proved for all dimension orders, extra dimensions and functions, with and without groups. Not covered: spatial aggregation inside the calculation. False in the code: an extra dimension of size zero raises IndexError.",
 "C59": "Proved for every history of set_name and append_alias.",
 "C60": "Proved for every width from 1 and every integer from 0 below ten to the width; wider integers keep their digits. Negative integers are out of range (see the example).",
 "C61": "Proved when fields of the same name have the same grouping. False in the code otherwise: groups are stored by field name, so a later field of the same name is grouped by the time of the first.",
 "C62": "Exact criteria proved for 2-D grids and point sets; refuted: edges are never noticed, vectorized grids use the wrong index.",
 "C63": "Proved for variables without repeat_record. Refuted: get_iter hands the variable's repeat_record list to the iterator, which extends it in place, so it doubles with every call (proved: length times 2^n after n calls).",
 "C64": "Refuted: a callback on the operations is replaced by a wrapper and never restored, also when the tile size is refused. Partial: without a callback nothing changes.",
 "C65": "Proved for congruent collections and dictionaries with in-range slices of which at most one per variable is an index array with gaps or a boolean array; the result is congruent again; variables are sliced through their collection. Refuted: two index arrays select pairs of positions and drop an axis (or raise); a list with gaps gives one-dimensional variables an extra axis, boolean lists and None raise there; -1 leaves a dimension of length one with empty arrays.",
 "C66": "Not distributed. Proved for mappings that list every dimension under at most one standard name, and slice dictionaries as in C65: the slice means the same as slicing by the field's own dimension names and the field is left alone (C66_slice_partial); it is left alone on every exit path (C66_unchanged); unknown names are refused (C66_refused); the names offered are those of the dimension map (C66_names). Refuted: a lenient slice removes entries from the caller's dictionary; fields whose axes share a dimension cannot be sliced; asking for the names writes the variable's name into the dimension map.",
 "C67": "Cells are strings and the records of a field are given (which records a variable yields is C63). Proved for rows that share one column order, when the first collection that is not empty holds one field (CSV, and shapefiles whose names differ in the first ten characters) and for GeoJSON with one field on one rank; an existing file is refused without overwrite. Refuted: of a first collection with several fields only the last survives; GeoJSON keeps the last rank of the last field only; with nothing to write the old file stays; a collection whose last field is empty is left out; rows with another column order land under the wrong names; shapefile columns with the same first ten characters are merged.",
 "C68": "Proved when no collection in the tree has more than one child; refuted otherwise: the last child alone decides.",
 "C69": "Rows of cells; quoting is not modelled. The round trip is stated under the conditions of C67_csv_partial.",
 "C70": "Proved for all features, for identifiers (in a column of the file), for WHERE clauses and for the slices SliceAsWritten describes; refuted for the combination of identifiers and a clause, for added identifiers, for other slices and for the length. Geometries and OGR are not modelled.",
 "C71": "Proved for source indices read as written and for every history of in-range slices with increasing index arrays; refuted for reordered dimensions and geodatabases.",
 "C72": "Proved for names that contain no function name and stand between arithmetic signs or ends (or between a sign and a comma); refusals and is_multivariate proved in full; refuted for blanks, commas, names containing function names and numbers with an exponent. Evaluation by Python and NumPy is not modelled.",
 "C73": "Selection, emptiness and restoration proved for spherical, WGS84 and flat fields without wrap=True; refuted for rotated pole fields, for mixed longitudes when nothing is selected, for wrap=True and for loaded masked data.",
 "C74": "Proved for requests that satisfy Apart (no allow_empty, no loaded masked data, rotated pole only with a geographic output_crs, wrapping only of own copies, of spherical longitudes to -180..180, or where nothing changes); datasets proved in full; each excluded case is refuted.",
 "C75": "Proved on one process for variables over the geometry's dimensions followed by variables with other dimensions, in the geometry's order; on several processes for points (first element, or equal counts) and as bounds; each excluded case is refuted.",
 "C76": "Proved for any tree on one process, any partition over processes without groups, and any pieces, when values do not look like missing ones and byte masks show in the first part; each excluded case is refuted.",
 "C77": "Proved when all replaced rotated poles opened before agree with the dataset; refuted for every other history.",
 "C78": "Proved for points, polygons and multi-polygons with start index 0, and for polygons with any start index; refuted for multi-polygons with start index 1.",
 "C79": "Proved for meshes in rows (UGRID); for ESMF vectors the first pass, and no change when the start index is 0; the change otherwise is proved for every mesh (refutation).",
 "C80": "Proved for tables and ESMF vectors without parts whose start index is given or the driver's; the other cases are refuted.",
 "C81": "Proved for UGRID meshes and points; refuted for ESMF meshes and for original_mask.",
 "C82": "Proved for one process, and for any number with start index 0 when each process uses its last node; refuted otherwise.",
 "C83": "Proved for fields whose first variable ends in y, x (other variables in any order): values and errors for both ways, masks for the split one; the rest is refuted.",
 "C84": "Proved for masks that are the same in the first slice of the first variable; non-interference of all cells hidden from ESMF; refuted for other masks.",
 "C85": "Global grids are flagged (proved); exact for unwrapped grids on any ranks with two or more columns; refuted for grids across the zero meridian.",
 "C86": "Proved on one side of zero and with bounds; refuted (for every grid) across zero.",
 "C87": "Proved for cells that touch, without a mask: centres and rings of corners; the rest (second conversion, periodic grids, masks, vectors becoming arrays) is refuted.",
 "C88": "Proved for values, dimensions and the mask of the grid; the variable's own mask, fields with time and a variable without, and integers are refuted.",
 "C89": "System of the result, the destination (if the transformation can be undone and nothing raises) and sequences are proved; source, failures and weights-only runs are refuted.",
 "C90": "Proved for geometries without holes within the usual ranges, given the facts about the geometry library; with holes nothing is lost; holes, shapes beyond both ends and touching corners are refuted; exact conditions for raising.",
 "C91": "Proved when negative longitudes and ones beyond 180 do not occur together and no process is empty; both conditions are necessary (refuted).",
 "C92": "Proved for boxes from -180 to 360 and margins around unwrapped grids west of zero; margins beyond the other ends are refuted.",
 "C93": "Index and distribution proved to make no difference; the selection is proved exact except for one-dimensional variables that are selected as a whole, which raise (refuted).",
 "C94": "Proved for all options except intersects_check=False with return_slice=True, which always raises (refuted), and whole one-dimensional variables as in C93.",
 "C95": "Proved for the distance to the target's centroid and for targets that are points; refuted for polygons and for indices from a grid.",
 "C96": "Proved with a mask and for a single geometry; refuted without a mask.",
 "C97": "Coverage and absence of holes proved for polygons with at most one hole; with several the coverage is proved to be multiple (refuted).",
 "C98": "Coverage proved whenever it returns; the threshold and the absence of exceptions are refuted.",
 "C99": "Validity and nodes proved for rings whose nodes occur at most twice; three occurrences and holes refuted.",
 "C100": "The entries of other geometries are proved independent; failing ones are proved to stay with the entry zero (refuted).",
 "C101": "Proved for all variables without an integer data type; for those the loss of fractions is proved (refuted).",
 "C102": "Refuted for the units attribute; memory, arrays and masks of value and bounds are proved unchanged by any failing call.",
 "C103": "Proved with cf_units for any sharing of memory, and with either package for disjoint selections; refuted with cfunits for overlapping ones.",
 "C104": "Proved for numeric bounds and for bounds whose numbers were read before; dates as bounds refuted in general.",
 "C105": "Proved for histories that set nothing after a read since the last conversion; staleness otherwise proved in general (refuted).",
 "C106": "Proved for strings known to the database, with refusals; unknown units and units objects refuted.",
 "C107": "Proved for one file of one type, several netCDF files, and registered keys; other lists, types in directory names and unknown keys refuted in general.",
 "C108": "Soundness, completeness and the error are proved for all trees; the order of directories and relative paths refuted in general.",
 "C109": "Proved without new names, and with new names that are as many as the variables and free; the other cases refuted.",
 "C110": "Merging, refusal and alignment proved; reading the metadata refuted in general.",
 "C111": "Proved for three different dimensions; shared and additional dimensions refuted.",
 "C112": "Proved for one grid mapping with all parameters and standard names; several mappings, the shape of the Earth, missing standard names and optional parameters, and precedence over unreadable mappings refuted in general.",
 "C113": "Proved for the CF classes with their parameters and for PROJ.4 variables in files without a grid mapping; spheres, reserved names and the keyword refuted.",
 "C114": "Reflexivity, and symmetry apart from WGS84, proved; the rest refuted.",
 "C115": "Proved without the key init, with it in the first place, and soundness of create_crs; order of keys and lost entries refuted.",
 "C116": "Proved between systems the libraries know, to and from rotated poles for longitudes and latitudes, and between spheres and Cartesian coordinates; the other pairs, holes, the geometries after a transformation of the grid and from_crs refuted.",
 "C117": "Removal of attributes, fresh attributes and the name of the system on writing proved; the level, stale attributes and opening again refuted.",
 "C118": "The place, distances, Cartesian to spherical and back, and there and back away from the poles with longitudes in one turn proved over the reals; longitudes outside one turn and negative levels refuted.",
 "C119": "Values, masks, order and shape proved for any number of variables of the same other dimensions; units, bounds, broadcasting, order of dimensions and variables of later collections refuted.",
 "C120": "Order, identifiers and attributes proved for records that look like the first; masks of none, types, identifiers after the first and iterators refuted.",
 "C121": "Proved if one variable has the dimension and nothing is masked; two variables, masks and units refuted.",
 "C122": "Order, attributes, points and boxes proved, the coordinate system if all have the same; mixed systems, empty lists and other counts of numbers refuted.",
 "C123": "Found exactly when the only candidate, with its dimensions, also for spherical coordinates; order proved with one mask variable, distinctness if no usual name declares another axis; both refuted in general.",
 "C124": "The bounds proved as an equivalence; opening proved unless time has both attributes, where it always fails.",
 "C125": "Proved for the root and its groups of unique names; nested groups and repeated names refuted.",
 "C126": "Proved for the root and groups of unique names with their own dimensions; scalar coordinates, inherited dimensions and nested groups refuted.",
 "C127": "Proved where dimensions are given or none are to be filled; given bounds are lost otherwise (refuted).",
 "C128": "Proved for meshes with nodes named with one space between; meshes with face centres only and more spaces refuted.",
 "C129": "Proved for every schedule and interruption with a directory of its own, and for the file that is checked without; companions of that file refuted.",
 "C130": "No deadlock proved for runs without exceptions and with matching synchronizations, termination for one rank; refusals and exceptions on several ranks refuted.",
 "C131": "Proved for every number of ranks and every schedule.",
 "C132": "Removal proved if the first rank fails and only it writes; old output, other ranks, races and output without a directory refuted.",
 "C133": "Unmixed content and the same output after any interruption proved with OVERWRITE on; blocked otherwise (refuted).",
 "C134": "Shared and mean corners, even grids and inner cells proved, outer cells with the exact condition; outer cells, single rows and integers refuted.",
 "C135": "Inner edges and evenly spaced coordinates proved; outer edges refuted.",
 "C136": "Evenly spaced coordinates and edges within a rank proved; single coordinates and gaps between ranks refuted.",
 "C137": "Order, masks, points, boxes and expanded rings proved; polygons without bounds, names and integer bounds refuted.",
 "C138": "Values, bounds, masks of masked sources and accepted shapes proved; sources without a mask refuted.",
 "C139": "Variables from a file with increasing source indices proved; single elements, values in memory, variables without the dimension and other orders refuted.",
 "C140": "Number of pieces and limits per axis proved; optimality refuted.",
 "C141": "Collections without groups proved; every collection with groups refuted.",
 "C142": "Whole and two-ended slices in any number of dimensions proved; one-ended slices and slices from the end refuted.",
 "C143": "Proved for buffers of at least the reach, and for the default with a source that is not coarser than the destination; the default with a coarser source refuted.",
 "C144": "Proved if every destination cell has a source in reach; unmapped chunks and single chunks refuted.",
 "C145": "Kept if all source points lie in the box; lost otherwise (refuted).",
 "C146": "Proved over all histories for all attributes but agg_selection, geom_select_sql_where, old formats, bad options and datasets that are rotated or marked for regridding; these refuted.",
 "C147": "Refuted: the value stays. Proved: refusals by the parameter itself change nothing, only one attribute changes, taking the value back restores the operations.",
 "C148": "Equivalence proved with the rules as checked (data not on a rotated pole); unchecked calculations, GeoJSON and other exceptions refuted.",
 "C149": "Proved over all histories of dictionaries; refuted after None or a text.",
 "C150": "Proved without data on a rotated pole, and the replacement with it; its persistence refuted.",
 "C151": "Proved for files and plain geometries; memory geometries with identifiers, fields with union and iterators with identifiers refuted.",
 "C152": "Proved without aggregation, for data not on a rotated pole; with aggregation refuted.",
 "C153": "Proved for one-dimensional loaded values of the years 1000 to 9999, to the minute in which the stored number lies; refuted for rounded times of day, other years, bounds, and values not loaded.",
 "C154": "Proved for year and month, and date and hour (exactly these are read); refuted for the other writings.",
 "C155": "Proved for names that differ, for the first call, and for streams of flat folders; otherwise refuted.",
 "C156": "Proved: never back, within 0 and 100, and 100 at the end when each dataset gives one collection for each geometry on a rank that takes part; refuted for empty subsets and other ranks.",
 "C157": "Proved for the first computation with the operations; refuted for later uses and after a refused size of tiles.",
 "C158": "Proved for forced calls with a known dimension, outside the names of the new variable's own collection; None fully; refuted for names of that collection, shared variables, and calls that raise.",
 "C159": "Proved for set_crs with should_add and for successful set_geom; refuted for should_add=False, geometries without coordinate system and None.",
 "C160": "Proved: columns with and without a named variable, headers for different names, unknown names refused; refuted for melted records of a named variable, a list of followers used twice, and coordinates of the same name.",
 "C161": "Proved for searches with a key and for different dimension names; refuted for several matching attributes of a variable, for a call with neither value nor predicate, and for a repeated dimension name.",
 "C162": "Proved for the first reading and for every distribution to ranks; refuted for a reading after other geometries are set and for mixed kinds.",
 "C163": "Proved for all masks, areas and bounds except that a point can outweigh a polygon of less than a unit of area (refuted).",
 "C164": "Proved for vectors; refuted for sources with two or more columns and for the documented range of boolean arrays.",
 "C165": "Proved when no or all identifiers are given; refuted when some are.",
 "C166": "Proved for lists of the same length; refuted for fewer (IndexError) and for more (dropped) variables than URIs.",
 "C167": "Proved for increasing indices; refuted for decreasing, repeated and no indices.",
 "C168": "Proved for times and levels without bounds; refuted for a level range without levels.",
 "C169": "Coordinates, bounds and axes of one dimension proved; refuted for the order, the realization, the x axis of coordinates with rows and columns, and a time without dimension.",
 "C170": "Abstractions proved; the coordinates are those of the geometries, but shared ones are listed more than once (refuted)."
}