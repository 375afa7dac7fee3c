# Design: a Rocq model of NCPP/ocgis

This file is written before the proofs and kept current. It says, for every
property in `properties.jsonl`, what part of `/repo` is modelled, how the
property is stated and proved, and what stays outside.

## Plan per property

- **C01 Rank bounds partition a dimension.** `get_rank_bounds` over Z with the recursion on esplit unrolled as in the code; proof by arithmetic (div/mod) plus an induction over ranks for the cover.
- **C02 Index decompositions cover the index space exactly once.** `numpy.array_split` + `get_optimal_slice_from_array` on aranges, `itertools.product` as list product; counting specification (each index tuple in exactly one cell), induction on ranks and dimensions.
- **C03 Updating a distribution gives every element of one dimension to exactly one rank.** `OcgDist` as a map rank -> list of dimensions; `update_dimension_bounds` as folds; proof from C01.
- **C04 Global slices translate to the local part of the slice.** the function itself over Z; specification by membership in two intervals.
- **C05 A distributed slice equals the serial slice of the gathered dimension.** all ranks as a list of local dimensions; gather/bcast as list operations; induction on the rank list.
- **C06 Distributed dimensions created from local sizes get prefix-sum bounds.** send/recv chain as a fold over ranks; prefix sums.
- **C07 Global identifiers are unique and consecutive across ranks.** as C06; concatenation over ranks equals an arange.
- **C08 Scatter followed by gather is the identity.** scatter as a list of slices, gather as the fill loop of `hgather`; round trip by induction.
- **C09 Globally unique array.** rank lists; the owner rule as the code computes it; counting.
- **C10 Coordinate index reduction is correct under every message schedule.** message-passing transition system, one program counter per rank, asynchronous unordered-by-pair FIFO mailboxes; safety invariant over all schedules, a reachable stuck state for the liveness part.
- **C11 Communicator scopes are always undone.** VM state machine; a small program syntax (scopes, raise) with structural induction.
- **C12 Slicing a dimension gives the length Python slicing gives.** `__getitem_main__` over option-Z slices against Python slice semantics; expected refutation for unnormalised slices, theorem for in-range slices.
- **C13 Source indices follow slicing.** two source-index representations, denotation as index list; commutation, then lifted to slice sequences.
- **C14 Formatted slices select what was asked for.** function over a slice syntax against Python indexing semantics.
- **C15 Optimised slices read the same elements.** function over Z lists; refutation for unordered arrays, theorem for increasing ones.
- **C16 Trimming by mask keeps every unmasked element and is minimal.** masks as lists of lists of bool.
- **C17 Swap chains produce the desired order.** swap chain on lists of names; permutation induction.
- **C18 Broadcasting by names moves axes and nothing else.** arrays as shape + function from index; named positions.
- **C19 Mask updates only add masked elements, never change values.** masked arrays as lists; histories as fold.
- **C20 Masks cascade along shared dimensions.** variables as name, dims, mask function; loops as in the code.
- **C21 Range selection returns exactly the elements in range.** the branch structure of get_between over value/bounds lists.
- **C22 Temporal grouping puts every time step in exactly one group.** time steps as date-part tuples; the dictionary/lexicographic loop of the code.
- **C23 Seasonal grouping assigns steps by month.** season lists as month lists; group arrays as boolean masks.
- **C24 Time regions select by month and year.** time region dict with None.
- **C25 Month-based time units round-trip.** loop with explicit fuel and proved sufficient fuel.
- **C26 Date-within-bounds tests agree with the calendar.** branch structure over integers.
- **C27 Moving windows are centred and complete.** generator as list of windows.
- **C28 Duration calculations see exactly the maximal runs.** the index-array algorithm as list code; specification by maximal runs.
- **C29 Freeze-thaw events alternate and are counted once.** array algorithm over Z or Q lists.
- **C30 Tile schemas cover the grid exactly once.** nested while loops with fuel; counting specification.
- **C31 Tiled computation equals whole computation.** fold over tiles on a cell map; env as state, exceptions as values.
- **C32 Wrapping longitudes is exact and reversible.** over Z scaled or Q coordinates, conditions as in the array code.
- **C33 Longitude reordering permutes all data consistently.** rows as lists, rotation at first negative.
- **C34 Dimension maps survive conversion to and from dictionaries.** nested record/tree with attribute maps; round trip by induction on nesting.
- **C35 Dimension map entries: last write wins, attributes have precedence order.** association lists; histories.
- **C36 Variable collections stay consistent.** collection state machine with error values; invariant over op lists.
- **C37 Tags are consistent.** tag map state machine.
- **C38 Destination chunks partition the grid and re-assemble it.** as C02, product of per-dimension slices.
- **C39 Merged weights address global cells.** index arrays row-major; sparse matrices as triple lists.
- **C40 Spatial decomposition with a chunk index yields that chunk.** generator loop over the list of pieces.
- **C41 Record iteration yields each element once.** row-major index iteration; followers through coordinate maps.
- **C42 The slice parameter selects the requested elements.** parser over value syntax.
- **C43 Operation parameters reject ill-formed values.** parsers over value syntax.
- **C44 Interpolated bounds are contiguous and contain their centroids.** over Q (exact), spacing algorithm as in the code.
- **C45 Corner conversions between OCGIS and ESMF are inverse.** 2-d arrays as functions with shapes; loops.
- **C46 Temporary changes are undone on every exit path.** context managers as state transformers with try/finally; body arbitrary transformer with outcome.
- **C47 Spatial collections file fields under their container.** nested ordered dictionaries; histories.
- **C48 Each requested calculation is executed.** loop nest of execute with recorded evaluations.
- **C49 Data availability checks for time subsets.** date ranges by day count / month.
- **C50 Sorting datasets by time keeps every dataset.** dictionary keyed by max time; refutation on ties.
- **C51 Daily percentile windows.** integer day arithmetic.
- **C52 Multi-part coordinate splitting loses nothing.** list splitting.
- **C53 Global extents enclose all local extents tightly.** folds of min/max.
- **C54 Serial message emulation delivers what was sent.** dictionary keyed by (rank, tag).
- **C55 Environment parameters: explicit value, then environment, then default.** option precedence with history.
- **C56 Coordinate selection inside a box.** coordinate lists, interval membership.
- **C57 Threshold counts.** masked series counts.
- **C58 Aggregation by group uses exactly the members of the group.** array slices by group boolean index.
- **C59 Renaming keeps the source name.** state machine over names.
- **C60 Zero-padded identifiers order and identify like integers.** decimal strings as digit lists.
- **C61 Grouped calculations use the field's own time.** engine loop over the fields with the grouping cached per field name; refuted for two fields sharing a name.
- **C62 The touching barrier refuses touching boxes.** selection masks as Boolean lists, coordinates as rationals; exact criterion for each selector, witnesses for the missed edges.
- **C63 Iterating a variable does not change it.** get_iter returns the variable with its repeat_record list after the in-place extension; histories.
- **C64 Tiled computation leaves the operations as given.** The callback as a value with its wrappers; what the call leaves behind at every exit.
- **C65 Slicing a collection slices dimensions and variables alike.** Dimensions, arrays and masks of a collection under a slice dictionary, with NumPy's joint indexing by several arrays; selection stated axis by axis, congruence kept.
- **C66 Slicing a field by standard names.** Composition of the renaming scope (C46), the slice (C65) and the reverting of names on the result; any exit path.
- **C67 Tables hold every record.** The converter loop over collections and ranks with the file as state; write modes; a generic loop lemma instantiated for CSV and vector files.
- **C68 A collection is empty when a part of it is.** Trees of collections, by induction.
- **C69 Reading a CSV table gives its cells.** The reading loop over rows with the bounds of a rank; tilings of the rows.
- **C70 The features selected from a vector file are those asked for.** A file is a list of numbered features with properties; the generator is the list of rows it yields; a WHERE clause is a predicate on features. Selections are compared with filtering and with Python indexing.
- **C71 A variable of a vector file holds the values of its features.** The source index of C12-C13 is passed to the reader of C70; histories of slices by induction.
- **C72 A string expression computes what it says.** Texts as lists of characters, the regular expressions as functions that find matches from left to right; expressions as sequences of words and signs (every text is one).
- **C73 Subsetting by a geometry selects its cells and leaves the field as it was.** Fields as records of arrays; results as windows that are views of the field's arrays or own arrays, so that writes in place reach the field.
- **C74 Geometries and datasets of one request do not get in each other's way.** The loops over datasets and geometries on the same memory; an invariant says what a turn may have left of the longitudes, and results are compared as they read at the end of the run.
- **C75 A spatial average is the area-weighted mean of the unmasked cells, on any number of processes.** Arrays as functions of an index, exact rational arithmetic, ranks as a list of parts; sums compared up to permutation with a mean over any list of the cells.
- **C76 What is written to netCDF is what is read back.** Files as dictionaries of dimensions, variables and attributes, arrays as functions of an index; an invariant over variables and ranks (every cell written so far holds its value or a mark for missing ones) and induction on trees for groups.
- **C77 A field is written with its own coordinate system, whatever was opened before.** Sessions as lists of events over the two environment variables; proved by induction on the history.
- **C78 Geometries survive the conversion to node coordinates and back.** Rings as lists of integer vertices; the conversion as the loop it is, with an invariant over parts and geometries (the next index is the start index plus the number of nodes; rows name vertices already there); reading is inverted row by row with the uniqueness of joins by the break value.
- **C79 Reading the geometries of a mesh gives its elements and does not change it.** The connectivity is state that the iteration returns, since slices of NumPy arrays are views; an invariant over the elements read so far.
- **C80 Reducing a mesh keeps its elements and drops unused nodes.** Places in the sorted list of different indices; each row still names its vertices.
- **C81 A spatial subset of a mesh has exactly the elements that intersect.** The predicate on geometries is arbitrary; the selection is characterised element by element.
- **C82 A distributed mesh is written to the ESMF format with all its elements.** Ranks as a list, what each sends to the next as an accumulator; induction over the ranks.
- **C83 Regridding treats every slice of every data variable alike.** The weights ESMF computes are an arbitrary list; its application (weighted sums per cell) is written down. Positions are functions from dimension names to indices, so the statement does not depend on the order of dimensions; an invariant over the slices done so far.
- **C84 Masked values take no part in regridding.** Non-interference: two sources that differ only below the masks, with a library that gives no weights to cells marked as masked.
- **C85 A grid is periodic exactly if its columns cover the circle.** Longitudes as integers of any unit, the resolution as a fraction; arithmetic with one case for grids that cross zero; ranks as a list of pieces.
- **C86 The resolution of evenly spaced coordinates is their spacing.** Induction over the columns.
- **C87 A grid converted to an ESMF grid and back is the same grid.** Coordinates of any type as arrays; cells whose corners touch; the ring of corners of each cell, index arithmetic over nodes.
- **C88 A field converted to an ESMF field and back has the same data variable.** Positions by dimension names through two permutations.
- **C89 A regrid operation changes neither field and its result is in the system of the source.** The transformation, subsetting and regridding are parameters; the state of both fields after each step; induction over the sources.
- **C90 A wrapped or unwrapped polygon covers the same places.** Which points a polygon covers and its parts between two meridians come from the geometry library, of which a few facts are assumed (`Library` in WrapSpec.v, satisfied by rectangles: `C90_library`); the statement is about points off the meridians where geometries are cut.
- **C91 The wrapped state depends on the coordinates only.** Geometries as lists of longitudes, processes as a list; the order in which Python keeps a set is arbitrary.
- **C92 A box prepared for subsetting covers its longitudes on any grid.** From C90 for boxes, by cases of the states.
- **C93 A spatial selection keeps exactly the geometries that intersect.** Geometries are an abstract type with `intersects` and `touches`; parts of multi-geometries and the R-tree are parameters with a few assumed facts (`IndexLibrary` in GeomSpec.v, satisfied by sets of boxes: `boxes_library`). Arrays of one or two dimensions; processes as a list of blocks with offsets.
- **C94 An intersection clips the selected geometries and changes nothing else.** The variable before and after is part of the model's state.
- **C95 The nearest geometry is the nearest one.** Distances are rationals given by an arbitrary function; the dictionary keyed by distances is modelled.
- **C96 A buffer buffers every geometry.** For any buffering function.
- **C97 Splitting removes holes and covers the same places once.** Polygons are an abstract type; what is assumed of intersections with boxes is `PolygonLibrary` in PolySpec.v, satisfied by rectangles with holes and notches (`rects_library`). Coverage is counted for points off the split lines.
- **C98 Splitting by nodes covers the same places with few nodes.** The same library; the grid is that of C40's decomposition.
- **C99 Removing self-intersections leaves a valid polygon with each node once.** Rings are lists of nodes; validity and `buffer(0)` come from the library.
- **C100 Geometries that cannot be split are left out, the others are not affected.** The loop over the geometries, with the parts in place of node indices.
- **C101 Conforming units keeps the quantities.** Units are affine maps to a base unit, the database of unit strings is a parameter, numbers are rationals; arrays are positions in shared buffers, so that views and in-place conversion can be told apart.
- **C102 A failed conversion of units leaves the variable as it was.** The model returns the state also when it raises.
- **C103 Conforming one selection does not change another.** Selections are arrays on common buffers; both units packages.
- **C104 Conforming time units keeps the instants.** Dates are seconds; numeric times are affine units of them, which leaves out calendars and month units.
- **C105 Numeric and calendar times always agree with the value.** A state machine with the two caches; induction over histories.
- **C106 Units of a request are applied to the variables they are given for.** The setters and validators of request datasets and the conversion on load.
- **C107 The driver fits the type of the file.** The loops over URIs, registered drivers and patterns; matching of the two forms of pattern on strings, related to occurrence of the extension.
- **C108 Files are found in the data directories.** Directories are trees; `os.walk` is the walk from the top down; induction over trees and over the list of directories.
- **C109 Variables of a request keep or get the right names.** Metadata are dictionaries; the field records for each variable the file and the name it is read from.
- **C110 A request of several datasets acts like one.** The shared metadata dictionary is modelled by returning the datasets after the call.
- **C111 Data variables are found by their dimensions.** The count of needed dimensions against the set of dimensions of each variable.
- **C112 The coordinate system of a file is the one it declares.** Metadata are dictionaries of attributes; every class's reader is tried on every variable in the order of the code; the specification says what a CF grid mapping is and which PROJ.4 keys its parameters have.
- **C113 Coordinate systems survive writing and reading.** Composition of the writer's attributes with the readers of C112.
- **C114 Equality of coordinate systems is an equivalence.** The library's comparison is a parameter; Python's choice of the method is modelled.
- **C115 Coordinate systems are what their description says.** The branches of the constructor and of `create_crs` on dictionaries with the order of their keys.
- **C116 Changing the coordinate system keeps the places.** The libraries and formulas are parameters acting point by point; the specification gives every coordinate system a decoding of points to places and says that each library keeps it. The branches of `update_crs` for grids and geometries, and the shared coordinate system of the field, are modelled.
- **C117 Coordinates are described correctly after a transformation.** The formatting of attributes, on the same model, and the readers of C112 for opening the file again.
- **C118 Spherical and Cartesian coordinates are converted correctly.** Over the real numbers of the standard library (with its axioms, listed below); the specification turns a point about the axes.
- **C119 Stacking puts variables one after the other.** Arrays as functions on indices; assignment with NumPy's broadcasting; invariant over the variables: what is filled so far is right and the rest untouched.
- **C120 A field made from records has their geometries, identifiers and attributes.** The two loops over the records; a second reading is given separately for iterators; types are those of the first record.
- **C121 Groups become a dimension with the values of each group at its place.** The loop over the variables with the dimensions of the collection; refinement to the stack of C119.
- **C122 The geometry parameter means what was given.** Parsing of dictionaries, numbers and strings, geometries given.
- **C123 Coordinate variables are found from the metadata of a file.** The search by attribute and by name over an association list; axis by axis, what is stored is the unique candidate; stability under permutations.
- **C124 The bounds of an axis are those its variable names.** The same search; the failure when time has both attributes is stated for every such file.
- **C125 The axes of a group are those of its own metadata.** The recursion over the tree of groups with its storage; the groups met in preorder are stored at the root, by induction on the tree.
- **C126 A file is distributed along the larger of its horizontal dimensions.** The loop over all groups with the maps of C125.
- **C127 A dimension map given by the user is used as given.** The update from metadata, axis by axis.
- **C128 The coordinates and the elements of a mesh are found from its host.** The mesh variable, its attributes split at spaces, and the topologies of the map.
- **C129 Existing output is not touched without permission to overwrite.** Ranks as state machines over a shared file system with barriers; a run is any list of events, so that every schedule and every interruption is one; invariant over the place of the first rank.
- **C130 Every rank of a run comes to an end.** Count of the barriers each rank still needs, equal on all ranks; a rank that has left blocks the others.
- **C131 The output of a run is what its ranks wrote.** The same invariant with what each rank has done so far.
- **C132 A run that fails leaves no output.** The removal of the directory step by step, with the entries left of those it found.
- **C133 A run can be repeated after an interruption.** The invariant at any point, followed by a second run.
- **C134 Extrapolated corners enclose the cell centres.** The arrays of corners as functions of their indices; closed form of all corners for coordinates along rows or columns; monotone sequences.
- **C135 Vectors and arrays of the same coordinates get the same bounds.** The closed forms of both algorithms compared.
- **C136 Extrapolated bounds do not depend on the distribution.** The vector algorithm on each part against that on the concatenation.
- **C137 The geometries of a grid are its cells.** The iteration over cells as a list; regions of boxes and rings of corners against the bounds.
- **C138 Assigning a part of a variable or grid sets its values and mask.** Assignment into a box of an array as a function of the indices.
- **C139 Redistribution moves data between ranks without changing it.** Every rank's dimension, source indices and variables, with what is in memory and what is read later; the parts concatenated against the elements of the file.
- **C140 Splits of an index space.** Integer roots; induction over the axes.
- **C141 Scattering a collection keeps its variables and groups.** Trees of collections.
- **C142 The distributed slice of a variable is the slice of the whole.** Arrays as functions of their indices; every rank's window of global indices.
- **C143 A regridding chunk gets the source cells it needs.** Rational coordinates; the regridding is any function of the source points that does not change when the points out of its reach are left out; the points of the part against those of the whole.
- **C144 Regridding by chunks is regridding.** C143 with the tiling of C38.
- **C145 Chunks keep the mask of the source grid.** The mask of the part at every position.
- **C146 Assigning an attribute of operations is like constructing with it.** The operations as a record; construction from arguments against a fold of assignments; invariant: the operations stand for the arguments updated so far.
- **C147 A refused assignment does not change the operations.** The state after an assignment that raises; taking a value back as an instance of C146.
- **C148 A request is accepted exactly if it meets the rules.** The rules as propositions, one for each check; equivalence with the validation.
- **C149 Regridding options are checked whatever was assigned before.** The attribute as a slot that holds a parameter or, after an `AttributeError`, a plain value; invariant over histories.
- **C150 The output coordinate system is the one last asked for.** Induction over histories; the replacement for rotated poles.
- **C151 The selection geometries are those asked for.** The geometries read from the constructed operations.
- **C152 Tiled computation asks for acceptable requests.** The sequences of assignments of `compute` on the model of C146; the rules of C148 hold after each.
- **C153 Times written as YYYYMMDD.fraction are read as written.** `set_value` and the decoding of one number, as an exact fraction (exact for double precision between 10^7 and 10^8), with decimal digits and the calendar; the digits by induction on the number, the minutes by arithmetic.
- **C154 The origin of month units is the date that they write.** The splitting of the text and the two `strptime` formats as lists of matches in the order of the regular expressions; the texts that are read are characterised in both directions.
- **C155 The archive of an output holds its files.** The files of a folder in the order of `os.walk`, the names in the archive, the archive read while it is written; members as `zipfile` finds them.
- **C156 The progress of an execution never goes back and ends at 100.** Messages and completed operations as a list of events, percentages as exact fractions; the operations that are counted are compared with those that are completed, by induction over datasets and collections.
- **C157 The progress of a tiled computation covers the tiles evenly.** The callbacks that `compute` puts in place of the user's as a data type with its meaning; shares by induction over the tiles, then a second computation with what the first leaves.
- **C158 Setting a coordinate variable of a field changes that coordinate only.** Fields as dictionaries of variables with identities, names and bounds and a dimension map; the three steps of `set_field_property` (remove, add, map), each with the field it leaves when it raises.
- **C159 Setting the coordinate system or the geometry of a field.** On the same fields, with the reading of the coordinate system, which may raise.
- **C160 The records of a field have its data variables and coordinates under standard headers.** What `Field.iter` hands to the iteration of records: the primary variable, the followers, the header map and the melted variables, and the caller's list afterwards; the header map as a dictionary compared with a relation of standard names.
- **C161 Searching a collection finds every variable that matches, once.** The loops of `find_by_attribute` and `iter_variables_by_dimensions`; induction on the collection, and a count of the attributes that match.
- **C162 The type of a geometry variable is that of its geometries.** The scan of `get_geom_type` and of the gathered types with the kept type of the variable; a lemma that scanning a concatenation is scanning the parts in turn.
- **C163 Weights and extents are those of the elements that are not masked.** Masked arrays as lists of optional rationals; the maximum and minimum by induction, compared with relations that define the largest and smallest.
- **C164 An index array recreates the values it indexes.** The first place of a value in a list, by induction; sources with rows with the assignment by flat index that the code makes.
- **C165 The datasets of a request have different identifiers.** The enumeration of `Dataset.__iter__`; induction on the list of given identifiers.
- **C166 A query string gives one dataset for each URI.** Splitting at the separator, proved the inverse of joining; induction on the URIs.
- **C167 Subsetting time by a function gives the steps at the indices it returns.** The indices formatted as a slice (the model of C14 and C15) and applied to the steps; from the theorem on optimised slices.
- **C168 The subsets of time and level of a request are applied together.** The models of `get_between` and `get_time_region` composed as the engine does; from C21 and C24, with the selection by position turned into a filter.
- **C169 The coordinate variables and axes of a field are all there, once, with their sizes.** The lists as functions of the coordinates that are present; by cases, with a permutation for the field with a grid.
- **C170 An unstructured grid lists its coordinates once and chooses its highest abstraction.** The loops over geometries as folds; by induction on the list of geometries.

## How the development is laid out

Per area `X` of the code: `XModel.v` (the model, each definition citing the file
and lines it follows), `XSpec.v` (what the user expects, in terms of lists,
indices, sets and dates, without the model's helpers), `XProofs.v` and further
proof files, sometimes `XWitness.v` (counterexamples and what follows from them)
and `XProperties.v` (the property theorems only, with `Print Assumptions` and an
example beside each). Shared: `Py.v` (Python values, exceptions, slices),
`Lib.v`, `PicksLib.v` (lemmas), `Spec.v` (words common to several
specifications).

Exceptions are values of the result type (`Ok` / `Err`). Functions are total and
computable; loops of the code are folds or recursion on the list they run over.
Where fuel is needed, running out of it is an error value and a theorem shows it
is not reached. Concurrent parts are transition systems (`ReindexModel.v`,
`VmModel.v`), histories are lists of operations or inductive reachability
predicates (`CollModel.v`, `DmapModel.v`, `VmModel.v`, `OpsModel.v`,
`SpatialModel.v`, `RecordModel.v`).

Status words in `MANIFEST.json`: "proved" means the statement of
`properties.jsonl` holds of the model for everything it ranges over. "partial"
means either that the model (and so the code) violates it somewhere, in which case
there is a theorem with the suffix `_refuted` that exhibits the violation and one
or more theorems (suffix `_partial`) for the part that holds, or that something of
it is not covered, which the note says.

## Trusted base

- Coq 8.16.1: its kernel (with `vm_compute`, used for concrete cases and
  witnesses). No plugin, no native compilation, no kernel check switched off.
- Axioms: none of our own. `Print Assumptions` stands below every property
  theorem and prints "Closed under the global context" for every one of them except those of C118,
  which are about real numbers and rest on the axioms of the standard library's real numbers:
  `Coq.Reals.ClassicalDedekindReals.sig_not_dec`, `Coq.Reals.ClassicalDedekindReals.sig_forall_dec`,
  `Coq.Logic.FunctionalExtensionality.functional_extensionality_dep` and
  `Coq.Logic.Classical_Prop.classic` (C118_other on none). A checker that lists all axioms of the loaded libraries also
  shows the constants of `Coq.ssr.ssrunder.Under_rel` (seven: the opaque
  interface of the `under` tactic, loaded with the standard library); no theorem
  here depends on them.
- Libraries: the Coq standard library only.
- The reading of the Python code into Gallina (`*Model.v` and `Py.v`). What it
  abstracts is said at each definition; the main points are below.
- The behaviour of NumPy, MPI and netCDF where the code calls them: slicing,
  boolean and integer indexing, `array_split`, `unique`, `concatenate`, masked
  arrays (data and mask as separate lists), broadcasting; MPI messages with the
  same sender, receiver and tag arrive in order, sends of one integer do not
  block, and a receive that is cancelled after it matched has consumed its message.
- Integers are unbounded. Coordinates are rationals (every finite float is one)
  except in `FloatModel.v`, which uses IEEE binary64 from `SpecFloat`. Rounding in
  other arithmetic on coordinates is not modelled.

## What is modelled

| Model | Code in /repo/src/ocgis |
| --- | --- |
| `PartitionModel` | `vmachine/mpi.py`: `get_rank_bounds`, `create_slices`, `create_nd_slices`, `get_global_to_local_slice`, `hgather`, `dgather` |
| `DistModel` | `vmachine/mpi.py`: `OcgDist.update_dimension_bounds`, `variable_scatter`, `variable_gather`; `util/helpers.py`: `create_unique_global_array`; `driver/nc.py` and `spatial/grid_chunker.py` destination slices |
| `ReindexModel` | `spatial/geomc.py`: `reduce_reindex_coordinate_index` and its root, non-root and serving loops |
| `VmModel` | `vmachine/core.py`: `OcgVM` scopes and subcommunicators; `vmachine/mpi.py`: `DummyMPIComm` |
| `DimensionModel` | `variable/dimension.py`: `Dimension`, slicing with and without a source index, distributed slices; `util/helpers.py`: `get_formatted_slice`, `get_optimal_slice_from_array` |
| `NdModel` | `util/broadcaster.py`; `util/helpers.py`: `get_swap_chain`, `get_trimmed_array_by_mask`; `variable/base.py`: `set_mask`, `set_mask_by_variable` |
| `BetweenModel` | `variable/base.py`: `get_between` |
| `TimeModel` | `variable/temporal.py`: groupings, seasons, time regions, month units; `util/helpers.py`: `get_is_date_between` |
| `CalcModel` | `calc/library`: moving windows, daily percentiles, durations, freeze-thaw, thresholds; `calc/base.py`: sample sizes |
| `AggModel` | `calc/base.py`: conformed arrays, temporal aggregation; `calc/engine.py`; `calc/tile.py` |
| `CoordModel`, `FloatModel` | `spatial/wrap.py`, `variable/crs.py`: wrapping; `spatial/grid.py`: reordering, selection; `util/helpers.py`: bounds and corners; `spatial/base.py`: extents; `spatial/geomc.py`: multi-part splitting, point selection |
| `ChunkModel` | `util/large_array.py`; `spatial/grid_chunker.py`: chunks, weight files; `spatial/base.py`: spatial decomposition |
| `OpsModel` | `ops/parms`: parameter parsing; `environment.py`; `util/helpers.py`: `get_sorted_uris_by_time_dimension`, `validate_time_subset`, zero-padded integers |
| `DmapModel` | `driver/dimension_map.py` |
| `CollModel` | `variable/base.py`, `base.py`: names, variables, collections, tags, bounds, as objects in a heap |
| `RecordModel` | `variable/iterator.py`, `variable/base.py`: `get_iter`, collection iteration |
| `SpatialModel` | `collection/spatial.py` |
| `ScopeModel` | `spatial/base.py`, `spatial/grid.py`: `grid_abstraction_scope`; `base.py`, `variable/base.py`: `orphaned`, `renamed_dimensions`, `renamed_dimensions_on_variables` |
| `SliceModel` | `variable/base.py`: dictionary slicing of collections and variables |
| `FieldModel` | `collection/field.py`: `get_field_slice` (not distributed), `get_name_mapping`; `base.py`: `revert_renamed_dimensions_on_variables` |
| `ConvModel` | `conv/base.py`: `AbstractFileConverter.__init__` (the check of the path), `__iter__`, `write` (the loop); `conv/csv_.py`, `conv/fiona_.py`: `_write_coll_`; `driver/base.py`: `write_field`, `write_variable_collection`, `_get_write_modes_`; `driver/csv_.py`: writing, reading, metadata; `driver/vector.py`: writing, `format_record_for_fiona`; `variable/base.py`: `get_is_empty_recursive` |
| `CabinetModel` | `spatial/geom_cabinet.py`: `GeomCabinet.iter_geoms`, `_get_features_object_`, `GeomCabinetIterator.__len__`, `get_uid_from_properties`, `get_index_slice_for_iteration`; `driver/vector.py`: `get_variable_value`. Geometries, coordinate systems and unwrapping are left out; OGR's SQL is a predicate; a generator is the list it yields |
| `EvalModel` | `calc/eval_function.py`: `_get_eval_string_`, `is_multivariate` (not `_execute_`); `re.findall`, `re.sub`, `re.search`, `str.replace` and `str.split` as they are used there |
| `SubsetModel` | `spatial/spatial_subset.py`: `get_spatial_subset` with preparation and restoration of the field; `spatial/grid.py`, `variable/geom.py`, `variable/base.py`: the masking slice and the in-place mask; `variable/crs.py`, `spatial/wrap.py`: wrapped state, wrap and unwrap in place; `ops/engine.py`: the loops over datasets and geometries, wrapping, output coordinate system, slices by name (not regridding, aggregation, calculations, bounds, nearest selection, buffering; Shapely's and proj4's answers are parameters) |
| `AverModel` | `variable/geom.py`: `get_unioned` with spatial averages, on one process and on several; `area`, `weights` (exact arithmetic; geometries do not overlap) |
| `NcModel` | `driver/nc.py`: `write_variable`, `_write_variable_collection_main_`, `create_dimension_or_pass`, `get_variable_value`, reading of metadata; `driver/base.py`: `write_variable_collection`; `variable/attributes.py`; strings as characters; `env.COORDSYS_ACTUAL` and `env.SET_GRID_AXIS_ATTRS` over a session. What the netCDF library does is assumed in the definitions named `nc_…` |
| `MeshModel` | `variable/geom.py`: `convert_to` (without splitting of interiors, node thresholds, self-intersections, CRS), `get_geom_type`, `get_ccw_oriented_and_valid_shapely_polygon`; `spatial/geomc.py`: `get_geometry_iterable`, `start_index`, `get_element_node_connectivity_by_index`, `get_spatial_subset_operation`, `get_distributed_slice`, `reduce_global` (one process); `driver/nc_esmf_unstruct.py`: `_convert_from_ugrid_`. Coordinates are two-dimensional integers; Shapely's `Polygon` and `is_ccw` are written down in the model |
| `RegridModel` | `regrid/base.py`: `create_esmf_grid` (masks and corners), `iter_esmf_fields`, `check_fields_for_regridding`, `regrid_field`; `base.py`: `iter_dict_slices`; NumPy broadcasting in assignments and `logical_or`. The ESMF library is a parameter giving weights; coordinates are left out, values are integers |
| `PeriodModel` | `regrid/base.py`: `get_periodicity_parameters` for columns in one dimension; `driver/nc.py`: `array_resolution`; `variable/base.py`: `resolution` |
| `EsmfModel` | `regrid/base.py`: `create_esmf_grid`, `get_ocgis_grid_from_esmf_grid`, `get_esmf_field_from_ocgis_field`, `get_ocgis_field_from_esmf_field`, `RegridOperation`; `spatial/grid.py`: `expand_grid`, `get_value_stacked`. The transformation between systems, subsetting and `regrid_field` are parameters of the operation |
| `WrapModel` | `spatial/wrap.py`: `GeometryWrapper.wrap`, `unwrap` of polygons (valid ones, within the latitudes); `variable/crs.py`: `get_wrapped_state`, `get_wrap_action`, `wrap_or_unwrap` of geometry variables, `prepare_geometry_variable`; `variable/geom.py`: `prepare` within one coordinate system. Intersection by GEOS is a parameter |
| `GeomModel` | `variable/geom.py`: `get_intersects`, `get_intersection`, `get_mask_from_intersects`, `get_masking_slice`, `get_nearest`, `get_buffer`; `spatial/index.py`: `iter_intersects`; `spatial/grid.py`: `get_nearest`. Predicates, intersections, distances, buffers and the R-tree are parameters |
| `PolyModel` | `variable/geom.py`: `GeometrySplitter`, `get_split_polygon_by_node_threshold`, `do_remove_self_intersects`, and the use of them in `convert_to`. Intersections, validity, `buffer(0)` and what a multi-polygon of other geometries raises are parameters |
| `UnitsModel` | `util/units.py`; `variable/base.py`: `cfunits_conform`, units setter, casting in `set_value`; `variable/temporal.py`: `value_numtime`, `value_datetime` and their caches; `driver/request/core.py`: `units`, `conform_units_to` and their validation; `ops/engine.py`: conversion after subsetting; conversion on load. Parameters: the units database and package. Left out: float rounding, fill values, calendars, month and template units |
| `RequestModel` | `driver/request/core.py`: `get_autodiscovered_driver`, `get_driver`, `get_uri`, `variable`, `rename_variable`, `rename_variable_map`, `metadata`, `field_name`, `units`, iteration and `create_field`; `driver/registry.py`; `driver/request/multi_request.py`; `driver/base.py`: `create_variables`, `create_raw_field`, tagging in `create_field`; `driver/nc.py`: `get_data_variable_names`; `util/helpers.py`: `locate`. Left out: subsets asked for with the request, groups, the coordinate system variable and spatial masks of the field, driver instances as arguments, dimensions that differ between datasets |
| `CrsModel` | `variable/crs.py`: constructors and equality of coordinate systems, `create_crs`, `fuzzy_check`, `load_from_metadata`, `get_projection_coordinate` and parameters of the CF classes, `Proj4CoordinateReferenceSystem`, `write_to_rootgrp`; `driver/nc.py`: `get_crs`, `get_crs_variable`; `driver/request/core.py`: choice of the coordinate system. Left out: the GDAL objects (whether two dictionaries mean the same system is a parameter of equality, and the texts made by GDAL are parameters of writing), groups, geometry variables |
| `ProjModel` | `spatial/base.py`: `update_crs` and `crs`; `spatial/geomc.py`, `spatial/grid.py`, `collection/field.py`: `update_crs`; `variable/crs.py`: `format_spatial_object`, `transform_grid`, `transform_geometry`, checks of `transform_coordinates`, `update_with_rotated_pole_transformation`. Left out: pyproj, OGR and the external program (functions of one point, parameters of the model), their errors, groups |
| `SphereModel` | `variable/crs.py`: formulas and checks of `transform_coordinates`, heights in `transform_geometry`. Left out: rounding, nan |
| `StackModel` | `variable/base.py`: `stack`, `Variable.__setitem__` without bounds, `groups_to_variable`, `remove_variable`, `add_variable`, `add_dimension`. Left out: data types, attributes but units, sourced variables |
| `FeatureModel` | `collection/field.py`: `from_records`; `driver/vector.py`: `get_fiona_type_from_pydata`; `ops/parms/definition.py`: `Geom.parse`, `parse_string`. Left out: booleans, dates, data models, `_iter_singular_fields_` |
| `AxisModel` | `driver/nc.py`: `create_dimension_map`, `_create_dimension_map_entries_dict_`, `_update_dimension_map_with_entries_`, `create_dimension_map_entry`, `get_distributed_dimension_name`; `driver/dimension_map.py`: `from_metadata`, `update_dimensions_from_metadata`; `driver/base.py`: the loop over groups of `create_dist`; `driver/nc_ugrid.py`: `create_dimension_map`, `get_distributed_dimension_name`. Left out: attributes that are no strings, grid abstractions, the files themselves |
| `RunModel` | `ops/interpreter.py`: `OcgInterpreter.execute`, the directory of logs; `conv/base.py`: `AbstractFileConverter.__init__`. What a rank writes, where it synchronizes and where it raises is given as a list of acts; all barriers are of one communicator; `rmtree` lists first, then removes one entry at a time, then the directory. Left out: formats without files, directories within the directory of a run |
| `CellModel` | `util/helpers.py`: `get_extrapolated_corners_esmf`, `get_extrapolated_corners_esmf_vector`, `get_is_increasing`; `variable/base.py`: `set_extrapolated_bounds`, `Variable.__setitem__`; `spatial/grid.py`: `GridGeometryProcessor`, `get_geometry_variable`, `get_point`, `get_polygon`, `expand_grid`, `Grid.__setitem__`. Rational coordinates; data types are integer or floating point; slices have step one |
| `RedistModel` | `vmachine/mpi.py`: `redistribute_by_src_idx`, `get_optimal_splits`, `variable_collection_scatter`; `driver/nc.py`: `get_variable_value` (one dimension); `variable/base.py`: `Variable.get_distributed_slice` (two or more dimensions). An element is what is found at one index of the dimension; the subcommunicator has all ranks; slices have step one |
| `TileModel` | `spatial/grid_chunker.py`: `buffer_value`, `iter_src_grid_subsets`, `write_chunks`; `spatial/grid.py`: `get_spatial_subset_operation` (optimized box path); `driver/nc.py`: `array_resolution`. Rectilinear grids in one coordinate system on one process; ESMF is a parameter; chunks without cells and the spatial decomposition are left out |
| `ValidModel` | `ops/core.py`: `OcgOperations.__init__`, `__setattr__`, `_update_dependents_`, `_validate_`; `validate_ops` of `driver/base.py`, `conv/nc.py`, `conv/fiona_.py`, `conv/meta.py`, `conv/esmpy.py`; `validate` of `calc/base.py`, `calc/library/statistics.py`, `calc/library/index/duration.py`; `Geom`, `RegridOptions`, `RegridDestination`, `OutputFormat` of `ops/parms/definition.py`; the assignments of `util/large_array.py`: `compute`. Coordinate systems up to equality; attributes no rule reads, string regrid destinations and the identifier attribute of geometries are left out |
| `StampModel` | `variable/temporal.py`: `TemporalVariable.set_value`, `get_datetime_from_template_time_units`, `get_datetime_or_netcdftime`, `get_origin_datetime_from_months_units` (numbers are exact fractions; which dates `netcdftime` accepts is a parameter; masked values are left out) |
| `ZipModel` | `util/zipper.py` (a folder is the list of its files; sizes, times and compression of members are left out) |
| `ProgressModel.v` | `util/logging_ocgis.py`: `ProgressOcgOperations`; the messages and marks of `ops/engine.py`, `calc/engine.py` and `ops/interpreter.py`; the callbacks of `util/large_array.py` (percentages are exact fractions; texts of messages are left out; the number of messages of a collection is a parameter) |
| `RoleModel.v` | `collection/field.py`: `set_field_property`, `get_field_property`, `Field.set_crs`, `Field.crs`, `Field.set_geom` with `crs='auto'`, and the setters of coordinates (values, attributes, dimensions and tags are left out; reading a coordinate also updates its attributes and bounds in place, which is left out) |
| `HeaderModel.v` | `collection/field.py`: `Field.iter` up to the call of the iteration, `update_header_rename_bounds_names` (drivers, masks and the repeaters of iterators are left out or parameters) |
| `FindModel.v` | `variable/base.py`: `find_by_attribute`, `iter_variables_by_dimensions`; `variable/geom.py`: `get_geom_type`, `geom_type`, `geom_type_global`, `set_value` (attribute values are strings, the type of a geometry is a number and a multi flag, empty ranks are left out) |
| `ExtentModel.v` | `variable/geom.py`: `area`, `weights`; `variable/base.py`: `extent`; `util/helpers.py`: `create_index_array`, `arange_from_bool_ndarray` (numbers are rational, arrays are flat except for rows of a source, destinations are vectors) |
| `QueryModel.v` | `ops/parms/definition.py`: the identifiers of `Dataset.__iter__`, `Dataset.from_query` (what `RequestDataset` makes of its arguments is left out) |
| `StepModel.v` | `variable/temporal.py`: `get_subset_by_function`; `ops/engine.py`: `_get_nonspatial_subset_` (times and levels without bounds; the range in the numbers of the time variable) |
| `CoordvarsModel.v` | `collection/field.py`: `coordinate_variables`, `bounds_variables`, `axes_shapes` (NetCDF driver: a grid exists when x and y do); `spatial/base.py`: `coordinate_variables`; `spatial/grid.py`: `GridUnstruct.coordinate_variables`, `_get_auto_abstraction_`, `_get_available_abstractions_` |

## What is not modelled

- Reading and writing files: the netCDF, shapefile, CSV and ESMF drivers beyond the
  slices they compute; conversion between number and date (netCDF4, cftime).
- Geometry operations done by Shapely and GEOS (intersection, union, buffering,
  reprojection) and regridding by ESMF: where the code calls them the model has a
  parameter.
- Floating point rounding, except for wrapping in binary64.
- Logging, progress, command line, contributed code (`contrib`),
  test data.
- Processes and memory: a rank that dies, and Python-level threads.

## Findings: where the code does not do what a user relies on

Each is the subject of a `_refuted` theorem unless marked "(note)", which means it
is visible in the model or was seen while modelling, without a theorem of its own.

- C03: `OcgDist.update_dimension_bounds` gives a distributed dimension shorter than
  `min_elements` to no rank. A second update raises, and dimensions are stored by
  source name but looked up by name (note).
- C05: a distributed `slice(5, 3)` of a dimension of length 10 has length 8.
- C10: `reduce_reindex_coordinate_index` can deadlock with three ranks: a rank other
  than the root looks for questions once and then blocks, so two of them that ask
  each other may both miss the question. A question that arrives between `Test` and
  `Cancel` is lost and its sender waits for ever, already with two ranks.
- C11: a nested communicator scope over no ranks that reuses an open name makes the
  outer exit raise. In serial, names are never unregistered.
- C12, C13: `slice(2, 10)` on a dimension of length 5 gives length 5, `slice(None, 3)`
  gives 5; with a source index `dim[-1]` raises `ValueError` and one-ended slices
  raise `TypeError`.
- C14, C15: the index -1 becomes `slice(-1, 0)`; `[2, 2, 2]` becomes `slice(2, 3)`.
  Integers out of range and masks of the wrong length pass silently (note).
- C20: `set_mask_by_variable(update=False)` replaces the mask of a variable with the
  same dimensions, and ORs in place otherwise. `Variable.__setitem__` leaves a stale
  mask when the source has none (note).
- C21: `get_between(return_indices=True)` raises `AttributeError` when one run is
  found; an empty open range with bounds selects cells; orientation is read off the
  first row only.
- C22, C23: groupings with hours, minutes or seconds raise `NotImplementedError`;
  a season without data raises `ValueError`; `get_sorted_seasons` collapses seasons
  with equal first and last month (note); unique seasons mix January, February and
  December of one-year data and pair missing years.
- C24, C26: `get_is_date_between` rejects months after the turn of the year and the
  month of a mid-month upper bound; regions of other parts than month and year with
  bounds raise `TypeError`; all-None regions raise.
- C25: month units cannot be decoded when values jump by more than a year, decrease
  across a year or are negative.
- C27, C28, C29: moving windows unmask masked elements, and raise `NameError` for a
  window longer than the series; durations collapse isolated events to one; the
  freeze-thaw count without events is -1.
- C30 (note): daily percentiles raise in the years 1 and 9999.
- C32, C33: wrapping a polygon drops its holes; in binary64 unwrapping a tiny negative
  longitude gives 360; reordering leaves longitude bounds unrotated and raises for a
  row without negative longitudes.
- C34: reading an absent entry of a dimension map changes it; a refused
  `set_variable` leaves an entry that `from_dict` refuses; topologies, grid
  abstractions, mask attributes and coordinate system bounds do not survive.
- C36, C37: see the theorem list; e.g. adding a variable that is already there raises
  and leaves it without parent, renaming onto a taken name drops the other variable,
  a renamed variable is no longer found by its tag.
- C38: a destination dimension of length one that is split has only empty chunks.
- C40: `iter_spatial_decomposition(yield_idx=True)` yields nothing.
- C41, C63: a lone melted variable yields nothing; repeaters leak into later records;
  a variable's `repeat_record` doubles with every `get_iter`; `get_iter` of a variable
  with bounds raises unless `add_bounds` is given.
- C42, C43: integers below -1 in `slice` select too much and a sixth entry is ignored;
  see the theorem list for the parameters that accept what they should refuse.
- C44, C45: outer cells of irregular coordinates may miss their coordinate, integer
  coordinates are truncated; ESMF corner arrays come back transposed.
- C46: restoring a broadcast scope that dropped a singleton dimension raises
  `KeyError`; `grid_abstraction_scope` turns an automatic abstraction into a fixed
  one; nested `orphaned` scopes lose the dimensions kept for the outer one, and a
  variable without parent gets an empty one; `renamed_dimensions_on_variables` raises
  `KeyError` if the body adds or renames a variable, leaving the later ones renamed; a
  mapping that swaps two names loses a dimension inside the scope.
- C47: `get_element(container_ugid=None)` looks at the first container only.
- C48, C61: every expression after the first evaluates the first definition; groups
  are stored by field name.
- C49: `validate_time_subset` misses the start month and counts the month after the
  end.
- C50: of datasets with the same time all but one are lost.
- C54: a second message to the same destination and tag overwrites the first.
- C55: assignments to `DEFAULT_COORDSYS` are dropped silently.
- C56: the grid hint mask accepts an inverted range.
- C58: an extra dimension of size zero raises `IndexError`.
- C62: the touching barrier notices corners only; for vectorized grids it uses the
  wrong index.
- C64: tiled computation replaces the callback of the operations and does not restore
  it.
- C65: two index arrays in one slice dictionary are applied to a variable jointly
  (pairs of positions) and drop an axis; a Python list with gaps gives one-dimensional
  variables shape (1, n), a list of booleans or `None` raises for them; the index -1
  leaves a dimension of length one whose variables are empty.
- C66: `get_field_slice(strict=False)` removes entries from the caller's dictionary;
  raises `ValueError` for fields whose axes share a dimension (unstructured nodes);
  `get_name_mapping` writes the variable's name into the stored dimension list.
- C67: when the first collection written to CSV or shapefile holds several fields,
  each reopens the file and only the last survives; GeoJSON files are opened anew by
  every rank, field and collection; when all collections are empty the file of an
  earlier run stays although overwriting was asked for; CSV rows are appended in
  their own column order below the first header; shapefile columns with the same
  first ten characters overwrite each other.
- C68: `get_is_empty_recursive` returns what the last child says, so a collection
  is skipped when its last field is empty, and kept, to raise on writing, when
  only another is.
- C70: identifiers are ignored when a WHERE clause is given too; in a file
  without a `UGID` column the identifiers that come out cannot be selected; a
  slice that stops before it starts yields everything from its start on, one
  without a start raises, a negative index yields the whole file, a decreasing
  index array yields the range between its ends, a mask yields features 1 and 0;
  `len` raises for slices and counts absent or repeated identifiers.
- C71: the source index `[2, 1]`, left by slicing a dimension reordered with
  `[0, 2, 1]`, is read as `slice(1, 3)`: the values come in the wrong order, and
  with `[3, 1]` reading raises; index arrays raise for geodatabases.
- C72: variables next to a blank or after a comma are not replaced, so that
  `es = tas + 4` cannot be evaluated; a name that contains `exp`,
  `log`, `abs` or `power` is broken up; numbers such as `1e3` are refused; a
  variable named `_exec_` plus the name of another is used for both.
- C73: `SpatialSubsetOperation` leaves a rotated pole field in the spherical
  coordinate system; on `EmptySubsetError` a spherical field with longitudes below 0
  and above 180 keeps the shifted longitudes; `wrap=True` wraps the field along with
  the result and puts longitudes that were below 0 another 360 degrees lower; a loaded
  data variable with a mask gets the spatial mask in the field itself.
- C74: for a rotated pole field without `output_crs` only the first geometry's result
  is brought back; `spatial_wrapping` writes through views, so that with WGS84 later
  geometries miss cells or raise `ExtentError`, and with `'unwrap'` overlapping results
  mix both ranges; loaded masked data lose cells from one geometry to the next;
  `allow_empty=True` skips the output coordinate system and the wrapping of every
  result, and after an empty geometry shifts the longitudes of earlier results; a
  dataset without a dimension named in the slice dictionary removes that entry for the
  datasets after it.
- C75: with other dimensions (a time step), an average without any unmasked cell is 0
  and not masked; a variable whose spatial dimensions are not in the order of the
  geometry raises `TypeError` (`get_swap_chain` assigns to a tuple) or, without other
  dimensions, is averaged with the weights of other cells; a variable without other
  dimensions after one with them raises `ValueError` (`new_dimensions` is rebound); a
  union over some of the dimensions ignores the index along the rest.  On several
  processes the root counts with the area of all, the order of the rank weights is
  carried from one element to the next, and a process without cells counts as 0.
- C76: on several processes a collection with children (groups) raises `ValueError`; the
  mask of a byte array is lost unless something is masked in the first process's part;
  `unlimited_to_fixed_size` uses the length of the first process's part and the write
  fails with `IndexError`; a value that equals the default fill value of its type is
  read back as masked; a string variable written once keeps the length of its longest
  string, so writing longer ones later raises `IndexError`, and in an aggregated output
  the first piece decides how long strings may be.
- C77: opening a dataset with a rotated pole and spherical coordinates sets
  `env.COORDSYS_ACTUAL` and `env.SET_GRID_AXIS_ATTRS`, which are never reset: every field
  written later in the process gets that rotated pole and new grids set no axes.
- (note) string variables of more than one dimension are written with their first
  dimension only (`driver/nc.py:108`).
- C78: with `start_index=1` the start index is subtracted from the break value too when
  geometries are read, so multi-part geometries raise `IndexError` or come back as one
  part through a wrong node.
- C79: reading the geometries of an ESMF mesh whose start index is one subtracts it from
  the connectivity in place (`element_connectivity[start:stop]` is a view): the second
  reading gives other geometries.  `hint_mask` is ignored when the mesh masks nothing;
  `use_memory_optimizations` cannot read polygons; rows padded with -1 get the last node
  as a vertex; an ESMF connectivity in a table is read by rows instead of elements.
- C80: `reduce_global` loses a start index that is in the attribute of a UGRID
  connectivity and the break value of multi-part meshes; what `convert_to` makes (ragged)
  cannot be reduced.
- C81: subsetting an ESMF mesh takes single connections instead of elements;
  `original_mask` is ignored for polygons.
- C82: on several processes, a start index of one, a last node that is not used, or
  indices that are already global shift the elements of later processes to wrong nodes.
- C83: without splitting (`split=False`, or no dimensions besides those of the grid)
  cells without weights keep the fill value and are not masked; with splitting, values
  that happen to equal the fill value are masked; a slice consisting of the fill value
  raises `RegriddingError` with splitting only; a variable with the dimensions (x, y) is
  transposed silently if the grid is square; no data variables: `UnboundLocalError`.
- C84: only the mask of the first slice of the first data variable is used, for all
  slices and variables: values masked later are regridded, values not masked later are
  dropped.  A mask given by the caller replaces that mask, and is used for the
  destination grid as well (`ValueError` if its shape is another).
- C85: every regional grid with columns on both sides of the zero meridian is flagged as
  periodic, and so is a global grid without one of its columns; with one column per
  process global grids are not.
- C86: absolute values are taken before the differences, so the resolution of coordinates
  on both sides of zero is too small (two thirds for -15, -5, 5, 15).
- C87: corners come back in the other direction, so converting the result once more
  moves the nodes at the far edges; grids from vectors with bounds become arrays in the
  caller's hands; the far corners of the last column of a periodic grid come back as the
  near corners of the first (0 for 360); the mask comes back with its axes exchanged,
  which raises `ValueError` when it is used, or hides other cells of a square grid; a
  mask variable with a name of its own raises `KeyError`; a mask given by the caller is
  lost and leaves an empty mask variable on the grid.
- C88: what the variable itself masks is shown again; variables without the dimension of
  time in a field with time, and variables of integers, raise.
- C89: the source stays in the spherical system; if anything raises the destination does
  too; only writing weights (`regrid_field` returns nothing) for a source in another
  system raises `AttributeError`.
- C90: holes of the parts that are moved are filled; a polygon that has a corner west of
  zero loses everything east of 180 when it is unwrapped; a polygon that touches a
  meridian in a single corner (or along a line, on the side that is moved) raises.
- C91: with both negative longitudes and ones beyond 180 the first geometry decides, but
  across processes wrapped wins; with an empty process the state of longitudes from 0 to
  180 is `None` or unknown, depending on the order of a Python set.
- C92: a box reaching beyond 360 (unwrapped grids), or beyond 180 or -180 (wrapped grids),
  is not brought round, so chunked regridding misses source cells across the edge of the
  grid; for wrapped destinations on unwrapped sources the part beyond -180 is cut off.
- C93: a variable of one dimension all of whose geometries are selected (on one process,
  or on one of several) raises an `IndexError`: a mask without masked elements is taken to
  have two dimensions.
- C94: `intersects_check=False` with `return_slice=True` always raises an `AttributeError`.
- C95: the distance is taken to the centroid of the target, so for a target polygon another
  geometry may be nearer; `Grid.get_nearest(return_indices=True)` always raises.
- C96: without a mask only the first geometry of a variable is buffered, the others become
  `None` (one dimension), or an `AttributeError` is raised (two).
- C97: a polygon with k holes is split around each hole separately and all parts are put
  together, so every place is covered k times, and parts made for one hole still have
  the others (the conversion then uses the exteriors only, which fills them).
- C98: parts may have as many nodes as the polygon had; if the polygon meets a cell of the
  grid along a line only, a `TypeError` is raised.
- C99: one occurrence of each repeated node is removed, so a node that occurs three times
  still occurs twice; polygons with holes always fail, also valid ones.
- C100: failing geometries are not left out: their entry is the number zero instead of a list
  of nodes; with `remove_self_intersects` all polygons with holes fail; without
  `allow_splitting_excs` the failure to remove self-intersections is ignored.
- C101: variables with an integer data type (all integer variables read from netCDF) lose the
  fractions of the converted numbers: the cast to the old type comes before the type is reset.
- C102: the units attribute is set before the conversion, so after a failed conversion the
  variable claims the new units for the old numbers.
- C103: with the package `cfunits` the conversion is in place: elements common to two
  selections are converted twice, and the field they come from changes.
- C104: bounds that hold dates are moved: their units are set by the units of the time variable
  before their numbers are computed.
- C105: numbers and dates are cached when first read and kept when units, value or mask are set;
  a later conversion then restores the old value.
- C106: unknown units raise `AttributeError` (`e.message`); a units object, documented as an
  argument, raises `TypeError`.
- (note) `get_are_units_equal_by_string_or_cfunits` makes the units objects outside of the `try`
  block, so it does not fall back to comparing strings when no units package is installed.
- C107: several CSV files or shapefiles are refused; the extension may stand anywhere in the
  path, so that any file in a directory named `x.nc` is taken for netCDF; one netCDF file
  among others decides for all; a key no driver has silently selects the netCDF-CF driver.
- C108: the loop over directories is not left when a file is found, so that the last directory
  holding the file counts; a path relative to a data directory is never found.
- C109: fewer new names than variables are accepted and the rest are no data variables; with
  given metadata new names are lost and the field has no data variables; a new name that another
  variable has makes one of the two disappear silently.
- C110: reading `metadata` adds the variables of the other datasets to the first one for good;
  the request can not be read afterwards (`VariableInCollectionError`).
- C111: nothing is found when X and Y are on one dimension; with more than three dimensions
  for the axes any three are enough.
- C112: two grid mappings of different names in one file are an error, even when each variable
  has its own; the Earth's radius or ellipsoid in the file is never used; the file cannot be opened
  when its projection coordinates have no standard names or when an optional parameter is left
  out, not even when a coordinate system is given with the request.
- C113: a sphere of any radius, and anything named `latitude_longitude`, is read back as the sphere
  with the default radius; `with_proj4` has no effect, because `write_to_rootgrp` takes it out of
  the keyword arguments and does not pass it on.
- C114: `WGS84() == crs` and `crs == WGS84()` can differ; equality is not transitive, since `wktext`
  is ignored in one of three comparisons only; spheres in degrees and in radians are equal, two
  `Cartesian()` are not.
- C115: the EPSG code of a dictionary is read from the first key whatever it is, so that
  `{'zone': 10, 'init': 'epsg:...'}` raises AttributeError; `create_crs` drops everything but
  projection and datum (for example a prime meridian) and the name when it recognises WGS84.
- C116: from a rotated pole the coordinates are always longitudes and latitudes, whatever the
  destination; a projection can not be transformed to a rotated pole (assertion); geometries of a
  field on a rotated pole lose the pole; only spheres can be transformed to Cartesian coordinates,
  WGS84 raises AttributeError; holes are lost in Cartesian coordinates; `grid.update_crs` gives
  the new system to the field's geometries without transforming them; `from_crs` does not count
  for choosing the branch; a field without grid and geometries then names a system it lacks.
- C117: the level loses its units and standard name too; old units (for example metres) are kept
  when the coordinates become longitudes and latitudes; a field transformed to a CF projection and
  written to a file can not be opened again, because the standard names are removed.
- C118: only longitudes above 180 degrees are refused: those at or below -180, and any in radians, come
  back as others; negative levels (depths) come back positive on the opposite side; polygons without
  heights are put on a sphere of radius one. With real numbers (unlike rounded ones) the poles and -180
  lose their longitude as well, hence the hypotheses of the proved part.
- C119: units (and the reference of times) of the first variable are kept while the numbers of the others
  are not converted; other dimensions of length one are repeated and dimensions in another order of equal
  lengths mixed without an error; the result has no bounds; variables that only later collections have are
  dropped, and unstacked variables are those of the first collection even if they differ.
- C120: none is never masked (`get_mask(create=True)` returns an array that is not the stored one, and
  None is false there): the cell keeps the fill of a new array, 0 for strings. The first record alone
  decides types (later fractions are cut off in integer columns, also if the first value is none), whether
  there is an identifier and which lists are left out; identifiers are not compared; an iterator is used up
  by the first loop; no records fail with a name that is not set.
- C121: two variables with the dimension, also a variable and its bounds, always fail (the dimension of
  the old length is still there); masks and attributes are lost.
- C122: the coordinate system of the last dictionary is used for all; an empty list and three numbers fail
  with a name that is not set; a string of another count of numbers is looked for as a file.
- C123: with several variables of the mask role the first in the file is used; a variable with the usual
  name of one axis that declares another axis holds both; variables without dimensions are skipped when they
  declare an axis but taken by their name.
- C124: a time with both bounds and a climatology makes the whole file unreadable (ValueError).
- C125: maps of nested groups are all stored at the root: the path of a group within a group is unknown,
  and of two groups of one name anywhere the first has its map used for both.
- C126: horizontal coordinates without dimensions that are found by name (a station file with scalar `lon`
  and `lat`) make opening fail with IndexError; a group that has dimensions but uses a horizontal dimension
  of its parent fails with KeyError; nested groups are never distributed.
- C127: bounds that are given for an axis without dimensions are dropped when the dimensions are filled in.
- C128: a mesh that has only the centres of its faces cannot be opened (the polygon topology is asked for
  twice, the point topology never); two spaces between the names of coordinates fail with KeyError.
- C129: without auxiliary files only the main file is checked: `prefix_ugid.shp` beside a shapefile is
  overwritten with OVERWRITE off.
- C130: if the output directory exists and OVERWRITE is off, the first rank raises before the barrier and all
  others wait for ever; a rank that fails leaves (after at most one barrier) while others wait at their next
  synchronization for ever.
- C132: with OVERWRITE on the old output is removed before the run starts and lost if it fails; an exception
  on another rank than the first leaves the directory; if another rank writes while the first removes, the
  removal fails and the directory stays; without auxiliary files everything written before an exception stays.
- C133: with OVERWRITE off an interrupted run blocks every later one until the directory is removed by hand.
- C134: outer cells use the mean step of the grid and miss their centre if half the outer gap exceeds it; the
  cells of grids with one row or column have no area; corners of integer coordinates are truncated.
- C135: the outermost edges of irregular coordinates differ (mean of the differences of midpoints against the
  mean step of the centres).
- C136: a rank with one coordinate raises; cells of neighbouring ranks leave gaps or overlap.
- C137: `get_polygon` of a grid without bounds returns points; the points of a grid with bounds are named
  `ocgis_polygon`; expanding stores the x bounds with the data type of the y bounds (truncated if integers).
- C138: values without a mask stay hidden where the target was masked, for variables and grids.
- C139: a single element is lost (every rank is emptied because a part has at least two elements); variables
  not from a file become fill values, values and masks changed in memory are dropped; a variable without the
  dimension that was loaded before on an empty rank becomes fill values; unordered source indices are read in
  rising order within the range they span.
- C140: `get_optimal_splits(7, (2, 100))` gives four pieces although seven are possible.
- C141: a collection with groups cannot be scattered (`variable_collection_scatter(...)[0]` is a `KeyError`).
- C142: slices with one end raise `ValueError` in any dimension; slices that count from the end of a dimension
  that is not distributed raise `TypeError`.
- C143: the default buffer is twice the *smaller* of the two resolutions, so with a source that is coarser than
  the destination a chunk can miss the source cell it lies in, or find none at all.
- C144: a chunk without source points raises `EmptySubsetError` and ends everything, no index file is written;
  one chunk is refused with `ValueError`.
- C145: the optimized box subset replaces the mask of the source grid by the mask of the box as soon as one
  source point is outside of it, so masked source values take part in the regridding of the chunk.
- C146: `agg_selection` and `geom_select_sql_where` have no effect when assigned after construction (the geometry
  parameter keeps its own copies), not even on geometries assigned later, yet the netCDF rule on several
  geometries is lifted (`util/large_array.py` assigns `agg_selection` this way); the old format names are
  refused on assignment; datasets assigned later are not asked for the regridding destination.
- C147: the value is stored before the validation, so it stays when that raises.
- C148: only the first calculation of a multivariate function is checked; calculations before an expression are
  not checked at all; multivariate functions cannot be written to GeoJSON (the class itself is looked for, not its
  subclasses); `TypeError` (length of a generator; `in None`), `KeyError` and `AssertionError` instead of
  validation errors.
- C149: `ops.regrid_options = None` or a text raises `AttributeError` inside, which `__setattr__` takes for a
  missing attribute: the parameter object is replaced by the value and nothing is checked from then on.
- C150: for data on a rotated pole the validation itself replaces the output coordinate system for good.
- C151: `geom_select_uid` has no effect on geometries in memory, `agg_selection` none on fields, and the identifiers
  of a `GeomCabinetIterator` are overwritten by those of the operations, also by none.
- C152: with `aggregate=True` every tile is refused (aggregation needs a geometry, which the tile request gives up
  before it changes the format), after the empty output file has been written.
- C153: the fraction of the day is cut, not rounded: in double precision 02:00, 05:00, ... 23:00 are read as the last
  minute of the hour before; no date of a year before 1000 or after 9999 is read right; bounds raise IndexError (the rows
  are indexed by the number of the element); a variable whose values are not loaded yet, as in every field read from a
  file (`Field.time` calls `from_variable` with `value=None`), raises AttributeError.
- C154: "months since 1979-01-01" and "months since 1979-01-01 00:00:00" are refused, in Python 3 with an
  UnboundLocalError since the exception to raise again is unbound by then.
- C155: files of the same name in different directories have the same name in the archive, so that only one can be
  had; a second `format_return` packs the unfinished archive into itself; `get_zip_stream` leaves out the files in directories.
- C156: a time or level subset that is empty (and allowed to be) gives one collection, but all geometries are counted:
  the execution succeeds with less than 100 per cent.  A rank outside the communicator
  counts one operation for all the calculations of a geometry.
- C157: `compute` does not put the callback back: the operations report 100 and more when they are used again, and 0
  throughout after a computation that was refused for the size of its tiles.
- C158: setting the time of a field to that of another field brings all the variables of the other field, replacing x, y and
  data variables of the same names; setting one of two entries with the same variable takes the other away; when the new
  variable is refused (`force=False`, or several dimensions and none given) the coordinate before is already gone.
- C159: `set_crs(value, should_add=False)` removes the coordinate system before from the field, and `Field.crs` and
  `set_crs` raise VariableNotInCollection from then on; a geometry without a coordinate system takes that of the field away;
  `set_geom(None)`, which is documented, raises AttributeError.
- C160: `Field.iter(variable=..., melted=True)` raises UnboundLocalError; the caller's list of followers is extended, so
  that a second call with it repeats the variables and coordinates.
- C161: without a key a variable of which n attributes match is returned n times; a call with neither value nor predicate is
  accepted when no variable has the key; a dimension name given twice finds nothing.
- C162: the geometry type is kept once it was read, so that it is stale after other geometries are set; points and polygons
  together have the type of the last.
- C163: a geometry of no area counts 1, so that a point beside polygons of less than a unit of area outweighs them.
- C164: `create_index_array` fails with IndexError for every source with two or more columns, since a flat index sets a row;
  `arange_from_bool_ndarray` gives the places that are true, not the range of its documentation.
- C165: a dataset without identifier gets its place in the request even if another dataset has that identifier.
- C166: fewer variables than URIs in a query fail with IndexError; more are dropped without an error.
- C167: two decreasing indices return all the steps between them, a repeated index is used once, and no index fails with
  ValueError instead of the error of an empty subset.
- C168: a level range for a field without levels fails with AttributeError.
- C169: the time is the first coordinate of a field with a grid and the last of one without; the realization is no
  coordinate; the x axis of coordinates with rows and columns is given the number of rows; a time without dimension fails
  with IndexError where a level without dimension counts as none.
- C170: a coordinate shared by two geometries of an unstructured grid is listed twice, since a name is looked for among
  variables.
- (note) `get_topology(create=False)` stores `None` as the topology;
  `SourcedVariable.get_iter` calls `list.insert` with one argument.

## Testing the theorems

`tools/mutate.py` takes a list of edits, applies each to a copy of the model,
rebuilds, and records in `seeded/LOG.jsonl` which property theorems no longer
prove. Edits that no theorem noticed led to stronger statements, which the entries
name under `theorems_tightened`.
