{
 "claims": [
  {
   "property": "C01",
   "status": "proved",
   "theorems": [
    "C01_rank_bounds_partition"
   ],
   "note": ""
  },
  {
   "property": "C02",
   "status": "proved",
   "theorems": [
    "C02_create_slices_partition",
    "C02_create_nd_slices_partition",
    "C02_create_nd_slices_raises"
   ],
   "note": ""
  },
  {
   "property": "C03",
   "status": "partial",
   "theorems": [
    "C03_update_dimension_bounds_partial",
    "C03_second_update_raises",
    "C03_update_dimension_bounds_refuted"
   ],
   "note": "Proved when the dimension has at least min_elements elements or there is one rank. Refuted otherwise: a shorter distributed dimension is given to no rank."
  },
  {
   "property": "C04",
   "status": "proved",
   "theorems": [
    "C04_global_to_local_slice",
    "C04_omitted_end_raises"
   ],
   "note": ""
  },
  {
   "property": "C05",
   "status": "partial",
   "theorems": [
    "C05_distributed_slice_partial",
    "C05_distributed_mask",
    "C05_inverted_slice_refuted"
   ],
   "note": "Both ends given and 0 <= start < stop; boolean masks in full. Refuted for start > stop (slice(5, 3) of a length-10 dimension gives length 8)."
  },
  {
   "property": "C06",
   "status": "proved",
   "theorems": [
    "C06_create_distributed_dimension"
   ],
   "note": ""
  },
  {
   "property": "C07",
   "status": "proved",
   "theorems": [
    "C07_arange_from_dimension",
    "C07_create_ugid_global"
   ],
   "note": ""
  },
  {
   "property": "C08",
   "status": "proved",
   "theorems": [
    "C08_scatter_gather",
    "C08_scatter_gather_any_parts"
   ],
   "note": ""
  },
  {
   "property": "C09",
   "status": "proved",
   "theorems": [
    "C09_unique_global_array",
    "C09_empty_raises"
   ],
   "note": "For non-empty values on every rank; an empty one raises (also proved)."
  },
  {
   "property": "C10",
   "status": "partial",
   "theorems": [
    "C10_unique",
    "C10_correct",
    "C10_same",
    "C10_range",
    "C10_completes_partial",
    "C10_two_ranks",
    "C10_deadlock_refuted",
    "C10_lost_refuted",
    "C10_empty_rank"
   ],
   "note": "The exchange is modelled as a transition system: one program counter per rank, FIFO mailboxes per pair of ranks and tag, any interleaving, optionally with the loss of a message between Test and Cancel. C10_unique, C10_correct, C10_same and C10_range hold for every number of ranks, content and schedule (even with losses). Completion: C10_completes_partial proves that from every reachable state all ranks can still finish when no message is lost and the ranks other than the root can be put on levels so that questions go down (always with one or two ranks, C10_two_ranks). The full claim is false: C10_deadlock_refuted (three ranks, two of them ask each other, each has polled before the other's question arrived: nobody ever stops) and C10_lost_refuted (two ranks, a question arrives between Test and Cancel). C10_empty_rank: an empty rank is refused with ValueError. Old indices and start index are taken non-negative (the code asserts it). Shape restoration and dtype are not modelled."
  },
  {
   "property": "C11",
   "status": "partial",
   "theorems": [
    "C11_scopes_undone_partial",
    "C11_scope_live",
    "C11_serial_partial",
    "C11_scopes_undone_refuted"
   ],
   "note": "Restoration proved for every program whose scopes over no ranks do not reuse an open name; refuted otherwise. In serial the names stay registered."
  },
  {
   "property": "C12",
   "status": "partial",
   "theorems": [
    "C12_C13_getitem_partial",
    "C12_C13_one_ended_partial",
    "C12_length_refuted",
    "C12_first_three_refuted"
   ],
   "note": "Proved for in-range arguments. Refuted: slice(2, 10) on length 5 gives length 5, slice(None, 3) gives 5."
  },
  {
   "property": "C13",
   "status": "partial",
   "theorems": [
    "C12_C13_getitem_partial",
    "C13_getitem_sequence_partial",
    "C12_C13_one_ended_partial",
    "C13_last_element_refuted"
   ],
   "note": "Proved for in-range arguments, any sequence. Refuted: with a source index, dim[-1] raises ValueError and one-ended slices raise TypeError."
  },
  {
   "property": "C14",
   "status": "partial",
   "theorems": [
    "C14_formatted_slice_partial",
    "C14_formatted_slice_nd_partial",
    "C14_minus_one_refuted"
   ],
   "note": "Proved for everything except the index -1, which becomes slice(-1, 0) and selects nothing (refuted)."
  },
  {
   "property": "C15",
   "status": "partial",
   "theorems": [
    "C15_optimal_slice_partial",
    "C15_reduced_slice",
    "C15_optimal_slice_refuted"
   ],
   "note": "Proved for increasing index arrays. Refuted for repeated and decreasing ones ([2, 2, 2] becomes slice(2, 3))."
  },
  {
   "property": "C16",
   "status": "proved",
   "theorems": [
    "C16_trimmed",
    "C16_all_masked_raises",
    "C16_trimmed_one_dimension"
   ],
   "note": ""
  },
  {
   "property": "C17",
   "status": "proved",
   "theorems": [
    "C17_swap_chain"
   ],
   "note": ""
  },
  {
   "property": "C18",
   "status": "proved",
   "theorems": [
    "C18_broadcast",
    "C18_broadcast_raises"
   ],
   "note": ""
  },
  {
   "property": "C19",
   "status": "proved",
   "theorems": [
    "C19_set_mask_history",
    "C19_wrong_shape_raises"
   ],
   "note": ""
  },
  {
   "property": "C20",
   "status": "partial",
   "theorems": [
    "C20_cascade_partial",
    "C20_cascade_refuted"
   ],
   "note": "Proved in full for update=True. For update=False (the default) a variable with the same dimensions loses its own mask (refuted)."
  },
  {
   "property": "C21",
   "status": "partial",
   "theorems": [
    "C21_get_between_partial",
    "C21_return_indices_partial",
    "C21_wrong_order_raises",
    "C21_return_indices_refuted",
    "C21_empty_open_range_refuted",
    "C21_mixed_order_refuted"
   ],
   "note": "Selection proved except for an empty open range with bounds and mixed orientations (refuted); with return_indices a single run raises AttributeError (refuted)."
  },
  {
   "property": "C22",
   "status": "partial",
   "theorems": [
    "C22_date_parts_partial",
    "C22_date_parts_groups",
    "C22_all",
    "C22_unsupported_raises",
    "C22_date_parts_refuted"
   ],
   "note": "Proved for every grouping by year, month and day and for 'all'; groupings with hours, minutes or seconds raise NotImplementedError (refuted)."
  },
  {
   "property": "C23",
   "status": "partial",
   "theorems": [
    "C23_seasons_partial",
    "C23_seasons_success",
    "C23_unique_seasons_partial",
    "C23_seasons_refuted",
    "C23_unique_two_empty_refuted",
    "C23_unique_years_refuted"
   ],
   "note": "Seasons by month, by calendar year and unique seasons, with the exact condition for success. Refuted: a season without data, two empty season-years, one-year data and missing years."
  },
  {
   "property": "C24",
   "status": "partial",
   "theorems": [
    "C24_time_region",
    "C24_time_region_bounds_partial",
    "C24_no_restriction_raises",
    "C24_time_region_refuted"
   ],
   "note": "Proved in full without bounds. With bounds the selection is proved in terms of get_is_date_between; refuted that a step whose month is listed is kept, and all-None regions raise."
  },
  {
   "property": "C25",
   "status": "partial",
   "theorems": [
    "C25_difference_in_months",
    "C25_round_trip",
    "C25_decode",
    "C25_decode_succeeds_partial",
    "C25_decode_refuted"
   ],
   "note": "Difference proved for all dates; the round trip for everything that decodes; decoding raises for jumps of more than a year (refuted)."
  },
  {
   "property": "C26",
   "status": "partial",
   "theorems": [
    "C26_month_sound",
    "C26_year_sound",
    "C26_month_partial",
    "C26_year_partial",
    "C26_month_refuted"
   ],
   "note": "Acceptance is sound for all bounds; complete for bounds within a year ending at a month start or at new year. Refuted across the turn of the year and for upper bounds inside a month."
  },
  {
   "property": "C27",
   "status": "partial",
   "theorems": [
    "C27_same_partial",
    "C27_valid_partial",
    "C27_bad_width_raises",
    "C27_short_series_refuted",
    "C27_masked_input_refuted"
   ],
   "note": "Windows and the computed steps are proved for both modes and every operation along time. False in the code: a masked input element becomes unmasked (both modes), and a series shorter than the window raises NameError in mode 'valid'."
  },
  {
   "property": "C28",
   "status": "partial",
   "theorems": [
    "C28_runs_unique",
    "C28_duration_partial",
    "C28_frequency_partial",
    "C28_isolated_refuted",
    "C28_other_summary_refuted"
   ],
   "note": "duration is proved for every summary that maps equal values to that value (mean, median, max, min); freq_duration when some run has two or more steps. False in the code: if all runs are isolated steps they are collapsed to a single run of length 1, so counts and sums are wrong."
  },
  {
   "property": "C29",
   "status": "partial",
   "theorems": [
    "C29_freezethaw_partial",
    "C29_masked",
    "C29_no_event_refuted"
   ],
   "note": "Events, their alternation, their times and completeness are proved for every positive threshold. False in the code: without any event the count is -1 instead of 0."
  },
  {
   "property": "C30",
   "status": "proved",
   "theorems": [
    "C30_tiles"
   ],
   "note": ""
  },
  {
   "property": "C31",
   "status": "proved",
   "theorems": [
    "C31_tiled",
    "C31_whole",
    "C31_failure",
    "C31_flag",
    "C31_refused"
   ],
   "note": "One data variable; an element stands for the values of all other dimensions. The calculation is any function that gives each cell its own value on whatever box it succeeds on. Failure at any tile, in the template, in the geometry subset and in the checks is covered. Exceptions raised by a progress callback are not modelled."
  },
  {
   "property": "C32",
   "status": "partial",
   "theorems": [
    "C32_arrays_partial",
    "C32_grid_wrap_partial",
    "C32_grid_unwrap_partial",
    "C32_geometries_partial",
    "C32_holes_refuted",
    "C32_binary64_wrap",
    "C32_rounding_refuted"
   ],
   "note": "Proved over exact rationals for arrays, distributed grids and uncut geometries without holes, and in binary64: wrapping 0..360 is exact and unwrapping gives the value back. Refuted: wrapping a polygon drops its holes; in binary64 small negative longitudes unwrap to 360 and unwrap-then-wrap is inexact. Missing: polygons cut at the axis (geometry library)."
  },
  {
   "property": "C33",
   "status": "partial",
   "theorems": [
    "C33_partial",
    "C33_ascending_partial",
    "C33_bounds_refuted",
    "C33_row_without_seam_refuted"
   ],
   "note": "Proved for every grid whose rows all have a negative longitude: same rotation for values and masks of every variable over both grid dimensions, rows ascend. Refuted: variables with only the longitude dimension (x bounds) are not rotated; a row without a negative longitude raises TypeError."
  },
  {
   "property": "C34",
   "status": "partial",
   "theorems": [
    "C34_round_trip_partial",
    "C34_after_reading_refuted",
    "C34_after_failed_set_refuted",
    "C34_special_entries_refuted"
   ],
   "note": "Proved for maps built by successful set calls, groups nested to any depth. Refuted: asking for an absent entry or group, a refused set_variable, topologies, grid abstractions, spatial mask attributes and bounds set on the coordinate system all break the round trip. Sequences of group names are not modelled."
  },
  {
   "property": "C35",
   "status": "proved",
   "theorems": [
    "C35_set_get",
    "C35_frame",
    "C35_set_bounds",
    "C35_remove",
    "C35_disallowed",
    "C35_refused"
   ],
   "note": "Proved for every history of operations, including reads and refused operations in between."
  },
  {
   "property": "C36",
   "status": "partial",
   "theorems": [
    "C36_consistent_partial",
    "C36_add_partial",
    "C36_add_refused_partial",
    "C36_dimension_clash_partial",
    "C36_name_clash_partial",
    "C36_extract_partial",
    "C36_remove_partial",
    "C36_rename_partial",
    "C36_rename_dimension_partial",
    "C36_own_variable_refuted",
    "C36_rename_taken_refuted",
    "C36_failed_constructor_refuted",
    "C36_rename_dimension_taken_refuted",
    "C36_copy_shares_refuted",
    "C36_forced_refuted",
    "C36_source_refuted",
    "C36_half_moved_refuted",
    "C36_clean_extract_refuted",
    "C36_clean_extract_dimension_refuted",
    "C36_renamed_bounds_refuted"
   ],
   "note": "Proved over an inductive set of histories (construct, add, remove, extract, copy, rename, bounds, tags, caught exceptions) with names that are free and nothing forced, plus the exact effect of each operation. Not covered: children, attributes, values beyond their shape, distribution. False in the code: see the _refuted theorems (adding a variable the collection has, taken names, failed constructors, dimensions shared with copies, forced additions, the source of a move, clean extraction with bounds)."
  },
  {
   "property": "C37",
   "status": "partial",
   "theorems": [
    "C37_once",
    "C37_append",
    "C37_get",
    "C37_get_strict",
    "C37_removed_partial",
    "C37_renamed_refuted",
    "C37_dropped_bounds_refuted"
   ],
   "note": "The one-name, append and get theorems hold for every history. Removal is proved for consistent collections. False in the code: a renamed variable is not found by its tag, and dropped bounds stay tagged."
  },
  {
   "property": "C38",
   "status": "partial",
   "theorems": [
    "C38_reassembled_partial",
    "C38_reassembled_times_partial",
    "C38_dst_grid_slices_partial",
    "C38_dst_grid_slices_refuted"
   ],
   "note": "Refuted for a dimension of length one that is split (all chunks are empty). Proved otherwise: every destination cell is in exactly one chunk, yield_idx gives that chunk, and inserting the chunk blocks rebuilds the whole field, for two dimensions and for each time of three."
  },
  {
   "property": "C39",
   "status": "proved",
   "theorems": [
    "C39_merged",
    "C39_application",
    "C39_strict"
   ],
   "note": "Structured sides (boxes in the index file) and unstructured sides (lists of identifiers). Application is proved for any associative addition with a left identity."
  },
  {
   "property": "C40",
   "status": "partial",
   "theorems": [
    "C40_pieces",
    "C40_one_split",
    "C40_index_refuted",
    "C40_refused"
   ],
   "note": "Refuted: with yield_idx nothing is ever yielded. Proved without it, in exact arithmetic, for every jitter below the buffer."
  },
  {
   "property": "C41",
   "status": "partial",
   "theorems": [
    "C41_variables",
    "C41_records",
    "C41_repeaters",
    "C41_own_iterator",
    "C41_collection",
    "C41_melted_partial",
    "C41_melted_alone_refuted",
    "C41_melted_repeats_refuted",
    "C41_mixed_masks_refuted",
    "C41_refused",
    "C41_headers",
    "C41_bounds_refuted"
   ],
   "note": "Proved for variables and for iterators with formatters, repeated entries and unmasked values: one record per (unmasked) element in row-major order, follower values at the same coordinates, later entries of the same name win; refused followers; header maps. Proved for collection iteration, for the iterator a variable makes of itself and for entries to be repeated. Melted iteration proved when the melted variables repeat the same names and another variable is present. Refuted: a lone variable melted yields nothing; entries repeated by one melted variable stay in the records of the next; a follower skipping its masked elements under a lead that does not raises TypeError; get_iter of a variable with bounds raises TypeError without add_bounds."
  },
  {
   "property": "C42",
   "status": "partial",
   "theorems": [
    "C42_slice_partial",
    "C42_negative_refuted",
    "C42_extra_refuted"
   ],
   "note": "Proved for five entries that are None, integers from -1 up, or pairs of integers, for sequences of every length. Refuted: an integer below -1 selects more than its element (slice(-2, None)), and a sixth entry is silently ignored."
  },
  {
   "property": "C43",
   "status": "partial",
   "theorems": [
    "C43_boolean_text",
    "C43_boolean_value_partial",
    "C43_boolean_error",
    "C43_boolean_refuted",
    "C43_level_range_partial",
    "C43_level_range_refuted",
    "C43_time_range",
    "C43_unique_integers",
    "C43_unique_values_partial",
    "C43_unique_refuted",
    "C43_grouping_partial",
    "C43_grouping_refuted",
    "C43_calc_partial",
    "C43_calc_refuted",
    "C43_time_region"
   ],
   "note": "Proved for all inputs: boolean texts, time ranges (with strptime as a parameter), integer identifiers, time regions; with the stated side conditions: level ranges without NaN, groupings with at most one flag, calculations not ending in an expression. Refuted: any integer is a boolean, NaN passes as a level, '1' and 1 give equal identifiers, repeated or double flags in a grouping, a trailing expression switches off the alias check and two expressions are rejected."
  },
  {
   "property": "C44",
   "status": "partial",
   "theorems": [
    "C44_shared_edges",
    "C44_defined",
    "C44_inner_cells_partial",
    "C44_two_cells",
    "C44_outer_cells_partial",
    "C44_regular",
    "C44_outer_cell_refuted",
    "C44_integer_midpoint_refuted"
   ],
   "note": "Edges shared, inner cells contain their coordinate, regular spacing gives midpoints, exact criterion for the outer cells. Refuted: irregular outer cells may miss their coordinate; integer coordinates are truncated."
  },
  {
   "property": "C45",
   "status": "partial",
   "theorems": [
    "C45_ocgis_partial",
    "C45_esmf_partial",
    "C45_refuted"
   ],
   "note": "Inverse up to transposition; refuted as stated because the ESMF array is indexed (column, row)."
  },
  {
   "property": "C46",
   "status": "partial",
   "theorems": [
    "C46_broadcast_scope_partial",
    "C46_broadcast_scope_refuted",
    "C46_abstraction_scope_partial",
    "C46_abstraction_chosen_partial",
    "C46_abstraction_automatic_refuted",
    "C46_orphaned_partial",
    "C46_orphaned_nested_refuted",
    "C46_orphaned_parent_refuted",
    "C46_renamed_dimensions",
    "C46_renamed_on_variables_partial",
    "C46_renamed_on_variables_refuted",
    "C46_renamed_inside_partial",
    "C46_renamed_swap_refuted"
   ],
   "note": "Proved: broadcast_scope with permuted names; grid_abstraction_scope (abstraction as before on every exit); orphaned for a variable with a parent; renamed_dimensions and renamed_dimensions_on_variables restored on every exit when the body adds or renames no variable; inside the scope every dimension carries its new name when the new names are fresh. Refuted: a singleton dimension dropped by a broadcast; an automatic abstraction is fixed by the scope; nested orphaned scopes lose the cached dimensions, orphaning a variable without parent gives it one; renamed_dimensions_on_variables raises KeyError and leaves variables renamed if the body added one; swapping two names loses a dimension. Environment scopes: see C55."
  },
  {
   "property": "C47",
   "status": "partial",
   "theorems": [
    "C47_found",
    "C47_found_ugid",
    "C47_none_refuted",
    "C47_first",
    "C47_iteration",
    "C47_melted",
    "C47_refused",
    "C47_refused_new_refuted"
   ],
   "note": "Proved for every history of add_field calls with containers that have no fields yet: lookups by identifier or container field, iteration order, melted iteration, the first field, archetype and container geometries, refusals. Refuted: get_element(container_ugid=None) searches the first container, not the one filed under None; a refused call with a populated new container still registers the container."
  },
  {
   "property": "C48",
   "status": "partial",
   "theorems": [
    "C48_field_partial",
    "C48_execute_partial",
    "C48_second_expression_refuted"
   ],
   "note": "Proved when at most the first definition of the list is an expression (a definition without a name). False in the code: every expression after the first evaluates the first definition of the list (engine.py:108), and a KeyError raised inside any function constructor has the same effect."
  },
  {
   "property": "C49",
   "status": "partial",
   "theorems": [
    "C49_unlimited",
    "C49_years_partial",
    "C49_years_sound",
    "C49_years_refuted",
    "C49_months_refuted",
    "C49_empty_region_refuted"
   ],
   "note": "Proved for regions of years: true exactly if every year has a date in the range, which is the property for one year and its soundness for several. Refuted: several years need all of them; with months the start month is missed and the month after the end counted; a region with both entries None raises TypeError."
  },
  {
   "property": "C50",
   "status": "partial",
   "theorems": [
    "C50_distinct_partial",
    "C50_general_partial",
    "C50_ties_refuted"
   ],
   "note": "Proved for datasets with different times (a sorted permutation) and in general (sorted, the last dataset of each time). Refuted for equal times: all but one are lost."
  },
  {
   "property": "C51",
   "status": "proved",
   "theorems": [
    "C51_window",
    "C51_daily_percentile",
    "C51_within_days",
    "C51_day_numbers"
   ],
   "note": ""
  },
  {
   "property": "C52",
   "status": "proved",
   "theorems": [
    "C52_multipart"
   ],
   "note": ""
  },
  {
   "property": "C53",
   "status": "proved",
   "theorems": [
    "C53_extent_global",
    "C53_empty_rank"
   ],
   "note": "An empty rank raises on that rank, so the statement is for non-empty ranks."
  },
  {
   "property": "C54",
   "status": "partial",
   "theorems": [
    "C54_messages_partial",
    "C54_messages_refuted"
   ],
   "note": "Proved when no message is sent over one not yet received under the same destination and tag; refuted otherwise (the first is lost)."
  },
  {
   "property": "C55",
   "status": "partial",
   "theorems": [
    "C55_explicit_partial",
    "C55_unset_partial",
    "C55_ocgis",
    "C55_coordsys_refuted",
    "C55_sentinel_refuted",
    "C55_fixed_refuted"
   ],
   "note": "Proved for every history of assignments and resets, for every parameter of the table (explicit value) and every parameter not fixed at start (process value, then default); the table of ocgis is shown to meet the conditions. Refuted: DEFAULT_COORDSYS cannot be assigned, the text use_env is not a value, PREFER_NETCDFTIME and USE_NETCDF4_MPI ignore later changes of the process environment."
  },
  {
   "property": "C56",
   "status": "partial",
   "theorems": [
    "C56_bounds",
    "C56_section",
    "C56_xyz",
    "C56_xyz_inverted_range",
    "C56_hint_vectorized",
    "C56_hint_2d",
    "C56_hint_inverted_range_refuted"
   ],
   "note": "All selectors proved; only the grid hint mask accepts an inverted range (refuted part)."
  },
  {
   "property": "C57",
   "status": "proved",
   "theorems": [
    "C57_threshold",
    "C57_between",
    "C57_between_inverted_raises",
    "C57_sample_size",
    "C57_count_at_most_sample"
   ],
   "note": ""
  },
  {
   "property": "C58",
   "status": "partial",
   "theorems": [
    "C58_aggregation_partial",
    "C58_transform_partial",
    "C58_empty_extra_refuted"
   ],
   "note": "Proved for all dimension orders, extra dimensions and functions, with and without groups. Not covered: spatial aggregation inside the calculation. False in the code: an extra dimension of size zero raises IndexError."
  },
  {
   "property": "C59",
   "status": "proved",
   "theorems": [
    "C59_names"
   ],
   "note": "Proved for every history of set_name and append_alias."
  },
  {
   "property": "C60",
   "status": "proved",
   "theorems": [
    "C60_identify",
    "C60_order",
    "C60_wide"
   ],
   "note": "Proved for every width from 1 and every integer from 0 below ten to the width; wider integers keep their digits. Negative integers are out of range (see the example)."
  },
  {
   "property": "C61",
   "status": "partial",
   "theorems": [
    "C61_own_groups_partial",
    "C61_same_name_refuted"
   ],
   "note": "Proved when fields of the same name have the same grouping. False in the code otherwise: groups are stored by field name, so a later field of the same name is grouped by the time of the first."
  },
  {
   "property": "C62",
   "status": "partial",
   "theorems": [
    "C62_hint_2d_partial",
    "C62_hint_2d_edge_refuted",
    "C62_hint_vectorized_refuted",
    "C62_xyz_partial",
    "C62_xyz_refuted"
   ],
   "note": "Exact criteria proved for 2-D grids and point sets; refuted: edges are never noticed, vectorized grids use the wrong index."
  },
  {
   "property": "C63",
   "status": "partial",
   "theorems": [
    "C63_unchanged_partial",
    "C63_doubled_refuted"
   ],
   "note": "Proved for variables without repeat_record. Refuted: get_iter hands the variable's repeat_record list to the iterator, which extends it in place, so it doubles with every call (proved: length times 2^n after n calls)."
  },
  {
   "property": "C64",
   "status": "partial",
   "theorems": [
    "C64_no_callback_partial",
    "C64_callback_refuted"
   ],
   "note": "Refuted: a callback on the operations is replaced by a wrapper and never restored, also when the tile size is refused. Partial: without a callback nothing changes."
  },
  {
   "property": "C65",
   "status": "partial",
   "theorems": [
    "C65_collection_partial",
    "C65_congruent",
    "C65_variable_partial",
    "C65_refused",
    "C65_two_arrays_refuted",
    "C65_lists_refuted",
    "C65_last_refuted"
   ],
   "note": "Proved for congruent collections and dictionaries with in-range slices of which at most one per variable is an index array with gaps or a boolean array; the result is congruent again; variables are sliced through their collection. Refuted: two index arrays select pairs of positions and drop an axis (or raise); a list with gaps gives one-dimensional variables an extra axis, boolean lists and None raise there; -1 leaves a dimension of length one with empty arrays."
  },
  {
   "property": "C66",
   "status": "partial",
   "theorems": [
    "C66_slice_partial",
    "C66_unchanged",
    "C66_refused",
    "C66_names",
    "C66_arguments_refuted",
    "C66_shared_refuted",
    "C66_map_refuted"
   ],
   "note": "Not distributed. Proved for mappings that list every dimension under at most one standard name, and slice dictionaries as in C65: the slice means the same as slicing by the field's own dimension names and the field is left alone (C66_slice_partial); it is left alone on every exit path (C66_unchanged); unknown names are refused (C66_refused); the names offered are those of the dimension map (C66_names). Refuted: a lenient slice removes entries from the caller's dictionary; fields whose axes share a dimension cannot be sliced; asking for the names writes the variable's name into the dimension map."
  },
  {
   "property": "C67",
   "status": "partial",
   "theorems": [
    "C67_csv_partial",
    "C67_shapefile_partial",
    "C67_geojson_partial",
    "C67_exists",
    "C67_first_refuted",
    "C67_geojson_refuted",
    "C67_stale_refuted",
    "C67_skipped_refuted",
    "C67_columns_refuted",
    "C67_names_refuted"
   ],
   "note": "Cells are strings and the records of a field are given (which records a variable yields is C63). Proved for rows that share one column order, when the first collection that is not empty holds one field (CSV, and shapefiles whose names differ in the first ten characters) and for GeoJSON with one field on one rank; an existing file is refused without overwrite. Refuted: of a first collection with several fields only the last survives; GeoJSON keeps the last rank of the last field only; with nothing to write the old file stays; a collection whose last field is empty is left out; rows with another column order land under the wrong names; shapefile columns with the same first ten characters are merged."
  },
  {
   "property": "C68",
   "status": "partial",
   "theorems": [
    "C68_empty_partial",
    "C68_last_refuted"
   ],
   "note": "Proved when no collection in the tree has more than one child; refuted otherwise: the last child alone decides."
  },
  {
   "property": "C69",
   "status": "proved",
   "theorems": [
    "C69_rows",
    "C69_ranks",
    "C69_unknown",
    "C69_roundtrip"
   ],
   "note": "Rows of cells; quoting is not modelled. The round trip is stated under the conditions of C67_csv_partial."
  },
  {
   "property": "C70",
   "status": "partial",
   "theorems": [
    "C70_all",
    "C70_select_partial",
    "C70_where",
    "C70_slice_partial",
    "C70_together",
    "C70_identifier",
    "C70_unknown",
    "C70_length_partial",
    "C70_length_select_partial",
    "C70_both_refuted",
    "C70_added_refuted",
    "C70_stop_refuted",
    "C70_start_refuted",
    "C70_array_refuted",
    "C70_length_refuted"
   ],
   "note": "Proved for all features, for identifiers (in a column of the file), for WHERE clauses and for the slices SliceAsWritten describes; refuted for the combination of identifiers and a clause, for added identifiers, for other slices and for the length. Geometries and OGR are not modelled."
  },
  {
   "property": "C71",
   "status": "partial",
   "theorems": [
    "C71_value_partial",
    "C71_history_partial",
    "C71_order_refuted",
    "C71_gdb_refuted"
   ],
   "note": "Proved for source indices read as written and for every history of in-range slices with increasing index arrays; refuted for reordered dimensions and geodatabases."
  },
  {
   "property": "C72",
   "status": "partial",
   "theorems": [
    "C72_tokens",
    "C72_translate_partial",
    "C72_unknown",
    "C72_equals",
    "C72_multivariate",
    "C72_blank_refuted",
    "C72_inside_refuted",
    "C72_number_refuted",
    "C72_twice_refuted"
   ],
   "note": "Proved for names that contain no function name and stand between arithmetic signs or ends (or between a sign and a comma); refusals and is_multivariate proved in full; refuted for blanks, commas, names containing function names and numbers with an exponent. Evaluation by Python and NumPy is not modelled."
  },
  {
   "property": "C73",
   "status": "partial",
   "theorems": [
    "C73_cells_partial",
    "C73_nothing_partial",
    "C73_same_partial",
    "C73_same_empty_partial",
    "C73_rotated_refuted",
    "C73_shifted_refuted",
    "C73_wrap_refuted",
    "C73_mask_refuted"
   ],
   "note": "Selection, emptiness and restoration proved for spherical, WGS84 and flat fields without wrap=True; refuted for rotated pole fields, for mixed longitudes when nothing is selected, for wrap=True and for loaded masked data."
  },
  {
   "property": "C74",
   "status": "partial",
   "theorems": [
    "C74_each_partial",
    "C74_stop_partial",
    "C74_cells_partial",
    "C74_rotated_partial",
    "C74_output_partial",
    "C74_datasets",
    "C74_datasets_stop",
    "C74_slice_partial",
    "C74_rotated_refuted",
    "C74_wgs84_refuted",
    "C74_unwrap_refuted",
    "C74_mask_refuted",
    "C74_allow_empty_refuted",
    "C74_allow_empty_shift_refuted",
    "C74_slice_refuted"
   ],
   "note": "Proved for requests that satisfy Apart (no allow_empty, no loaded masked data, rotated pole only with a geographic output_crs, wrapping only of own copies, of spherical longitudes to -180..180, or where nothing changes); datasets proved in full; each excluded case is refuted."
  },
  {
   "property": "C75",
   "status": "partial",
   "theorems": [
    "C75_average_partial",
    "C75_masked_partial",
    "C75_masked_refuted",
    "C75_order_of_dimensions_refuted",
    "C75_transposed_refuted",
    "C75_order_of_variables_refuted",
    "C75_union",
    "C75_union_dims_refuted",
    "C75_parallel_points_partial",
    "C75_parallel_bounds_partial",
    "C75_parallel_refuted",
    "C75_parallel_order_refuted",
    "C75_parallel_mask_refuted"
   ],
   "note": "Proved on one process for variables over the geometry's dimensions followed by variables with other dimensions, in the geometry's order; on several processes for points (first element, or equal counts) and as bounds; each excluded case is refuted."
  },
  {
   "property": "C76",
   "status": "partial",
   "theorems": [
    "C76_serial_partial",
    "C76_parallel_partial",
    "C76_append_partial",
    "C76_fixed_partial",
    "C76_fixed_parallel_refuted",
    "C76_parallel_groups_refuted",
    "C76_byte_mask_refuted",
    "C76_mask_refuted",
    "C76_default_value_refuted",
    "C76_clash_refuted",
    "C76_strings_partial",
    "C76_strings_again_refuted",
    "C76_strings_append_refuted"
   ],
   "note": "Proved for any tree on one process, any partition over processes without groups, and any pieces, when values do not look like missing ones and byte masks show in the first part; each excluded case is refuted."
  },
  {
   "property": "C77",
   "status": "partial",
   "theorems": [
    "C77_written_crs_partial",
    "C77_written_crs_refuted",
    "C77_axes_partial",
    "C77_axes_refuted"
   ],
   "note": "Proved when all replaced rotated poles opened before agree with the dataset; refuted for every other history."
  },
  {
   "property": "C78",
   "status": "partial",
   "theorems": [
    "C78_converted",
    "C78_nodes",
    "C78_mesh",
    "C78_round_trip_partial",
    "C78_start_index_multi_refuted",
    "C78_start_index_multi_wrong_refuted",
    "C78_holes",
    "C78_points"
   ],
   "note": "Proved for points, polygons and multi-polygons with start index 0, and for polygons with any start index; refuted for multi-polygons with start index 1."
  },
  {
   "property": "C79",
   "status": "partial",
   "theorems": [
    "C79_ugrid",
    "C79_esmf_partial",
    "C79_esmf_changed_refuted",
    "C79_esmf_second_refuted",
    "C79_hint_mask_refuted",
    "C79_memory_refuted",
    "C79_padding_refuted",
    "C79_esmf_table_refuted"
   ],
   "note": "Proved for meshes in rows (UGRID); for ESMF vectors the first pass, and no change when the start index is 0; the change otherwise is proved for every mesh (refutation)."
  },
  {
   "property": "C80",
   "status": "partial",
   "theorems": [
    "C80_reduced_partial",
    "C80_attribute_refuted",
    "C80_multi_refuted",
    "C80_ragged_refuted"
   ],
   "note": "Proved for tables and ESMF vectors without parts whose start index is given or the driver's; the other cases are refuted."
  },
  {
   "property": "C81",
   "status": "partial",
   "theorems": [
    "C81_ugrid",
    "C81_points",
    "C81_original_mask_refuted",
    "C81_esmf_refuted"
   ],
   "note": "Proved for UGRID meshes and points; refuted for ESMF meshes and for original_mask."
  },
  {
   "property": "C82",
   "status": "partial",
   "theorems": [
    "C82_written_partial",
    "C82_start_index_refuted",
    "C82_unused_node_refuted",
    "C82_global_indices_refuted",
    "C82_table_refuted"
   ],
   "note": "Proved for one process, and for any number with start index 0 when each process uses its last node; refuted otherwise."
  },
  {
   "property": "C83",
   "status": "partial",
   "theorems": [
    "C83_regrid_partial",
    "C83_bulk_refuted",
    "C83_plain_refuted",
    "C83_fill_value_refuted",
    "C83_raises_refuted",
    "C83_order_refuted",
    "C83_no_data_refuted"
   ],
   "note": "Proved for fields whose first variable ends in y, x (other variables in any order): values and errors for both ways, masks for the split one; the rest is refuted."
  },
  {
   "property": "C84",
   "status": "partial",
   "theorems": [
    "C84_hidden_cells",
    "C84_masked_partial",
    "C84_destination_partial",
    "C84_later_refuted",
    "C84_value_mask_refuted",
    "C84_value_mask_shape_refuted"
   ],
   "note": "Proved for masks that are the same in the first slice of the first variable; non-interference of all cells hidden from ESMF; refuted for other masks."
  },
  {
   "property": "C85",
   "status": "partial",
   "theorems": [
    "C85_global",
    "C85_unwrapped_partial",
    "C85_ranks_partial",
    "C85_ranks_wrapped_partial",
    "C85_regional_refuted",
    "C85_missing_refuted",
    "C85_single_columns_refuted"
   ],
   "note": "Global grids are flagged (proved); exact for unwrapped grids on any ranks with two or more columns; refuted for grids across the zero meridian."
  },
  {
   "property": "C86",
   "status": "partial",
   "theorems": [
    "C86_spacing_partial",
    "C86_bounds",
    "C86_limit",
    "C86_zero_refuted"
   ],
   "note": "Proved on one side of zero and with bounds; refuted (for every grid) across zero."
  },
  {
   "property": "C87",
   "status": "partial",
   "theorems": [
    "C87_partial",
    "C87_source_partial",
    "C87_source_refuted",
    "C87_again_refuted",
    "C87_periodic_refuted",
    "C87_mask_refuted",
    "C87_square_mask_refuted",
    "C87_value_mask_refuted"
   ],
   "note": "Proved for cells that touch, without a mask: centres and rings of corners; the rest (second conversion, periodic grids, masks, vectors becoming arrays) is refuted."
  },
  {
   "property": "C88",
   "status": "partial",
   "theorems": [
    "C88_partial",
    "C88_mask_refuted",
    "C88_no_time_refuted",
    "C88_integers_refuted"
   ],
   "note": "Proved for values, dimensions and the mask of the grid; the variable's own mask, fields with time and a variable without, and integers are refuted."
  },
  {
   "property": "C89",
   "status": "partial",
   "theorems": [
    "C89_result_partial",
    "C89_inputs_partial",
    "C89_destination_partial",
    "C89_sequence",
    "C89_source_refuted",
    "C89_failure_refuted",
    "C89_weights_refuted"
   ],
   "note": "System of the result, the destination (if the transformation can be undone and nothing raises) and sequences are proved; source, failures and weights-only runs are refuted."
  },
  {
   "property": "C90",
   "status": "partial",
   "theorems": [
    "C90_wrap_partial",
    "C90_unwrap_partial",
    "C90_roundtrip_partial",
    "C90_holes_partial",
    "C90_holes_refuted",
    "C90_beyond_refuted",
    "C90_wrap_raises",
    "C90_unwrap_raises",
    "C90_touching_refuted"
   ],
   "note": "Proved for geometries without holes within the usual ranges, given the facts about the geometry library; with holes nothing is lost; holes, shapes beyond both ends and touching corners are refuted; exact conditions for raising."
  },
  {
   "property": "C91",
   "status": "partial",
   "theorems": [
    "C91_partial",
    "C91_meaning_partial",
    "C91_mixed_refuted",
    "C91_empty_refuted",
    "C91_action"
   ],
   "note": "Proved when negative longitudes and ones beyond 180 do not occur together and no process is empty; both conditions are necessary (refuted)."
  },
  {
   "property": "C92",
   "status": "partial",
   "theorems": [
    "C92_unwrapped_partial",
    "C92_wrapped_partial",
    "C92_margin_partial",
    "C92_east_refuted",
    "C92_dateline_refuted",
    "C92_west_refuted"
   ],
   "note": "Proved for boxes from -180 to 360 and margins around unwrapped grids west of zero; margins beyond the other ends are refuted."
  },
  {
   "property": "C93",
   "status": "partial",
   "theorems": [
    "C93_selected_partial",
    "C93_nothing_partial",
    "C93_index",
    "C93_processes_partial",
    "C93_distribution_partial",
    "C93_all_refuted",
    "C93_all_of_one_refuted"
   ],
   "note": "Index and distribution proved to make no difference; the selection is proved exact except for one-dimensional variables that are selected as a whole, which raise (refuted)."
  },
  {
   "property": "C94",
   "status": "partial",
   "theorems": [
    "C94_intersection_partial",
    "C94_nothing_partial",
    "C94_unchecked",
    "C94_slice_refuted"
   ],
   "note": "Proved for all options except intersects_check=False with return_slice=True, which always raises (refuted), and whole one-dimensional variables as in C93."
  },
  {
   "property": "C95",
   "status": "partial",
   "theorems": [
    "C95_centroid_partial",
    "C95_point_partial",
    "C95_polygon_refuted",
    "C95_grid_refuted"
   ],
   "note": "Proved for the distance to the target's centroid and for targets that are points; refuted for polygons and for indices from a grid."
  },
  {
   "property": "C96",
   "status": "partial",
   "theorems": [
    "C96_masked_partial",
    "C96_one_partial",
    "C96_lost_refuted",
    "C96_rows_refuted"
   ],
   "note": "Proved with a mask and for a single geometry; refuted without a mask."
  },
  {
   "property": "C97",
   "status": "partial",
   "theorems": [
    "C97_cover_partial",
    "C97_no_holes_partial",
    "C97_cover_refuted",
    "C97_nothing",
    "C97_holes_refuted"
   ],
   "note": "Coverage and absence of holes proved for polygons with at most one hole; with several the coverage is proved to be multiple (refuted)."
  },
  {
   "property": "C98",
   "status": "partial",
   "theorems": [
    "C98_cover_partial",
    "C98_small",
    "C98_threshold_refuted",
    "C98_touch_refuted"
   ],
   "note": "Coverage proved whenever it returns; the threshold and the absence of exceptions are refuted."
  },
  {
   "property": "C99",
   "status": "partial",
   "theorems": [
    "C99_valid_partial",
    "C99_unchanged_partial",
    "C99_nodes_partial",
    "C99_thrice_refuted",
    "C99_holes_refuted"
   ],
   "note": "Validity and nodes proved for rings whose nodes occur at most twice; three occurrences and holes refuted."
  },
  {
   "property": "C100",
   "status": "partial",
   "theorems": [
    "C100_entries_partial",
    "C100_unsplit",
    "C100_cover_partial",
    "C100_zero_refuted",
    "C100_holes_refuted",
    "C100_ignored_refuted"
   ],
   "note": "The entries of other geometries are proved independent; failing ones are proved to stay with the entry zero (refuted)."
  },
  {
   "property": "C101",
   "status": "partial",
   "theorems": [
    "C101_float_partial",
    "C101_back_partial",
    "C101_via_partial",
    "C101_int_refuted"
   ],
   "note": "Proved for all variables without an integer data type; for those the loss of fractions is proved (refuted)."
  },
  {
   "property": "C102",
   "status": "partial",
   "theorems": [
    "C102_refuted",
    "C102_no_source_partial",
    "C102_values_partial"
   ],
   "note": "Refuted for the units attribute; memory, arrays and masks of value and bounds are proved unchanged by any failing call."
  },
  {
   "property": "C103",
   "status": "partial",
   "theorems": [
    "C103_shared_partial",
    "C103_source_partial",
    "C103_apart_partial",
    "C103_refuted"
   ],
   "note": "Proved with cf_units for any sharing of memory, and with either package for disjoint selections; refuted with cfunits for overlapping ones."
  },
  {
   "property": "C104",
   "status": "partial",
   "theorems": [
    "C104_instants_partial",
    "C104_read_partial",
    "C104_dates_refuted"
   ],
   "note": "Proved for numeric bounds and for bounds whose numbers were read before; dates as bounds refuted in general."
  },
  {
   "property": "C105",
   "status": "partial",
   "theorems": [
    "C105_orderly_partial",
    "C105_conform_partial",
    "C105_stale_refuted",
    "C105_lost_refuted"
   ],
   "note": "Proved for histories that set nothing after a read since the last conversion; staleness otherwise proved in general (refuted)."
  },
  {
   "property": "C106",
   "status": "partial",
   "theorems": [
    "C106_load_partial",
    "C106_plain",
    "C106_refused",
    "C106_message_refuted",
    "C106_object_refuted"
   ],
   "note": "Proved for strings known to the database, with refusals; unknown units and units objects refuted."
  },
  {
   "property": "C107",
   "status": "partial",
   "theorems": [
    "C107_single_partial",
    "C107_files_partial",
    "C107_several_refuted",
    "C107_mixed_refuted",
    "C107_directory_refuted",
    "C107_named_partial",
    "C107_typo_refuted"
   ],
   "note": "Proved for one file of one type, several netCDF files, and registered keys; other lists, types in directory names and unknown keys refuted in general."
  },
  {
   "property": "C108",
   "status": "partial",
   "theorems": [
    "C108_answer_partial",
    "C108_found",
    "C108_missing",
    "C108_ignored",
    "C108_order_refuted",
    "C108_relative_refuted"
   ],
   "note": "Soundness, completeness and the error are proved for all trees; the order of directories and relative paths refuted in general."
  },
  {
   "property": "C109",
   "status": "partial",
   "theorems": [
    "C109_plain",
    "C109_no_data",
    "C109_missing",
    "C109_renamed_partial",
    "C109_short_refuted",
    "C109_given_refuted",
    "C109_clash_refuted",
    "C109_twice",
    "C109_iter",
    "C109_iter_none",
    "C109_field_name"
   ],
   "note": "Proved without new names, and with new names that are as many as the variables and free; the other cases refuted."
  },
  {
   "property": "C110",
   "status": "partial",
   "theorems": [
    "C110_merge_partial",
    "C110_clash",
    "C110_metadata_refuted",
    "C110_aligned"
   ],
   "note": "Merging, refusal and alignment proved; reading the metadata refuted in general."
  },
  {
   "property": "C111",
   "status": "partial",
   "theorems": [
    "C111_found_partial",
    "C111_missing",
    "C111_shared_refuted",
    "C111_more_refuted"
   ],
   "note": "Proved for three different dimensions; shared and additional dimensions refuted."
  },
  {
   "property": "C112",
   "status": "partial",
   "theorems": [
    "C112_declared_partial",
    "C112_agrees",
    "C112_several_refuted",
    "C112_rotated",
    "C112_none",
    "C112_radius_refuted",
    "C112_ellipsoid_refuted",
    "C112_coordinates_refuted",
    "C112_optional_refuted",
    "C112_given",
    "C112_given_refuted"
   ],
   "note": "Proved for one grid mapping with all parameters and standard names; several mappings, the shape of the Earth, missing standard names and optional parameters, and precedence over unreadable mappings refuted in general."
  },
  {
   "property": "C113",
   "status": "partial",
   "theorems": [
    "C113_cf_partial",
    "C113_proj4_partial",
    "C113_name_refuted",
    "C113_keyword_refuted"
   ],
   "note": "Proved for the CF classes with their parameters and for PROJ.4 variables in files without a grid mapping; spheres, reserved names and the keyword refuted."
  },
  {
   "property": "C114",
   "status": "partial",
   "theorems": [
    "C114_reflexive",
    "C114_symmetric_partial",
    "C114_wgs84_refuted",
    "C114_transitive_refuted",
    "C114_units_refuted",
    "C114_other"
   ],
   "note": "Reflexivity, and symmetry apart from WGS84, proved; the rest refuted."
  },
  {
   "property": "C115",
   "status": "partial",
   "theorems": [
    "C115_source",
    "C115_init_partial",
    "C115_init_refuted",
    "C115_create_partial",
    "C115_create_refuted"
   ],
   "note": "Proved without the key init, with it in the first place, and soundness of create_crs; order of keys and lost entries refuted."
  },
  {
   "property": "C116",
   "status": "partial",
   "theorems": [
    "C116_field_partial",
    "C116_rotated_partial",
    "C116_to_rotated_partial",
    "C116_rotated_refuted",
    "C116_to_rotated_refuted",
    "C116_pole_refuted",
    "C116_cartesian_partial",
    "C116_cartesian_refuted",
    "C116_holes_refuted",
    "C116_grid_refuted",
    "C116_from_refuted",
    "C116_none",
    "C116_bare_refuted"
   ],
   "note": "Proved between systems the libraries know, to and from rotated poles for longitudes and latitudes, and between spheres and Cartesian coordinates; the other pairs, holes, the geometries after a transformation of the grid and from_crs refuted."
  },
  {
   "property": "C117",
   "status": "partial",
   "theorems": [
    "C117_projected_partial",
    "C117_level_refuted",
    "C117_lonlat_partial",
    "C117_stale_refuted",
    "C117_radians",
    "C117_written",
    "C117_reopened_refuted"
   ],
   "note": "Removal of attributes, fresh attributes and the name of the system on writing proved; the level, stale attributes and opening again refuted."
  },
  {
   "property": "C118",
   "status": "partial",
   "theorems": [
    "C118_place",
    "C118_distance",
    "C118_there_and_back_partial",
    "C118_back_and_there",
    "C118_range",
    "C118_east",
    "C118_other",
    "C118_west_refuted",
    "C118_radians_refuted",
    "C118_depth_refuted",
    "C118_unit_partial"
   ],
   "note": "The place, distances, Cartesian to spherical and back, and there and back away from the poles with longitudes in one turn proved over the reals; longitudes outside one turn and negative levels refuted."
  },
  {
   "property": "C119",
   "status": "partial",
   "theorems": [
    "C119_values_partial",
    "C119_units_refuted",
    "C119_bounds_refuted",
    "C119_repeated_refuted",
    "C119_order_refuted",
    "C119_collections_partial",
    "C119_lost_refuted",
    "C119_differ_refuted",
    "C119_missing",
    "C119_refused",
    "C119_nothing"
   ],
   "note": "Values, masks, order and shape proved for any number of variables of the same other dimensions; units, bounds, broadcasting, order of dimensions and variables of later collections refuted."
  },
  {
   "property": "C120",
   "status": "partial",
   "theorems": [
    "C120_values_partial",
    "C120_null_refuted",
    "C120_cut_refuted",
    "C120_type_refuted",
    "C120_string_refuted",
    "C120_ids_refuted",
    "C120_later_refuted",
    "C120_unique_refuted",
    "C120_once_refuted",
    "C120_union",
    "C120_nothing_refuted"
   ],
   "note": "Order, identifiers and attributes proved for records that look like the first; masks of none, types, identifiers after the first and iterators refuted."
  },
  {
   "property": "C121",
   "status": "partial",
   "theorems": [
    "C121_values_partial",
    "C121_two_refuted",
    "C121_masks_refuted"
   ],
   "note": "Proved if one variable has the dimension and nothing is masked; two variables, masks and units refuted."
  },
  {
   "property": "C122",
   "status": "partial",
   "theorems": [
    "C122_records",
    "C122_accepted",
    "C122_crs_partial",
    "C122_crs_refuted",
    "C122_empty_refuted",
    "C122_numbers_refuted",
    "C122_point_box",
    "C122_string_partial",
    "C122_string_refuted"
   ],
   "note": "Order, attributes, points and boxes proved, the coordinate system if all have the same; mixed systems, empty lists and other counts of numbers refuted."
  },
  {
   "property": "C123",
   "status": "partial",
   "theorems": [
    "C123_found",
    "C123_dimensions",
    "C123_spherical",
    "C123_order_partial",
    "C123_order_refuted",
    "C123_distinct_partial",
    "C123_distinct_refuted"
   ],
   "note": "Found exactly when the only candidate, with its dimensions, also for spherical coordinates; order proved with one mask variable, distinctness if no usual name declares another axis; both refuted in general."
  },
  {
   "property": "C124",
   "status": "partial",
   "theorems": [
    "C124_bounds",
    "C124_opens_partial",
    "C124_opens_refuted"
   ],
   "note": "The bounds proved as an equivalence; opening proved unless time has both attributes, where it always fails."
  },
  {
   "property": "C125",
   "status": "partial",
   "theorems": [
    "C125_groups_partial",
    "C125_nested_refuted",
    "C125_flat_refuted"
   ],
   "note": "Proved for the root and its groups of unique names; nested groups and repeated names refuted."
  },
  {
   "property": "C126",
   "status": "partial",
   "theorems": [
    "C126_larger_partial",
    "C126_groups_partial",
    "C126_scalar_refuted",
    "C126_nested_refuted",
    "C126_inherited_refuted"
   ],
   "note": "Proved for the root and groups of unique names with their own dimensions; scalar coordinates, inherited dimensions and nested groups refuted."
  },
  {
   "property": "C127",
   "status": "partial",
   "theorems": [
    "C127_given_partial",
    "C127_filled",
    "C127_bounds_refuted"
   ],
   "note": "Proved where dimensions are given or none are to be filled; given bounds are lost otherwise (refuted)."
  },
  {
   "property": "C128",
   "status": "partial",
   "theorems": [
    "C128_elements_partial",
    "C128_points_refuted",
    "C128_nodes_partial",
    "C128_spaces_refuted"
   ],
   "note": "Proved for meshes with nodes named with one space between; meshes with face centres only and more spaces refuted."
  },
  {
   "property": "C129",
   "status": "partial",
   "theorems": [
    "C129_directory",
    "C129_not_a_directory",
    "C129_others",
    "C129_file_partial",
    "C129_companion_refuted"
   ],
   "note": "Proved for every schedule and interruption with a directory of its own, and for the file that is checked without; companions of that file refuted."
  },
  {
   "property": "C130",
   "status": "partial",
   "theorems": [
    "C130_goes_on_partial",
    "C130_one_partial",
    "C130_refused_refuted",
    "C130_failed_refuted"
   ],
   "note": "No deadlock proved for runs without exceptions and with matching synchronizations, termination for one rank; refusals and exceptions on several ranks refuted."
  },
  {
   "property": "C131",
   "status": "proved",
   "theorems": [
    "C131_exact",
    "C131_same",
    "C131_shared"
   ],
   "note": "Proved for every number of ranks and every schedule."
  },
  {
   "property": "C132",
   "status": "partial",
   "theorems": [
    "C132_removed_partial",
    "C132_old_refuted",
    "C132_other_refuted",
    "C132_race_refuted",
    "C132_shared_refuted"
   ],
   "note": "Removal proved if the first rank fails and only it writes; old output, other ranks, races and output without a directory refuted."
  },
  {
   "property": "C133",
   "status": "partial",
   "theorems": [
    "C133_unmixed",
    "C133_again",
    "C133_succeeds_partial",
    "C133_blocked_refuted"
   ],
   "note": "Unmixed content and the same output after any interruption proved with OVERWRITE on; blocked otherwise (refuted)."
  },
  {
   "property": "C134",
   "status": "partial",
   "theorems": [
    "C134_inner_corners",
    "C134_defined",
    "C134_even",
    "C134_rows_partial",
    "C134_columns_partial",
    "C134_outer_rows_partial",
    "C134_outer_columns_partial",
    "C134_outer_refuted",
    "C134_single_row_refuted",
    "C134_integer_refuted"
   ],
   "note": "Shared and mean corners, even grids and inner cells proved, outer cells with the exact condition; outer cells, single rows and integers refuted."
  },
  {
   "property": "C135",
   "status": "partial",
   "theorems": [
    "C135_rows_partial",
    "C135_columns_partial",
    "C135_even",
    "C135_refuted"
   ],
   "note": "Inner edges and evenly spaced coordinates proved; outer edges refuted."
  },
  {
   "property": "C136",
   "status": "partial",
   "theorems": [
    "C136_even_partial",
    "C136_inner_partial",
    "C136_one_coordinate_refuted",
    "C136_gap_refuted"
   ],
   "note": "Evenly spaced coordinates and edges within a rank proved; single coordinates and gaps between ranks refuted."
  },
  {
   "property": "C137",
   "status": "partial",
   "theorems": [
    "C137_cells",
    "C137_point",
    "C137_box",
    "C137_expanded",
    "C137_deficient",
    "C137_polygon_refuted",
    "C137_name_refuted",
    "C137_expand_integer_refuted"
   ],
   "note": "Order, masks, points, boxes and expanded rings proved; polygons without bounds, names and integer bounds refuted."
  },
  {
   "property": "C138",
   "status": "partial",
   "theorems": [
    "C138_variable_partial",
    "C138_shapes",
    "C138_grid_partial",
    "C138_mask_refuted",
    "C138_grid_mask_refuted"
   ],
   "note": "Values, bounds, masks of masked sources and accepted shapes proved; sources without a mask refuted."
  },
  {
   "property": "C139",
   "status": "partial",
   "theorems": [
    "C139_redistribution_partial",
    "C139_single_refuted",
    "C139_memory_refuted",
    "C139_order_refuted"
   ],
   "note": "Variables from a file with increasing source indices proved; single elements, values in memory, variables without the dimension and other orders refuted."
  },
  {
   "property": "C140",
   "status": "partial",
   "theorems": [
    "C140_splits_partial",
    "C140_optimal_refuted"
   ],
   "note": "Number of pieces and limits per axis proved; optimality refuted."
  },
  {
   "property": "C141",
   "status": "partial",
   "theorems": [
    "C141_flat_partial",
    "C141_groups_refuted"
   ],
   "note": "Collections without groups proved; every collection with groups refuted."
  },
  {
   "property": "C142",
   "status": "partial",
   "theorems": [
    "C142_distributed_slice_partial",
    "C142_one_ended_refuted",
    "C142_negative_refuted"
   ],
   "note": "Whole and two-ended slices in any number of dimensions proved; one-ended slices and slices from the end refuted."
  },
  {
   "property": "C143",
   "status": "partial",
   "theorems": [
    "C143_chunk_has_its_sources_partial",
    "C143_chunk_found",
    "C143_default_buffer_refuted",
    "C143_default_buffer_misses_refuted",
    "C143_default_buffer_partial",
    "C143_default_buffer_value",
    "C143_resolution_partial"
   ],
   "note": "Proved for buffers of at least the reach, and for the default with a source that is not coarser than the destination; the default with a coarser source refuted."
  },
  {
   "property": "C144",
   "status": "partial",
   "theorems": [
    "C144_chunks_are_the_whole_partial",
    "C144_unmapped_chunk_refuted",
    "C144_one_chunk_refuted"
   ],
   "note": "Proved if every destination cell has a source in reach; unmapped chunks and single chunks refuted."
  },
  {
   "property": "C145",
   "status": "partial",
   "theorems": [
    "C145_source_mask_lost_refuted",
    "C145_masked_values_used_refuted",
    "C145_source_mask_kept_partial"
   ],
   "note": "Kept if all source points lie in the box; lost otherwise (refuted)."
  },
  {
   "property": "C146",
   "status": "partial",
   "theorems": [
    "C146_assigned_as_constructed_partial",
    "C146_agg_selection_refuted",
    "C146_where_refuted",
    "C146_others_refuted"
   ],
   "note": "Proved over all histories for all attributes but agg_selection, geom_select_sql_where, old formats, bad options and datasets that are rotated or marked for regridding; these refuted."
  },
  {
   "property": "C147",
   "status": "partial",
   "theorems": [
    "C147_refused_unchanged_refuted",
    "C147_refused_by_parameter_partial",
    "C147_one_attribute_partial",
    "C147_taken_back_partial"
   ],
   "note": "Refuted: the value stays. Proved: refusals by the parameter itself change nothing, only one attribute changes, taking the value back restores the operations."
  },
  {
   "property": "C148",
   "status": "partial",
   "theorems": [
    "C148_rules_partial",
    "C148_constructed_partial",
    "C148_names_partial",
    "C148_second_refuted",
    "C148_mixed_refuted",
    "C148_geojson_refuted",
    "C148_error_refuted"
   ],
   "note": "Equivalence proved with the rules as checked (data not on a rotated pole); unchecked calculations, GeoJSON and other exceptions refuted."
  },
  {
   "property": "C149",
   "status": "partial",
   "theorems": [
    "C149_options_kept_partial",
    "C149_bad_options_refused_partial",
    "C149_options_refuted"
   ],
   "note": "Proved over all histories of dictionaries; refuted after None or a text."
  },
  {
   "property": "C150",
   "status": "partial",
   "theorems": [
    "C150_output_crs_partial",
    "C150_rotated_partial",
    "C150_output_crs_refuted"
   ],
   "note": "Proved without data on a rotated pole, and the replacement with it; its persistence refuted."
  },
  {
   "property": "C151",
   "status": "partial",
   "theorems": [
    "C151_geometries_partial",
    "C151_geometries_refuted"
   ],
   "note": "Proved for files and plain geometries; memory geometries with identifiers, fields with union and iterators with identifiers refuted."
  },
  {
   "property": "C152",
   "status": "partial",
   "theorems": [
    "C152_tiles_accepted_partial",
    "C152_tile_request",
    "C152_tiles_refuted"
   ],
   "note": "Proved without aggregation, for data not on a rotated pole; with aggregation refuted."
  },
  {
   "property": "C153",
   "status": "partial",
   "theorems": [
    "C153_times_partial",
    "C153_class",
    "C153_rounding",
    "C153_hours_refuted",
    "C153_years_refuted",
    "C153_bounds_refuted",
    "C153_not_loaded_refuted",
    "C153_others_untouched"
   ],
   "note": "Proved for one-dimensional loaded values of the years 1000 to 9999, to the minute in which the stored number lies; refuted for rounded times of day, other years, bounds, and values not loaded."
  },
  {
   "property": "C154",
   "status": "partial",
   "theorems": [
    "C154_origin_partial",
    "C154_date_refuted",
    "C154_colon_refuted"
   ],
   "note": "Proved for year and month, and date and hour (exactly these are read); refuted for the other writings."
  },
  {
   "property": "C155",
   "status": "partial",
   "theorems": [
    "C155_archive_partial",
    "C155_same_names_refuted",
    "C155_again_refuted",
    "C155_as_given",
    "C155_stream_partial",
    "C155_stream_refuted"
   ],
   "note": "Proved for names that differ, for the first call, and for streams of flat folders; otherwise refuted."
  },
  {
   "property": "C156",
   "status": "partial",
   "theorems": [
    "C156_progress_partial",
    "C156_fewer_refuted",
    "C156_rank_refuted"
   ],
   "note": "Proved: never back, within 0 and 100, and 100 at the end when each dataset gives one collection for each geometry on a rank that takes part; refuted for empty subsets and other ranks."
  },
  {
   "property": "C157",
   "status": "partial",
   "theorems": [
    "C157_progress_partial",
    "C157_share",
    "C157_again_refuted",
    "C157_second_refuted",
    "C157_refused_refuted",
    "C157_none"
   ],
   "note": "Proved for the first computation with the operations; refuted for later uses and after a refused size of tiles."
  },
  {
   "property": "C158",
   "status": "partial",
   "theorems": [
    "C158_set_partial",
    "C158_none",
    "C158_not_added",
    "C158_family_refuted",
    "C158_shared_refuted",
    "C158_not_forced_refuted",
    "C158_dimension_refuted"
   ],
   "note": "Proved for forced calls with a known dimension, outside the names of the new variable's own collection; None fully; refuted for names of that collection, shared variables, and calls that raise."
  },
  {
   "property": "C159",
   "status": "partial",
   "theorems": [
    "C159_crs_partial",
    "C159_not_added_refuted",
    "C159_geometry_partial",
    "C159_geometry_refuted",
    "C159_none_refuted"
   ],
   "note": "Proved for set_crs with should_add and for successful set_geom; refuted for should_add=False, geometries without coordinate system and None."
  },
  {
   "property": "C160",
   "status": "partial",
   "theorems": [
    "C160_columns_partial",
    "C160_headers_partial",
    "C160_melted_refuted",
    "C160_again_refuted",
    "C160_same_name_refuted",
    "C160_standard_needed",
    "C160_named",
    "C160_unknown"
   ],
   "note": "Proved: columns with and without a named variable, headers for different names, unknown names refused; refuted for melted records of a named variable, a list of followers used twice, and coordinates of the same name."
  },
  {
   "property": "C161",
   "status": "partial",
   "theorems": [
    "C161_key_partial",
    "C161_any_partial",
    "C161_twice_refuted",
    "C161_nothing_refuted",
    "C161_nothing_partial",
    "C161_dimensions_partial",
    "C161_dimensions_refuted"
   ],
   "note": "Proved for searches with a key and for different dimension names; refuted for several matching attributes of a variable, for a call with neither value nor predicate, and for a repeated dimension name."
  },
  {
   "property": "C162",
   "status": "partial",
   "theorems": [
    "C162_type_partial",
    "C162_none",
    "C162_ranks",
    "C162_kept_refuted",
    "C162_first",
    "C162_mixed_refuted"
   ],
   "note": "Proved for the first reading and for every distribution to ranks; refuted for a reading after other geometries are set and for mixed kinds."
  },
  {
   "property": "C163",
   "status": "partial",
   "theorems": [
    "C163_weights",
    "C163_one",
    "C163_point_refuted",
    "C163_extent",
    "C163_masked"
   ],
   "note": "Proved for all masks, areas and bounds except that a point can outweigh a polygon of less than a unit of area (refuted)."
  },
  {
   "property": "C164",
   "status": "partial",
   "theorems": [
    "C164_index_partial",
    "C164_indices",
    "C164_missing",
    "C164_rows_refuted",
    "C164_places_partial",
    "C164_range_refuted"
   ],
   "note": "Proved for vectors; refuted for sources with two or more columns and for the documented range of boolean arrays."
  },
  {
   "property": "C165",
   "status": "partial",
   "theorems": [
    "C165_uid_partial",
    "C165_distinct_partial",
    "C165_distinct_refuted"
   ],
   "note": "Proved when no or all identifiers are given; refuted when some are."
  },
  {
   "property": "C166",
   "status": "partial",
   "theorems": [
    "C166_query_partial",
    "C166_uri",
    "C166_fewer_refuted",
    "C166_more_refuted"
   ],
   "note": "Proved for lists of the same length; refuted for fewer (IndexError) and for more (dropped) variables than URIs."
  },
  {
   "property": "C167",
   "status": "partial",
   "theorems": [
    "C167_function_partial",
    "C167_decreasing_refuted",
    "C167_repeated_refuted",
    "C167_empty_refuted"
   ],
   "note": "Proved for increasing indices; refuted for decreasing, repeated and no indices."
  },
  {
   "property": "C168",
   "status": "partial",
   "theorems": [
    "C168_subset_partial",
    "C168_function",
    "C168_level_refuted"
   ],
   "note": "Proved for times and levels without bounds; refuted for a level range without levels."
  },
  {
   "property": "C169",
   "status": "partial",
   "theorems": [
    "C169_coordinates_partial",
    "C169_once",
    "C169_bounds",
    "C169_order_refuted",
    "C169_realization_refuted",
    "C169_axes_partial",
    "C169_columns_refuted",
    "C169_scalar_refuted"
   ],
   "note": "Coordinates, bounds and axes of one dimension proved; refuted for the order, the realization, the x axis of coordinates with rows and columns, and a time without dimension."
  },
  {
   "property": "C170",
   "status": "partial",
   "theorems": [
    "C170_coordinates_partial",
    "C170_shared_refuted",
    "C170_available",
    "C170_geometry",
    "C170_auto",
    "C170_none"
   ],
   "note": "Abstractions proved; the coordinates are those of the geometries, but shared ones are listed more than once (refuted)."
  }
 ]
}