{
 "claims": [
  {
   "property": "C01",
   "status": "proved",
   "theorems": [
    "C01_grown_layout_never_overlaps"
   ],
   "note": "Proved for every history of add_attribute calls on an empty layout."
  },
  {
   "property": "C02",
   "status": "proved",
   "theorems": [
    "C02_from_attributes_is_repr_C",
    "C02_from_attributes_succeeds",
    "C02_from_attributes_distinct_names"
   ],
   "note": "Offsets, size and alignment equal the repr(C) specification; success and panic conditions proved."
  },
  {
   "property": "C03",
   "status": "partial",
   "theorems": [
    "C03_packed_offsets_partial",
    "C03_packed1_is_repr_packed_partial",
    "C03_packed_size_refuted"
   ],
   "note": "Refuted: size and alignment of packed(n), n > 1, are wrong (always align 1). Proved: offsets for every n, everything for n = 1."
  },
  {
   "property": "C04",
   "status": "partial",
   "theorems": [
    "C04_derive_matches_rust_partial",
    "C04_derive_succeeds_partial",
    "C04_derive_align_refuted"
   ],
   "note": "Refuted for repr(align(n)), which the macro ignores. Proved for repr(C) and repr(C, packed(n))."
  },
  {
   "property": "C05",
   "status": "proved",
   "theorems": [
    "C05_lookups_agree",
    "C05_found_iff_added"
   ],
   "note": "Proved for every layout obtainable from the API."
  },
  {
   "property": "C06",
   "status": "partial",
   "theorems": [
    "C06_from_members_sound_partial",
    "C06_from_members_complete_partial",
    "C06_empty_member_refuted"
   ],
   "note": "Refuted for zero-sized members (acceptance depends on list order). Proved: soundness always, completeness for non-empty members."
  },
  {
   "property": "C07",
   "status": "partial",
   "theorems": [
    "C07_add_to_ordered_layout_partial",
    "C07_add_overlaps_refuted"
   ],
   "note": "Refuted: layouts from from_members_and_alignment with members not in memory order. Proved when members are in memory order."
  },
  {
   "property": "C08",
   "status": "partial",
   "theorems": [
    "C08_align_to_debug_partial",
    "C08_align_to_debug_total_partial",
    "C08_align_to_release_pow2_partial",
    "C08_align_to_overflow_refuted"
   ],
   "note": "Refuted: the intermediate sum overflows although the result fits (255u8.align_to(5)). Proved when it does not overflow, and for powers of two in release builds."
  },
  {
   "property": "C09",
   "status": "proved",
   "theorems": [
    "C09_vector_buffer_is_a_list_of_points"
   ],
   "note": "Every finite history of the eleven owning-buffer operations on a VectorBuffer reads as the list of points given by the specification, including panics. Contract on arguments: data has the size of its target and ranges are not reversed (op_ok); layouts without zero-sized attributes (good_layout)."
  },
  {
   "property": "C10",
   "status": "proved",
   "theorems": [
    "C10_columnar_buffer_is_a_list_of_points"
   ],
   "note": "As C09 for HashMapBuffer, plus every column has exactly len() entries."
  },
  {
   "property": "C11",
   "status": "proved",
   "theorems": [
    "C11_same_history_same_attributes"
   ],
   "note": "Same history on both buffers: both panic or both succeed with equal length and equal attribute reads."
  },
  {
   "property": "C12",
   "status": "proved",
   "theorems": [
    "C12_set_attribute_frame",
    "C12_set_attribute_range_frame",
    "C12_set_point_frame",
    "C12_set_point_range_frame"
   ],
   "note": "Frame of set_attribute, set_point and the range variants on every mutable buffer kind, including mutable slices."
  },
  {
   "property": "C13",
   "status": "proved",
   "theorems": [
    "C13_swap_exchanges_two_points",
    "C13_swap_is_its_own_inverse",
    "C13_swap_with_itself",
    "C13_swap_out_of_range_panics"
   ],
   "note": "swap exchanges, is an involution, identity for i = j, out of range panics on VectorBuffer, HashMapBuffer, ExternalMemoryBuffer."
  },
  {
   "property": "C14",
   "status": "proved",
   "theorems": [
    "C14_vector_resize",
    "C14_columnar_resize",
    "C14_clear"
   ],
   "note": "resize and clear on both owning buffers."
  },
  {
   "property": "C15",
   "status": "proved",
   "theorems": [
    "C15_append_to_interleaved",
    "C15_append_to_columnar"
   ],
   "note": "All six append functions; different layouts panic. Padding bytes are not kept by columnar targets."
  },
  {
   "property": "C16",
   "status": "proved",
   "theorems": [
    "C16_filter_columnar",
    "C16_filter_interleaved",
    "C16_filter_into_columnar",
    "C16_filter_into_interleaved"
   ],
   "note": "filter and filter_into with both kinds of target; hint None or exact."
  },
  {
   "property": "C17",
   "status": "partial",
   "theorems": [
    "C17_collect_columnar_partial",
    "C17_collect_interleaved_partial",
    "C17_collect_interleaved_inexact_partial",
    "C17_collect_interleaved_refuted"
   ],
   "note": "Refuted for VectorBuffer with an inexact size_hint upper bound (trailing zero points); proved for HashMapBuffer and for exact or missing upper bounds."
  },
  {
   "property": "C18",
   "status": "partial",
   "theorems": [
    "C18_slice_reads_partial",
    "C18_slice_reads_in_range_partial",
    "C18_mutable_slice_reads_in_range_partial",
    "C18_slice_of_slice_partial",
    "C18_full_range_refuted",
    "C18_mutable_slice_out_of_range_refuted"
   ],
   "note": "Proved for immutable slices and in-range reads; refuted: slicing the full range of a slice panics, and reads past the end of a mutable slice succeed."
  },
  {
   "property": "C19",
   "status": "partial",
   "theorems": [
    "C19_writes_stay_inside_partial",
    "C19_slice_mut_range_partial",
    "C19_writes_stay_inside_refuted"
   ],
   "note": "Proved for writes inside of the slice; refuted: a write at an index between len() and the end of the range modifies a point of the parent outside of the slice."
  },
  {
   "property": "C20",
   "status": "partial",
   "theorems": [
    "C20_out_of_range_panics_partial",
    "C20_unmodified_refuted"
   ],
   "note": "All panics proved; refuted that the buffer is unmodified: set_attribute_range writes the points in range before panicking."
  },
  {
   "property": "C21",
   "status": "proved",
   "theorems": [
    "C21_external_new",
    "C21_external_reads_like_vector",
    "C21_external_writes_like_vector"
   ],
   "note": "Creation, reads and writes of ExternalMemoryBuffer equal to those of the VectorBuffer over the same bytes."
  },
  {
   "property": "C22",
   "status": "partial",
   "theorems": [
    "C22_view_at",
    "C22_view_of_wrong_type_panics",
    "C22_view_set_at",
    "C22_view_iterates_all_values",
    "C22_point_view",
    "C22_point_view_set_at",
    "C22_iter_by_reference",
    "C22_nth_partial",
    "C22_nth_past_the_end_refuted",
    "C22_push_point_interleaved",
    "C22_push_point_columnar"
   ],
   "note": "Views, set_at and iteration proved; nth beyond the end refuted (panic, or a reference outside of the buffer for mutable iterators)."
  },
  {
   "property": "C23",
   "status": "proved",
   "theorems": [
    "C23_sort_by_sorts",
    "C23_stable_sort_is_unique"
   ],
   "note": "sort_by on every interleaved buffer and mutable slice: sorted stable permutation, unique for a total preorder, nothing outside the slice changes."
  },
  {
   "property": "C24",
   "status": "proved",
   "theorems": [
    "C24_transform_attribute"
   ],
   "note": "transform_attribute on every mutable buffer."
  },
  {
   "property": "C25",
   "status": "proved",
   "theorems": [
    "C25_integer_conversion_is_modular",
    "C25_widening_is_lossless",
    "C25_float_to_integer",
    "C25_vectors_convert_componentwise",
    "C25_vector_widening_is_lossless"
   ],
   "note": "Integer conversions are modular, float to integer rounds toward zero and saturates, widening conversions are lossless on the stored bytes for scalars and 3-vectors (NaN excepted, whose payload Rust leaves unspecified)."
  },
  {
   "property": "C26",
   "status": "proved",
   "theorems": [
    "C26_converter_exists",
    "C26_equal_types_need_no_converter",
    "C26_other_pairs_panic",
    "C26_existence_is_symmetric"
   ],
   "note": "The whole table; the cast itself is the subject of C25."
  },
  {
   "property": "C27",
   "status": "proved",
   "theorems": [
    "C27_converters_that_can_be_built",
    "C27_convert_to_vector_buffer",
    "C27_convert_to_columnar_buffer",
    "C27_memory_layout_does_not_matter"
   ],
   "note": "All four combinations of interleaved and columnar source and target, through slices, with default, custom and transformed mappings (the last mapping for a target wins). Transformations are arbitrary size preserving functions on bytes."
  },
  {
   "property": "C28",
   "status": "proved",
   "theorems": [
    "C28_convert_into_range_touches_only_the_range",
    "C28_convert_into_range_panics"
   ],
   "note": "Points outside of the target range, padding bytes and points outside of a target slice are unchanged; mismatched layouts, lengths or bounds panic."
  },
  {
   "property": "C29",
   "status": "partial",
   "theorems": [
    "C29_raw_converter_partial",
    "C29_every_common_attribute_is_transferred_refuted"
   ],
   "note": "Attributes whose type differs are converted and all else is unchanged; attributes with equal type are skipped although they occur in both layouts (refutation witness)."
  },
  {
   "property": "C30",
   "status": "proved",
   "theorems": [
    "C30_contains_is_componentwise",
    "C30_union_is_the_smallest_box",
    "C30_extend_is_the_smallest_box",
    "C30_intersects_iff_common_point",
    "C30_intersects_symmetric",
    "C30_from_min_max",
    "C30_integers_are_ordered",
    "C30_floats_are_ordered",
    "C30_float_order_is_numeric"
   ],
   "note": "For boxes over any coordinates that are totally preordered on a domain; integers and floats without NaN are proved to be such, and the order of finite f64 values is proved to be the numeric one."
  },
  {
   "property": "C31",
   "status": "partial",
   "theorems": [
    "C31_collected_box_contains_partial",
    "C31_collected_box_is_smallest_partial",
    "C31_more_points_keep_the_earlier_inside_partial",
    "C31_nan_loses_points_refuted",
    "C31_infinite_box_not_smallest_refuted",
    "C31_empty_panics"
   ],
   "note": "Contains every point if no coordinate is NaN; smallest box if all coordinates are finite. Refuted with NaN (an earlier point is lost) and infinity (not tight); an empty iterator panics."
  },
  {
   "property": "C32",
   "status": "partial",
   "theorems": [
    "C32_minmax_partial",
    "C32_empty_buffer",
    "C32_other_types_panic",
    "C32_order_matters_refuted"
   ],
   "note": "Per component: a true, attained bound of all numbers if the first value is a number; NaN as first value makes the result NaN (refutation witness, order dependent). The converting branch always panics."
  },
  {
   "property": "C33",
   "status": "proved",
   "theorems": [
    "C33_expand_bits_by_3",
    "C33_expand_fits_in_64_bits",
    "C33_reverse_bits",
    "C33_reverse_is_an_involution"
   ],
   "note": "All 64-bit values (and all integers for expand_bits_by_3)."
  },
  {
   "property": "C34",
   "status": "proved",
   "theorems": [
    "C34_basic_flags_survive",
    "C34_extended_flags_survive"
   ],
   "note": "every value of every flag byte, basic and extended; the reader's masks and shifts applied to the bytes the writer stores"
  },
  {
   "property": "C35",
   "status": "proved",
   "theorems": [
    "C35_exact_layouts_match_the_specification",
    "C35_default_layouts_hold_the_attributes",
    "C35_eleven_formats"
   ],
   "note": "all eleven formats, against the tables of the LAS 1.4 specification"
  },
  {
   "property": "C36",
   "status": "partial",
   "theorems": [
    "C36_record_length_refuted",
    "C36_no_extra_bytes_partial",
    "C36_layout_with_extra_bytes_partial",
    "C36_name_clash_refuted"
   ],
   "note": "refuted: the byte array for undescribed extra bytes gets the number of described bytes (las_layout.rs:174-182); a name from the file that equals a field name panics. Proved: the exact size of the layout for every format, number of extra bytes and list of documented descriptions with fresh names"
  },
  {
   "property": "C37",
   "status": "partial",
   "theorems": [
    "C37_valid_format_refuted",
    "C37_holds_every_attribute_refuted",
    "C37_layout_of_a_format",
    "C37_valid_format_partial",
    "C37_holds_every_attribute_partial"
   ],
   "note": "refuted: layouts with e.g. a scan angle but no GPS time give a format that is none of 0-10, and an extended format cannot hold a scan angle rank. Proved: exactly which layouts get a valid format, which attributes it holds, and that the layout of format n gives n"
  },
  {
   "property": "C38",
   "status": "partial",
   "theorems": [
    "C38_scale_step_partial",
    "C38_binary_scale_partial",
    "C38_points_survive_partial",
    "C38_extra_bytes_refuted",
    "C38_scale_step_refuted"
   ],
   "note": "Proved for the default layouts of formats without extra bytes, LAS and LAZ, any history of writes (and flushes, LAS) and any history of seeks and reads: attributes come back, flags reduced to their bits, positions as world(grid(c)). In f64 arithmetic a position less than 2^31 steps from the offset is stored and comes back within scale + 2^-50 * (|offset| + 2^33 * scale); within one step exactly if the scale is a power of two. Refuted: with extra bytes the writer neither reads nor writes them and files cannot be read; positions can be off by more than one scale step."
  },
  {
   "property": "C39",
   "status": "partial",
   "theorems": [
    "C39_neighbour_partial",
    "C39_binary_scale_partial",
    "C39_grid_positions_refuted"
   ],
   "note": "Refuted: 29 * 0.01 is stored as 28, because the writer truncates. Proved: the stored integer is the same or the next one toward zero whenever |offset| <= 2^48 * scale, and the same whenever the scale is a power of two and the offset a multiple of it (by at most 2^52)."
  },
  {
   "property": "C40",
   "status": "partial",
   "theorems": [
    "C40_readers_are_cursors",
    "C40_seek_refuted"
   ],
   "note": "Proved for all files whose records are complete and all histories of seeks and reads that do not panic. Refuted: seeking to SeekFrom::Start(n) with n >= 2^63 panics instead of going to the end."
  },
  {
   "property": "C41",
   "status": "partial",
   "theorems": [
    "C41_total_count",
    "C41_bounds",
    "C41_counts_by_return_partial",
    "C41_counts_by_return_refuted",
    "C41_legacy_counts_partial",
    "C41_legacy_counts_refuted"
   ],
   "note": "Total count and bounds proved for all histories, both writers, any layouts. Counts by return proved for points in the default layout; refuted for custom layouts, which are not counted. Legacy counts proved unless the file outgrows them after a flush; refuted then."
  },
  {
   "property": "C42",
   "status": "partial",
   "theorems": [
    "C42_las_files_hold_the_points",
    "C42_writing_succeeds",
    "C42_laz_files_hold_the_points_partial",
    "C42_laz_custom_layout_refuted"
   ],
   "note": "LAS: proved for all histories and layouts. LAZ: proved exactly when no partly filled chunk is written in a custom layout; refuted otherwise (1 point becomes 50000 records)."
  },
  {
   "property": "C43",
   "status": "partial",
   "theorems": [
    "C43_record_round_trip_partial",
    "C43_vlr_round_trip_partial",
    "C43_empty_vlr_refuted",
    "C43_type_codes",
    "C43_type_table",
    "C43_type_codes_refuted",
    "C43_builder",
    "C43_scale_offset_accessors",
    "C43_integer_accessors",
    "C43_float_accessors_refuted",
    "C43_display_refuted",
    "C43_display_partial",
    "C43_display_integers",
    "C43_display_raw_partial",
    "C43_display_no_data_refuted"
   ],
   "note": "refuted: float accessors always fail and Display panics, Deprecated(5) is read as U32, an empty list is written but reading it panics, and C44 for long names. Proved: round trip of every storable entry and of VLRs of up to 341 entries, type codes, builder and integer accessors; Display shows the minimum in place of the no-data value of entries without a known type"
  },
  {
   "property": "C44",
   "status": "partial",
   "theorems": [
    "C44_fitting_strings_survive",
    "C44_never_unreadable_refuted",
    "C44_long_strings_partial",
    "C44_before_nul_is_a_prefix"
   ],
   "note": "refuted: a string cut in the middle of a character cannot be read again. Proved: fitting strings, and exactly which longer strings can be read"
  },
  {
   "property": "C45",
   "status": "partial",
   "theorems": [
    "C45_kind_by_extension",
    "C45_no_extension",
    "C45_compressed_refuted",
    "C45_compressed_partial"
   ],
   "note": "refuted for compression: path_is_compressed_las_file compares case-sensitively, so a.LAZ is opened as LAS uncompressed. Proved: the file kind depends on the extension only, in any case"
  },
  {
   "property": "C46",
   "status": "partial",
   "theorems": [
    "C46_read_all",
    "C46_read_all_into_partial",
    "C46_read_all_into_refuted"
   ],
   "note": "read_all proved. read_all_into refuted: it overwrites the first points of the buffer and panics if the buffer has fewer points than the file; what it does is proved."
  },
  {
   "property": "C47",
   "status": "proved",
   "theorems": [
    "C47_reader_created_iff_letters_known",
    "C47_writer_created_iff_letters_known",
    "C47_reader_layout_has_named_attributes"
   ],
   "note": "Creation of readers and writers, for every format string and every iteration order of the hash set of attributes; also the point layout of a new reader."
  },
  {
   "property": "C48",
   "status": "partial",
   "theorems": [
    "C48_columns_show_attributes_partial",
    "C48_missing_attribute_is_an_error",
    "C48_refuted"
   ],
   "note": "Holds for every letter except c and u, which write the return number (C48_refuted), for every reachable writer; floating point columns need a precision above 0 (C49_refuted). A missing attribute is an error."
  },
  {
   "property": "C49",
   "status": "partial",
   "theorems": [
    "C49_trimming_keeps_the_number_partial",
    "C49_trimming_keeps_decimals",
    "C49_trimmed_number_is_rounded_value",
    "C49_refuted"
   ],
   "note": "Holds for every precision above 0 and every float. With precision 0 an integer such as 100 is trimmed to 1 (C49_refuted)."
  },
  {
   "property": "C50",
   "status": "partial",
   "theorems": [
    "C50_written_points_are_read_back_partial",
    "C50_refuted",
    "C50_all_columns_are_read_back_partial"
   ],
   "note": "Holds for all letters except c and u, which are written wrongly (C50_refuted), and every precision above 0 (C49_refuted for 0): integers, NaN and infinities exactly, other numbers within one unit of the last decimal place, exactly if they have no more decimal places; any buffer to read into that has room. C50_written_points_are_read_back_partial allows more delimiters for formats of integer columns."
  },
  {
   "property": "C51",
   "status": "partial",
   "theorems": [
    "C51_lines_become_points_partial",
    "C51_refuted"
   ],
   "note": "The lines read, the points stored and the errors are proved for every file and count; the returned number is count even if the file has fewer lines (C51_refuted)."
  },
  {
   "property": "C52",
   "status": "proved",
   "theorems": [
    "C52_files_well_formed",
    "C52_files_are_written"
   ],
   "note": "for every layout, history of writes, centres and flushes, JSON printer (assumption json_ok) and order of the converter map; files of 4 GiB and more panic"
  },
  {
   "property": "C53",
   "status": "proved",
   "theorems": [
    "C53_points_survive",
    "C53_reader_holds_points"
   ],
   "note": "writes and at most one flush at the end, whole file read in relative mode; other ways of reading follow from C53_reader_holds_points and C55"
  },
  {
   "property": "C54",
   "status": "partial",
   "theorems": [
    "C54_no_point_lost_partial",
    "C54_no_point_lost_refuted"
   ],
   "note": "refuted: every point written after the first flush is lost; proved: the file holds exactly the points written before the first flush"
  },
  {
   "property": "C55",
   "status": "partial",
   "theorems": [
    "C55_reader_is_cursor_partial",
    "C55_rest_of_buffer_refuted",
    "C55_seek_refuted"
   ],
   "note": "refuted: in Absolute mode the centre is also added to the points of the buffer that were not read; seek_point panics when the target is no i64. Proved: histories of seeks, reads and mode changes behave like a cursor, with buffers exactly as long as the read where a centre is added"
  },
  {
   "property": "C56",
   "status": "proved",
   "theorems": [
    "C56_plane_is_best",
    "C56_line_is_best",
    "C56_plane_finished",
    "C56_line_finished",
    "C56_panics",
    "C56_plane_through_samples",
    "C56_plane_distance",
    "C56_line_distance"
   ],
   "note": "All buffers, thresholds, iteration counts and random sequences. Inliers are those of the f64 formula of the code; the formula read with real numbers is the Euclidean distance (three theorems over R, which use the axioms of the standard library's reals). A search with zero iterations panics although only too few points is documented (C56_panics)."
  },
  {
   "property": "C57",
   "status": "proved",
   "theorems": [
    "C57_plane_schedule_independent",
    "C57_line_schedule_independent"
   ],
   "note": "Every binary tree over the iterations; the draws of each iteration are independent. rayon's reduce_with is taken to apply the combining function along such a tree, keeping the order."
  },
  {
   "property": "C58",
   "status": "partial",
   "theorems": [
    "C58_bounds_are_tight_partial",
    "C58_bounds_contain_all_numbers_partial",
    "C58_none_without_positions",
    "C58_all_nan_panics",
    "C58_unconvertible_panics",
    "C58_infinity_not_tight_refuted"
   ],
   "note": "Tight for finite positions of every convertible type, contains all points without NaN in general. Refuted for infinities; an axis of NaN only and an unconvertible type panic instead of returning None."
  },
  {
   "property": "C59",
   "status": "partial",
   "theorems": [
    "C59_one_point_per_voxel_partial",
    "C59_ends_partial",
    "C59_terminates_refuted",
    "C59_exactly_nearest_refuted",
    "C59_empty_panics"
   ],
   "note": "Proved for every non-empty buffer with finite positions, every positive leaf size and every supported target: whenever the filter ends it has not panicked, every point is in exactly one voxel, the one whose markers are nearest by the f64 distance on each axis, and one point is appended per occupied voxel; it ends when the coordinates are below 2^53 leaf sizes. Refuted as stated: it runs for ever when adding the leaf size to a coordinate rounds back to it, and a point may go to a marker that is not exactly nearest. Empty buffers and buffers without positions panic."
  },
  {
   "property": "C60",
   "status": "partial",
   "theorems": [
    "C60_most_common",
    "C60_flags_partial",
    "C60_max_integer_partial",
    "C60_max_time_partial",
    "C60_averages",
    "C60_max_time_refuted",
    "C60_max_id_refuted",
    "C60_flags_refuted"
   ],
   "note": "Most common values proved in full, averages described exactly. Maxima: proved for classification flags, point ids up to 2^53 and GPS times of which one is not negative; flags for values 0 and 1. Refuted outside these ranges (negative GPS times give 0.0, ids above 2^53 are rounded, a flag of 2 becomes 1)."
  },
  {
   "property": "C61",
   "status": "partial",
   "theorems": [
    "C61_mesh_partial",
    "C61_points_partial",
    "C61_points_of_mesh",
    "C61_few_points",
    "C61_empty_mesh",
    "C61_empty_panics",
    "C61_other_datatypes_panic",
    "C61_refuted"
   ],
   "note": "Proved for f64 positions: the mesh is an error or at least two triangles of valid indices, the points are distinct valid indices unless the function panics, the points of a mesh are its corners. Refuted: convex_hull_as_points panics for every empty buffer (all buffers of length 0), for collinear points and for some planar clouds; both functions panic for every buffer of at least three points whose positions are not Vec3f64."
  },
  {
   "property": "C62",
   "status": "partial",
   "theorems": [
    "C62_one_per_point",
    "C62_coplanar",
    "C62_nonzero",
    "C62_axis_partial",
    "C62_refuted"
   ],
   "note": "Exact real arithmetic; the kd tree's neighbours are an arbitrary input. The coplanar half is proved. The other half is false: the subtraction of the eigenvalue from the diagonal changes a temporary, so the normal is a column of the adjugate of the covariance matrix. It is an eigenvector only if parallel to an axis; C62_refuted gives eight points where none is."
  },
  {
   "property": "C63",
   "status": "partial",
   "theorems": [
    "C63_las_refuted",
    "C63_pnts_refuted",
    "C63_empty_partial",
    "C63_chunks_partial",
    "C63_attributes"
   ],
   "note": "Refuted as strongly as possible: the buffer handed to the reader is always empty (it is cleared before each chunk), so the detailed mode panics for every LAS/LAZ file with a point (C63_las_refuted) and for every PNTS file with a point that has an attribute (C63_pnts_refuted); without points it prints nothing and succeeds (C63_empty_partial). The part of the tool behind the reading is right: over any non-empty chunks the ranges are the least and greatest values of all points (C63_chunks_partial, without NaN), each attribute analyzed with its own datatype (C63_attributes)."
  },
  {
   "property": "C64",
   "status": "proved",
   "theorems": [
    "C64_compare_without_offsets_compares_attributes",
    "C64_compare_without_offsets_is_an_equivalence"
   ],
   "note": "Characterised for all layouts reachable through the API; equivalence relation."
  },
  {
   "property": "C65",
   "status": "partial",
   "theorems": [
    "C65_pusher_appends_points_partial",
    "C65_pusher_rejects_missing_attributes",
    "C65_pusher_accepts_a_repeated_attribute_refuted"
   ],
   "note": "Proved when each attribute is pushed once, in any order; missing attributes panic. The documented check of the amount of data fails for an attribute pushed twice: accepted, and the buffer is corrupted (refutation witness)."
  },
  {
   "property": "C66",
   "status": "proved",
   "theorems": [
    "C66_converting_view_reads_the_converted_value",
    "C66_converting_view_panics"
   ],
   "note": "For all buffers and slices; all panics characterised."
  },
  {
   "property": "C67",
   "status": "partial",
   "theorems": [
    "C67_convert_into_partial",
    "C67_convert_into_checks_the_length_refuted"
   ],
   "note": "Same length: converted; shorter target: panic. A longer target is accepted although the documentation says it panics (refutation witness)."
  },
  {
   "property": "C68",
   "status": "partial",
   "theorems": [
    "C68_f64_cube_partial",
    "C68_whole_numbers_partial",
    "C68_cubic_contains_the_box_partial",
    "C68_cubic_is_a_cube_partial",
    "C68_cubic_loses_a_corner_refuted"
   ],
   "note": "Exact arithmetic (rationals): proved. f64: proved up to rounding (2^-49 of the largest coordinate) for coordinates up to 2^900, and exactly for whole coordinates up to 2^50. Refuted in general: with f64 rounding a corner is lost."
  },
  {
   "property": "C69",
   "status": "partial",
   "theorems": [
    "C69_rejected_reads_partial",
    "C69_rejected_reads_refuted"
   ],
   "note": "Proved for LAS; refuted for LAZ, whose reader has already read the points when it finds that they cannot be converted."
  },
  {
   "property": "C70",
   "status": "partial",
   "theorems": [
    "C70_set_partial",
    "C70_get_partial",
    "C70_set_then_get_partial",
    "C70_missing_get",
    "C70_missing_set_partial",
    "C70_short_partial",
    "C70_new",
    "C70_unconvertible_set_panics",
    "C70_unconvertible_get_panics"
   ],
   "note": "Proved for all layouts, points, definitions and values; the exception is an impossible conversion, which panics instead of returning an error (C70_unconvertible_*)."
  },
  {
   "property": "C71",
   "status": "partial",
   "theorems": [
    "C71_facets_partial",
    "C71_refuted",
    "C71_four_in_plane_partial",
    "C71_inner_corner_refuted",
    "C71_segment_distance",
    "C71_f64_partial",
    "C71_rounding_refuted"
   ],
   "note": "In f64 arithmetic, for buffers whose coordinates are multiples k*2^e with |k| <= 2^15, in general position (no four coplanar) and with an angle at the first point that is not tiny (sine >= 2^-23), the mesh is exactly the facets of the convex hull, oriented outwards, and a closed surface, for every iteration order of the edge sets (C71_f64_partial); in exact arithmetic the same without the bounds on coordinates and angle (C71_facets_partial). Four points in a plane, no three on a line: in exact arithmetic the corners of the mesh are exactly the vertices of the hull (C71_four_in_plane_partial); the distance to a segment used there is exact (C71_segment_distance). Refuted for coplanar points (C71_refuted: a vertex is missing, no rounding involved; C71_inner_corner_refuted: five points in a plane, no three on a line, and a point inside the hull becomes a corner), and for small whole coordinates in general position with a small angle (C71_rounding_refuted: the collinearity test compares two rounded lengths). Missing: degenerate inputs, f64 coordinates with more digits."
  },
  {
   "property": "C72",
   "status": "partial",
   "theorems": [
    "C72_coplanar",
    "C72_small_partial",
    "C72_scaled_partial",
    "C72_refuted"
   ],
   "note": "Exact real arithmetic. The result is characterised completely: 0 if the determinant is below EPSILON, otherwise the surface variation times the largest absolute entry of the covariance matrix. That factor makes it depend on the scale and refutes the property (2/3 instead of 1/3 for six points on the axes)."
  },
  {
   "property": "C73",
   "status": "partial",
   "theorems": [
    "C73_exact",
    "C73_few_panics",
    "C73_bounded_partial",
    "C73_refuted"
   ],
   "note": "Never a panic in exact arithmetic; in f64 none for coordinates up to 2^64 in absolute value, with finite normals if two neighbours differ by 2^-400 in a coordinate. libm's sin, cos, atan2 are parameters within their bounds. Refuted in general: overflow of the covariance makes the eigenvalues NaN and partial_cmp().unwrap() panics; neighbours at one place give normals of NaN."
  },
  {
   "property": "C74",
   "status": "partial",
   "theorems": [
    "C74_raw_view_reads_partial",
    "C74_raw_view_writes_partial",
    "C74_raw_view_writes_panic_partial",
    "C74_length_refuted",
    "C74_member_of_another_layout_refuted"
   ],
   "note": "Proved for every attribute of the layout with at least one byte, all storages and slices. Refuted: len() of a columnar raw view of an attribute without bytes divides by zero; a member taken from another layout shows other bytes in an interleaved buffer, but the right ones in a columnar buffer."
  },
  {
   "property": "C75",
   "status": "partial",
   "theorems": [
    "C75_point_views",
    "C75_point_views_panic",
    "C75_attribute_views",
    "C75_converting_views_partial",
    "C75_converting_views_refuted",
    "C75_interleaved_buffers",
    "C75_columnar_buffers"
   ],
   "note": "Proved, except that converting views compare the definitions of the stored attributes: views that show the same values of the same attribute, stored as f32 and f64, are unequal (refuted)."
  },
  {
   "property": "C76",
   "status": "proved",
   "theorems": [
    "C76_reproject_within",
    "C76_reproject_within_panics",
    "C76_reproject_between",
    "C76_reproject_between_panics"
   ],
   "note": "The projection is a parameter (PROJ is external). The views require POSITION_3D as Vec3f64."
  },
  {
   "property": "C77",
   "status": "partial",
   "theorems": [
    "C77_box_of_the_corners_partial",
    "C77_monotone_projections_partial",
    "C77_contains_the_images_refuted"
   ],
   "note": "transform_bounds uses only the images of the corners min and max. Proved: smallest box of these two images; contains all images if the projection acts on each axis alone and monotonically. Refuted in general by a shear."
  },
  {
   "property": "C78",
   "status": "partial",
   "theorems": [
    "C78_tileset_survives",
    "C78_root_text_survives_partial",
    "C78_deep_refuted",
    "C78_infinite_refuted",
    "C78_not_finite_lost",
    "C78_region_survives",
    "C78_box_survives",
    "C78_sphere_survives",
    "C78_any_json"
   ],
   "note": "The tree of values survives for every tileset with finite numbers; so do the accessors of the bounding volumes (C78_region_survives, C78_box_survives, C78_sphere_survives). Any JSON value is an error or a tileset whose arrays have the right lengths, never a panic (C78_any_json). The text survives up to the parser's recursion limit (127 levels in serde_json: 61 levels of tiles). Refuted: deeper chains are written but not read; non-finite numbers are accepted by the builder, written as null and not read."
  },
  {
   "property": "C79",
   "status": "proved",
   "theorems": [
    "C79_builder",
    "C79_negative_panics"
   ],
   "note": "Proved for every sequence of calls."
  },
  {
   "property": "C80",
   "status": "partial",
   "theorems": [
    "C80_exact_box",
    "C80_f64_box_partial",
    "C80_corner_refuted"
   ],
   "note": "Exact arithmetic: the same points. f64: every point of the AABB is within rounding of a point of the tile box and vice versa, for coordinates below 2^900. Refuted: a corner of the AABB can be outside the tile box."
  },
  {
   "property": "C81",
   "status": "partial",
   "theorems": [
    "C81_batch_table",
    "C81_feature_table_partial",
    "C81_stops_early_refuted",
    "C81_single_array_refuted"
   ],
   "note": "Batch tables proved. Feature tables: entries survive unless a single value is an array or looks like a reference (refuted); the reader stops after the given size, before the padding if the size is that of the text (refuted against the documentation)."
  },
  {
   "property": "C82",
   "status": "partial",
   "theorems": [
    "C82_metadata_partial",
    "C82_metadata_exists",
    "C82_reader_metadata",
    "C82_batch_length_refuted"
   ],
   "note": "Proved for all names except BATCH_LENGTH, which is always present and has the type Option<usize>: refuted."
  },
  {
   "property": "C83",
   "status": "partial",
   "theorems": [
    "C83_metadata",
    "C83_bounds_convert",
    "C83_opens",
    "C83_empty_extra_refuted",
    "C83_named_fields_partial",
    "C83_other_names",
    "C83_without_header",
    "C83_year_refuted"
   ],
   "note": "Proved; refuted: an Extra Bytes VLR without entries makes the construction panic, a year outside 0..65535 makes get_named_field panic."
  },
  {
   "property": "C84",
   "status": "partial",
   "theorems": [
    "C84_what_is_written",
    "C84_written_and_read_partial",
    "C84_same_values_partial",
    "C84_millimetre_partial",
    "C84_no_format_refuted",
    "C84_far_position_refuted",
    "C84_other_attributes_refuted",
    "C84_laz_waveforms_refuted"
   ],
   "note": "write_all and read_all over the LAS/LAZ writer and reader models. C84_what_is_written gives the file for any buffer whose format exists; the two partial theorems say what comes back (through the chosen format's default type) for the attributes the format holds and for positions in range; C84_millimetre_partial bounds the position error. Refuted: layouts for which no format exists, positions outside the millimetre grid, attributes outside the format, waveforms in LAZ files."
  },
  {
   "property": "C85",
   "status": "partial",
   "theorems": [
    "C85_at_ref_partial",
    "C85_attribute_at_ref_partial",
    "C85_iter_partial",
    "C85_attribute_iter_partial",
    "C85_at_mut_partial",
    "C85_attribute_at_mut_partial",
    "C85_iter_mut_partial",
    "C85_attribute_iter_mut_partial",
    "C85_sort_by_partial",
    "C85_external_refuted",
    "C85_empty_refuted",
    "C85_empty_columnar_refuted"
   ],
   "note": "Refuted: memory need not be aligned for the type (external memory at an odd address, and every empty buffer, whose Vec has not allocated), and then access by reference panics. Proved: with aligned memory access by reference equals access by value, for every index, and changes exactly the items; with any other memory every access panics."
  },
  {
   "property": "C86",
   "status": "partial",
   "theorems": [
    "C86_documented_structs_partial",
    "C86_accepts_only_partial",
    "C86_doc_comment_refuted",
    "C86_type_path_refuted",
    "C86_two_reprs_refuted",
    "C86_repr_order_refuted",
    "C86_same_names_refuted",
    "C86_other_attribute_refuted"
   ],
   "note": "Refuted: doc comments on members, types written with their crate path, and repr(C) in a second repr attribute are rejected; repr(C) and repr(packed) as two attributes give a wrong layout; equal names and attributes that are not #[pasture] compile. Proved: structs with one repr attribute and members with only #[pasture(..)] and short type names compile, with the documented names, types and the offsets, size and alignment of Rust; what compiles has that form, with C or packed among the arguments of a repr attribute."
  },
  {
   "property": "C87",
   "status": "partial",
   "theorems": [
    "C87_las_file_partial",
    "C87_points_at_offset_partial",
    "C87_flush_partial",
    "C87_padding_refuted",
    "C87_laz_padding_refuted",
    "C87_evlr_start_refuted",
    "C87_laz_file_partial",
    "C87_laz_vlrs_refuted",
    "C87_laz_flush_refuted"
   ],
   "note": "LAS without VLR padding: header, VLRs, points, extended VLRs for every history; flushes do not matter. Refuted: the start of the extended VLRs in the header is the one computed at opening; VLR padding panics (LAS) or shifts the points (LAZ); LAZ files lose the VLRs of the header and say they have no extended VLRs; a flush of a LAZ writer before the last one doubles the extended VLRs."
  },
  {
   "property": "C88",
   "status": "partial",
   "theorems": [
    "C88_plane_distance_partial",
    "C88_line_distance_partial",
    "C88_plane_serial_partial",
    "C88_line_serial_partial",
    "C88_plane_parallel_partial",
    "C88_line_parallel_partial",
    "C88_plane_distance_any_partial",
    "C88_line_distance_any_partial",
    "C88_plane_serial_any_partial",
    "C88_line_serial_any_partial",
    "C88_plane_parallel_any_partial",
    "C88_line_parallel_any_partial",
    "C88_collinear_refuted",
    "C88_duplicate_refuted",
    "C88_rounding_refuted"
   ],
   "note": "Distances and whole searches, serial and parallel, proved in f64 arithmetic: with relative error 2^-49 for coordinates k 2^e with |k| <= 2^15 and samples that determine the plane or line, and with absolute error 2^-44 K M (lines: 2^-45 M) for any coordinates up to M <= 2^150 and samples whose triangles satisfy |ab|^2, |ac|^2 <= K |ab x ac|, K <= 2^40, when the threshold exceeds that error. Refuted without these conditions: collinear samples and equal points have no inliers at all (0/0), and near 2^50 a sampled point is not an inlier of its own plane. Missing: thinner triangles off the grid, coordinates beyond 2^150."
  },
  {
   "property": "C89",
   "status": "partial",
   "theorems": [
    "C89_nan_partial",
    "C89_normals_partial",
    "C89_refuted"
   ],
   "note": "Proved: with a NaN among the coordinates of a neighbourhood, centroid and normal are those of its finite points, and fewer than three of them panic. Refuted: an infinite coordinate without a NaN is not left out; the normals panic although the finite points have one. Missing: neighbourhoods with infinite coordinates and no NaN."
  },
  {
   "property": "C90",
   "status": "partial",
   "theorems": [
    "C90_open_partial",
    "C90_read_partial",
    "C90_seek_partial",
    "C90_refuted"
   ],
   "note": "Refuted: a 70-byte file whose feature table states the byte offset u64::MAX for POSITION panics when it is opened (the addition of the start of the body overflows; in a release build without overflow checks the offset would wrap instead). Proved: for every byte sequence shorter than 2^62 whose stated offsets are below 2^63 opening is an error or a reader; with offsets below 2^62, reading from any claimed point below 2^57 any number of points below 2^57 into a buffer that fits is an error or yields exactly the points asked for; seeking is an error or leads to a point, also where the claimed number of points is no i64. The JSON parser is a parameter, without any assumption on it."
  },
  {
   "property": "C91",
   "status": "partial",
   "theorems": [
    "C91_any_vlrs_partial",
    "C91_accepted",
    "C91_described",
    "C91_utf8",
    "C91_lossy",
    "C91_lossy_is_text",
    "C91_empty_refuted"
   ],
   "note": "Proved for all VLRs except an Extra Bytes VLR of length 0, on which bytemuck::cast_slice panics because the pointer of an empty Vec<u8> is not 8-aligned (C91_empty_refuted: every such header panics if its other VLRs are accepted). UTF-8 is specified by its encoding function (RFC 3629) and proved equal to the validation of the model; the lossy conversion of class names is specified by the substitution of maximal subparts and proved equal to the model."
  },
  {
   "property": "C92",
   "status": "partial",
   "theorems": [
    "C92_reads_partial",
    "C92_same_results",
    "C92_recover_refuted"
   ],
   "note": "Proved for all histories except that after a failed read the reader stays unusable until a seek to a different point (C92_recover_refuted: seek_point leaves the stream at the end of the file if the point index does not change). Uncompressed files only; what a failed read has written into the buffer is not described; a failed read_exact is taken to leave the stream at its end, as std::io::default_read_exact does."
  },
  {
   "property": "C93",
   "status": "partial",
   "theorems": [
    "C93_calls",
    "C93_crash_partial",
    "C93_flushed_points_survive_partial",
    "C93_open",
    "C93_drop_refuted",
    "C93_evlrs_refuted",
    "C93_torn_refuted"
   ],
   "note": "Proved for LAS: at every crash point the header is the one of the last completed flush or, during a flush, a mixture of old and new bytes, and all points counted by either are in place; flushed points survive. Refuted: extended VLRs are overwritten by the next points, a header can be cut in the middle of a flush, a writer dropped without a flush leaves a header with 0 points. Missing: LAZ, sinks that reorder writes."
  },
  {
   "property": "C94",
   "status": "partial",
   "theorems": [
    "C94_write_same_result",
    "C94_read_same_result",
    "C94_write_only_appends",
    "C94_write_after_errors_partial",
    "C94_failed_write_leaves_columns_partial",
    "C94_refuted",
    "C94_reader_goes_on_behind_malformed_line"
   ],
   "note": "Refuted by C94_refuted: a failed write leaves the columns before the missing attribute without a line feed, and the next successful write continues this line, so that its first point is read with wrong values and without an error. Proved: results as in C47 to C51, writes only append, writes after errors append one line per point, the exact text that a failed write leaves, reading on behind a malformed line. Missing: the letters c and u and precision 0 as in C48."
  },
  {
   "property": "C95",
   "status": "partial",
   "theorems": [
    "C95_left_behind",
    "C95_interrupted",
    "C95_body_written",
    "C95_incomplete_file_detected_refuted",
    "C95_whole_writes_partial",
    "C95_short_write_refuted"
   ],
   "note": "For interrupted writers proved: what is left behind is not opened, or reads of it that succeed give the points of the complete file, and all points are there once the body is written. Refuted: an incomplete file is opened if its header and feature table are complete (reads of the missing points are errors); write instead of write_all means that a sink that takes fewer bytes gives, without an error, a file with wrong values."
  },
  {
   "property": "C96",
   "status": "partial",
   "theorems": [
    "C96_pnts_writes_succeed",
    "C96_other_files",
    "C96_unsupported_names",
    "C96_last_write_counts",
    "C96_las_round_trip",
    "C96_pnts_round_trip_partial",
    "C96_no_points_refuted",
    "C96_read_all_into_las",
    "C96_read_all_into_pnts_partial",
    "C96_read_all_into_refuted",
    "C96_outcome_partial",
    "C96_failed_write_refuted",
    "C96_compressed_refuted"
   ],
   "note": "Proved: round trips by name for LAS, LAZ and PNTS (at least one point), other files and unsupported extensions, sequences of writes. Refuted: an empty PNTS file is written but not read; a failed write has emptied the old file; names ending in .LAZ (upper case) give uncompressed files."
  },
  {
   "property": "C97",
   "status": "partial",
   "theorems": [
    "C97_las_cursor",
    "C97_pnts_cursor_partial",
    "C97_end_refuted",
    "C97_start_refuted"
   ],
   "note": "Proved for LAS and LAZ at all points, for PNTS for reads that have a point to read. Refuted: at the end of a PNTS file a read is an error instead of 0 points, a seek to before the first point panics with LAS and is an error with PNTS."
  },
  {
   "property": "C98",
   "status": "partial",
   "theorems": [
    "C98_las_pieces_partial",
    "C98_pnts_pieces_partial",
    "C98_las_writes_succeed",
    "C98_pnts_writes_succeed",
    "C98_flush_refuted",
    "C98_drop_refuted"
   ],
   "note": "Proved for LAS and LAZ in the default layout of the format with a flush at the end (LAZ: no other flush), for PNTS in every layout it can write with nothing written after a flush. Refuted: a LAS writer that is dropped without a flush leaves no points, a PNTS writer loses what is written after a flush; so no history with a flush between writes is right for both."
  }
 ]
}