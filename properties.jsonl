{"id": "C01", "title": "Attributes of a grown PointLayout never overlap", "statement": "After any sequence of add_attribute calls on an empty PointLayout (each with Default or Packed(n) alignment) that does not panic, the layout lists exactly the added attributes in order, their names are pairwise different, their byte ranges are pairwise disjoint and in increasing order, and every byte range lies inside [0, size_of_point_entry()).", "quantifier": "every finite sequence of (attribute definition, field alignment) pairs, with any datatypes, sizes and alignments", "why_tests_cant": "the set of sequences is infinite and an overlap shows only for particular mixes of sizes and alignments", "anchors": ["pasture-core/src/layout/point_layout.rs::PointLayout::add_attribute", "pasture-core/src/layout/point_layout.rs::PointLayout::packed_offset_of_next_field", "pasture-core/src/math/arithmetic.rs::Alignable::align_to"]}
{"id": "C02", "title": "from_attributes reproduces the C struct layout", "statement": "PointLayout::from_attributes gives each attribute the smallest offset that is a multiple of its alignment and not before the end of the previous attribute, an alignment equal to the largest attribute alignment (1 if there are none), and a size that is the smallest multiple of that alignment covering all attributes; i.e. offsets, size and alignment are those of the #[repr(C)] struct with these fields.", "quantifier": "every list of attribute definitions with distinct names", "why_tests_cant": "agreement with repr(C) for all field lists cannot be sampled", "anchors": ["pasture-core/src/layout/point_layout.rs::PointLayout::from_attributes", "pasture-core/src/layout/point_layout.rs::PointLayout::add_attribute"]}
{"id": "C03", "title": "from_attributes_packed reproduces the C packed(n) struct layout", "statement": "PointLayout::from_attributes_packed(attrs, n) gives the offsets, the size and the alignment of the #[repr(C, packed(n))] struct with these fields.", "quantifier": "every list of attribute definitions with distinct names and every n >= 1", "why_tests_cant": "agreement must hold for all field lists and all n; the tests only use n = 1 or sizes that are already multiples", "anchors": ["pasture-core/src/layout/point_layout.rs::PointLayout::from_attributes_packed", "pasture-core/src/layout/point_layout.rs::PointLayout::add_attribute"]}
{"id": "C04", "title": "derive(PointType) produces the memory layout of the Rust type", "statement": "For a struct of attribute fields, the layout generated by #[derive(PointType)] has the same field offsets, size and alignment as the Rust type under its repr attribute (repr(C), repr(C, packed), repr(packed(n)), repr(C, align(n))).", "quantifier": "every struct: any field list and any supported repr attribute", "why_tests_cant": "the derive macro is run per struct; only a proof covers all structs", "anchors": ["pasture-derive/src/layout.rs::get_struct_member_layout", "pasture-derive/src/lib.rs::calculate_offsets_and_alignment", "pasture-core/src/layout/point_layout.rs::PointLayout::from_members_and_alignment"]}
{"id": "C05", "title": "PointLayout lookups agree with each other", "statement": "In a layout built by any sequence of add_attribute calls or by from_members_and_alignment, has_attribute_with_name, has_attribute, get_attribute, get_attribute_by_name, index_of, at and offset_of agree: an attribute is found exactly if it was put in, the returned member carries its name, datatype and offset, and index_of is the inverse of at.", "quantifier": "every layout and every attribute definition queried", "why_tests_cant": "needs all layouts and all queries, including same name with another datatype", "anchors": ["pasture-core/src/layout/point_layout.rs::PointLayout::get_attribute", "pasture-core/src/layout/point_layout.rs::PointLayout::get_attribute_by_name", "pasture-core/src/layout/point_layout.rs::PointLayout::index_of", "pasture-core/src/layout/point_layout.rs::PointLayout::offset_of", "pasture-core/src/layout/point_layout.rs::PointLayout::has_attribute"]}
{"id": "C06", "title": "from_members_and_alignment rejects exactly the ill-formed member lists", "statement": "from_members_and_alignment succeeds exactly when names are unique, no two non-empty member ranges overlap and the alignment is a power of two; the resulting layout keeps the members and has the smallest size that is a multiple of the alignment and covers all of them.", "quantifier": "every list of members with arbitrary offsets, in any order, and every alignment", "why_tests_cant": "acceptance for all member orders and offsets is an infinite set", "anchors": ["pasture-core/src/layout/point_layout.rs::PointLayout::from_members_and_alignment"]}
{"id": "C07", "title": "Adding an attribute to any valid layout never overlaps existing attributes", "statement": "If a PointLayout was obtained from the public API (from_attributes, from_attributes_packed, from_members_and_alignment) then a non-panicking add_attribute returns a layout whose attributes are still pairwise disjoint.", "quantifier": "every layout obtainable from the API and every further attribute", "why_tests_cant": "the failure needs a member list that is not sorted by offset, which no unit test combines with add_attribute", "anchors": ["pasture-core/src/layout/point_layout.rs::PointLayout::add_attribute", "pasture-core/src/layout/point_layout.rs::PointLayout::packed_offset_of_next_field", "pasture-core/src/layout/point_layout.rs::PointLayout::from_members_and_alignment"]}
{"id": "C08", "title": "align_to is rounding up to the next multiple", "statement": "x.align_to(a) is the least multiple of a that is >= x (x itself if a = 0), for every x and a for which it does not exceed the integer range.", "quantifier": "every pair of integers (x, a) of the type's range", "why_tests_cant": "64-bit domain", "anchors": ["pasture-core/src/math/arithmetic.rs::Alignable"]}
{"id": "C09", "title": "An interleaved buffer behaves like a list of points", "statement": "After any history of push_points, resize, set_point, set_point_range, set_attribute, set_attribute_range, swap, clear and append on a VectorBuffer, len() and every get_point, get_point_range, get_attribute and get_attribute_range return what a plain list of point records subjected to the same operations would return.", "quantifier": "every point layout, every finite operation history with arbitrary arguments, every read", "why_tests_cant": "unbounded histories and layouts", "anchors": ["pasture-core/src/containers/point_buffer.rs::VectorBuffer", "pasture-core/src/containers/point_buffer.rs::BorrowedBuffer", "pasture-core/src/containers/point_buffer.rs::BorrowedMutBuffer", "pasture-core/src/containers/point_buffer.rs::OwningBuffer"]}
{"id": "C10", "title": "A columnar buffer behaves like a list of points", "statement": "The same as C09 for HashMapBuffer: all attribute columns always have exactly len() entries and every read returns what the list of points would.", "quantifier": "every point layout, every finite operation history with arbitrary arguments, every read", "why_tests_cant": "unbounded histories; columns can get out of step only for particular histories", "anchors": ["pasture-core/src/containers/point_buffer.rs::HashMapBuffer"]}
{"id": "C11", "title": "Interleaved and columnar buffers are interchangeable", "statement": "Running the same history of operations on a VectorBuffer and on a HashMapBuffer of the same layout gives equal len() and equal attribute values for every attribute of every point at every step.", "quantifier": "every layout and every finite history", "why_tests_cant": "relational over all histories", "anchors": ["pasture-core/src/containers/point_buffer.rs::VectorBuffer", "pasture-core/src/containers/point_buffer.rs::HashMapBuffer"]}
{"id": "C12", "title": "Writes touch nothing but their target", "statement": "set_attribute(a, i, v) makes get_attribute(a, i) return v and leaves every other attribute of point i and every attribute of every other point unchanged; set_point(i, ..) leaves every other point unchanged; the same for the range variants. Holds for VectorBuffer, HashMapBuffer and ExternalMemoryBuffer.", "quantifier": "every layout with disjoint attributes, every buffer content, every index, attribute and value", "why_tests_cant": "a frame condition quantifies over everything that is not touched", "anchors": ["pasture-core/src/containers/point_buffer.rs::VectorBuffer::set_attribute", "pasture-core/src/containers/point_buffer.rs::HashMapBuffer::set_attribute", "pasture-core/src/containers/point_buffer.rs::ExternalMemoryBuffer::set_attribute"]}
{"id": "C13", "title": "swap exchanges exactly two points", "statement": "swap(i, j) with both indices in range exchanges points i and j, leaves all others and the length unchanged, is its own inverse, and is the identity if i = j; an index out of range panics and never corrupts the buffer.", "quantifier": "every layout, buffer and pair of indices", "why_tests_cant": "all pairs on all contents, including i = j and i > j", "anchors": ["pasture-core/src/containers/point_buffer.rs::VectorBuffer::swap", "pasture-core/src/containers/point_buffer.rs::HashMapBuffer::swap"]}
{"id": "C14", "title": "resize and clear keep the prefix and zero the rest", "statement": "After resize(n) the buffer has n points; the first min(n, old len) points are unchanged and all further points have all-zero bytes. After clear it has none.", "quantifier": "every buffer and every n", "why_tests_cant": "all sizes and contents", "anchors": ["pasture-core/src/containers/point_buffer.rs::VectorBuffer::resize", "pasture-core/src/containers/point_buffer.rs::HashMapBuffer::resize"]}
{"id": "C15", "title": "Appending concatenates whatever the memory layouts", "statement": "a.append(b) for buffers with equal layout makes a hold the points of old a followed by the points of b, whether a and b are interleaved or columnar and whichever of append, append_interleaved and append_columnar is used; b is unchanged; different layouts panic.", "quantifier": "every pair of buffers and both memory layouts", "why_tests_cant": "four combinations on arbitrary contents, including points of size zero", "anchors": ["pasture-core/src/containers/point_buffer.rs::OwningBuffer::append", "pasture-core/src/containers/point_buffer.rs::VectorBuffer::append_interleaved", "pasture-core/src/containers/point_buffer.rs::VectorBuffer::append_columnar", "pasture-core/src/containers/point_buffer.rs::HashMapBuffer::append_interleaved", "pasture-core/src/containers/point_buffer.rs::HashMapBuffer::append_columnar"]}
{"id": "C16", "title": "filter keeps exactly the points satisfying the predicate", "statement": "HashMapBuffer::filter(p) returns a buffer with the same layout whose points are exactly those i with p(i), in increasing order of i, with all attributes; filter_into does so into any target buffer, appending/overwriting the first points and panicking if it is too small.", "quantifier": "every buffer and every predicate", "why_tests_cant": "all predicates on all buffers", "anchors": ["pasture-core/src/containers/point_buffer.rs::HashMapBuffer::filter", "pasture-core/src/containers/point_buffer.rs::HashMapBuffer::filter_into"]}
{"id": "C17", "title": "Collecting an iterator gives exactly the iterated points", "statement": "iter.collect::<VectorBuffer>() and ::<HashMapBuffer>() contain exactly the items the iterator yields, in order, for every iterator (including filtered ones whose size_hint is not exact).", "quantifier": "every iterator: any item list and any size_hint that is consistent with it", "why_tests_cant": "depends on the relation between size_hint and the actual number of items for every iterator", "anchors": ["pasture-core/src/containers/point_buffer.rs::FromIterator for VectorBuffer", "pasture-core/src/containers/point_buffer.rs::FromIterator for HashMapBuffer"]}
{"id": "C18", "title": "Reading through a slice reads the parent's range", "statement": "For a slice of points [s, e) of a buffer, len() is e - s and reading point or attribute i (or a range) returns the parent's point s + i; indices >= len() panic; a slice of a slice composes the ranges, and every sub-range of the slice, including the full range, can be sliced.", "quantifier": "every buffer, every chain of nested slices and every index or range", "why_tests_cant": "nested slices of any depth with any bounds", "anchors": ["pasture-core/src/containers/slice.rs::BufferSlice", "pasture-core/src/containers/slice.rs::get_and_check_global_point_index", "pasture-core/src/containers/slice.rs::get_and_check_global_point_range"]}
{"id": "C19", "title": "Writing through a mutable slice stays inside the slice", "statement": "Writing through slice_mut(s..e) modifies at most the points s..e of the parent: writing at a slice index >= e - s panics and never modifies a point outside the slice.", "quantifier": "every buffer, every slice and every index", "why_tests_cant": "only indices between len() and the end of the parent slip through the check", "anchors": ["pasture-core/src/containers/slice.rs::BufferSliceMut::get_and_check_global_point_index", "pasture-core/src/containers/slice.rs::BufferSliceMut"]}
{"id": "C20", "title": "Out-of-range accesses panic", "statement": "get_point, get_attribute, set_point, set_attribute, swap and the range variants panic for an index or range outside 0..len(), and for an attribute that is not in the layout; the buffer is not modified.", "quantifier": "every buffer, index, range and attribute", "why_tests_cant": "all indices on all buffers", "anchors": ["pasture-core/src/containers/point_buffer.rs::VectorBuffer", "pasture-core/src/containers/point_buffer.rs::HashMapBuffer", "pasture-core/src/containers/point_buffer.rs::BorrowedBuffer::get_attribute"]}
{"id": "C21", "title": "External memory buffers are VectorBuffers over borrowed bytes", "statement": "An ExternalMemoryBuffer over a byte slice and a layout has len() = bytes / point size, rejects a slice whose length is not a multiple, and every read and write acts on it exactly as on a VectorBuffer with the same bytes.", "quantifier": "every layout, byte slice and operation", "why_tests_cant": "all contents", "anchors": ["pasture-core/src/containers/point_buffer.rs::ExternalMemoryBuffer"]}
{"id": "C22", "title": "Typed views read and write the stored attribute values", "statement": "view_attribute(a).at(i) decodes the bytes get_attribute(a, i) returns; after view_attribute_mut(a).set_at(i, v), at(i) is v and nothing else changed; iterating a view yields exactly len() values, the i-th being at(i); nth(k) on any view iterator gives at(position + k) or None when past the end.", "quantifier": "every buffer, memory layout, attribute, index and iterator position", "why_tests_cant": "iteration protocol over all positions and skips", "anchors": ["pasture-core/src/containers/buffer_views.rs::AttributeView", "pasture-core/src/containers/buffer_views.rs::AttributeViewMut", "pasture-core/src/containers/attribute_iterators.rs", "pasture-core/src/containers/point_iterators.rs", "pasture-core/src/containers/raw_attribute_view.rs"]}
{"id": "C23", "title": "sort_by sorts", "statement": "PointViewMut::sort_by(cmp) leaves the buffer with a permutation of its points that is ordered by cmp, stable, for every total-order comparison.", "quantifier": "every buffer and every comparison function that is a total preorder", "why_tests_cant": "all permutations of all lengths", "anchors": ["pasture-core/src/containers/buffer_views.rs::PointViewMut::sort_by"]}
{"id": "C24", "title": "transform_attribute maps one attribute", "statement": "transform_attribute(a, f) replaces attribute a of every point i by f(i, old value) and leaves every other attribute unchanged, on every kind of buffer.", "quantifier": "every buffer, attribute and function", "why_tests_cant": "all functions and contents", "anchors": ["pasture-core/src/containers/point_buffer.rs::BorrowedMutBuffer::transform_attribute"]}
{"id": "C25", "title": "Numeric attribute conversions follow Rust `as` semantics and widening is lossless", "statement": "The converter between two scalar (or 3-vector) integer datatypes yields the source value modulo the target's width in two's complement; from float to integer it rounds toward zero and saturates (NaN gives 0); converting to a type that contains the source's range and back is the identity on the stored bytes of every value other than NaN.", "quantifier": "every pair of integer datatypes and every byte pattern", "why_tests_cant": "2^64 patterns times all pairs", "anchors": ["pasture-core/src/layout/conversion/attribute_conversion.rs::convert_scalar_using_as", "pasture-core/src/layout/conversion/attribute_conversion.rs::convert_vec3_using_as", "pasture-core/src/layout/conversion/attribute_conversion.rs::get_generic_converter"]}
{"id": "C26", "title": "A converter exists for every pair of distinct scalar and distinct 3-vector datatypes and computes the cast value", "statement": "get_converter_for_attributes returns a converter for every pair of different scalar numeric datatypes and every pair of different supported 3-vector datatypes, and calling it writes the value cast component by component; it returns None for equal datatypes, panics for every other pair and for different names, and supports (A, B) exactly if it supports (B, A).", "quantifier": "every pair of attribute datatypes", "why_tests_cant": "the table has a case per ordered pair and a wild card; a missing row shows only for one pair", "anchors": ["pasture-core/src/layout/conversion/attribute_conversion.rs::get_converter_for_attributes", "pasture-core/src/layout/conversion/attribute_conversion.rs::get_generic_converter"]}
{"id": "C27", "title": "BufferLayoutConverter computes the same values on every memory layout", "statement": "convert and convert_into give each target attribute that has a mapping, for each point, the value transform/convert of the mapped source attribute of the same point, independent of whether source and target are interleaved or columnar; unmapped target attributes keep their previous value (zero for convert); the source is unchanged.", "quantifier": "every source/target layout pair, every mapping (default, custom, transformed), every source content, each of the four memory layout combinations", "why_tests_cant": "four code paths that must agree on every input", "anchors": ["pasture-core/src/layout/conversion/buffer_conversion.rs::BufferLayoutConverter::convert", "pasture-core/src/layout/conversion/buffer_conversion.rs::BufferLayoutConverter::convert_into", "pasture-core/src/layout/conversion/buffer_conversion.rs::BufferLayoutConverter::convert_into_range"]}
{"id": "C28", "title": "convert_into_range touches only the target range", "statement": "convert_into_range(source, s, target, t) writes exactly the target points t, the i-th from source point s.start + i, leaves all others alone, and panics if the ranges differ in length or are out of bounds.", "quantifier": "every pair of ranges", "why_tests_cant": "all ranges on all buffers", "anchors": ["pasture-core/src/layout/conversion/buffer_conversion.rs::BufferLayoutConverter::convert_into_range"]}
{"id": "C29", "title": "RawPointConverter transfers every attribute common to both layouts", "statement": "RawPointConverter::from_to(A, B).convert(src, dst) sets every attribute of B whose name also occurs in A to the converted value of A's attribute.", "quantifier": "every pair of layouts and every source point", "why_tests_cant": "all layout pairs", "anchors": ["pasture-core/src/layout/conversion/attribute_conversion.rs::RawPointConverter::from_to", "pasture-core/src/layout/conversion/attribute_conversion.rs::RawPointConverter::convert"]}
{"id": "C30", "title": "AABB operations satisfy the laws of boxes", "statement": "For boxes with min <= max: union(a, b) is the smallest box containing both; extend_with_point(b, p) is the smallest box containing b and p; contains(b, p) is min <= p <= max component-wise; intersects(a, b) holds exactly if a point is contained in both and is symmetric.", "quantifier": "every pair of boxes and every point (over any totally ordered coordinates)", "why_tests_cant": "continuous domain", "anchors": ["pasture-core/src/math/bounds.rs::AABB"]}
{"id": "C31", "title": "Collecting points into an AABB yields their bounding box", "statement": "points.collect::<AABB<f64>>() contains every point of the iterator and is the smallest such box, for any non-empty iterator; adding points never makes an earlier point fall outside.", "quantifier": "every list of floating point positions, including NaN and infinities", "why_tests_cant": "NaN in the middle of a sequence resets the running minimum", "anchors": ["pasture-core/src/math/bounds.rs::FromIterator for AABB"]}
{"id": "C32", "title": "minmax of attributes is the true minimum and maximum", "statement": "minmax_attribute returns None for an empty buffer and otherwise a pair (lo, hi) with lo <= v <= hi for every attribute value v and lo, hi attained (component-wise for vectors).", "quantifier": "every buffer and attribute; every order of the points", "why_tests_cant": "all lists of values, including float NaN", "anchors": ["pasture-algorithms/src/minmax.rs::minmax_attribute", "pasture-core/src/math/minmax.rs::MinMax"]}
{"id": "C33", "title": "Bit helpers spread and reverse bits exactly", "statement": "Bit 3i of expand_bits_by_3(v) is bit i of v for i < 21 and all other bits are 0; bit i of reverse_bits(v) is bit 63 - i of v, hence reverse_bits is an involution.", "quantifier": "every 64-bit value", "why_tests_cant": "2^64 values", "anchors": ["pasture-core/src/math/bitmanip.rs::expand_bits_by_3", "pasture-core/src/math/bitmanip.rs::reverse_bits"]}
{"id": "C34", "title": "LAS flag bits survive a write/read cycle", "statement": "Writing return number, number of returns, (classification flags, scanner channel,) scan direction and edge-of-flight-line flags as LAS bit fields and extracting them again returns every value reduced to its field width, and no field disturbs another; values within their LAS range come back unchanged. Holds for the basic (formats 0-5) and the extended (6-10) flags.", "quantifier": "every combination of flag bytes", "why_tests_cant": "interaction of 4 or 6 bytes", "anchors": ["pasture-io/src/las/write_helpers.rs::write_las_bit_attributes", "pasture-io/src/las/raw_readers.rs::get_default_las_converter", "pasture-io/src/las/las_types.rs::BitAttributes"]}
{"id": "C35", "title": "Exact LAS layouts match the LAS record specification", "statement": "For each point format 0-10 the exact point layout places each field at the byte offset the LAS specification prescribes, without padding, and its size is the specified record length.", "quantifier": "all eleven formats and every field", "why_tests_cant": "finite, but a field swap inside equal sizes shows in no size test", "anchors": ["pasture-io/src/las/las_layout.rs::point_layout_from_las_point_format"]}
{"id": "C36", "title": "Point layout from LAS metadata covers exactly one record", "statement": "For any LAS header, the exact point layout built by point_layout_from_las_metadata has size_of_point_entry() equal to the record length of the file (base format size + extra bytes), whatever extra bytes the file declares or leaves undescribed.", "quantifier": "every format, every number of extra bytes and every list of extra-bytes descriptions", "why_tests_cant": "depends on the relation of described and declared extra bytes", "anchors": ["pasture-io/src/las/las_layout.rs::point_layout_from_las_metadata"]}
{"id": "C37", "title": "A LAS point format derived from a layout is a valid format that can hold the layout", "statement": "las_point_format_from_point_layout returns one of the formats 0-10, and one that contains every LAS attribute of the layout; for the layout of format n it returns format n.", "quantifier": "every subset of attributes in a layout", "why_tests_cant": "2^23 attribute subsets", "anchors": ["pasture-io/src/las/las_layout.rs::las_point_format_from_point_layout"]}
{"id": "C38", "title": "Attribute values survive LAS write and read", "statement": "Writing points with RawLASWriter and reading them back yields, for each point in order, the same attribute values (flags and counts reduced to their LAS width, positions within one scale step), for every default-layout buffer and any split of the points into write calls.", "quantifier": "every point format, every list of points, every chunking on both sides", "why_tests_cant": "all records and all chunk boundaries", "anchors": ["pasture-io/src/las/raw_writers.rs::RawLASWriter::write_points_default_layout", "pasture-io/src/las/raw_readers.rs::RawLASReader::read_into_default_layout"]}
{"id": "C39", "title": "LAS positions that are on the grid survive a write/read cycle", "statement": "A position that was read from a LAS file (integer * scale + offset) and written with the same scale and offset is stored as the same integer again.", "quantifier": "every 32-bit grid coordinate, scale and offset", "why_tests_cant": "floating point rounding of all coordinates", "anchors": ["pasture-io/src/las/write_helpers.rs::write_position_as_las_position", "pasture-io/src/las/raw_readers.rs::get_default_las_converter"]}
{"id": "C40", "title": "Point readers behave like a cursor over the file's points", "statement": "For every sequence of seek_point and read_into calls on a LAS reader: read_into(count) returns min(count, remaining) points, exactly the next ones of the file, and advances by that many; seek_point moves to the clamped target; at the end read_into returns 0; the point sequence read does not depend on how it is split into calls.", "quantifier": "every file and every finite sequence of seeks and reads", "why_tests_cant": "unbounded call histories", "anchors": ["pasture-io/src/las/raw_readers.rs::RawLASReader::read_into", "pasture-io/src/las/raw_readers.rs::RawLASReader::seek_point", "pasture-io/src/las/raw_readers.rs::RawLASReader::remaining_points", "pasture-io/src/base/reader.rs", "pasture-io/src/base/seek.rs"]}
{"id": "C41", "title": "LAS header counts and bounds describe the written points", "statement": "After any sequence of writes and flush/drop, the header's total count is the number of points written, the per-return counts are the number of points with that return number, the bounds are the minimum and maximum of all written positions, and the legacy counts equal the totals when they fit (format <= 5 and at most u32::MAX points) and are 0 otherwise.", "quantifier": "every sequence of write calls with any buffers (default or custom layout)", "why_tests_cant": "accumulation over arbitrary histories and two write paths", "anchors": ["pasture-io/src/las/raw_writers.rs::update_bounds_in_las_header", "pasture-io/src/las/raw_writers.rs::update_point_counts_in_las_header", "pasture-io/src/las/raw_writers.rs::finalize_las_header", "pasture-io/src/las/raw_writers.rs::RawLASWriter::write_points_custom_layout"]}
{"id": "C42", "title": "LAZ and LAS writers store exactly the points given", "statement": "The compressed data stream contains exactly one record per written point, in order, for default and custom layouts and any sequence of write calls.", "quantifier": "every sequence of writes and every buffer length", "why_tests_cant": "wrong only when a chunk is not full and another write follows", "anchors": ["pasture-io/src/las/raw_writers.rs::RawLAZWriter::write_points_custom_layout", "pasture-io/src/las/raw_writers.rs::RawLAZWriter::write_points_default_layout"]}
{"id": "C43", "title": "Extra bytes descriptions survive serialisation", "statement": "Converting an ExtraBytesEntry to its 192-byte record and back yields the same entry; the datatype code round-trips; accessor functions return the value that was set by the builder for the matching kind of type.", "quantifier": "every entry: any datatype, options, name, description, min/max/no-data/scale/offset values", "why_tests_cant": "all field combinations and strings (lengths, UTF-8 boundaries)", "anchors": ["pasture-io/src/las/las_metadata.rs::ExtraBytesEntry", "pasture-io/src/las/las_metadata.rs::RawExtraBytesEntry", "pasture-io/src/las/las_metadata.rs::ExtraBytesDataType"]}
{"id": "C44", "title": "LAS string fields survive storage", "statement": "A Rust string stored in an N-byte LAS field and read back gives the string itself if it fits and contains no NUL, and a prefix of it otherwise; writing never produces a field that cannot be read.", "quantifier": "every string and every N", "why_tests_cant": "multi-byte characters at the cut", "anchors": ["pasture-io/src/las/write_helpers.rs::write_rust_string_into_las_ascii_array", "pasture-io/src/las/read_helpers.rs::las_string_to_rust_string"]}
{"id": "C45", "title": "File type detection is consistent", "statement": "Whether a path is treated as LAS, LAZ or PNTS depends on its extension only, independent of case; a .laz file in any case is treated as compressed.", "quantifier": "every path", "why_tests_cant": "all spellings", "anchors": ["pasture-io/src/las/las_metadata.rs::path_is_compressed_las_file", "pasture-io/src/base/io_factory.rs::IOFactory"]}
{"id": "C46", "title": "read_all and read_all_into deliver every point", "statement": "read_all returns all points of the file; read_all_into appends all points to the end of the given buffer as documented.", "quantifier": "every file and every initial buffer", "why_tests_cant": "all buffers", "anchors": ["pasture-io/src/base/mod.rs::read_all", "pasture-io/src/base/mod.rs::read_all_into"]}
{"id": "C47", "title": "ASCII format strings are accepted exactly if every letter is known", "statement": "Creating an ASCII reader or writer succeeds exactly if every character of the format string is one of s x y z i r n c t u p R G B e d a I, and then column k is interpreted by character k.", "quantifier": "every format string", "why_tests_cant": "all strings", "anchors": ["pasture-io/src/ascii/ascii_format_util.rs::PointDataType::get_parse_layout"]}
{"id": "C48", "title": "ASCII columns carry the attribute the format names", "statement": "For every format string, point and delimiter, the text written for column k is the value of the attribute named by format letter k of that point.", "quantifier": "every format string and every point", "why_tests_cant": "all letters in all positions", "anchors": ["pasture-io/src/ascii/raw_writer.rs::RawAsciiWriter::write"]}
{"id": "C49", "title": "ASCII trimming keeps the number", "statement": "Removing unnecessary trailing zeros from a formatted number never changes its numeric value, for any precision.", "quantifier": "every value and every precision set with set_precision", "why_tests_cant": "precision 0 and integers ending in zero", "anchors": ["pasture-io/src/ascii/raw_writer.rs::trim_unnecessary_tailing_zeros"]}
{"id": "C50", "title": "ASCII files written can be read back", "statement": "Writing points and reading the file with the same format and delimiter gives one point per line with the same integers, NaNs and infinities; other floating point numbers differ by at most one unit of the last decimal place written, and not at all if they have no more decimal places than are written.", "quantifier": "every format, every list of points whose flags are 0 or 1, every precision above 0, and every delimiter with a character that no number contains and without line breaks", "why_tests_cant": "all formats and values", "anchors": ["pasture-io/src/ascii/raw_writer.rs::RawAsciiWriter::write", "pasture-io/src/ascii/raw_reader.rs::RawAsciiReader::parse_point"]}
{"id": "C51", "title": "ASCII readers report the number of points read", "statement": "read_into(buffer, count) returns the number of lines parsed, min(count, lines remaining), and stores exactly these points; a malformed or short line is an error.", "quantifier": "every file and every count", "why_tests_cant": "files shorter than count", "anchors": ["pasture-io/src/ascii/raw_reader.rs::RawAsciiReader::read_into", "pasture-io/src/ascii/raw_reader.rs::RawAsciiReader::parse_point"]}
{"id": "C52", "title": "PNTS files are well-formed", "statement": "A flushed PNTS file has byteLength equal to the file size and equal to the sum of the header and the four section lengths; the feature table body and the batch table start at 8-byte boundaries; each attribute's byteOffset points to its data, is 8-byte aligned within the body, and attribute blocks do not overlap.", "quantifier": "every layout and number of points, every JSON header length", "why_tests_cant": "alignment arithmetic over all lengths", "anchors": ["pasture-io/src/tiles3d/pnts_writer.rs::PntsWriter::write_cached_points", "pasture-io/src/tiles3d/pnts_writer.rs::PntsWriter::create_feature_table", "pasture-io/src/tiles3d/pnts_writer.rs::PntsWriter::write_feature_table_body", "pasture-io/src/tiles3d/common.rs::write_json_header"]}
{"id": "C53", "title": "PNTS points survive write and read", "statement": "Reading a PNTS file written by any sequence of write calls and one flush gives all written points in order with their position, colour and normal values (converted to the file's datatypes).", "quantifier": "every sequence of buffers", "why_tests_cant": "all histories", "anchors": ["pasture-io/src/tiles3d/pnts_writer.rs::PntsWriter::write", "pasture-io/src/tiles3d/pnts_reader.rs::PntsReader::read_into"]}
{"id": "C54", "title": "No PNTS point is lost whenever flush is called", "statement": "Every point passed to write is in the file after the writer is dropped, whatever the sequence of write and flush calls.", "quantifier": "every interleaving of write and flush", "why_tests_cant": "order of calls", "anchors": ["pasture-io/src/tiles3d/pnts_writer.rs::PntsWriter::flush", "pasture-io/src/tiles3d/pnts_writer.rs::PntsWriter::write"]}
{"id": "C55", "title": "Reading PNTS relative/absolute positions affects only the points read", "statement": "read_into on a PntsReader stores num points at the start of the buffer, with RTC_CENTER added exactly once in Absolute mode and not at all in RelativeToCenter mode, and leaves the rest of the buffer unchanged; seek_point and read_into behave like a cursor.", "quantifier": "every file, buffer length, count, mode and call history", "why_tests_cant": "buffers longer than the number of points read", "anchors": ["pasture-io/src/tiles3d/pnts_reader.rs::PntsReader::read_into", "pasture-io/src/tiles3d/pnts_reader.rs::PntsReader::apply_rtc_center_offset", "pasture-io/src/tiles3d/pnts_reader.rs::PntsReader::seek_point"]}
{"id": "C56", "title": "RANSAC returns the best hypothesis and exactly its inliers", "statement": "ransac_plane/line (serial) returns, among the hypotheses generated, one with the largest number of inliers; the returned index list is exactly the increasing list of points closer than the threshold to the returned model and its length is the reported ranking.", "quantifier": "every buffer, threshold, number of iterations >= 1 and every sequence of random numbers", "why_tests_cant": "randomised", "anchors": ["pasture-algorithms/src/segmentation.rs::ransac_plane_serial", "pasture-algorithms/src/segmentation.rs::ransac_line_serial", "pasture-algorithms/src/segmentation.rs::generate_plane_model", "pasture-algorithms/src/segmentation.rs::generate_line_model"]}
{"id": "C57", "title": "Parallel RANSAC is schedule independent", "statement": "ransac_*_par returns a hypothesis of maximal ranking for every way rayon splits and combines the iterations, and the same one as the serial version for the same hypotheses.", "quantifier": "every binary reduction tree over the iterations", "why_tests_cant": "all schedules", "anchors": ["pasture-algorithms/src/segmentation.rs::ransac_plane_par", "pasture-algorithms/src/segmentation.rs::ransac_line_par"]}
{"id": "C58", "title": "calculate_bounds is the tight bounding box", "statement": "calculate_bounds returns None exactly for an empty buffer or one without positions (or with an unconvertible position type); otherwise the returned box contains every position and each of its faces touches one.", "quantifier": "every buffer of positions including infinities and NaN", "why_tests_cant": "all lists of floats", "anchors": ["pasture-algorithms/src/bounds.rs::calculate_bounds"]}
{"id": "C59", "title": "The voxel grid assigns every point to exactly one voxel", "statement": "voxelgrid_filter appends exactly one point per occupied voxel; every input point is in exactly one voxel, namely that of a marker nearest to it on each axis; no marker index is out of range.", "quantifier": "every non-empty buffer with finite positions and every positive leaf size", "why_tests_cant": "all point sets", "anchors": ["pasture-algorithms/src/voxel_grid.rs::voxelgrid_filter", "pasture-algorithms/src/voxel_grid.rs::find_leaf", "pasture-algorithms/src/voxel_grid.rs::create_markers_for_axis"]}
{"id": "C60", "title": "Voxel attribute pooling returns values of the voxel", "statement": "For max-pooled attributes the result is the maximum of the voxel's values, for most-common attributes it is a value occurring most often in the voxel.", "quantifier": "every voxel content", "why_tests_cant": "negative values, ties", "anchors": ["pasture-algorithms/src/voxel_grid.rs::centroid_max_pool", "pasture-algorithms/src/voxel_grid.rs::centroid_most_common"]}
{"id": "C61", "title": "Convex hull results refer to input points and work for every position datatype", "statement": "convex_hull_as_points and convex_hull_as_triangle_mesh return only indices below buffer.len(); they accept every buffer with a POSITION_3D attribute, whatever its datatype, and empty buffers without panicking.", "quantifier": "every buffer", "why_tests_cant": "incremental algorithm over arbitrary point sequences", "anchors": ["pasture-algorithms/src/convexhull.rs::convex_hull_as_points", "pasture-algorithms/src/convexhull.rs::convex_hull_as_triangle_mesh", "pasture-algorithms/src/convexhull.rs::iteration"]}
{"id": "C62", "title": "Normal of a coplanar neighbourhood is perpendicular to its plane", "statement": "For a neighbourhood whose points lie in a plane, the normal computed (in exact arithmetic) is orthogonal to every difference of points; for any other neighbourhood it is an eigenvector of the covariance matrix for its smallest eigenvalue.", "quantifier": "every neighbourhood", "why_tests_cant": "continuous", "anchors": ["pasture-algorithms/src/normal_estimation.rs::compute_covariance_matrix", "pasture-algorithms/src/normal_estimation.rs::get_largest_eigen_vector", "pasture-algorithms/src/normal_estimation.rs::eigen_3x3"]}
{"id": "C63", "title": "The info tool's detailed mode works on every readable file", "statement": "pasture-info -d reads every file with at least one point without panicking.", "quantifier": "every non-empty file", "why_tests_cant": "needs reader contract and caller together", "anchors": ["pasture-tools/src/bin/info.rs::analyze_file", "pasture-io/src/las/raw_readers.rs::RawLASReader::read_into"]}
{"id": "C64", "title": "Comparing layouts without offsets compares the attribute sets", "statement": "For layouts obtained from the public API, compare_without_offsets returns true exactly if both layouts have the same attributes (names with datatypes), whatever their order and offsets; it is therefore reflexive, symmetric and transitive.", "quantifier": "all pairs (triples) of layouts reachable through the public PointLayout API", "why_tests_cant": "Ranges over all attribute sets, orders and packings; symmetry is a relation between two calls on arbitrary arguments.", "anchors": ["pasture-core/src/layout/point_layout.rs: PointLayout::compare_without_offsets"]}
{"id": "C65", "title": "Pushing attribute ranges appends exactly the pushed points", "statement": "After begin_push_attributes, pushing a range of n values for every attribute (in any order) and calling done, the buffer has n more points, the i-th of which has the i-th pushed value in every attribute, and all earlier points are unchanged; if an attribute is missing or has a wrong amount of data, done or push_attribute_range panics.", "quantifier": "all columnar buffers, all sequences of pushes, all values", "why_tests_cant": "Ranges over all layouts, push orders and value lists.", "anchors": ["pasture-core/src/containers/point_buffer.rs: HashMapBufferAttributePusher::push_attribute_range, done"]}
{"id": "C66", "title": "A converting attribute view reads the converted value", "statement": "view_attribute_with_conversion::<T>(a).at(i) returns the value of the attribute named like a of point i converted to T, for every buffer and slice; it panics if T is not the datatype of a, if no attribute has that name, or if the conversion does not exist.", "quantifier": "every buffer or slice, attribute, datatype pair and index", "why_tests_cant": "all pairs of datatypes on all buffers", "anchors": ["pasture-core/src/containers/buffer_views.rs::AttributeViewConverting::new", "pasture-core/src/containers/buffer_views.rs::AttributeViewConverting::at"]}
{"id": "C67", "title": "convert_into requires buffers of equal length", "statement": "convert_into(source, target) converts all points of source into the points of target with the same index and panics if target.len() is not equal to source.len().", "quantifier": "every converter and pair of buffers", "why_tests_cant": "all buffers and lengths", "anchors": ["pasture-core/src/layout/conversion/buffer_conversion.rs::BufferLayoutConverter::convert_into"]}
{"id": "C68", "title": "as_cubic returns a cube around the box", "statement": "as_cubic(b) contains every point of b, has the same center as b, and all its edges are as long as the longest edge of b.", "quantifier": "every box of floating point coordinates", "why_tests_cant": "rounding depends on every pair of coordinates", "anchors": ["pasture-core/src/math/bounds.rs::AABB::as_cubic"]}
{"id": "C69", "title": "A rejected read leaves the reader where it was", "statement": "If read_into of a LAS or LAZ reader fails because the points of the file cannot be converted to the layout of the buffer, neither the buffer nor the position of the reader has changed: reading again with a fitting buffer gets the same points.", "quantifier": "every file, reader position, buffer and count", "why_tests_cant": "all reader states and target layouts", "anchors": ["pasture-io/src/las/raw_readers.rs::RawLASReader::read_into_custom_layout", "pasture-io/src/las/raw_readers.rs::RawLAZReader::read_into_custom_layout"]}
{"id": "C70", "title": "Setting an attribute of an untyped point changes that attribute only", "statement": "UntypedPoint::set_attribute writes the value, converted to the attribute's datatype, to the attribute with the given definition (name and datatype), get_attribute returns it converted to the requested type, all other attributes keep their values, and a missing attribute or an impossible conversion is reported as an error.", "quantifier": "every layout, point, attribute definition and value", "why_tests_cant": "all layouts and value types", "anchors": ["pasture-core/src/containers/untyped_point.rs::UntypedPoint", "pasture-core/src/containers/untyped_point.rs::UntypedPointBuffer"]}
{"id": "C71", "title": "The convex hull mesh is the surface of the convex hull", "statement": "The triangles that convex_hull_as_triangle_mesh returns are a closed surface, every point is on the inner side of (or on) the plane of every triangle, and every vertex of the convex hull is a corner of a triangle.", "quantifier": "every buffer of positions, in every order of the points, and every iteration order of the hash sets", "why_tests_cant": "the algorithm is incremental: correctness is an invariant over all sequences of points", "anchors": ["pasture-algorithms/src/convexhull.rs::convex_hull_as_triangle_mesh", "pasture-algorithms/src/convexhull.rs::iteration"]}
{"id": "C72", "title": "Curvature is the surface variation of the neighbourhood", "statement": "The curvature that compute_normals returns for a point is the smallest eigenvalue of the covariance matrix of its neighbours divided by the sum of the eigenvalues (in exact arithmetic): 0 exactly if the neighbours lie in a plane, and independent of the scale of the cloud.", "quantifier": "every cloud, number of neighbours and point", "why_tests_cant": "continuous inputs; the factor only shows for neighbourhoods that are not flat", "anchors": ["pasture-algorithms/src/normal_estimation.rs::solve_plane_parameter", "pasture-algorithms/src/normal_estimation.rs::eigen_3x3", "pasture-algorithms/src/normal_estimation.rs::solve_polynomial"]}
{"id": "C73", "title": "Normal estimation of finite points neither panics nor yields NaN", "statement": "For at least three points with finite coordinates and at least three neighbours, compute_normals returns one normal and curvature per point, all finite; with fewer it panics, as documented.", "quantifier": "every cloud with finite f64 coordinates, every number of neighbours", "why_tests_cant": "depends on rounding, overflow and degenerate neighbourhoods", "anchors": ["pasture-algorithms/src/normal_estimation.rs::compute_normals", "pasture-algorithms/src/normal_estimation.rs::solve_polynomial", "pasture-algorithms/src/normal_estimation.rs::eigen_3x3"]}
{"id": "C74", "title": "A raw attribute view shows and writes exactly the bytes of the attribute", "statement": "view_raw_attribute(m) of an interleaved or columnar buffer has as many entries as the buffer has points; entry i is the bytes of attribute m of point i; an index past the end panics. Copying bytes into entry i of view_raw_attribute_mut(m) changes that attribute of point i and nothing else, also through slices. The same attribute shows the same values in interleaved and columnar buffers.", "quantifier": "every buffer, slice of any depth, attribute, index and value", "why_tests_cant": "offset and stride arithmetic for every layout, storage kind and slice depth", "anchors": ["pasture-core/src/containers/raw_attribute_view.rs::RawAttributeView", "pasture-core/src/containers/raw_attribute_view.rs::RawAttributeViewMut", "pasture-core/src/containers/point_buffer.rs::view_raw_attribute"]}
{"id": "C75", "title": "Views and buffers are equal exactly if they show the same points", "statement": "Two point views compare equal exactly if they have the same number of points and the points are pairwise equal, whatever the storage of the buffers; two attribute views exactly if in addition they view the same attribute; two converting views exactly if they view the same attribute and show pairwise equal values; two VectorBuffers or HashMapBuffers exactly if layout and points are the same.", "quantifier": "every pair of buffers (interleaved, columnar, external, slices), attribute and == of the value type", "why_tests_cant": "pairs of histories and storage kinds; hash maps whose order of entries differs", "anchors": ["pasture-core/src/containers/buffer_views.rs::PointView::eq", "pasture-core/src/containers/buffer_views.rs::AttributeView::eq", "pasture-core/src/containers/buffer_views.rs::AttributeViewConverting::eq", "pasture-core/src/containers/point_buffer.rs::VectorBuffer", "pasture-core/src/containers/point_buffer.rs::HashMapBuffer"]}
{"id": "C76", "title": "Reprojection replaces every position by its projection and nothing else", "statement": "reproject_point_cloud_within replaces the POSITION_3D of every point by its projection and changes no other byte; reproject_point_cloud_between writes the projection of the position of source point i to target point i, changes nothing else of the target and nothing of the source; both panic if a buffer lacks POSITION_3D, the latter also for different lengths.", "quantifier": "every buffer, slice, layout and projection", "why_tests_cant": "frame condition over all layouts, storage kinds and lengths", "anchors": ["pasture-algorithms/src/reprojection.rs::reproject_point_cloud_within", "pasture-algorithms/src/reprojection.rs::reproject_point_cloud_between"]}
{"id": "C77", "title": "The transformed bounds contain the transformed points", "statement": "Projection::transform_bounds returns an axis-aligned box that contains the projection of every point of the given box.", "quantifier": "every box, every point in it, every projection", "why_tests_cant": "continuous inputs and arbitrary projections", "anchors": ["pasture-algorithms/src/reprojection.rs::Projection::transform_bounds"]}
{"id": "C78", "title": "Tilesets survive being written as JSON", "statement": "Serializing a Tileset or RootTileset to JSON text and parsing it gives the same tileset: the same tree of tiles with the same refinement, volumes, contents, transforms and errors.", "quantifier": "every tileset with any number of tiles, depth and any numbers", "why_tests_cant": "recursive data of unbounded depth and arbitrary f64 values; the failures need non-finite numbers or trees deeper than the parser's recursion limit", "anchors": ["pasture-io/src/tiles3d/tileset.rs::Tileset", "pasture-io/src/tiles3d/tileset.rs::RootTileset", "pasture-io/src/tiles3d/tileset.rs::BoundingVolume"]}
{"id": "C79", "title": "TilesetBuilder builds what was asked for", "statement": "After any sequence of builder calls, every field of the tileset has the value of the last call that set it (the default if none did), and the children are those added, in order; the builder panics exactly if a negative geometric error is given.", "quantifier": "every sequence of builder calls", "why_tests_cant": "histories of calls of any length and order", "anchors": ["pasture-io/src/tiles3d/tileset.rs::TilesetBuilder"]}
{"id": "C80", "title": "The bounding box of a tile covers the AABB it is made of", "statement": "BoundingBox::from(&AABB) covers exactly the points of the AABB.", "quantifier": "every AABB, every point", "why_tests_cant": "continuous inputs and f64 rounding", "anchors": ["pasture-io/src/tiles3d/tileset.rs::From<&AABB<f64>> for BoundingBox"]}
{"id": "C81", "title": "Batch and feature table headers survive", "statement": "A table header that is written at a position and read again has the same entries; the written header ends at a multiple of 8, and after reading the reader is at the body of the table.", "quantifier": "every header, position, following bytes and size between the length of the text and the padded length", "why_tests_cant": "all headers, alignments and paddings", "anchors": ["pasture-io/src/tiles3d/batch_table.rs::deser_batch_table_header", "pasture-io/src/tiles3d/batch_table.rs::ser_batch_table_header", "pasture-io/src/tiles3d/feature_table.rs::deser_feature_table_header", "pasture-io/src/tiles3d/feature_table.rs::ser_feature_table_header"]}
{"id": "C82", "title": "PNTS metadata are what the feature table states", "statement": "The metadata of a PNTS file exist exactly if the feature table states its global semantics with the right types; number_of_points and every named field are the entry of the feature table, or absent if the table has no such entry.", "quantifier": "every feature table header and every field name", "why_tests_cant": "all tables, malformed ones included", "anchors": ["pasture-io/src/tiles3d/pnts_reader.rs::metadata_from_feature_table_header", "pasture-io/src/tiles3d/pnts_metadata.rs::PntsMetadata", "pasture-io/src/tiles3d/common.rs::json_arr_to_vec3f32", "pasture-io/src/tiles3d/common.rs::json_arr_to_vec4u8"]}
{"id": "C83", "title": "LAS metadata are what the header of the file says", "statement": "LASMetadata made of a header reports the bounds, number of points and format of the header, the contents of the first VLR of each known kind and the named fields of the header; making it succeeds exactly if these VLRs are well-formed; it never panics; bounds convert between las and pasture without loss.", "quantifier": "every header, list of VLRs and field name", "why_tests_cant": "lists of VLRs of any length and order, malformed data, dates out of range", "anchors": ["pasture-io/src/las/las_metadata.rs::LASMetadata", "pasture-io/src/las/las_metadata.rs::las_bounds_to_pasture_bounds", "pasture-io/src/las/las_metadata.rs::pasture_bounds_to_las_bounds"]}
{"id": "C84", "title": "write_all and read_all give back the points", "statement": "write_all writes exactly the points of a buffer, in their order, to a LAS or LAZ file whose format has all LAS attributes of the buffer's layout, and read_all of that file gives as many points in the same order: attributes with the LAS datatype have the value they had, positions move by at most about a millimetre. write_all does not panic.", "quantifier": "every buffer with every layout, LAS and LAZ, every chunk size and every kind of buffer read into", "why_tests_cant": "all layouts and values, numbers of points around the chunk size", "anchors": ["pasture-io/src/base/mod.rs::write_all", "pasture-io/src/base/mod.rs::read_all", "pasture-io/src/las/las_writer.rs::LASWriter::from_writer_and_point_layout", "pasture-io/src/las/raw_writers.rs"]}
{"id": "C85", "title": "Access by reference agrees with access by value", "statement": "Reading points of a buffer in interleaved layout, or attribute values of a buffer in columnar layout, by reference (at_ref, iter) gives what reading them by value (at, into_iter) gives. Changing them by reference (at_mut, iter_mut, sort_by) changes exactly the items the caller changes, in the buffer and in a slice of it. This holds wherever the memory of the buffer is.", "quantifier": "every buffer and every nesting of slices, every point type and attribute type with every size and alignment, every address of the memory, every index, every function applied to the items", "why_tests_cant": "the allocator decides where memory is; tests see aligned heap memory only, and few types", "anchors": ["pasture-core/src/containers/buffer_views.rs::PointView", "pasture-core/src/containers/buffer_views.rs::PointViewMut", "pasture-core/src/containers/buffer_views.rs::AttributeView", "pasture-core/src/containers/buffer_views.rs::AttributeViewMut", "pasture-core/src/containers/point_iterators.rs", "pasture-core/src/containers/attribute_iterators.rs"]}
{"id": "C86", "title": "derive(PointType) compiles the documented structs, with their attributes", "statement": "derive(PointType) accepts every struct that meets the documented requirements: repr(C) or packed, members of Pasture primitive types, each with one #[pasture(..)] attribute, no two with the same name. The layout it generates has, in the order of the members, the documented attribute names and the datatypes of the member types, at the offsets Rust gives to the members. Everything else (generics, enums, other types, missing or unknown attributes, equal names) does not compile.", "quantifier": "every struct: all attributes of the struct, any number of members, all types and attributes of members", "why_tests_cant": "each test is one struct, compiled once; the syntax of structs is unbounded", "anchors": ["pasture-derive/src/lib.rs::derive_point_type", "pasture-derive/src/lib.rs::get_attribute_name_from_field", "pasture-derive/src/lib.rs::type_path_to_primitive_type", "pasture-derive/src/layout.rs::get_struct_member_layout"]}
{"id": "C87", "title": "A written LAS or LAZ file has the structure its header describes", "statement": "After any history of writes and flushes the file consists of the header, all VLRs of the given header (for LAZ also the LASzip VLR), the VLR padding, the records of all points written, and the extended VLRs, once each. The header gives the number of points written, the number of VLRs, the offset at which the records start, and the start and number of the extended VLRs. Flushing in between changes nothing.", "quantifier": "every header (VLRs, VLR padding, extended VLRs), every history of writes and flushes, every record content, LAS and LAZ, every serialisation of headers (of fixed size) and VLRs", "why_tests_cant": "the writers overwrite the header and, for LAS, the extended VLRs of the flush before; whether something stays behind, is lost, or is there twice depends on the history and on the header, and a reader that ignores extended VLRs does not notice", "anchors": ["pasture-io/src/las/raw_writers.rs: RawLASWriter::from_write_and_header, write_header, write_evlrs, flush, into_inner", "pasture-io/src/las/raw_writers.rs: RawLAZWriter::from_write_and_header, do_flush, write_header, write_evlrs, into_inner"]}
{"id": "C88", "title": "RANSAC inliers are the points within the threshold of the sampled plane or line", "statement": "The plane or line that a RANSAC search returns goes through the points of one of its samples. These points are among its inliers, and its inliers are the points whose Euclidean distance to that plane or line is below the threshold, up to the rounding of f64 numbers. No other sample has more points surely below the threshold. This holds for the serial and the parallel searches.", "quantifier": "every point cloud, every positive threshold, every sequence of random numbers, every schedule of the parallel search", "why_tests_cant": "tests use a plane through the origin and a generous threshold; whether the computed distances are right depends on cancellations in n.p + d, and on samples that do not determine a plane, for all coordinates", "anchors": ["pasture-algorithms/src/segmentation.rs: distance_point_plane, distance_point_line, generate_rng_plane, generate_plane_model, generate_line_model, ransac_plane_serial, ransac_plane_par, ransac_line_serial, ransac_line_par"]}
{"id": "C89", "title": "Positions that are not finite do not influence centroids and normals", "statement": "compute_centroid and compute_normals use only the positions whose coordinates are all finite: the result is the one for these positions alone, and a neighbourhood with fewer than three of them is rejected.", "quantifier": "every neighbourhood with f64 coordinates, including NaN and infinite ones, every search for neighbours", "why_tests_cant": "the filter is applied only if some other test finds a NaN; which combinations of NaN, infinite and finite coordinates reach the sums cannot be enumerated", "anchors": ["pasture-algorithms/src/normal_estimation.rs: is_dense, is_finite, compute_centroid, compute_covariance_matrix, compute_normals"]}
{"id": "C90", "title": "Opening, seeking in and reading arbitrary bytes as a PNTS file never panics", "statement": "For any bytes, PntsReader either returns an error or a reader; seeking in it and reading any number of its points into a suitable buffer either fails with an error or succeeds, and never panics, however wrong the lengths, offsets and the feature table in the file are.", "quantifier": "every byte sequence, every JSON feature table, every point index, count, read mode and buffer that could hold the points", "why_tests_cant": "damaged and hostile files cannot be enumerated; the offsets and counts are arbitrary 64-bit numbers chosen by the file", "anchors": ["pasture-io/src/tiles3d/pnts_reader.rs: PntsReader::from_read, read_into, seek_point", "pasture-io/src/tiles3d/common.rs: read_json_header", "pasture-io/src/tiles3d/feature_table.rs: deser_feature_table_header"]}
{"id": "C91", "title": "The metadata of a LAS file are made from its VLRs whatever these contain", "statement": "Making the metadata of a LAS header looks at the first variable length record of each of the three known kinds (classification lookup, text area description, extra bytes). The names of the classes are converted to text with U+FFFD for everything that is not UTF-8. It succeeds exactly if the lookup has 4096 bytes, the text is UTF-8, and the extra bytes consist of whole records of 192 bytes with names and descriptions in UTF-8; the descriptions it returns are the fields of those records. In every other case it returns an error; it never panics.", "quantifier": "every list of VLRs, every user id, record id and byte content", "why_tests_cant": "the VLRs come from arbitrary files; the set of byte strings that are valid UTF-8 or a sequence of records is infinite", "anchors": ["pasture-io/src/las/las_metadata.rs: TryFrom<&Vlr> for ClassificationLookup, TryFrom<&Vlr> for TextAreaDescription, TryFrom<&Vlr> for ExtraBytesVlr, TryFrom<&RawExtraBytesEntry> for ExtraBytesEntry, TryFrom<&las::Header> for LASMetadata", "pasture-io/src/las/read_helpers.rs: las_string_to_rust_string"]}
{"id": "C92", "title": "A LAS file whose end is missing: stored points are readable, missing ones are errors, and reading can go on after an error", "statement": "If the point data of a LAS file end early, at any byte, then a read that needs only points that are completely in the file delivers exactly these points, a read that needs others returns an error, and nothing but a seek to a negative point panics. After an error the reader can still be used: a seek to any point leads to that point, and the reads after it are as for a new reader.", "quantifier": "every LAS file of every point format, cut anywhere in its points; every history of reads of any size into any kind of buffer and of seeks, continued after errors", "why_tests_cant": "the outcome depends on where the file ends relative to the records, the chunks of the reader and the whole history of earlier calls and failures", "anchors": ["pasture-io/src/las/raw_readers.rs: RawLASReader::read_into, RawLASReader::read_into_default_layout, RawLASReader::read_into_custom_layout, RawLASReader::seek_point"]}
{"id": "C93", "title": "What a program that stops while it writes a LAS file leaves behind", "statement": "Wherever a program that writes a LAS file stops, the points written before the last completed flush are in the file where the header says that the points start, the header counts the points of that flush or of the flush in progress, and all points that it counts are in the file; the extended VLRs of the last flush are after these points. A program that ends normally and only drops its writer leaves a complete file.", "quantifier": "every history of writes and flushes, every point of every call at which the program can stop, every number of bytes that a buffering sink still holds back at that moment, every header", "why_tests_cant": "the file depends on the byte at which the program stops, on what the buffer of the sink holds back, and on the whole history of writes and flushes", "anchors": ["pasture-io/src/las/raw_writers.rs: RawLASWriter::from_write_and_header, RawLASWriter::write_header, RawLASWriter::write_evlrs, RawLASWriter::write, RawLASWriter::flush"]}
{"id": "C94", "title": "ASCII readers and writers that are used further after an error", "statement": "A failed write of an ASCII writer does not change what was in the file before; a later write that succeeds appends one line for each of its points, and a reader of the file reads these points. A failed read of an ASCII reader leaves the points of the lines before the malformed line in the buffer, and the next read continues with the line behind the malformed one.", "quantifier": "every format, delimiter and precision, every history of successful and failed writes, every buffer, every file with a malformed line at any position", "why_tests_cant": "the state after an error depends on the column and the point at which a call fails and on all calls before it", "anchors": ["pasture-io/src/ascii/raw_writer.rs: RawAsciiWriter::write", "pasture-io/src/ascii/raw_reader.rs: RawAsciiReader::read_into, RawAsciiReader::parse_point"]}
{"id": "C95", "title": "PNTS files whose writing was interrupted, and sinks that take fewer bytes than they are offered", "statement": "Wherever a program that writes a PNTS file stops, opening what it leaves behind is an error, or every read of it that succeeds gives the points of the complete file; once the header, the feature table and its body have been written, all points can be read; a file that is not complete is not opened. A flush that succeeds has written the whole file, also to a sink that takes only a part of the bytes of a call.", "quantifier": "every history of writes, flushes and centres, every point layout and JSON codec, every byte at which the program or its buffering sink stops, every point, mode, count and buffer of a read, every sink", "why_tests_cant": "what is left behind depends on the byte at which the program stops and on how much the sink takes with each call; a test with a file or a cursor in memory sees neither", "anchors": ["pasture-io/src/tiles3d/pnts_writer.rs: PntsWriter::write_cached_points, PntsWriter::write_feature_table_body", "pasture-io/src/tiles3d/pnts_reader.rs: PntsReader::from_read, PntsReader::read_into"]}
{"id": "C96", "title": "write_all and read_all on the files of a directory", "statement": "write_all stores the points of a buffer under a name whose extension, in any case, selects LAS, LAZ or PNTS, and read_all under the same name gives these points back; other files are not touched, a name with another extension changes nothing, each file has what the last write to it left, and a write that fails leaves the file as it was.", "quantifier": "every name, every directory, every buffer and layout, every sequence of writes, every JSON codec, every kind of buffer that is read into", "why_tests_cant": "the result depends on the spelling of the name, on what is in the directory already, on the layout of the points and on all earlier calls", "anchors": ["pasture-io/src/base/mod.rs: read_all, read_all_into, write_all", "pasture-io/src/base/io_factory.rs: get_extension_lookup, GenericPointReader::open_file, GenericPointWriter::open_file", "pasture-io/src/las/las_writer.rs: LASWriter::from_path_and_point_layout", "pasture-io/src/las/las_reader.rs: LASReader::from_path", "pasture-io/src/tiles3d/pnts_writer.rs: PntsWriter::from_write_and_layout"]}
{"id": "C97", "title": "A generic reader is one cursor for all formats", "statement": "A reader opened with GenericPointReader::open_file is a cursor over the points of the file, whatever the format: every seek leads to the same point in all formats (not behind the end), every read gets the next points, as many as there are and were asked for, at the end a read gets no points, point_index and point_count tell where the cursor is and how many points there are, and calls that cannot be served fail alike.", "quantifier": "every name, every LAS, LAZ and PNTS file that is not truncated, every history of seeks and reads, every buffer", "why_tests_cant": "the result of a call depends on all earlier calls, on the format and on the number of points, and a program written against one format is used with the others", "anchors": ["pasture-io/src/base/io_factory.rs: GenericPointReader::open_file, read_into, seek_point", "pasture-io/src/base/seek.rs: SeekToPoint::point_index, point_count", "pasture-io/src/las/raw_readers.rs: seek_point, read_into", "pasture-io/src/tiles3d/pnts_reader.rs: seek_point, read_into"]}
{"id": "C98", "title": "Points written by a generic writer in pieces are read by a generic reader in pieces", "statement": "Buffers written one after the other with a writer opened by GenericPointWriter::open_file, with flushes between them or not, are in the file once the writer is dropped, whatever the format: a reader opened by GenericPointReader::open_file under the same name is a cursor over all of the points, in the order of the writes, with the values that the format can store.", "quantifier": "every name, every directory, every layout of the format, every history of writes and flushes, every history of seeks and reads, every buffer size, every JSON codec", "why_tests_cant": "the points that are read depend on how the writes and the reads are split, on all calls before, on the flushes and on the format that the name selects", "anchors": ["pasture-io/src/base/io_factory.rs: GenericPointWriter::open_file, write, flush", "pasture-io/src/base/io_factory.rs: GenericPointReader::open_file, read_into, seek_point", "pasture-io/src/tiles3d/pnts_writer.rs: Drop for PntsWriter", "pasture-io/src/las/raw_writers.rs: write, flush"]}
