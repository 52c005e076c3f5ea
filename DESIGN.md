# Formal model of Mortano/pasture in Coq

## 1. What is here

* `properties.jsonl` - the properties, in terms of the API and its observable effects.
* `rocq/theories` - the model, the specifications, the proofs and the property theorems.
* `MANIFEST.json` - which theorems settle which property, and what is missing.
* `seeded/LOG.jsonl` - wrong programs that the theorems were tried against.

Each area of the code has the same kinds of file in `rocq/theories`:

* `*Model.v` - definitions only, function by function. Each definition cites the file and lines of `/repo` that it models and says where it simplifies.
* `*Spec.v` - the vocabulary of the theorem statements: small, independent of the model's helpers.
* `*Proofs*.v`, `*Facts.v`, `*Steps*.v`, `*Lemmas.v`, `*Real.v`, `*Float.v` - lemmas.
* `*Examples.v` - concrete values for the non-vacuity examples.
* `Prop*.v` - the property theorems, named after the property, each closed by `exact lemma` or by giving a witness, with `Print Assumptions` below
  and `Example`s that show that a concrete case meets the hypotheses.

| area | code | model | theorems |
|------|------|-------|----------|
| layouts | `pasture-core/src/layout`, `pasture-derive/src/lib.rs`, `math/arithmetic.rs` (align_to) | `LayoutModel` | `PropLayout` |
| derive macro | `pasture-derive/src` | `DeriveModel` | `PropDerive` |
| structure of LAS files | `pasture-io/src/las/raw_writers.rs` | `LasFileModel` | `PropLasFile` |
| buffers | `pasture-core/src/containers/point_buffer.rs`, `buffer_views.rs`, `attribute_iterators.rs`, slices | `BufferModel`, `TraitModel` | `PropBuffer`, `PropTrait`, `PropMore` |
| numbers | `pasture-core/src/layout/conversion` (attribute conversion) | `NumModel` | `PropNum` |
| converters | `layout/conversion`, `containers/buffer_views.rs` (converting views) | `ConvModel` | `PropConv` |
| raw views, == | `containers/raw_attribute_view.rs`, `buffer_views.rs` | `ViewsModel` | `PropViews` |
| access by reference | `containers/{buffer_views,point_iterators,attribute_iterators}.rs`, by-reference getters of buffers and slices | `RefModel` | `PropRef` |
| reprojection | `pasture-algorithms/src/reprojection.rs` | `ReprojModel` | `PropViews` |
| untyped points | `containers/untyped_point.rs` | `UntypedModel` | `PropUntyped` |
| boxes, bit tricks, min/max, bounds | `pasture-core/src/math`, `pasture-algorithms/src/{bounds,minmax}.rs` | `MathModel` | `PropMath`, `PropCubic` |
| LAS formats, flags, extra bytes, strings, file kinds | `pasture-io/src/las/{las_layout,las_types,las_metadata,...}.rs` | `LasModel` | `PropLas`, `PropLasShow` |
| LAS and LAZ readers and writers | `pasture-io/src/las/raw_*.rs`, `*_helpers.rs`, `pasture-io/src/base` | `LasIoModel`, `LasCutModel`, `LasCrashModel` | `PropLasIo`, `PropLasGrid`, `PropWriteAll`, `PropLasCut`, `PropLasCrash` |
| ASCII | `pasture-io/src/ascii` | `AsciiModel`, `AsciiErrModel` | `PropAscii`, `PropAsciiFloat`, `PropAsciiErr` |
| 3D Tiles PNTS | `pasture-io/src/tiles3d` | `PntsModel`, `PntsCrashModel` | `PropPnts`, `PropPntsCrash` |
| reading and writing by name | `pasture-io/src/base/{mod,io_factory}.rs`, `las/{las_reader,las_writer}.rs` | `PathModel` | `PropPath` |
| generic readers and writers | `pasture-io/src/base/{io_factory,seek}.rs` | `InfoModel`, `GenericModel`, `GenericWriteModel` | `PropGeneric`, `PropGenericWrite` |
| tilesets, tables, PNTS metadata | `pasture-io/src/tiles3d/{tileset,batch_table,feature_table,common,pnts_metadata}.rs` | `TilesModel` | `PropTiles`, `PropTilesBox` |
| LAS metadata | `pasture-io/src/las/las_metadata.rs` | `LasMetaModel` | `PropLasMeta`, `PropVlr` |
| RANSAC | `pasture-algorithms/src/segmentation.rs` | `SegModel` | `PropSeg`, `PropSegFloat` |
| voxel grid | `pasture-algorithms/src/voxel_grid.rs` | `VoxModel` | `PropVox` |
| convex hull | `pasture-algorithms/src/convexhull.rs` | `HullModel` | `PropHull`, `PropHullFloat` |
| normals | `pasture-algorithms/src/normal_estimation.rs` | `NormModel` | `PropNorm` |
| info tool | `pasture-tools/src/bin/info.rs`, `pasture-io/src/base/io_factory.rs` | `InfoModel` | `PropInfo` |

## 2. Modelling conventions

* A function that mutates through `&mut` returns the new value. A panic is the value `Panic` of the type `res` (`Ok`, `Err`, `Panic`); errors carry no text.
* What a function has done before it panics or fails is modelled only where a property is about it (C20, C69).
* Bytes are `Z`. Buffers treat them as opaque; codecs read and write them little-endian.
* Lengths, indices and offsets are `nat`. `usize` does not overflow unless the property is about it; then the range check is written down (C08, C40, C52, C55).
* Numbers are `Z` with explicit wrapping, or the `spec_float` of the standard library (`Coq.Floats.SpecFloat`: computable IEEE 754 without axioms).
  f64 is precision 53 and exponent 1024, f32 is 24 and 128. NaN has no payload.
* Chunk sizes (50_000 points, 1 MiB, 1_000_000 points) are parameters. Theorems hold for all sizes above what one point needs.
* A loop that may run for ever has fuel; "still running" is the value `None`, and theorems say when it ends.
* Results of external crates and everything that is not determined by the source are inputs, and the theorems quantify over them:
  iteration orders of hash maps and sets (any permutation), random draws (any list), rayon's way of combining (any binary tree that keeps the order),
  neighbours found by a kd tree (any list), JSON printing and parsing (any codec that satisfies `json_ok`), libm's sin, cos, atan2
  (any functions within their bounds).
* The geometry of RANSAC, hull and normals is written once, over a record of operations, and read with f64 and with real numbers.

## 3. Properties and how they are treated

Method: H = invariant or refinement by induction over all histories of calls; S = equality with an independent specification; W = refutation by a
witness that is computed; T = finite table checked by computation and lifted to a statement with quantifiers; R = exact real arithmetic; F = rounding
errors of f64 with Flocq.

| id | what is modelled | method | result |
|----|------------------|--------|--------|
| C01 | `add_attribute` over histories | H | proved |
| C02 | `from_attributes` against repr(C): least aligned offsets | H, S | proved |
| C03 | `from_attributes_packed` against packed(n) | S, W | offsets proved; size and alignment for n > 1 refuted |
| C04 | offsets computed by derive(PointType) | S, W | proved for repr(C) and packed(n); repr(align) refuted |
| C05 | lookups | S | proved |
| C06 | `from_members_and_alignment` | S, W | proved for non-empty members; empty members refuted |
| C07 | `add_attribute` on any layout | H, W | proved for members in memory order; otherwise refuted |
| C08 | `align_to` in debug and release builds | S, W | proved without overflow; overflow refuted |
| C09, C10, C11 | VectorBuffer, HashMapBuffer, eleven operations | H: refinement to a list of points | proved |
| C12, C13, C14 | set, swap, resize, clear | S: frame conditions | proved |
| C15, C16 | append, filter in all combinations | S: `++`, `filter` | proved |
| C17 | collect with any size hint | S, W | proved for exact or missing hints; inexact refuted |
| C18, C19 | slices, slices of slices, mutable slices | S, W | inside proved; outside refuted for mutable slices |
| C20 | accesses out of range | S, W | all panic; unmodified buffer refuted for one function |
| C21 | ExternalMemoryBuffer | S | proved |
| C22 | views and iterators | H over iterator calls, W | proved; `nth` past the end refuted |
| C23 | `sort_by` | S: stable sorted permutation, unique | proved |
| C24 | `transform_attribute` | S | proved |
| C25, C26 | conversion functions, converter table | S, T | proved |
| C27, C28 | BufferLayoutConverter, four paths | S: one pointwise specification | proved |
| C29 | RawPointConverter | S, W | attributes of equal type are not transferred: refuted |
| C30 | boxes over any total preorder on a domain | S | proved, with instances for integers and floats |
| C31, C32, C58 | collecting boxes, min/max, bounds | H over the points, W | proved for finite numbers; NaN and infinities refuted |
| C33 | bit tricks | S on `Z.testbit`, T | proved |
| C34, C35 | flags, exact layouts of formats 0-10 | T against the tables of the LAS 1.4 specification | proved |
| C36, C37 | layouts from metadata, formats from layouts | S, W | exact conditions proved; refuted as stated |
| C38, C39 | written points read again | H over writes, flushes, seeks, reads; F; W | default layouts proved; extra bytes and grid positions refuted; error bounds for positions proved |
| C40 | LAS and LAZ readers | H: refinement to a cursor, W | proved; u64 seeks above 2^63 refuted |
| C41 | header after any history | H, W | total and bounds proved; counters by return in custom layouts refuted |
| C42 | records in the file | H, W | LAS proved; LAZ custom layouts refuted |
| C43, C44, C45 | extra bytes records, strings, file kinds | S, W | round trips proved for what fits; several refuted |
| C46 | read_all, read_all_into | S, W | read_all proved; append of read_all_into refuted |
| C47, C48, C49, C50, C51 | ASCII formats, columns, trimming, lines | H over lines, S, W | proved except letters c and u, precision 0 and the returned count |
| C52, C53, C54 | PNTS writer over histories, reader | H, W | proved; points after the first flush are lost |
| C55 | PNTS reader | H: refinement to a cursor, W | proved for buffers as long as the read; otherwise refuted |
| C56, C57 | RANSAC over any draws and any schedule | H, R | proved |
| C59, C60 | voxel grid, pooled attributes | H over the points, F, W | proved under stated bounds; refuted in general |
| C61 | indices and panics of the hull | H over the points, W | indices proved; several panics |
| C62, C72 | normals and curvature in exact arithmetic | R, W | coplanar half proved; eigenvector and scale refuted |
| C63 | info tool on top of the readers | composition, W, I | refuted for every file with a point; the ranges of several chunks, had they been read, are proved |
| C64 | compare_without_offsets | S | proved |
| C65 | pushing attribute ranges | S, W | proved if each attribute is pushed once |
| C66 | converting views | S | proved |
| C67 | convert_into | S, W | longer targets are accepted: refuted |
| C68 | as_cubic | R, F, W | exact arithmetic proved; f64 proved up to rounding and exactly for whole numbers, containment refuted |
| C69 | reads that are rejected | S, W | LAS proved; LAZ refuted |
| C70 | untyped points | S | proved; impossible conversions panic |
| C71 | the hull is the hull | R: invariant over the points; f64: on a grid all determinants are exact, error bound for the collinearity test, simulation; W | proved in general position, exact and in f64 on a grid, and for four points in a plane; five points in a plane and small angles refuted |
| C73 | normal estimation in f64 | F, W | proved for bounded coordinates; overflow refuted |
| C74 | raw attribute views | S, W | proved for attributes of the layout; empty attributes and attributes of another layout refuted |
| C75 | == of views and buffers | S, W | proved; converting views of attributes stored as different types refuted |
| C76 | reprojection, the projection being a parameter | S | proved |
| C77 | reprojection of a box | S, W | the box of two corners proved; containment proved for monotone maps, refuted in general |
| C78 | tilesets as JSON, the text codec being a parameter | S: induction over the tree, W | proved within the recursion limit; deeper trees and non-finite numbers refuted |
| C79 | the tileset builder | S: induction over the calls | proved |
| C80 | box of a tile | R, F, W | exact arithmetic proved; f64 proved up to rounding, containment refuted |
| C81 | table headers | S, W | batch tables proved; position and shape for feature tables refuted |
| C82 | PNTS metadata | S, W | proved except BATCH_LENGTH, which is refuted |
| C83 | LAS metadata | S, W | proved; empty Extra Bytes VLR and early years panic: refuted |
| C84 | write_all, then read_all | S, F, W | proved for points that have records; layouts without a format, far positions, other attributes and waveforms in LAZ files refuted |
| C85 | access by reference, with addresses | S, W | proved for aligned memory, and panics otherwise; external memory and empty buffers refuted |
| C86 | derive(PointType) on the syntax of structs | S, W | proved for one repr attribute and members with nothing but #[pasture]; doc comments, type paths, several repr attributes, equal names refuted |
| C87 | structure of LAS and LAZ files | S: invariant over histories, W | LAS proved without padding; the start of extended VLRs, padding, and VLRs and flushes of LAZ files refuted |
| C88 | RANSAC inliers in f64 | f64: exact differences and determinants on a grid, relative error of norms and quotients; for other coordinates an absolute error from a bound M of the coordinates and a bound K of the shape of the samples; combined with C56, C57; W | proved on a grid for samples that determine the plane or line, and for any coordinates up to 2^150 with the error 2^-44 K M; collinear samples, equal points and coordinates near 2^50 refuted |
| C89 | positions that are not finite, in centroids and normals | S, W | proved for neighbourhoods with a NaN; infinite coordinates without a NaN refuted |
| C90 | arbitrary bytes opened, sought and read as PNTS | S, W | `Err` or `Ok`, never `Panic`, for every byte sequence and JSON parser: the unread part of a file is compared with a longer file that has all points; refuted for stated offsets near 2^64 (unchecked u64 addition) |
| C91 | arbitrary VLRs in a LAS header | L, S | exact characterisation of the accepted contents against RFC 3629 (`utf8_text`, defined by encoding, while the model validates by decoding; class names against the substitution of maximal subparts of the Unicode standard) and table 24 of the LAS specification; refuted for an Extra Bytes VLR without records (the pointer of an empty Vec is not aligned for `cast_slice`) |
| C92 | cut LAS files and failed reads | L, S | the readers are modelled again with errors that keep the reader (`LasCutModel`, shown to give the same results as `LasIoModel`); a simulation against the whole file, of which the cut one is a prefix, and induction over the history; refuted for seeking to the point the reader is at after a failed read, because `seek_point` does not move the stream then |
| C93 | programs that stop while they write a LAS file | S | the calls of the writer as sequences of writes and seeks (`LasCrashModel`, shown to produce the bytes of `LasFileModel`); a buffering sink may hold back any last part of what was written since the last seek; invariant over the history: everything up to the last flush is fixed by a seek, everything after it are writes behind the flushed points; refuted for the extended VLRs (overwritten by the next points), for headers cut in the middle of a flush, and for writers that are dropped without a flush; LAZ missing |
| C94 | ASCII readers and writers after errors | S | `write` and `read_into` once more, with the state that an error leaves (`AsciiErrModel`, shown to have the same results as `AsciiModel`); induction over columns, points and lines; refuted: a failed write leaves the beginning of a line, and the next point is appended to it; missing as in C48: the letters c and u, precision 0 |
| C95 | interrupted PNTS writers, short writes | S, W | the writes of a flush one by one (`PntsCrashModel`, shown to give the file of `PntsModel`); whatever is left behind is a first part of the file; opening and reading a first part is compared step by step with the complete file; refuted: a file with a part of its body is opened (reading it is an error), and `write` instead of `write_all` loses bytes of the feature table, after which wrong values are read without an error |
| C96 | write_all and read_all by name | S, W | a directory is a function from names to contents (`PathModel`); the kind is that of C45, the points come back as in C84 and C53; refuted: a PNTS file without points cannot be read, a write that fails has already emptied the old file, `.LAZ` files are not compressed |
| C97 | generic readers are cursors | S | the calls of a generic reader are those of the reader of the format (`GenericModel`), by induction over histories that of C40 or C55, stated with one cursor for both (`GenericSpec`); refuted: at the end a LAS reader gets no points and a PNTS reader an error, before the start LAS panics and PNTS is an error |
| C98 | generic writers and readers | S, W | a writer opened by name, a history of writes and flushes, the drop (`GenericWriteModel`); then C38 or C53 for the file and the cursor of C97 for the reader; refuted: LAS writers that are dropped without a flush lose their points, PNTS writers those written after a flush |

Where the unchanged code violates a property, the theorem is named `..._refuted` and exhibits a witness (or shows that all inputs of a kind are
witnesses). What does hold is proved beside it with the suffix `_partial`; the missing part is said in a comment there and in MANIFEST.json.

## 4. Trusted base

* The kernel of Coq 8.16.1, including `vm_compute`.
* The reading of `/repo` into the model. Nothing of `/repo` was executed.
* The axioms that `Print Assumptions` lists, section 5.
* The parts of the code that are not modelled, section 6.

## 5. Assumptions listed by Print Assumptions

All theorems in `Prop*.v` are "Closed under the global context" except:

* `C56_plane_through_samples`, `C56_plane_distance`, `C56_line_distance`, `C71_facets_partial`, `C71_four_in_plane_partial`, `C71_segment_distance`: the axioms of the standard library's real numbers
  `ClassicalDedekindReals.sig_forall_dec`, `ClassicalDedekindReals.sig_not_dec`, `FunctionalExtensionality.functional_extensionality_dep`.
* `C80_exact_box`, `C80_corner_refuted`, `C71_inner_corner_refuted`: the first and the last of these three.
* The theorems of `PropVox.v` (C59, C60) that are not refutations, except `C59_empty_panics`, those of `PropLasGrid.v` (C38, C39), `C84_millimetre_partial`, `C50_all_columns_are_read_back_partial`, `C80_f64_box_partial`, those of `PropCubic.v` (C68), those of `PropHullFloat.v` (C71) and `PropSegFloat.v` (C88), and those of `PropNorm.v` (C62, C72, C73, C89) except `C73_few_panics`, `C89_nan_partial` and `C89_normals_partial`: the same three and
  `Classical_Prop.classic` (they use Flocq's theorems about rounding).

No axiom, parameter or unproved obligation is declared in `rocq/theories`; sections close over their variables.

## 6. Parts of the code that are not modelled

* Layouts: display of layouts and definitions; parsing of Rust by the crate `syn` (the macro is modelled on its syntax trees), token streams.
* Buffers: allocation (the addresses of memory are parameters in `RefModel`, and left out elsewhere); `unsafe` casts are byte copies; `Rc`/`Arc` and lifetimes; rayon-parallel iterators over views.
* Conversion: the payload of NaN.
* LAS: (de)serialisation of the header and of VLRs by the crate `las`; versions before 1.4 and their counters; (`LasFileModel` takes the bytes of headers and VLRs
  and the start of extended VLRs that `into_raw` computes as parameters, and assumes that `Builder::new(raw_header)` has no VLRs and no padding, as
  the reader does when it pushes them after it); compression by the crate `laz` (assumed to return the records it was given); errors of the operating system.
* ASCII: UTF-8 and I/O errors; float parsing and printing follow the documentation of Rust's standard library.
* PNTS: the text of JSON (any codec with `json_ok`: parsing gives back what was printed, keys in any order); bincode (fields in order, little-endian);
  streams that are not empty at the start; non-finite centres; padding bytes of the points that are read.
* Tilesets: the text of JSON (any codec with `prints_and_parses` up to a recursion limit); the alternative encodings that derived `Deserialize` accepts.
* LAS metadata: `Display`; the crate `las` reads the header.
* RANSAC: thread safety (the closures share only the buffer); `rand`.
* Voxel grid: binary search is a linear search (equal on the sorted slices that are proved); most-common values of integer types only.
* Hull: the product in `Edge::hash` may overflow for indices above 2^32.
* Normals: `kd_tree` itself; nalgebra's `max` for NaN.
* Tools: printing.
* Names of files: directories other than the current one, errors of the operating system, compressed files that are opened by a LAS reader.
* Reprojection: the projections themselves (the library PROJ), and its errors.
* Not modelled at all: `gpu`, `pasture-tools` other than
  info.
