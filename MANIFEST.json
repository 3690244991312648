{
 "claims": [
  {
   "property": "C01",
   "status": "proved",
   "theorems": [
    "C01_wkb_round_trip",
    "C01_any_envelope_refuted"
   ],
   "note": "All 15 kinds, four dialects, all 64-bit patterns; geometry conforming to the z/m flags. The envelope must have the length its dimensions announce; C01_any_envelope_refuted shows the GeoPackage writer does not enforce it."
  },
  {
   "property": "C02",
   "status": "partial",
   "theorems": [
    "C02_spatialite_round_trip_partial",
    "C02_spatialite_round_trip_refuted",
    "C02_single_footer_refuted",
    "C02_exact"
   ],
   "note": "Proved for points, lines, multi geometries and collections. Missing: polygons, triangles, compound curves, curve polygons, polyhedral surfaces and TINs at top level, for which the claim is false of the code (an end mark is written after every ring or member). C02_exact: the bytes of every SpatiaLite output (with each end mark), and it reads back exactly when no part carries a second end mark."
  },
  {
   "property": "C03",
   "status": "proved",
   "theorems": [
    "C03_output_is_standard",
    "C03_output_is_standard_extended",
    "C03_digits",
    "C03_signed"
   ],
   "note": "Byte layouts in WkbSpec.v."
  },
  {
   "property": "C04",
   "status": "partial",
   "theorems": [
    "C04_every_byte_order_partial",
    "C04_tiny_point",
    "C04_gpkg_mixed_point_refuted",
    "C04_gpkg_order_exact",
    "C04_gpkg_mixed_point"
   ],
   "note": "Missing: GeoPackage blobs whose header byte order differs from the body's; false of the code (witness). C04_gpkg_order_exact says what such blobs are read as."
  },
  {
   "property": "C05",
   "status": "proved",
   "theorems": [
    "C05_header_metadata",
    "C05_mysql_negative_srid",
    "C05_tiny_point"
   ],
   "note": ""
  },
  {
   "property": "C06",
   "status": "partial",
   "theorems": [
    "C06_truncated_rejected_partial",
    "C06_truncated_any_input",
    "C06_spatialite_end_mark_refuted",
    "C06_spatialite_exact"
   ],
   "note": "Missing: SpatiaLite blobs lacking only the 0xFE end mark, which are accepted (witness)."
  },
  {
   "property": "C07",
   "status": "partial",
   "theorems": [
    "C07_self_delimiting",
    "C07_concatenated_encodings_partial",
    "C07_spatialite_concatenation_refuted",
    "C07_spatialite_exact"
   ],
   "note": "Suffix independence for every dialect and input; reading several encodings in a row for all dialects except SpatiaLite, whose end mark stays in the stream (witness)."
  },
  {
   "property": "C08",
   "status": "proved",
   "theorems": [
    "C08_total_and_bounded"
   ],
   "note": "Callbacks never exceed input bytes; only I/O, format and nesting errors, so no panic and no fuel exhaustion."
  },
  {
   "property": "C09",
   "status": "partial",
   "theorems": [
    "C09_well_formed_partial",
    "C09_well_formed_structure",
    "C09_spatialite_partial",
    "C09_spatialite_refuted"
   ],
   "note": "Full for Wkb, Ewkb, Geopackage, MySQL; for SpatiaLite up to two slips of index in compressed lines, which slips describes. The missing part is false of the code."
  },
  {
   "property": "C10",
   "status": "proved",
   "theorems": [
    "C10_depth_accepted",
    "C10_depth_refused",
    "C10_depth_bounded"
   ],
   "note": ""
  },
  {
   "property": "C11",
   "status": "proved",
   "theorems": [
    "C11_failing_processor"
   ],
   "note": ""
  },
  {
   "property": "C12",
   "status": "proved",
   "theorems": [
    "C12_transcoding",
    "C12_transcoding_standard",
    "C12_transcoding_any"
   ],
   "note": ""
  },
  {
   "property": "C13",
   "status": "partial",
   "theorems": [
    "C13_points",
    "C13_points_in_collection",
    "C13_empty_point_text",
    "C13_write_back_refuted",
    "C13_nan"
   ],
   "note": "Missing: writing the empty point back as WKB; false of the code (the writer returns an error)."
  },
  {
   "property": "C14",
   "status": "partial",
   "theorems": [
    "C14_compressed_line_partial",
    "C14_compressed_empty_line",
    "C14_last_index_refuted",
    "C14_single_vertex_refuted",
    "C14_widen",
    "C14_sums"
   ],
   "note": "Vertices, order and consumed bytes for n = 0 and n >= 2. Missing: the index of the last vertex (n instead of n-1) and n = 1; false of the code (witnesses)."
  },
  {
   "property": "C15",
   "status": "partial",
   "theorems": [
    "C15_wkt_output_partial",
    "C15_wkt_output_any",
    "C15_unconfigured_ordinate_refuted",
    "C15_exact"
   ],
   "note": "Exact text for every geometry, dialect, dimension setting and formatter, if no position carries an ordinate that is not configured. Without that hypothesis the full statement is false: the writer shows every ordinate it is given (C15_wkt_output_any, refutation included). C15_exact: for which geometries the output is the text of the configured ordinates."
  },
  {
   "property": "C16",
   "status": "partial",
   "theorems": [
    "C16_wkt_recoverable_partial",
    "C16_wkt_unambiguous_partial",
    "C16_dimensions_refuted",
    "C16_exact"
   ],
   "note": "A reference parser recovers the geometry if every position carries exactly the configured ordinates (NaNs up to payload); hence injective. Otherwise false: an m-only and a z-only point give the same text. C16_exact: two geometries, of mixed dimensions too, give the same text exactly if they have the same structure and the same numbers in the same order."
  },
  {
   "property": "C17",
   "status": "proved",
   "theorems": [
    "C17_ewkt_prefix",
    "C17_wkt_no_prefix",
    "C17_ewkt_from_wkb",
    "C17_wkt_from_wkb",
    "C17_to_ewkt",
    "C17_to_wkt"
   ],
   "note": "Every geometry, configured SRID and SRIDs announced before and after; also from WKB of every dialect."
  },
  {
   "property": "C18",
   "status": "proved",
   "theorems": [
    "C18_wkt_reader_partial",
    "C18_empty_member_refuted",
    "C18_every_tree",
    "C18_exact",
    "C18_sizes"
   ],
   "note": "C18_every_tree gives the callbacks of every tree; C18_exact: they are those of a geometry exactly if no MULTIPOINT has an EMPTY member (an EMPTY member is announced but has no callback)."
  },
  {
   "property": "C19",
   "status": "partial",
   "theorems": [
    "C19_reader",
    "C19_round_trip_partial",
    "C19_nan_ring_refuted",
    "C19_over_budget_refuted",
    "C19_exact",
    "C19_same_number"
   ],
   "note": "C19_reader: every geo-types value is delivered as its event stream. Round trip proved for values whose polygon rings are closed and whose sizes fit the preallocation budget. Missing: rings containing NaN (Polygon::new never sees them as closed) and lists over the budget; both are false of the code (witnesses). C19_exact: the round trip holds exactly for closed values within the budget."
  },
  {
   "property": "C20",
   "status": "partial",
   "theorems": [
    "C20_any_stream_partial",
    "C20_any_source_partial",
    "C20_several_partial",
    "C20_from_wkb_partial",
    "C20_exact",
    "C20_coordinate_refuted"
   ],
   "note": "Points, lines, polygons, multi geometries and collections within the preallocation budget. Missing: curves, surfaces and over-budget sizes, which the writer rejects. C20_exact: for plain geometries the value is built when the sizes fit the budget and otherwise a geometry error is reported. C20_coordinate_refuted: positions given by `coordinate` are ignored (no reader gives them to a GeoWriter, C65)."
  },
  {
   "property": "C21",
   "status": "proved",
   "theorems": [
    "C21_geometry",
    "C21_not_finite_refuted",
    "C21_unsupported_accepted"
   ],
   "note": "For the seven GeoJSON kinds with finite ordinates and any formatter that writes finite numbers as JSON numbers. NaN and infinities are written unquoted (refuted for them); curve types are accepted silently."
  },
  {
   "property": "C22",
   "status": "partial",
   "theorems": [
    "C22_dataset_partial",
    "C22_backslash_refuted",
    "C22_backslash_value_refuted",
    "C22_control_refuted",
    "C22_binary_refuted",
    "C22_name_refuted",
    "C22_null_first_refuted",
    "C22_text_exact",
    "C22_key_exact",
    "C22_name_exact",
    "C22_json_exact"
   ],
   "note": "Proved for texts without backslash and control characters, no binary values, quote-free dataset names and properties numbered from 0; each excluded case is refuted with a witness. C22_text_exact, C22_key_exact, C22_name_exact and C22_json_exact: a text, property name, dataset name or JSON value is carried exactly under those conditions."
  },
  {
   "property": "C23",
   "status": "partial",
   "theorems": [
    "C23_collection",
    "C23_feature",
    "C23_lines",
    "C23_every_feature",
    "C23_mixed_lines",
    "C23_unreadable",
    "C23_unreadable_line",
    "C23_unreadable_feature",
    "C23_geometry_refuted",
    "C23_empty_feature_refuted",
    "C23_streaming_refuted"
   ],
   "note": "Proved for feature collections, single features and GeoJSON lines of features, and for input that cannot be parsed; refuted for bare geometries, empty features and the streaming reader."
  },
  {
   "property": "C24",
   "status": "proved",
   "theorems": [
    "C24_geometry",
    "C24_feature",
    "C24_lines",
    "C24_second_feature_refuted"
   ],
   "note": "Geometry round trip proved; also single features and lines of features. A feature collection with a geometry in a later feature is written as invalid JSON (refuted)."
  },
  {
   "property": "C25",
   "status": "proved",
   "theorems": [
    "C25_lines"
   ],
   "note": "The geometry of a feature is delivered with index 0, as the documented grammar has it."
  },
  {
   "property": "C26",
   "status": "partial",
   "theorems": [
    "C26_stream",
    "C26_unreadable_line",
    "C26_geometry_partial",
    "C26_two_lines_refuted",
    "C26_gap_refuted"
   ],
   "note": "Exact callbacks for all inputs, unreadable lines included; well-formed only with at most one geometry, on the first line; refuted otherwise."
  },
  {
   "property": "C27",
   "status": "partial",
   "theorems": [
    "C27_table_partial",
    "C27_to_csv_partial",
    "C27_equal_lengths",
    "C27_no_misalignment",
    "C27_null_refuted",
    "C27_second_dataset_refuted",
    "C27_order_refuted",
    "C27_interrupted",
    "C27_exact",
    "C27_second_exact"
   ],
   "note": "Proved for every source and every dataset whose features have the same properties numbered from 0; records of every execution have equal length. Refuted as stated: a GeoJSON collection with a null member panics, a second dataset panics, properties in another order land under the wrong header. C27_exact and C27_second_exact: what becomes of every dataset, whatever its properties, and of a second one."
  },
  {
   "property": "C28",
   "status": "partial",
   "theorems": [
    "C28_features",
    "C28_no_column",
    "C28_bad_record",
    "C28_bad_geometry",
    "C28_geometry_stream",
    "C28_geometry_partial",
    "C28_two_records_refuted",
    "C28_no_headers",
    "C28_geometry_unreadable",
    "C28_geometry_no_column",
    "C28_short_record"
   ],
   "note": "The feature view and its errors are proved in full (WKT parser as argument). The geometry view announces size 1 for every non-empty table: proved for at most one record, refuted for two."
  },
  {
   "property": "C29",
   "status": "partial",
   "theorems": [
    "C29_both_succeed_partial",
    "C29_error_returned_partial",
    "C29_collection_refuted",
    "C29_empty_point_refuted",
    "C29_dimensions_refuted",
    "C29_exact",
    "C29_errors_exact"
   ],
   "note": "Proved for every callback sequence without an empty point, on the callbacks other than collection brackets and SRIDs. The full property is false of the code: those callbacks are not forwarded, empty points fail, dimensions are not requested (refuted theorems). C29_exact, C29_errors_exact: what happens for every sequence of callbacks, empty points included."
  },
  {
   "property": "C30",
   "status": "proved",
   "theorems": [
    "C30_pre_process_source",
    "C30_pre_process_callbacks",
    "C30_pre_process_twice"
   ],
   "note": ""
  },
  {
   "property": "C31",
   "status": "partial",
   "theorems": [
    "C31_geometry_view_partial",
    "C31_source_partial",
    "C31_collection_refuted",
    "C31_empty_point_refuted",
    "C31_dimensions_refuted",
    "C31_exact",
    "C31_source_exact"
   ],
   "note": "Proved for streams without empty points, up to collection brackets and SRIDs, which the view drops; the full property is false of the code (refuted theorems). C31_exact, C31_source_exact: what the view does with every sequence of callbacks, empty points included."
  },
  {
   "property": "C32",
   "status": "partial",
   "theorems": [
    "C32_bounds_partial",
    "C32_nan_first_refuted",
    "C32_exact",
    "C32_numbers",
    "C32_order"
   ],
   "note": "Exact whenever the first position has no NaN (later NaNs are ignored); a NaN first position sticks (refuted theorem). C32_exact: what the bounds are for every stream, NaN first included."
  },
  {
   "property": "C33",
   "status": "proved",
   "theorems": [
    "C33_property_by_name",
    "C33_property_by_index",
    "C33_broken_by_name",
    "C33_broken_by_index",
    "C33_stops_at_match"
   ],
   "note": "Proved for every source of properties, also one that fails part way."
  },
  {
   "property": "C34",
   "status": "proved",
   "theorems": [
    "C34_property_map",
    "C34_broken"
   ],
   "note": "Proved for every source of properties, also one that fails part way."
  },
  {
   "property": "C35",
   "status": "proved",
   "theorems": [
    "C35_feature_framing"
   ],
   "note": ""
  },
  {
   "property": "C36",
   "status": "partial",
   "theorems": [
    "C36_point",
    "C36_extent",
    "C36_range",
    "C36_inside_partial",
    "C36_inside_refuted_extent",
    "C36_inside_refuted_tiny",
    "C36_order",
    "C36_corner",
    "C36_far_corner",
    "C36_proportional",
    "C36_collapse",
    "C36_nan",
    "C36_infinite",
    "C36_equal",
    "C36_unscaled",
    "C36_unscaled_cut"
   ],
   "note": "Never panics or leaves i32, order preserving (no wrap), equal coordinates land equally: all inputs. Inside 0..extent, and proportional up to one unit: extents below 2^31 and boxes not narrower than 2^-990; both conditions are needed (witnesses)."
  },
  {
   "property": "C37",
   "status": "partial",
   "theorems": [
    "C37_valid",
    "C37_valid_single",
    "C37_distinct_refuted",
    "C37_accepts",
    "C37_no_panic_release",
    "C37_no_panic_debug_refuted",
    "C37_wkb_no_panic",
    "C37_wkb",
    "C37_features_partial",
    "C37_mixed_refuted",
    "C37_lost_refuted",
    "C37_coordinate_refuted"
   ],
   "note": "Vertex counts hold after every callback history; degenerate geometries are refused exactly. False of the code: rings of one repeated position are accepted; after a failed callback the next feature can carry parts of the failed one or be lost; a debug build can panic on a callback after a failed one. Positions given by `coordinate` are ignored (no reader gives them to an MvtWriter, C65)."
  },
  {
   "property": "C38",
   "status": "proved",
   "theorems": [
    "C38_layer",
    "C38_geometry",
    "C38_line_refuted",
    "C38_round_trip",
    "C38_geometry_round_trip",
    "C38_numbers"
   ],
   "note": "Every layer whose geometries are ones a tile can encode. A line inside a collection, which no tile can encode, is announced and not delivered (witness)."
  },
  {
   "property": "C39",
   "status": "proved",
   "theorems": [
    "C39_decode",
    "C39_multipatch_refuted"
   ],
   "note": " Multipatch records are skipped without an error (C39_multipatch_refuted)."
  },
  {
   "property": "C40",
   "status": "partial",
   "theorems": [
    "C40_sane_partial",
    "C40_truncated",
    "C40_size_refuted",
    "C40_count_refuted",
    "C40_parts_refuted",
    "C40_debug_refuted",
    "C40_checked_exact",
    "C40_unchecked_exact",
    "C40_any_processor",
    "C40_builds"
   ],
   "note": "False in general: records with a negative count, a size below the header or an unsorted part table panic (witnesses). Proved instead: the exact set of byte strings on which each build (with and without overflow checks) panics, in terms of the raw fields (C40_checked_exact, C40_unchecked_exact), and an I/O error for every truncation of a well-formed record."
  },
  {
   "property": "C41",
   "status": "partial",
   "theorems": [
    "C41_stream",
    "C41_framing_partial",
    "C41_geometries",
    "C41_geometries_fused",
    "C41_errors_refuted",
    "C41_end_again_refuted",
    "C41_begin_again_refuted",
    "C41_misaligned_refuted",
    "C41_endless_refuted",
    "C41_missing_dbf",
    "C41_short_dbf_refuted",
    "C41_broken_dbf",
    "C41_length_refuted",
    "C41_negative_size_refuted"
   ],
   "note": "The callbacks of a loop over a well-formed file are proved for every processor. False in general: errors of framing callbacks are dropped, dataset_end (and dataset_begin before the first complete feature) is repeated by further calls, an unreadable attribute record shifts attributes against geometries, a truncated source never ends. If the dbf ends early the remaining shapes are dropped silently (C41_short_dbf_refuted). The length in the header bounds nothing: null records of negative size are read on (C41_length_refuted) or panic (C41_negative_size_refuted)."
  },
  {
   "property": "C42",
   "status": "partial",
   "theorems": [
    "C42_geometry_partial",
    "C42_grammar",
    "C42_exactly_tidy",
    "C42_geometry_exactly_tidy",
    "C42_two_routes_refuted",
    "C42_syntax_error"
   ],
   "note": "The exact class of documents for which the claim holds is characterised: no empty track, segment or route, and at most one route. All others break it; with two routes the WKB written cannot be read."
  },
  {
   "property": "C43",
   "status": "partial",
   "theorems": [
    "C43_dataset_partial",
    "C43_source_partial",
    "C43_geometry_partial",
    "C43_geometry_document_partial",
    "C43_numbers",
    "C43_dimensions",
    "C43_style",
    "C43_empty_point_refuted",
    "C43_name_refuted",
    "C43_defaults",
    "C43_dataset_exact",
    "C43_negated",
    "C43_negated_value"
   ],
   "note": "The output parses, with a separate XML parser, to one svg element holding the drawings of all features in order; every position exactly once and in order. Conditions: no empty point (the writer returns an error, refuted) and no XML syntax in the dataset name, the style and the number texts (not escaped, refuted)."
  },
  {
   "property": "C44",
   "status": "proved",
   "theorems": [
    "C44_validate",
    "C44_reserve"
   ],
   "note": ""
  },
  {
   "property": "C45",
   "status": "partial",
   "theorems": [
    "C45_features_partial",
    "C45_to_features_partial",
    "C45_to_features_error",
    "C45_property_partial",
    "C45_abort_refuted",
    "C45_missing_geometry"
   ],
   "note": "Proved for datasets whose every feature has a geometry within the budget. C45_abort_refuted: after an aborting property a second value is lost; features without a geometry make the whole collection an error (C45_missing_geometry)."
  },
  {
   "property": "C46",
   "status": "proved",
   "theorems": [
    "C46_no_panic"
   ],
   "note": ""
  },
  {
   "property": "C47",
   "status": "partial",
   "theorems": [
    "C47_bad_marks",
    "C47_unknown_kind_wkb",
    "C47_unknown_kind_ewkb",
    "C47_spatialite_member",
    "C47_iso_range_refuted",
    "C47_iso_range_exact"
   ],
   "note": "All marks and kind codes. Missing: type codes outside the ISO range (4000 and more) are taken modulo 1000, so they are not refused (witness; C47_iso_range_exact says which codes are taken as which)."
  },
  {
   "property": "C48",
   "status": "partial",
   "theorems": [
    "C48_visible_partial",
    "C48_line_refuted",
    "C48_multipoint_refuted",
    "C48_exact"
   ],
   "note": "Proved for points, multi lines, polygons, multi polygons and collections of them. Refuted for line strings (path data has no move command) and multi points (outside any path). C48_exact: decides for every geometry whether all it draws lies inside path elements."
  },
  {
   "property": "C49",
   "status": "proved",
   "theorems": [
    "C49_round_trip"
   ],
   "note": "Record level; the text layer of the csv crate is assumed to return the records written, and the WKT parser to read the WKT texts back."
  },
  {
   "property": "C50",
   "status": "partial",
   "theorems": [
    "C50_header",
    "C50_file_code",
    "C50_header_never_panics",
    "C50_index",
    "C50_index_never_panics_partial",
    "C50_index_refuted",
    "C50_exact"
   ],
   "note": "Everything but the absence of panics of the index reader, which is false (witness); C50_exact says for which byte strings each build panics."
  },
  {
   "property": "C51",
   "status": "partial",
   "theorems": [
    "C51_stream",
    "C51_geometry_partial",
    "C51_two_refuted"
   ],
   "note": "The delivered geometries are proved for every document. They form one geometry exactly if the document has one; converting two to WKB loses the second."
  },
  {
   "property": "C52",
   "status": "partial",
   "theorems": [
    "C52_postgis_column",
    "C52_gpkg_column",
    "C52_postgis_read_back",
    "C52_gpkg_read_back",
    "C52_geo_types_partial",
    "C52_nan_point_refuted",
    "C52_gpkg_macros_refuted",
    "C52_gpkg_as_ewkb_refuted",
    "C52_null",
    "C52_decode_never_panics",
    "C52_encode_panics_refuted",
    "C52_copy_to_gpkg",
    "C52_copy_to_postgis",
    "C52_reported",
    "C52_diesel",
    "C52_raw_null_refuted"
   ],
   "note": "Proved for all adapters except the GeoPackage macro pair, which never reads back what it stores (decodes as EWKB). SQLx writing panics where the conversion fails (witnesses). A point of NaNs is stored but not read back. C52_reported: undecodable values are reported, never read as NULL."
  },
  {
   "property": "C53",
   "status": "partial",
   "theorems": [
    "C53_reader_partial",
    "C53_wkb_partial",
    "C53_column_partial",
    "C53_dims",
    "C53_geo_partial",
    "C53_empty_point_refuted",
    "C53_empty_wkb_refuted",
    "C53_measured_refuted"
   ],
   "note": "Proved for every geometry without empty points and every processor, full coordinates if z is asked for. An empty point is announced as a point without a coordinate and its WKB cannot be read (refuted); a processor asking for m alone gets xy callbacks (refuted)."
  },
  {
   "property": "C54",
   "status": "partial",
   "theorems": [
    "C54_writer_partial",
    "C54_to_geos_partial",
    "C54_from_wkb_partial",
    "C54_round_trip_partial",
    "C54_collection_refuted",
    "C54_empty_collection_refuted",
    "C54_compound_refuted",
    "C54_surface_refuted",
    "C54_tin_refuted",
    "C54_arc",
    "C54_empty_point",
    "C54_no_panic_partial",
    "C54_compressed_refuted",
    "C54_capacity_refuted",
    "C54_exact",
    "C54_from_wkb_exact",
    "C54_faithful_exact"
   ],
   "note": "Proved for points, lines, polygons and their multi forms in two dimensions. Of a collection only the last member is left; compound curves, surfaces and TINs become an empty point; compressed SpatiaLite lines are refused or panic; a huge announced size panics. What libgeos accepts is an argument. C54_exact: the value or refusal for every geometry of any kind and depth; C54_faithful_exact: the geometry itself comes out exactly for the simple kinds the library accepts."
  },
  {
   "property": "C55",
   "status": "partial",
   "theorems": [
    "C55_reader_partial",
    "C55_wkb_partial",
    "C55_geo_partial",
    "C55_refused_partial",
    "C55_surface_refuted",
    "C55_empty_point_refuted",
    "C55_measured_refuted"
   ],
   "note": "Proved for every well-typed OGR tree of any depth, curves and surfaces included, and every processor; ill-typed members are refused. An empty point comes as a point at whatever place the crate gdal gives (refuted), ill-typed members of polyhedral surfaces and TINs are not noticed (refuted), a processor asking for m alone gets xy callbacks (refuted)."
  },
  {
   "property": "C56",
   "status": "partial",
   "theorems": [
    "C56_writer_partial",
    "C56_to_gdal_partial",
    "C56_from_wkb_partial",
    "C56_round_trip_partial",
    "C56_measures_refuted",
    "C56_z_refuted",
    "C56_collection_refuted",
    "C56_empty_collection_refuted",
    "C56_arc_refuted",
    "C56_curve",
    "C56_surface",
    "C56_empty_point",
    "C56_polluted_refuted",
    "C56_dangling_refuted",
    "C56_dangling_wkb_refuted",
    "C56_no_polygon_refuted",
    "C56_no_polygon_wkb_refuted",
    "C56_m_refuted",
    "C56_long_line_refuted",
    "C56_wrapped_line_refuted",
    "C56_ringless_refuted",
    "C56_exact",
    "C56_from_wkb_exact",
    "C56_kinds_exact",
    "C56_compressed_refuted",
    "C56_xy_refused"
   ],
   "note": "Proved for points, lines, polygons and their multi forms, in x and y or with z and m flags. Refuted: z without m refuses every position, m without z gives z values nobody asked for (C56_m_refuted), m values are dropped, of a collection the last member is left, an arc becomes its first position or goes into the last ring of the polygon before it, certain WKB reaches a freed ring or panics, positions beyond 2^31 of a line and arcs after geometries without rings are lost silently. C56_exact: the value or refusal for every geometry of any kind and depth, in x and y. A compressed SpatiaLite line gets an extra position at the origin (C56_compressed_refuted)."
  },
  {
   "property": "C57",
   "status": "partial",
   "theorems": [
    "C57_tessellate_partial",
    "C57_features_partial",
    "C57_multiline_refuted",
    "C57_point_refuted",
    "C57_tin_refuted",
    "C57_fill_refuted",
    "C57_stroke_refuted",
    "C57_obj_partial",
    "C57_obj_refuted",
    "C57_index_refuted",
    "C57_exact",
    "C57_features_exact",
    "C57_index_wrap_refuted"
   ],
   "note": "Proved for geometries made of polygons, multi polygons, polyhedral surfaces, surfaces of polygons, single lines and collections of these; false for multi lines before a polygon, points, TINs, what lyon refuses (panic), and the numbering of the second polygon in an OBJ file. C57_exact, C57_features_exact: the output or the failure for every geometry of any kind and depth and for features in a row, lyon being an argument."
  },
  {
   "property": "C58",
   "status": "partial",
   "theorems": [
    "C58_only_dest",
    "C58_extension",
    "C58_json_partial",
    "C58_csv_partial",
    "C58_svg_partial",
    "C58_wkt_partial",
    "C58_fgb_partial",
    "C58_geometry_json",
    "C58_geometry_wkt",
    "C58_extent_argument",
    "C58_extent_more",
    "C58_extent_refuted",
    "C58_not_creatable",
    "C58_clobber_refuted",
    "C58_output_refuted",
    "C58_input_refuted",
    "C58_column_refuted",
    "C58_remote_refuted",
    "C58_same_file_refuted",
    "C58_collection_refuted",
    "C58_wkt_texts",
    "C58_wkt_refuted",
    "C58_geometry_csv_refuted",
    "C58_geometry_svg_refuted",
    "C58_disk_refuted",
    "C58_bare_output_refuted",
    "C58_bare_input_refuted"
   ],
   "note": "Proved: datasets and single geometries reach OUT for the pairs of formats modelled, and no other file changes. Refuted: failures empty OUT and partly panic, the extent is ignored for CSV, GeoJSON and WKT, converting in place loses the data, a GeoJSON collection of two geometries gives broken GeoJSON and WKT, single geometries give an empty CSV and a bare SVG, a full disk goes unnoticed. FlatGeobuf output is what the writer of that crate makes of the dataset."
  },
  {
   "property": "C59",
   "status": "partial",
   "theorems": [
    "C59_writers",
    "C59_buffers",
    "C59_wkb",
    "C59_wkt",
    "C59_geojson",
    "C59_geojson_geometry",
    "C59_geojson_collection",
    "C59_geojson_lines",
    "C59_geojson_line_geometries",
    "C59_csv",
    "C59_csv_geometries",
    "C59_geo",
    "C59_geos",
    "C59_gdal",
    "C59_gpx",
    "C59_mvt",
    "C59_mvt_geometry",
    "C59_shp_geometries",
    "C59_shp_features_partial",
    "C59_shp_geojson_refuted",
    "C59_shp_svg_refuted",
    "C59_csv_writer_partial",
    "C59_csv_writer_refuted",
    "C59_buffer_holds"
   ],
   "note": "Proved for every reader and writer except two. The shapefile feature iterator drops the result of dataset_begin/end and the other framing callbacks, so a truncated GeoJSON or SVG passes for complete; CsvWriter leaves up to a buffer of output to the drop of csv::Writer, which ignores errors."
  },
  {
   "property": "C60",
   "status": "partial",
   "theorems": [
    "C60_shp_stops",
    "C60_geojson_refuted",
    "C60_lines_refuted",
    "C60_csv_refuted",
    "C60_mvt_refuted",
    "C60_writers",
    "C60_combined",
    "C60_multiplex_refuted",
    "C60_multiplex_partial",
    "C60_record"
   ],
   "note": "The shapefile reader honours the answer, proved for every rule. False of the code for the GeoJSON, CSV and MVT readers, which deliver every property whatever is answered, and for Multiplexer, which gives only the answer of its second processor, so that a second processor with the default implementation takes all attributes but the first away from the first one (C60_multiplex_refuted); C60_multiplex_partial is the case where the second takes all."
  },
  {
   "property": "C61",
   "status": "partial",
   "theorems": [
    "C61_dataset",
    "C61_geojson_partial",
    "C61_csv_partial",
    "C61_svg",
    "C61_mvt_partial",
    "C61_geo_refuted",
    "C61_null_shape_refuted",
    "C61_null_last_refuted",
    "C61_null_first_refuted"
   ],
   "note": "Proved for files whose records all have a geometry (no null shapes, no multipatches), with the writers' own conditions (finite numbers and unescaped text for GeoJSON, the same attributes non-null in all records for CSV, drawable geometries for tiles). False in general: geo_types features keep only the first attribute, a null shape gives invalid GeoJSON with success reported, a null attribute gives an incomplete CSV record with success reported or a panic."
  },
  {
   "property": "C62",
   "status": "proved",
   "theorems": [
    "C62_chain",
    "C62_same_result"
   ],
   "note": "Chains of any length over WKB (five dialects), WKT, geo_types and GeoJSON; the crates wkt and geojson are arguments that follow the reference grammars (example crates given). The conditions per form are those of C01, C02, C16, C19, C20 and C21."
  },
  {
   "property": "C63",
   "status": "partial",
   "theorems": [
    "C63_bytes",
    "C63_read_back_partial",
    "C63_other_dialects_refuted",
    "C63_spatialite_refuted",
    "C63_spatialite_bytes"
   ],
   "note": "Bytes for every sequence and dialect. WKB and EWKB read back in a row (the SRID is stored with the first one only). False of the code for GeoPackage, MySQL and SpatiaLite: the header is written once, and their readers refuse what follows."
  },
  {
   "property": "C64",
   "status": "partial",
   "theorems": [
    "C64_checked",
    "C64_sane_partial",
    "C64_unchecked_partial",
    "C64_unchecked_refuted",
    "C64_builds",
    "C64_shapes_end",
    "C64_features_end",
    "C64_shapes_count"
   ],
   "note": "At most one callback per byte with overflow checks, and without them for sane records; in general only a quadratic bound holds without overflow checks, and records of 52+24k bytes with k*k callbacks show that it is needed. Both loops over a file end for every file and processor."
  },
  {
   "property": "C65",
   "status": "partial",
   "theorems": [
    "C65_wkb",
    "C65_wkt",
    "C65_geojson",
    "C65_geojson_geometry",
    "C65_geojson_collection",
    "C65_geojson_lines",
    "C65_geojson_line_geometries",
    "C65_csv",
    "C65_csv_geometries",
    "C65_geo",
    "C65_mvt",
    "C65_mvt_geometry",
    "C65_gpx_partial",
    "C65_geos_partial",
    "C65_gdal_partial",
    "C65_gpx_refuted",
    "C65_geos_refuted",
    "C65_gdal_refuted",
    "C65_shp_geometries_partial",
    "C65_shp_features_partial",
    "C65_shp_times_refuted",
    "C65_unasked_refuted"
   ],
   "note": "Proved for WKB, WKT, GeoJSON, CSV, geo-types and MVT in full. GPX never gives coordinates, GEOS and GDAL look at z only (_refuted; what they do is proved). Shapefiles: right form unless times alone are asked for; heights and measures only on request. WKB, WKT and GeoJSON hand a height to a processor that asked for measures only."
  },
  {
   "property": "C66",
   "status": "proved",
   "theorems": [
    "C66_wkb",
    "C66_wkt",
    "C66_geojson",
    "C66_geojson_geometry",
    "C66_geojson_collection",
    "C66_geojson_lines",
    "C66_geojson_line_geometries",
    "C66_csv",
    "C66_csv_geometries",
    "C66_geo",
    "C66_geos",
    "C66_gdal",
    "C66_mvt",
    "C66_mvt_geometry",
    "C66_shp_record",
    "C66_shp_geometries",
    "C66_shp_features",
    "C66_gpx"
   ],
   "note": "Every reader."
  },
  {
   "property": "C67",
   "status": "partial",
   "theorems": [
    "C67_accepted_for_all",
    "C67_reads_a_geometry",
    "C67_reencoded_partial",
    "C67_empty_refused",
    "C67_empty_refuted",
    "C67_canonical",
    "C67_read_alike",
    "C67_chain",
    "C67_first_only",
    "C67_spatialite_partial",
    "C67_spatialite_reencoded_partial",
    "C67_spatialite_chain_partial",
    "C67_spatialite_refuted"
   ],
   "note": "SpatiaLite input with compressed lines is covered for every writer that does not look at position numbers (C67_first_only, C67_spatialite_partial), unless a line of one position is compressed: then what is written is another geometry (C67_spatialite_refuted). GEOS and GDAL do look (C54_compressed_refuted, C56_compressed_refuted). A geometry with an empty point is refused by the writer (C67_empty_refuted)."
  },
  {
   "property": "C68",
   "status": "partial",
   "theorems": [
    "C68_callbacks",
    "C68_callbacks_xy",
    "C68_source",
    "C68_wkb_bytes",
    "C68_wkb_bytes_any_depth",
    "C68_wkb_written",
    "C68_wkb_written_partial",
    "C68_geojson_exact",
    "C68_geojson_partial",
    "C68_geojson_refuted",
    "C68_geo_types_exact",
    "C68_geo_types_partial",
    "C68_geo_types_refuted",
    "C16_wkt_unambiguous_partial",
    "C16_exact",
    "C68_geojson_kinds_refuted",
    "C68_geo_types_kinds_refuted"
   ],
   "note": "Callback sequences, standard WKB bytes and WKB output (every dialect, any depth) are proved injective without exception. For GeoJSON text and geo-types values it is proved exactly which geometries share an output (M and unrequested Z dropped, rings closed), for the kinds these formats have; among other kinds there are collisions (proved). WKT is C16_exact."
  },
  {
   "property": "C69",
   "status": "partial",
   "theorems": [
    "C69_files_partial",
    "C69_lines_and_csv",
    "C69_geojson_twice_refuted",
    "C24_second_feature_refuted"
   ],
   "note": "Proved for chains of any length over datasets each file can hold; GeoJSON lines and CSV combine freely. Missing because false: GeoJSON (lines) directly after a GeoJSON collection with two features (counterexample proved)."
  },
  {
   "property": "C70",
   "status": "proved",
   "theorems": [
    "C70_as_bytes",
    "C70_as_any_source",
    "C70_accepted_only",
    "C70_one_geometry",
    "C70_debug"
   ],
   "note": "The geometry of C70_one_geometry exists for every accepted byte string of every dialect but SpatiaLite (compressed lines, see C09); the other theorems cover all dialects."
  },
  {
   "property": "C71",
   "status": "proved",
   "theorems": [
    "C71_wkt_numbers",
    "C71_json_numbers",
    "C71_shortest",
    "C71_wkt",
    "C71_geojson",
    "C71_nearest",
    "C71_overflow"
   ],
   "note": "The decimal digits and their reader are specified in DecSpec.v (the standard library's Display and FromStr are not code of /repo). Whether a parser in use rounds correctly is outside the claim; serde_json without float_roundtrip does not promise it."
  },
  {
   "property": "C72",
   "status": "proved",
   "theorems": [
    "C72_orientation",
    "C72_polygons",
    "C72_reversed",
    "C72_area",
    "C72_sliver_refuted"
   ],
   "note": "Proved for rings whose area exceeds the rounding margin stated in RingSpec.v (has_area) or whose coordinates lie on a grid (on_grid); without it the decision can be wrong (C72_sliver_refuted)."
  },
  {
   "property": "C73",
   "status": "partial",
   "theorems": [
    "C73_codes",
    "C73_values_partial",
    "C73_family",
    "C73_unknown",
    "C73_measure_refuted",
    "C73_no_data_refuted",
    "C73_measured",
    "C73_no_data"
   ],
   "note": "For every byte string: families, is_multipart, z values and refusal of other codes are proved. False of the code: measures only for types with has_m (a polyline record with a block of measures is accepted and they are delivered), and leaving out no-data measures (delivered as numbers). C73_values_partial proves what holds for measures: all positions or none, only if asked for, never for a plain point, always for PointM if asked for."
  },
  {
   "property": "C74",
   "status": "partial",
   "theorems": [
    "C74_features",
    "C74_geometries",
    "C74_without_dbf",
    "C74_fields",
    "C74_absent",
    "C74_wrong_kind",
    "C74_broken_dbf",
    "C74_empty_index_refuted",
    "C74_damaged_index_refuted"
   ],
   "note": "Everything but the last sentence is proved; the last one is false of the code (an empty index is an I/O error, one that announces no length a panic)."
  },
  {
   "property": "C75",
   "status": "partial",
   "theorems": [
    "C75_wkt",
    "C75_wkb_errors",
    "C75_wkb_overdrawn",
    "C75_geojson",
    "C75_svg",
    "C75_geojson_lines",
    "C75_geos",
    "C75_geo",
    "C75_geo_errors",
    "C75_geo_refuted",
    "C75_gdal",
    "C75_gdal_errors",
    "C75_gdal_refuted"
   ],
   "note": "The panics are characterised for every sequence of callbacks. False of the code: geo-types panics when a point ends without a position and GDAL when a ring begins in a multipolygon without a polygon (C75_geo_refuted, C75_gdal_refuted), in release builds too; GDAL can also use a freed line (see C56). The MVT writer is C37."
  },
  {
   "property": "C76",
   "status": "partial",
   "theorems": [
    "C76_ewkb",
    "C76_ewkb_srid",
    "C76_gpkg",
    "C76_mysql",
    "C76_gpkg_refuted",
    "C76_mysql_reader",
    "C76_gpkg_reader",
    "C76_wrapper",
    "C76_named"
   ],
   "note": "Sources that give a position before any geometry begins are excluded, and C76_gpkg_refuted shows why. The SpatiaLite conversion is not of this form (marks between the parts) and is covered by C01-C04. C76_wrapper: what the wrapper types report of any bytes."
  },
  {
   "property": "C77",
   "status": "proved",
   "theorems": [
    "C77_wkb",
    "C77_shape",
    "C77_shape_header",
    "C77_shape_index",
    "C77_shapes",
    "C77_features",
    "C77_lines",
    "C77_lines_geometry",
    "C77_collection",
    "C77_csv",
    "C77_csv_geometry",
    "C77_wkb_output",
    "C77_wkb_texts",
    "C77_lines_output"
   ],
   "note": "Readers that parse the whole input first (WKT, GeoJSON documents, GPX, MVT) are not of this kind: they deliver nothing before the whole input is parsed."
  },
  {
   "property": "C78",
   "status": "partial",
   "theorems": [
    "C78_wkb_as_ewkb",
    "C78_ewkb_as_wkb",
    "C78_refused_partial",
    "C78_mysql_point",
    "C78_mysql_refuted",
    "C78_misread_refuted"
   ],
   "note": "WKB and EWKB are settled in both directions and every byte order. For the other pairs told_apart says which blobs are sure to be refused; the rest is false of the code: every MySQL blob without SRID is a point to the WKB and EWKB readers, and some SRIDs make GeoPackage, SpatiaLite and EWKB blobs pass for something else (witnesses)."
  },
  {
   "property": "C79",
   "status": "partial",
   "theorems": [
    "C79_wkt_bare",
    "C79_wkt_bare_refuted",
    "C79_wkt_exact",
    "C79_json_gathered",
    "C79_json_unordered_refuted",
    "C79_json_bare_refuted",
    "C79_json_array",
    "C79_geo",
    "C79_svg",
    "C79_mvt",
    "C79_geos_last_refuted",
    "C79_gdal_last_refuted",
    "C79_geos",
    "C79_gdal",
    "C79_wkb_bytes",
    "C79_wkb_refuted",
    "C79_csv_wkt",
    "C79_csv_geo",
    "C79_csv_json",
    "C79_lines_wkt",
    "C79_lines_json",
    "C79_lines_geo",
    "C79_document_wkt_refuted",
    "C79_document_wkt_bytes",
    "C79_document_json_refuted",
    "C79_document_geo",
    "C79_document_geos_refuted",
    "C79_document_gdal_refuted",
    "C79_spatialite_bytes",
    "C79_spatialite_refuted"
   ],
   "note": "Settled for every writer: gathered streams (CSV, GeoJSON lines) give the whole collection in WKT and GeoJSON exactly if the first geometry has number 0, and always in geo-types, SVG and MVT. The rest of the claim is false of the code and refuted for all such inputs: bare streams (GeoJSON documents with two or more geometries) give WKT and GeoJSON texts that are no geometry, WKB keeps the first one, GEOS and GDAL the last one; a leading GeoJSON line without geometry spoils WKT and GeoJSON."
  },
  {
   "property": "C80",
   "status": "proved",
   "theorems": [
    "C80_written",
    "C80_accepted",
    "C80_ordinates",
    "C80_dimensions",
    "C80_several",
    "C80_read"
   ],
   "note": "All dialects, geometries, dimensions and options; the end marks the SpatiaLite writer repeats are counted."
  },
  {
   "property": "C81",
   "status": "proved",
   "theorems": [
    "C81_svg",
    "C81_bounds",
    "C81_wkb",
    "C81_wkb_exact",
    "C81_wkt",
    "C81_wkt_exact",
    "C81_csv",
    "C81_csv_refuted",
    "C81_geojson",
    "C81_geojson_exact",
    "C81_geojson_lines",
    "C81_geo",
    "C81_features",
    "C81_geo_exact",
    "C81_mvt",
    "C81_geos",
    "C81_geos_exact",
    "C81_gdal",
    "C81_gdal_refuted",
    "C81_tessellator",
    "C81_tessellator_refuted",
    "C81_through"
   ],
   "note": "All streams of callbacks, any writer state. The _refuted theorems show where an argument does matter."
  },
  {
   "property": "C82",
   "status": "proved",
   "theorems": [
    "C82_bounds",
    "C82_svg",
    "C82_geojson",
    "C82_geojson_lines",
    "C82_wkt",
    "C82_wkb",
    "C82_geo",
    "C82_geo_features",
    "C82_csv",
    "C82_gdal",
    "C82_geos",
    "C82_mvt",
    "C82_tessellator"
   ],
   "note": "for each writer the exact set of callbacks without a trace; WKB for SRIDs the MySQL header can carry and builds with overflow checks, GEOS for libraries that accept empty rings, tessellator with lyon's assertions"
  },
  {
   "property": "C83",
   "status": "proved",
   "theorems": [
    "C83_svg",
    "C83_geojson",
    "C83_geojson_lines",
    "C83_wkt",
    "C83_wkb",
    "C83_csv",
    "C83_geo_features",
    "C83_mvt",
    "C83_tessellator",
    "C83_svg_pieces",
    "C83_geojson_pieces",
    "C83_geojson_lines_pieces",
    "C83_geo_refuted",
    "C83_gdal_refuted",
    "C83_geos_refuted"
   ],
   "note": "every writer with growing output, any state and stream; the values of geo-types, GDAL and GEOS are shown to be replaced instead, as stated"
  },
  {
   "property": "C84",
   "status": "proved",
   "theorems": [
    "C84_geo_geometry",
    "C84_geo_attributes",
    "C84_csv_geometry",
    "C84_csv_attributes",
    "C84_mvt_geometry",
    "C84_mvt_attributes",
    "C84_mvt_attributes_refuted"
   ],
   "note": "all pairs of accepted streams; the dropped tile feature is shown by C84_mvt_attributes_refuted, as stated"
  },
  {
   "property": "C85",
   "status": "proved",
   "theorems": [
    "C85_bounds",
    "C85_svg",
    "C85_geojson",
    "C85_geojson_lines",
    "C85_wkt",
    "C85_wkb",
    "C85_geo",
    "C85_geo_features",
    "C85_csv",
    "C85_mvt",
    "C85_mvt_feature",
    "C85_gdal",
    "C85_gdal_dims",
    "C85_geos",
    "C85_geos_each",
    "C85_tessellator",
    "C85_tessellator_each"
   ],
   "note": "That every error occurs is proved for GDAL writers of xy, for GEOS libraries that refuse lines of one position and for tessellators that refuse empty paths; the other direction needs no assumption."
  },
  {
   "property": "C86",
   "status": "proved",
   "theorems": [
    "C86_wkb",
    "C86_wkb_each",
    "C86_none",
    "C86_gdal",
    "C86_gpx",
    "C86_geojson",
    "C86_geojson_collection",
    "C86_geojson_lines",
    "C86_geojson_outcome",
    "C86_geojson_collection_outcome",
    "C86_geojson_lines_outcome",
    "C86_csv",
    "C86_csv_outcome",
    "C86_csv_headers",
    "C86_shape",
    "C86_shape_each",
    "C86_shp_header",
    "C86_shp_header_each",
    "C86_shx",
    "C86_shx_each",
    "C86_properties",
    "C86_conversion",
    "C86_shape_type",
    "C86_shape_size"
   ],
   "note": "Errors are the model's error kinds; message texts are not modelled. The text parsers (serde_json, geojson, csv, wkt, gpx crates) are the parsed values or errors they return."
  },
  {
   "property": "C87",
   "status": "proved",
   "theorems": [
    "C87_svg",
    "C87_geojson",
    "C87_geojson_lines",
    "C87_wkt",
    "C87_wkt_result",
    "C87_wkb",
    "C87_csv",
    "C87_geo",
    "C87_geo_features",
    "C87_gdal",
    "C87_mvt_refuted"
   ],
   "note": "GEOS and the tessellator are not covered: their libraries may refuse a geometry because of its coordinates."
  },
  {
   "property": "C88",
   "status": "proved",
   "theorems": [
    "C88_wkt",
    "C88_csv",
    "C88_geo",
    "C88_geos",
    "C88_gdal",
    "C88_gpx",
    "C88_geojson",
    "C88_geojson_collection",
    "C88_geojson_lines",
    "C88_mvt",
    "C88_wkb",
    "C88_shp_refuted",
    "C88_shp",
    "C88_shp_features",
    "C88_shp_geometries",
    "C88_wkb_standard",
    "C88_wkb_nan_refuted"
   ],
   "note": "Inputs as the decoders return them (parsed WKT, JSON, GPX, tiles, GEOS and GDAL objects). WKB by bytes: standard encodings of every dialect and byte order, and output of the writer. Shapefiles by bytes, for well-formed records. The two exceptions the statement names are shown by C88_wkb_nan_refuted and C88_shp_refuted. Compressed SpatiaLite lines, which store differences, are not covered."
  },
  {
   "property": "C89",
   "status": "proved",
   "theorems": [
    "C89_wkt",
    "C89_wkt_srid",
    "C89_json",
    "C89_json_lines",
    "C89_svg",
    "C89_wkb",
    "C89_reached",
    "C89_wkb_to_wkb",
    "C89_wkb_to_wkt",
    "C89_wkb_to_ewkt",
    "C89_wkb_to_json",
    "C89_wkb_to_svg",
    "C89_shp_to_wkt",
    "C89_shp_to_json",
    "C89_shp_to_svg",
    "C89_shp_to_wkb",
    "C89_shp_unchecked_refuted",
    "C89_csv"
   ],
   "note": "Shares per callback for the writers of WKT, EWKT, GeoJSON, GeoJSON lines, SVG, CSV and WKB; linear bounds for conversions from WKB and of the shapes of shapefiles (overflow checks on; a quadratic witness without). The formatter of numbers is a parameter with a bound on the length of its texts."
  },
  {
   "property": "C90",
   "status": "proved",
   "theorems": [
    "C90_join",
    "C90_several",
    "C90_collection",
    "C90_part",
    "C90_order",
    "C90_moved",
    "C90_mirrored",
    "C90_swapped",
    "C90_join_nan_refuted",
    "C90_order_bits_refuted",
    "C90_order_nan_refuted"
   ],
   "note": "The conditions on NaNs and the sign of zeros are part of the statement; the refuted theorems show they are needed."
  },
  {
   "property": "C91",
   "status": "proved",
   "theorems": [
    "C91_wkb",
    "C91_wkb_unchecked",
    "C91_lines",
    "C91_lines_unchecked",
    "C91_wkb_refuted",
    "C91_lines_refuted"
   ],
   "note": "The last sentence of the statement is witnessed by the refuted theorems."
  }
 ]
}