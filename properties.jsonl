{"id": "C01", "title": "WKB family round trip", "statement": "Writing a geometry with WkbWriter in dialect Wkb, Ewkb, Geopackage or MySQL and reading the bytes back with the reader of that dialect delivers to any processor the SRID callback followed by exactly the callback sequence that the geometry was written from (same order, sizes, indices, tagged flags, bit-identical coordinates), and consumes every byte that was written.", "quantifier": "every geometry tree of any of the 15 geometry kinds without empty points and with the ordinates its dimension setting stores (any number of members, any collection nesting up to the reader's limit), every dimension setting, every SRID, every envelope of the length its dimensions announce, every 64-bit coordinate pattern", "why_tests_cant": "geometry trees are unbounded in size and nesting and coordinates range over all 2^64 bit patterns", "anchors": ["geozero/src/wkb/wkb_writer.rs: WkbWriter", "geozero/src/wkb/wkb_reader.rs: process_wkb_geom, process_ewkb_geom, process_gpkg_geom, process_mysql_geom", "geozero/src/wkb/mod.rs: ToWkb"]}
{"id": "C02", "title": "SpatiaLite round trip", "statement": "Writing a geometry with WkbWriter in the SpatiaLite dialect and reading it back with SpatiaLiteWkb replays the original callbacks, and the blob carries the end marker 0xFE exactly once, as its last byte.", "quantifier": "every geometry tree, dimension setting, SRID and envelope", "why_tests_cant": "the end marker rule depends on the nesting of every sub-geometry; tests only cover a few shapes", "anchors": ["geozero/src/wkb/wkb_writer.rs: write_spatialite_header, write_footer, nesting_level", "geozero/src/wkb/wkb_reader.rs: read_spatialite_header, read_spatialite_nested_header"]}
{"id": "C03", "title": "WKB output is the standard layout", "statement": "The bytes produced by to_wkb / to_ewkb / to_gpkg_wkb / to_mysql_wkb for a geometry are exactly the bytes the respective standards prescribe: byte-order mark, type code with dimension flags, counts, coordinates, SRID only in the outermost EWKB header, GPKG magic/flags/srs/envelope before the body, MySQL SRID prefix.", "quantifier": "every geometry tree, dimension setting, SRID, envelope", "why_tests_cant": "byte layout must be right for every nesting of geometries, not just sample blobs", "anchors": ["geozero/src/wkb/wkb_writer.rs: write_wkb_header, write_ewkb_header, write_gpkg_header, write_mysql_header, impl GeomProcessor"]}
{"id": "C04", "title": "Readers accept every byte order", "statement": "A standard-conforming WKB/EWKB/MySQL/GPKG encoding is decoded to the same callbacks whatever byte order each (sub)geometry uses, including sub-geometries whose byte order differs from the parent's, and for GeoPackage including a WKB body whose byte order differs from that of the GeoPackage header.", "quantifier": "every geometry tree and every assignment of byte orders to its sub-geometries", "why_tests_cant": "the number of byte-order assignments is exponential in the size of the geometry", "anchors": ["geozero/src/wkb/wkb_reader.rs: read_wkb_header, read_ewkb_header, read_gpkg_header, process_wkb_geom_n"]}
{"id": "C05", "title": "Header metadata survives", "statement": "For bytes produced by WkbWriter, GeozeroGeometry::dims() and srid() of the matching wrapper (Wkb, Ewkb, GpkgWkb, SpatiaLiteWkb, MySQLWkb) return the z/m dimensions and the SRID the writer was configured with (with the documented encodings of a missing SRID), and the same SRID is passed to the srid() callback; a negative SRID is rejected by the MySQL writer.", "quantifier": "every geometry, dimension setting, and SRID in the i32 range", "why_tests_cant": "ranges over all SRIDs and all outer geometry kinds", "anchors": ["geozero/src/wkb/wkb_reader.rs: GeozeroGeometry impls, WkbInfo::dims", "geozero/src/wkb/wkb_writer.rs: with_opts"]}
{"id": "C06", "title": "Truncated WKB is always rejected", "statement": "Reading any strict prefix of a valid encoding returns an error; the reader never reports success on a truncated blob.", "quantifier": "every valid encoding and every cut position", "why_tests_cant": "every crash/cut point of every encoding", "anchors": ["geozero/src/wkb/wkb_reader.rs: process_wkb_type_geom"]}
{"id": "C07", "title": "WKB readers are self-delimiting", "statement": "Bytes following a complete encoding do not influence the callbacks and are left unread in the stream, so several geometries can be read one after another from one reader.", "quantifier": "every input on which the reader succeeds, every suffix", "why_tests_cant": "all inputs and all suffixes", "anchors": ["geozero/src/wkb/wkb_reader.rs: process_wkb_type_geom, process_wkb_geom_n"]}
{"id": "C08", "title": "WKB readers are total and resource bounded", "statement": "On arbitrary bytes each WKB-family reader returns Ok or Err without panicking, and the number of callbacks it makes is at most linear in the number of input bytes, whatever counts the input declares.", "quantifier": "every byte string, every dialect, every processor dimension setting", "why_tests_cant": "adversarial inputs: counts are attacker-controlled 32-bit numbers", "anchors": ["geozero/src/wkb/wkb_reader.rs: process_wkb_geom_n, process_linestring, process_polygon"]}
{"id": "C09", "title": "WKB readers only emit well-formed callback streams", "statement": "Whenever a WKB-family reader returns Ok, the callbacks it made are the documented callback sequence of some geometry: begin/end properly nested, size equal to the number of children, indices 0..size-1, tagged flag true exactly outside a Multi*/polygon container.", "quantifier": "every byte string on which the reader succeeds", "why_tests_cant": "ranges over all accepted inputs, including ones no encoder produces", "anchors": ["geozero/src/geometry_processor.rs: GeomProcessor (documented call order)", "geozero/src/wkb/wkb_reader.rs"]}
{"id": "C10", "title": "Nesting depth limit", "statement": "Geometry collections nested up to 128 levels are read; deeper ones are refused with WkbMaxNestingDepth, and no input makes the reader recurse deeper than that limit.", "quantifier": "every nesting depth and every input", "why_tests_cant": "unbounded family of nested inputs", "anchors": ["geozero/src/wkb/wkb_reader.rs: WKB_MAX_NESTING_DEPTH, process_wkb_geom_n, process_compoundcurve, process_curvepolygon"]}
{"id": "C11", "title": "A failing processor stops the reader", "statement": "If a processor callback returns an error, the geometry reader makes no further callback and returns exactly that error; up to that point the processor has seen a prefix of the callbacks an always-succeeding processor would see.", "quantifier": "every input, every processor (any state type, any behaviour), every failing position", "why_tests_cant": "quantifies over arbitrary user-defined processors", "anchors": ["geozero/src/wkb/wkb_reader.rs", "geozero/src/geo_types/geo_types_reader.rs", "geozero/src/wkt/wkt_reader.rs", "geozero/src/geojson/geojson_reader.rs", "geozero/src/shp/reader.rs"]}
{"id": "C12", "title": "Dialect transcoding is exact", "statement": "Feeding a WKB-family reader directly into a WkbWriter of another dialect produces byte for byte what writing the original geometry with that writer would have produced.", "quantifier": "every geometry, every source and target dialect, every SRID/envelope setting of either side", "why_tests_cant": "all pairs of dialects and all geometries", "anchors": ["geozero/src/wkb/wkb_reader.rs: process_wkb_type_geom", "geozero/src/wkb/wkb_writer.rs: WkbWriter"]}
{"id": "C13", "title": "Empty points in WKB", "statement": "A WKB point whose stored ordinates are all NaN is delivered as one empty_point callback (never as a coordinate), and any point with at least one non-NaN stored ordinate is delivered as a coordinate; text writers then render it as an empty point and the WKB writer can write the empty point back.", "quantifier": "every NaN payload, every dimension setting, every position of the point in a collection", "why_tests_cant": "there are 2^53 NaN patterns per ordinate", "anchors": ["geozero/src/wkb/wkb_reader.rs: process_wkb_geom_n (Point)", "geozero/src/geometry_processor.rs: empty_point", "geozero/src/wkb/wkb_writer.rs"]}
{"id": "C14", "title": "Compressed SpatiaLite lines", "statement": "A compressed SpatiaLite linestring is delivered with all its vertices in order: first and last as stored, inner ones as running sums of the stored single precision deltas, numbered 0..n-1, and exactly the bytes of the linestring are consumed.", "quantifier": "every vertex count including 0 and 1, every dimension setting, all delta values", "why_tests_cant": "unbounded vertex counts; boundary counts 0, 1, 2 behave differently", "anchors": ["geozero/src/wkb/wkb_reader.rs: process_linestring, process_compressed_coord"]}
{"id": "C15", "title": "WKT output follows the grammar", "statement": "The text WktWriter produces for a geometry is the WKT of that geometry: keyword when tagged, nested parenthesised comma-separated members, EMPTY for a member-less geometry, z/m ordinates only when configured.", "quantifier": "every geometry tree, dimension setting, dialect, number formatting function", "why_tests_cant": "recursive unbounded structure; comma/empty handling depends on every idx/size", "anchors": ["geozero/src/wkt/wkt_writer.rs: WktWriter"]}
{"id": "C16", "title": "WKT output is unambiguous", "statement": "From the text WktWriter produces the original geometry can be recovered: a parser for the WKT grammar returns the geometry that was written; two different geometries never produce the same text.", "quantifier": "every pair of geometries (given a coordinate formatter that is itself injective and uses number characters only)", "why_tests_cant": "quantifies over all pairs of geometries", "anchors": ["geozero/src/wkt/wkt_writer.rs: WktWriter", "geozero/src/wkt/mod.rs: ToWkt"]}
{"id": "C17", "title": "EWKT SRID prefix", "statement": "EWKT output starts with exactly one SRID=n; prefix iff an SRID other than 0 is known, taking the SRID configured on the writer in preference to one announced by the source; WKT output never contains a prefix.", "quantifier": "every geometry, configured SRID, and sequence of announced SRIDs", "why_tests_cant": "depends on interaction of source and writer over all geometries", "anchors": ["geozero/src/wkt/wkt_writer.rs: write_header, srid"]}
{"id": "C18", "title": "WKT reader emits well-formed callbacks", "statement": "For a parsed WKT geometry the reader emits the documented callback sequence of that geometry; MULTIPOINT members that are EMPTY have no documented callback.", "quantifier": "every parsed WKT geometry tree", "why_tests_cant": "recursive unbounded structure, EMPTY members in any position", "anchors": ["geozero/src/wkt/wkt_reader.rs: process_wkt_geom_n"]}
{"id": "C19", "title": "geo-types round trip", "statement": "geo_types::Geometry -> callbacks -> GeoWriter::take_geometry returns the same geometry up to the documented normalisation (Line becomes LineString, Rect and Triangle become Polygon, rings closed).", "quantifier": "every geo_types geometry, any nesting of collections", "why_tests_cant": "recursive unbounded structure", "anchors": ["geozero/src/geo_types/geo_types_reader.rs: process_geom_n", "geozero/src/geo_types/geo_types_writer.rs: GeoWriter"]}
{"id": "C20", "title": "Any source to geo-types", "statement": "Feeding the documented callback sequence of a point/linestring/polygon/multi*/collection geometry from any source into GeoWriter yields that geometry, leaves the writer empty and reusable, and never panics; several top level geometries become one collection in order.", "quantifier": "every geometry tree, every sequence of top level geometries", "why_tests_cant": "recursive structure and arbitrary histories of writer use", "anchors": ["geozero/src/geo_types/geo_types_writer.rs: GeoWriter, take_geometry, finish_geometry"]}
{"id": "C21", "title": "GeoJSON geometry output", "statement": "For every geometry GeoJSON can express, GeoJsonWriter's text parses as JSON to the RFC 7946 object of that geometry: type member, coordinates nested as prescribed, numbers as formatted.", "quantifier": "every geometry tree over the 7 GeoJSON kinds, 2D and 3D, any formatter producing JSON numbers", "why_tests_cant": "recursive unbounded structure; comma placement depends on every index", "anchors": ["geozero/src/geojson/geojson_writer.rs: impl GeomProcessor"]}
{"id": "C22", "title": "GeoJSON feature output is valid JSON", "statement": "For every dataset (names, property names, property values, geometries) GeoJsonWriter's output is valid JSON whose features, properties and geometries are those of the dataset.", "quantifier": "every feature list, every property list, all strings", "why_tests_cant": "strings range over all of Unicode including quotes, backslashes and control characters", "anchors": ["geozero/src/geojson/geojson_writer.rs: impl FeatureProcessor, impl PropertyProcessor, write_str_prop, write_num_prop"]}
{"id": "C23", "title": "GeoJSON reader obeys the feature processor contract", "statement": "For every parsed GeoJSON document the reader calls dataset_begin once first and dataset_end once last, numbers features 0,1,2,..., nests properties and geometry inside their feature, and delivers every non-null property with its name and value.", "quantifier": "every parsed GeoJSON document", "why_tests_cant": "unbounded feature lists and geometry trees", "anchors": ["geozero/src/geojson/geojson_reader.rs: process_geojson, process_geojson_feature, process_properties", "geozero/src/feature_processor.rs: FeatureProcessor"]}
{"id": "C24", "title": "GeoJSON geometry round trip", "statement": "Reading GeoJSON (parsed geometry) into GeoJsonWriter reproduces the JSON value of the geometry.", "quantifier": "every GeoJSON geometry tree", "why_tests_cant": "recursive unbounded structure", "anchors": ["geozero/src/geojson/geojson_reader.rs: process_geojson_geom_n", "geozero/src/geojson/geojson_writer.rs"]}
{"id": "C25", "title": "GeoJSON lines: one line per item", "statement": "GeoJsonLineWriter writes each top level feature or geometry as one newline-terminated line equal to what GeoJsonWriter writes for that item alone, with no newline elsewhere.", "quantifier": "every sequence of features/geometries, any indices", "why_tests_cant": "arbitrary histories of writer use", "anchors": ["geozero/src/geojson/geojson_line_writer.rs: GeoJsonLineWriter"]}
{"id": "C26", "title": "GeoJSON lines reader as geometry", "statement": "Reading GeoJSON lines as one geometry yields a well-formed geometry collection: the announced size is the number of member geometries and they are indexed consecutively.", "quantifier": "every sequence of parsed lines, including features without geometry", "why_tests_cant": "unbounded sequences", "anchors": ["geozero/src/geojson/geojson_line_reader.rs: read_geojson_line_geometries"]}
{"id": "C27", "title": "CSV rows stay aligned", "statement": "For every feature sequence with a common property list, CsvWriter writes one header record followed by one record per feature, every record having the geometry column first and each property under the header with its name; writing never panics.", "quantifier": "every dataset", "why_tests_cant": "arbitrary histories; columns may differ between features", "anchors": ["geozero/src/csv/csv_writer.rs: CsvWriter"]}
{"id": "C28", "title": "CSV reader contract", "statement": "For every parsed CSV table CsvReader calls dataset_begin/dataset_end exactly once around one feature per record, numbered consecutively, delivering every non-geometry column as a string property under its header name, and the geometry of the geometry column.", "quantifier": "every table, every position of the geometry column", "why_tests_cant": "unbounded tables, all column positions", "anchors": ["geozero/src/csv/csv_reader.rs: process_csv_features, process_csv_geom"]}
{"id": "C29", "title": "Multiplexer delivers to both", "statement": "Multiplexer delivers every callback it receives to its first and then to its second processor, so that each ends in the state it would have reached alone; an error of either is returned.", "quantifier": "every pair of processors and every callback sequence", "why_tests_cant": "quantifies over arbitrary processors and histories", "anchors": ["geozero/src/multiplex.rs: Multiplexer"]}
{"id": "C30", "title": "Coordinate pre-processing is transparent", "statement": "WrappedXYProcessor delivers to the inner processor the same callbacks, with exactly the x/y of every coordinate replaced by the pre-processor's result; z, m, t, indices, sizes, tags, features, properties, SRID, dimensions and errors are untouched.", "quantifier": "every callback sequence, every pre-processing function, every inner processor", "why_tests_cant": "quantifies over arbitrary processors, functions and histories", "anchors": ["geozero/src/wrap.rs: WrappedXYProcessor", "geozero/src/geometry_processor.rs: pre_process_xy"]}
{"id": "C31", "title": "Geometry-only view of a data source", "statement": "Processing a GeozeroDatasource through process_geom delivers to the geometry processor exactly the geometry callbacks of the dataset, in order, and nothing else.", "quantifier": "every data source and geometry processor", "why_tests_cant": "quantifies over arbitrary sources and processors", "anchors": ["geozero/src/api.rs: DatasourceGeomProcessor, GeozeroDatasource::process_geom"]}
{"id": "C32", "title": "Bounds are exact", "statement": "After any callback stream BoundsProcessor.bounds() is None iff no coordinate was delivered, and otherwise the smallest box containing all delivered coordinates.", "quantifier": "every callback stream, every coordinate value including NaN, infinities and signed zeros", "why_tests_cant": "unbounded streams, all f64 values", "anchors": ["geozero/src/bounds.rs: Bounds, BoundsProcessor"]}
{"id": "C33", "title": "Property lookup", "statement": "Reading one property by name (or index) returns the value of the first property with that name (or index) converted to the requested type, a column type error iff its type differs, and not-found otherwise; reading stops at the match.", "quantifier": "every property list and requested type", "why_tests_cant": "unbounded property lists, all types and values", "anchors": ["geozero/src/property_processor.rs: PropertyReader, PropertyReaderIdx, PropertyReadType", "geozero/src/api.rs: FeatureProperties"]}
{"id": "C34", "title": "Collected property map", "statement": "FeatureProperties::properties() returns a map holding, for every delivered property name, the text of its last delivered value, and nothing else.", "quantifier": "every property list", "why_tests_cant": "unbounded lists with duplicates", "anchors": ["geozero/src/property_processor.rs: impl PropertyProcessor for HashMap", "geozero/src/api.rs: properties"]}
{"id": "C35", "title": "Feature framing", "statement": "FeatureAccess::process delivers feature_begin(idx), properties_begin, the properties, properties_end, geometry_begin, the geometry, geometry_end, feature_end(idx) in this order for every processor, and stops at the first error.", "quantifier": "every feature, every processor", "why_tests_cant": "arbitrary processors", "anchors": ["geozero/src/api.rs: FeatureAccess::process"]}
{"id": "C36", "title": "MVT coordinate transform", "statement": "MvtWriter maps a point inside the tile's bounding box to integer tile coordinates inside 0..extent with y flipped, and maps equal coordinates equally; coordinates outside are saturated and never wrap or panic.", "quantifier": "every f64 coordinate, every bounding box, every extent", "why_tests_cant": "all f64 values, including NaN, infinities and huge values, all 2^32 extents", "anchors": ["geozero/src/mvt/mvt_writer.rs: transform, MvtWriter::new"]}
{"id": "C37", "title": "MVT geometry validity", "statement": "Every geometry MvtWriter puts into a tile has at least two vertices per line and rings of at least three distinct vertices; degenerate input is refused with an error and never panics; features are never mixed up: a feature carries the geometry delivered between its begin and end.", "quantifier": "every callback stream", "why_tests_cant": "arbitrary histories including errors in the middle", "anchors": ["geozero/src/mvt/mvt_writer.rs: impl GeomProcessor, impl FeatureProcessor"]}
{"id": "C38", "title": "MVT reader callbacks", "statement": "Reading a decoded MVT layer emits one framed feature per layer feature, numbered consecutively, with its properties and the documented callback sequence of its geometry.", "quantifier": "every decoded layer", "why_tests_cant": "unbounded layers", "anchors": ["geozero/src/mvt/mvt_reader.rs: process, process_geometry"]}
{"id": "C39", "title": "Shapefile record decoding", "statement": "For a well-formed shape record of any supported type, read_shape delivers the record's parts and points in order with z/m values where present and requested, and consumes exactly the record; polygon rings are grouped so that no ring is lost, reordered or duplicated and every polygon after the first begins with a clockwise ring.", "quantifier": "every part/point count, all coordinates, with and without optional M block", "why_tests_cant": "unbounded parts, points and coordinate values", "anchors": ["geozero/src/shp/shp_reader.rs: read_shape, MultiPartShape, detect_polys, ring_type_from_points_ordering"]}
{"id": "C40", "title": "Shapefile robustness", "statement": "On arbitrary record bytes the shapefile record reader returns Ok or Err and never panics.", "quantifier": "every byte string", "why_tests_cant": "adversarial inputs", "anchors": ["geozero/src/shp/shp_reader.rs: read_shape_rec, MultiPartShape::read, detect_polys"]}
{"id": "C41", "title": "Shapefile feature framing", "statement": "iter_features emits dataset_begin once first, then one framed feature per record numbered consecutively, then dataset_end once, and reports processor errors.", "quantifier": "every file and every processor", "why_tests_cant": "arbitrary processors and histories of iterator calls", "anchors": ["geozero/src/shp/reader.rs: ShapeRecordIterator"]}
{"id": "C42", "title": "GPX reader callbacks", "statement": "For every parsed GPX document the reader emits a well-formed geometry collection: announced sizes equal the number of members and members are indexed consecutively.", "quantifier": "every parsed GPX document", "why_tests_cant": "unbounded documents; empty tracks, segments and routes in any position", "anchors": ["geozero/src/gpx/gpx_reader.rs: read_gpx"]}
{"id": "C43", "title": "SVG output is balanced", "statement": "For every callback stream of geometries and features, SvgWriter's output has every opened path element closed, lists every coordinate exactly once in order with y negated iff invert_y, and is framed by one svg element per dataset.", "quantifier": "every callback stream", "why_tests_cant": "unbounded streams", "anchors": ["geozero/src/svg/writer.rs: SvgWriter"]}
{"id": "C44", "title": "Capacity validation", "statement": "A size hint is accepted iff the memory it asks for is within the preallocation budget, without overflow for any size; bounded preallocation never reserves more than the budget.", "quantifier": "every size and element size", "why_tests_cant": "all 2^64 sizes; overflow boundaries", "anchors": ["geozero/src/geometry_processor.rs: validate_capacity, bounded_vec, MAX_PREALLOC_BYTES"]}
{"id": "C45", "title": "Features collected into geo-types", "statement": "Collecting a feature dataset into geo-types yields, in order, one feature per feature of the source, with that feature's geometry and, for each property name, the last value the source gave for it; nothing of one feature reaches another.", "quantifier": "every dataset: any number of features, properties and geometry sizes", "why_tests_cant": "unbounded feature and property sequences; interference between features shows up only in particular orders", "anchors": ["geozero/src/geo_types/geo_types_feature_writer.rs", "geozero/src/geo_types/mod.rs: ToGeoFeatures"]}
{"id": "C46", "title": "Decoding untrusted WKB into geo-types never panics", "statement": "Decoding any byte string in any WKB dialect into a geo-types value returns a value or an error; no index, take-of-none or assertion panics, with or without debug assertions.", "quantifier": "every byte string, every dialect", "why_tests_cant": "a panic needs one particular malformed byte string; the input space is all byte strings", "anchors": ["geozero/src/geo_types/mod.rs: FromWkb", "geozero/src/geo_types/geo_types_writer.rs", "geozero/src/wkb/wkb_reader.rs"]}
{"id": "C47", "title": "Malformed WKB headers are rejected", "statement": "A blob that lacks the marks of its dialect (GeoPackage magic and envelope code, SpatiaLite start and MBR marks, MySQL SRID range and byte order, SpatiaLite member marks) or whose type code names no known kind is refused with an error before any geometry callback.", "quantifier": "every byte string, every dialect", "why_tests_cant": "the malformed inputs are all byte strings outside a small set", "anchors": ["geozero/src/wkb/wkb_reader.rs: read_wkb_header, read_ewkb_header, read_gpkg_header, read_spatialite_header, read_spatialite_nested_header, read_mysql_header, process_wkb_geom_n"]}
{"id": "C48", "title": "SVG shapes are inside drawable paths", "statement": "Every position that SvgWriter writes for a geometry is inside the data of a path element that begins with a move command, so that the shape is drawn by a renderer.", "quantifier": "every geometry", "why_tests_cant": "holds or fails per geometry type and nesting; tests compare a few strings without interpreting path data", "anchors": ["geozero/src/svg/writer.rs: xy, linestring_begin, multipoint, circularstring, triangle callbacks"]}
{"id": "C49", "title": "CSV round trip", "statement": "A dataset with a common property list written with to_csv and read back with CsvReader on the column \"geometry\" is the same sequence of features, with every property value as its text and every geometry in two dimensions.", "quantifier": "every dataset with at least one feature whose geometries the WKT parser reads back", "why_tests_cant": "unbounded datasets, all column counts", "anchors": ["geozero/src/csv/csv_writer.rs: CsvWriter", "geozero/src/csv/csv_reader.rs: process_csv_features"]}
{"id": "C50", "title": "Shapefile headers and index files", "statement": "The header reader decodes every well-formed 100 byte header, refuses a wrong file code and an unknown shape type, and never panics; the index reader returns exactly the entries of a well-formed .shx file in order and never panics.", "quantifier": "every header, every number of index entries, every byte string for the absence of panics", "why_tests_cant": "unbounded entry counts and adversarial length fields", "anchors": ["geozero/src/shp/header.rs: Header::read_from, ShapeType::from", "geozero/src/shp/shx_reader.rs: read_index_file"]}
{"id": "C51", "title": "GeoJSON document as a geometry", "statement": "process_geom on a parsed GeoJSON document delivers the geometries of its features in order, numbered consecutively, none lost or repeated, and the result is one geometry in the documented form, so that converting the document to a geometry format yields one readable geometry.", "quantifier": "every parsed document", "why_tests_cant": "unbounded feature lists; tests convert documents with one geometry", "anchors": ["geozero/src/geojson/geojson_reader.rs: process_geojson_geom", "geozero/src/geometry_processor.rs: GeomProcessor"]}
{"id": "C52", "title": "Geometry columns", "statement": "A geometry stored in a PostGIS or GeoPackage column with wkb::Encode (or the impl_ macros) is stored as standard EWKB or GeoPackage WKB and read back with wkb::Decode (or the macros) as the same geometry; NULL is no geometry; no column value makes reading panic; raw columns can be copied from one database to the other.", "quantifier": "every value implementing GeozeroGeometry, every column value", "why_tests_cant": "all geometries, all byte strings, all adapters against each other", "anchors": ["geozero/src/postgis/postgis_sqlx.rs", "geozero/src/postgis/postgis_postgres.rs", "geozero/src/postgis/postgis_diesel.rs", "geozero/src/gpkg/geopackage.rs"]}
{"id": "C53", "title": "GEOS geometries as a source", "statement": "Processing a GEOS geometry makes exactly the documented callbacks of that geometry with its coordinates, for every processor and for every requested dimension, so WKB and geo-types values made from it hold the same geometry.", "quantifier": "every GEOS geometry, every processor, every WKB dialect", "why_tests_cant": "unbounded nesting and sizes; arbitrary processors", "anchors": ["geozero/src/geos/geos_reader.rs"]}
{"id": "C54", "title": "GEOS geometries as a target", "statement": "Converting a geometry to GEOS yields that geometry with its SRID, or an error if GEOS refuses it or it cannot be represented; nothing is silently dropped, and no WKB makes the conversion panic.", "quantifier": "every geometry, every source, every byte string", "why_tests_cant": "unbounded nesting and sizes; adversarial announced sizes", "anchors": ["geozero/src/geos/geos_writer.rs"]}
{"id": "C55", "title": "GDAL geometries as a source", "statement": "Processing a GDAL (OGR) geometry makes exactly the documented callbacks of that geometry with its coordinates, for every processor and every requested dimension; a geometry whose members have types they should not have, or whose type is unknown, is an error.", "quantifier": "every OGR geometry tree, every processor, every WKB dialect", "why_tests_cant": "unbounded nesting and sizes; arbitrary processors", "anchors": ["geozero/src/gdal/gdal_reader.rs"]}
{"id": "C56", "title": "GDAL geometries as a target", "statement": "Converting a geometry to GDAL yields that geometry in the requested dimensions or an error if it cannot be represented; nothing is silently dropped or replaced, and no input makes the conversion panic or touch memory it does not own.", "quantifier": "every geometry, every source, every requested dimension, every byte string", "why_tests_cant": "unbounded nesting and sizes; the order of members in a collection decides", "anchors": ["geozero/src/gdal/gdal_writer.rs", "geozero/src/gdal/mod.rs"]}
{"id": "C57", "title": "Tessellator and OBJ output", "statement": "Tessellating a geometry hands the VertexOutput exactly the vertices and triangles that lyon makes of each of its polygons, each polygon on its own, whatever the source; the faces of the OBJ output refer to vertices of their own polygon; what cannot be tessellated is an error and not a panic.", "quantifier": "every geometry, every source, every behaviour of lyon, every narrowing to f32", "why_tests_cant": "unbounded sequences of polygons; state left behind by one geometry shows up in the next", "anchors": ["geozero/src/tessellator/mod.rs"]}
{"id": "C58", "title": "The command line tool converts files", "statement": "`geozero IN OUT`: exit status 0 means OUT holds the data of IN in the format of OUT's extension; anything else is a non-zero exit status that leaves all files as they were; no file other than OUT ever changes; --extent selects the geometries in the extent.", "quantifier": "every command line, every file system, every text of IN, every dataset, every behaviour of the external readers", "why_tests_cant": "all pairs of formats, all file contents and all prior contents of OUT; silent loss shows only on particular combinations", "anchors": ["geozero-cli/src/main.rs"]}
{"id": "C59", "title": "A destination that runs full is reported", "statement": "When the destination of a conversion accepts only n bytes, the conversion returns an I/O error exactly if the output is longer, and the destination then holds the first n bytes of the output.", "quantifier": "every reader and every input, every text and WKB writer, every n", "why_tests_cant": "the write that fails may be any byte of any callback of any reader; tests write to memory, which never fails", "anchors": ["geozero/src/wkt/wkt_writer.rs", "geozero/src/wkb/wkb_writer.rs", "geozero/src/geojson/geojson_writer.rs", "geozero/src/geojson/geojson_line_writer.rs", "geozero/src/svg/writer.rs", "geozero/src/csv/csv_writer.rs", "geozero/src/shp/reader.rs"]}
{"id": "C60", "title": "Stop requests of property processors", "statement": "A processor that answers `property` with true gets no further property of that feature and everything else as before; a processor that answers false gets all properties, also when it is combined with others by Multiplexer or WrappedXYProcessor; the writers of attribute formats never ask to stop.", "quantifier": "every file, every rule by which a processor asks to stop, every pair of multiplexed processors", "why_tests_cant": "the answer may change at any property of any feature; the combination of a reader that honours the answer with a default implementation that asks to stop shows only in the lost attributes", "anchors": ["geozero/src/property_processor.rs", "geozero/src/multiplex.rs", "geozero/src/shp/property_processor.rs", "geozero/src/geojson/geojson_reader.rs", "geozero/src/csv/csv_reader.rs", "geozero/src/mvt/mvt_reader.rs"]}
{"id": "C61", "title": "Shapefiles end to end", "statement": "Converting a shapefile with its dbf to GeoJSON, CSV, SVG, vector tiles or geo_types gives, for every record, one feature with its geometry and all its non-null attributes, in order; a conversion that reports success has written a valid document.", "quantifier": "every shapefile (bytes of the .shp, records of the .dbf), every writer configuration", "why_tests_cant": "any number of records, parts, rings and attributes; null shapes and null attributes at arbitrary places", "anchors": ["geozero/src/shp/reader.rs", "geozero/src/shp/shp_reader.rs", "geozero/src/geojson/geojson_writer.rs", "geozero/src/csv/csv_writer.rs", "geozero/src/svg/writer.rs", "geozero/src/mvt/mvt_writer.rs", "geozero/src/geo_types/geo_types_feature_writer.rs"]}
{"id": "C62", "title": "Conversions by way of other forms", "statement": "A geometry that is converted by way of any sequence of intermediate forms (WKB of any dialect, WKT, geo_types, GeoJSON), each of which can hold it, reaches the final processor as if that processor had read the first source itself: the same callbacks, the same result.", "quantifier": "every geometry tree, every source delivering it, every finite sequence of forms, every processor", "why_tests_cant": "the number of chains and geometry trees is unbounded; a loss in one form may be hidden by the next", "anchors": ["geozero/src/wkb/wkb_writer.rs", "geozero/src/wkb/wkb_reader.rs", "geozero/src/wkt/wkt_writer.rs", "geozero/src/wkt/wkt_reader.rs", "geozero/src/geo_types/geo_types_writer.rs", "geozero/src/geo_types/geo_types_reader.rs", "geozero/src/geojson/geojson_writer.rs", "geozero/src/geojson/geojson_reader.rs"]}
{"id": "C63", "title": "Several geometries through one WKB writer", "statement": "Geometries written one after another with the same WkbWriter can be read back one after another in the same dialect: all of them, in order, with their SRID.", "quantifier": "every finite sequence of geometries, every dialect, dimension setting and SRID", "why_tests_cant": "the writer keeps state between geometries (header written, nesting level) that must be right after every possible history", "anchors": ["geozero/src/wkb/wkb_writer.rs:15-45", "geozero/src/wkb/wkb_writer.rs:102-266", "geozero/src/wkb/wkb_reader.rs"]}
{"id": "C64", "title": "Shapefiles cost what they weigh", "statement": "Reading a shapefile record, however damaged or hostile, makes a number of callbacks bounded by the length of the record, and looping over the shapes or features of any file ends; builds with and without overflow checks behave alike unless the checked one panics.", "quantifier": "every byte sequence, every dimension setting, both builds, every processor (for the loops)", "why_tests_cant": "the worst case is reached only by records whose part tables are crafted for it; a test sees one file", "anchors": ["geozero/src/shp/shp_reader.rs:35-79", "geozero/src/shp/shp_reader.rs:126-203", "geozero/src/shp/shp_reader.rs:225-432", "geozero/src/shp/reader.rs:24-96"]}
{"id": "C65", "title": "Coordinates arrive in the form asked for", "statement": "Every reader gives positions by `coordinate` to a processor that asks for z, m or times and by `xy` to one that does not, whatever the processor answers; it makes up no time, and gives a height or a measure only to a processor that asked for it. Writers that implement only one of the two callbacks depend on it.", "quantifier": "every input of every reader, every processor and processor state, every dimension setting", "why_tests_cant": "several writers (geo-types, MVT, SVG, tessellator, GEOS) ignore `coordinate` silently, so that one reader path giving the wrong form loses positions without an error; a test sees one path", "anchors": ["geozero/src/geometry_processor.rs:90-130", "geozero/src/wkb/wkb_reader.rs", "geozero/src/wkt/wkt_reader.rs:147-175", "geozero/src/geojson/geojson_reader.rs:268-289", "geozero/src/shp/shp_reader.rs:100-181", "geozero/src/geos/geos_reader.rs", "geozero/src/gdal/gdal_reader.rs", "geozero/src/gpx/gpx_reader.rs"]}
{"id": "C66", "title": "Asking for more dimensions changes nothing else", "statement": "For a processor that looks at x and y only, which dimensions it asks for changes neither its final state nor the result of reading: the same positions in the same order with the same indices, the same errors.", "quantifier": "every input of every reader (valid or not), every processor that treats `coordinate` like `xy`, every two dimension settings", "why_tests_cant": "relates two executions on every input, malformed ones included", "anchors": ["geozero/src/wkb/wkb_reader.rs", "geozero/src/wkt/wkt_reader.rs", "geozero/src/geojson/geojson_reader.rs", "geozero/src/csv/csv_reader.rs", "geozero/src/shp/shp_reader.rs", "geozero/src/geos/geos_reader.rs", "geozero/src/gdal/gdal_reader.rs", "geozero/src/mvt/mvt_reader.rs", "geozero/src/geo_types/geo_types_reader.rs"]}
{"id": "C67", "title": "Whatever is accepted can be converted", "statement": "Bytes that a WKB, EWKB, GeoPackage or MySQL reader accepts, whether any writer could have made them or not, stand for one geometry, the same for every processor; a WKB writer fed with them, in whatever dialect, gives bytes that are read as that geometry with the ordinates asked for, writing these again changes nothing, and conversion to the other forms into which the geometry fits keeps it. Two inputs that are read alike are written alike. A geometry with an empty point is refused, not written wrongly.", "quantifier": "every accepted byte sequence (mixed byte orders, members with other dimensions, surplus bytes, SRIDs in members), every target dialect, dimension setting, SRID and envelope, every chain of conversions", "why_tests_cant": "tests feed what writers make; the accepted inputs that no writer makes are unbounded", "anchors": ["geozero/src/wkb/wkb_reader.rs", "geozero/src/wkb/wkb_writer.rs", "geozero/src/wkb/mod.rs"]}
{"id": "C68", "title": "Different geometries are told apart", "statement": "The callback sequence of a geometry determines the geometry and where its callbacks end, so no source delivers two different geometries; a consumer that asks for no extra dimension sees the same callbacks for two geometries exactly if they agree in kind, structure, x and y. Consequently two sources whose output in a WKB dialect is the same byte string had the same geometry (in the dimensions written) and the same SRID, and likewise for GeoJSON text (but for M, and Z if not asked for) and for geo-types values (closed rings, no Z or M).", "quantifier": "all pairs of geometries of every kind, size and nesting; all following callbacks; all WKB dialects, dimensions, SRIDs, envelopes, byte orders; all number formats that can be read back", "why_tests_cant": "A collision is a relation between two inputs; tests compare single outputs with expected ones and cannot show that no second input gives the same output.", "anchors": ["geozero/src/geometry_processor.rs:113-409", "geozero/src/wkb/wkb_writer.rs", "geozero/src/wkb/wkb_reader.rs", "geozero/src/geojson/geojson_writer.rs", "geozero/src/geo_types/geo_types_writer.rs"]}
{"id": "C69", "title": "Datasets by way of several files", "statement": "A dataset converted to GeoJSON, to GeoJSON lines or to CSV, read from there, converted again and so on arrives after the last file with the same features in the same order, each with the same property numbers, names and values and the same geometry, provided every file on the way can hold it (texts only and two dimensions for CSV; texts, truth values and 64 bit integers with sorted names for GeoJSON). GeoJSON lines and CSV can be combined in any order and any number. A second GeoJSON collection made from a GeoJSON collection with two features is not valid JSON although every call succeeds.", "quantifier": "all datasets of any size, all chains of files of any length, all sources, all number formats that can be read back and all conforming GeoJSON and WKT parsers", "why_tests_cant": "A test fixes one dataset and one chain. That nothing is lost, renumbered or reordered on chains of any length needs an invariant of the stored dataset kept by every step.", "anchors": ["geozero/src/geojson/geojson_writer.rs", "geozero/src/geojson/geojson_reader.rs", "geozero/src/geojson/geojson_line_writer.rs", "geozero/src/geojson/geojson_line_reader.rs", "geozero/src/csv/csv_writer.rs", "geozero/src/csv/csv_reader.rs"]}
{"id": "C70", "title": "WKB read into the types of other formats", "statement": "Reading WKB (of any dialect) directly into a geo-types geometry, WKT, EWKT, GeoJSON or SVG text, an MVT feature, a GEOS or a GDAL geometry gives exactly what converting the bytes, or any other source of the same geometry, to that type gives, errors included; no type is ever made of bytes the reader refuses; and whatever bytes are accepted, the WKT, EWKT, geo-types value and GeoJSON read from them show one and the same geometry. The debug text of a value to be stored in a database is its two-dimensional WKT, or a fixed text if it cannot be read.", "quantifier": "all byte strings and dialects, all eight target types, all sources of the geometry, all number formats", "why_tests_cant": "Agreement of eight separate implementations on every byte string, including strings no writer makes, is a relation between programs that examples only sample.", "anchors": ["geozero/src/geojson/mod.rs:60-79", "geozero/src/svg/mod.rs:82-101", "geozero/src/wkt/mod.rs:62-126", "geozero/src/geo_types/mod.rs:44-60", "geozero/src/mvt/mod.rs:78-95", "geozero/src/geos/mod.rs:28-41", "geozero/src/gdal/mod.rs:37-52", "geozero/src/wkb/wkb_common.rs:1-40"]}
{"id": "C71", "title": "Numbers survive as decimal text bit for bit", "statement": "The WKT text of any geometry without NaN, and the GeoJSON text of any geometry with finite coordinates, contains for every coordinate a decimal numeral which a correctly rounding reader turns back into exactly the same 64 bit number, so the geometry read from the text is the written one bit for bit (negative zero, subnormal and very large numbers included). This depends only on the digits Rust's Display prints being read back to the number, however they are chosen; the shortest digits are such a choice. Correctly rounding means: no 64 bit number is nearer to the decimal, and only decimals at least half a unit beyond the greatest number become infinite.", "quantifier": "all geometries, all 2^64 bit patterns other than NaN (finite ones for GeoJSON), all displays whose digits are read back, all sources, all numerals of any length", "why_tests_cant": "There are 2^64 coordinates and unboundedly many numerals; rounding errors show only in rare halfway cases.", "anchors": ["geozero/src/wkt/wkt_writer.rs", "geozero/src/geojson/geojson_writer.rs"]}
{"id": "C72", "title": "Rings of shapefile polygons are told apart by their area", "statement": "The shapefile reader takes a ring as the outer ring of a new polygon exactly if the signed area of the ring, as a real number, is not counter-clockwise, whenever the ring's area is not all but zero compared with the size of its coordinates, or its coordinates lie on a grid coarse enough for exact sums. Reversing such a ring reverses the decision. A polygon record whose outer rings run clockwise and whose holes run counter-clockwise is therefore delivered with exactly the polygons it was made of. For slivers lost in rounding the decision can be wrong.", "quantifier": "all rings of any number of positions, all f64 coordinates in range, all lists of polygons with any number of holes, all processors and both builds", "why_tests_cant": "The decision is a sum of products rounded at every step; that rounding never flips the sign outside a stated margin is an error bound over all inputs, not a case.", "anchors": ["geozero/src/shp/shp_reader.rs:271-288", "geozero/src/shp/shp_reader.rs:420-432"]}
{"id": "C73", "title": "The type of a shapefile record says what its callbacks carry", "statement": "Whatever the bytes of a shapefile record, its type code decides the callbacks: only the callbacks of its family (single point, multipoint, lines, polygons; none for null shapes and multipatches); ShapeType::is_multipart is true whenever parts are reported and false whenever free points are; every delivered position has a z value exactly if ShapeType::has_z holds and the consumer asks for z; measures are delivered only to consumers that ask for them, to all positions of a record or to none, and only for types with ShapeType::has_m, and no-data measures are left out. ShapeType::from accepts exactly the codes of the types, and a record with another code is refused before any callback.", "quantifier": "all byte strings as records, all type codes, all sets of dimensions a consumer asks for, builds with and without overflow checks", "why_tests_cant": "Malformed and hostile records are unbounded in number; that no arrangement of sizes and counts smuggles in a z value is a statement about all of them.", "anchors": ["geozero/src/shp/shp_reader.rs:47-353", "geozero/src/shp/header.rs:101-170"]}
{"id": "C74", "title": "Opening a shapefile from its path", "statement": "ShpReader::from_path on a well-formed .shp file succeeds whether or not the .shx and .dbf files exist; iterating then delivers exactly the shapes of the file with the attributes of the .dbf in order, whatever a readable index holds. Without a .dbf only the functions that need it fail (MissingDbf); the field list is the one of the .dbf without the deletion flag. A missing file, a file with another file code and an unreadable .dbf are reported as errors. A damaged index, which is never used, does not matter.", "quantifier": "all file systems, all well-formed files of any number of records, all attribute tables, all processors, both builds", "why_tests_cant": "The combinations of present, missing and damaged companion files with arbitrary contents and consumers cannot be enumerated.", "anchors": ["geozero/src/shp/reader.rs:102-231"]}
{"id": "C75", "title": "Callbacks in an order no reader produces", "statement": "A source of its own may call the processor in any order. Every writer then returns Ok or one of its documented errors: the GeoJSON writer accepts any sequence, the SVG writer refuses empty points only, and the WKT, WKB and GeoJSON lines writers fail exactly when more geometries were ended than begun (WKB also for empty points and negative MySQL SRIDs). No order of callbacks makes a writer panic in a release build; with overflow checks and debug assertions only such an overdraft does.", "quantifier": "all finite sequences of callbacks with all arguments, for the writers of WKT, WKB (all dialects), GeoJSON, GeoJSON lines, SVG, GEOS, geo-types and GDAL; every state of the GEOS writer", "why_tests_cant": "Sequences of callbacks are unbounded and unstructured once balance is not assumed; tests drive the writers through readers, which only produce balanced ones.", "anchors": ["geozero/src/wkt/wkt_writer.rs:61-87", "geozero/src/wkb/wkb_writer.rs:269-439", "geozero/src/geojson/geojson_line_writer.rs:36-222", "geozero/src/geos/geos_writer.rs:40-172", "geozero/src/geo_types/geo_types_writer.rs:53-188", "geozero/src/gdal/gdal_writer.rs:64-178", "geozero/src/svg/writer.rs:46-139"]}
{"id": "C76", "title": "The WKB dialects are the same bytes behind different headers", "statement": "For the same source, to_ewkb without SRID gives exactly the bytes of to_wkb when there is no z and m; with an SRID it gives them with the SRID stored behind the first type; to_gpkg_wkb gives the GeoPackage header followed by the bytes of to_wkb, and to_mysql_wkb the SRID followed by them; all fail together with the same error. In the other direction, the bytes behind a MySQL SRID or a GeoPackage header of the same byte order are read with the same callbacks, the same result and the same dimensions as when read as plain WKB, valid or not; only the announced SRID differs.", "quantifier": "all sources, i.e. all programs of callbacks, balanced or not, failing or not, that do not give a position before a geometry begins (none needed for EWKB without SRID); all SRIDs, envelopes and dimensions; for the readers all byte strings", "why_tests_cant": "The tests compare the dialects on a few fixed geometries; that no source whatsoever makes them diverge, and that malformed bodies are treated the same, quantifies over all programs and all byte strings.", "anchors": ["geozero/src/wkb/mod.rs:49-97", "geozero/src/wkb/wkb_writer.rs:102-253", "geozero/src/wkb/wkb_reader.rs:115-165", "geozero/src/wkb/wkb_reader.rs:244-281", "geozero/src/wkb/wkb_reader.rs:355-367"]}
{"id": "C77", "title": "Input that breaks off", "statement": "A reader that reads as it goes (WKB in every dialect, shapefile records, headers and index files, loops over shapefiles, GeoJSON lines, streamed GeoJSON collections, CSV) delivers for input that ends early, or is unreadable from some piece on, exactly the beginning of what it delivers for the whole input, and then fails. More bytes behind input that was read successfully change nothing but what is left over; a failure for any other reason than the want of bytes is final, whatever follows. So what a writer has put out by then (WKT, GeoJSON, SVG, WKB, CSV) is the beginning of the complete output.", "quantifier": "all byte strings and all places to cut them, well-formed or not; all sequences of lines and records and all unreadable pieces; all processors, failing ones included, in any state; all numbers of loop steps", "why_tests_cant": "A test cuts a few files at a few places; that no prefix of any input makes a reader deliver something the rest of the input would take back quantifies over all inputs, cuts and processors.", "anchors": ["geozero/src/wkb/wkb_reader.rs:100-620", "geozero/src/shp/shp_reader.rs:26-400", "geozero/src/shp/reader.rs:24-96", "geozero/src/geojson/geojson_line_reader.rs:35-115", "geozero/src/geojson/geojson_reader.rs:64-70", "geozero/src/csv/csv_reader.rs:55-147"]}
{"id": "C78", "title": "Blobs read with the wrong dialect", "statement": "A WKB blob given to the reader of another dialect than it was written in is read as the geometry it encodes or refused before any geometry callback; it is never taken for another geometry.", "quantifier": "all ordered pairs of the five dialects, all geometries, dimensions, SRIDs, envelopes and byte orders", "why_tests_cant": "Whether the bytes of one dialect pass for another depends on the SRID, the envelope and the type code that happen to stand where the other dialect has its marks; a test tries a few SRIDs, and the ones that matter (none, 20, 22, 2001, 4326 with an envelope) look like any other.", "anchors": ["geozero/src/wkb/wkb_reader.rs:192-367", "geozero/src/wkb/wkb_common.rs:125-197", "geozero/src/wkb/wkb_writer.rs:139-330"]}
{"id": "C79", "title": "Several geometries through one conversion", "statement": "A source that holds several geometries (a CSV table, lines of GeoJSON, a GeoJSON feature collection) and is converted at once with to_wkt, to_json, to_geo, to_svg, to_mvt, to_wkb, to_geos or to_gdal gives a result that holds all of them in order, or an error; none is lost and the result is readable.", "quantifier": "all numbers of geometries, all geometries, all positions of records without a geometry, both shapes of streams the readers deliver", "why_tests_cant": "The tests convert sources with one geometry, where the number announced for the collection (always one), the numbers of the members and the texts around them are right by accident; a second record or a leading record without a geometry changes the outcome differently in each output format.", "anchors": ["geozero/src/csv/csv_reader.rs:102-148", "geozero/src/geojson/geojson_line_reader.rs:34-77", "geozero/src/geojson/geojson_reader.rs:74-83", "geozero/src/wkt/wkt_writer.rs:60-160", "geozero/src/wkb/wkb_writer.rs:139-330", "geozero/src/geos/geos_writer.rs:1-240", "geozero/src/gdal/gdal_writer.rs:1-240"]}
{"id": "C80", "title": "Size of WKB output", "statement": "The number of bytes of WKB output is fixed by the structure of the geometry: 5 bytes for every geometry in it, 4 for every count of members, rings or positions, 8 for every ordinate of the dimensions asked for, plus what the dialect adds (SRID, envelope, start and end marks). It depends neither on the ordinates nor on whether the source has the dimensions asked for, and the reader takes exactly that many bytes of the input (all but the end mark of a SpatiaLite blob).", "quantifier": "all geometries of all kinds and depths, all dialects, dimensions, SRIDs and envelopes, all byte orders for reading, any number of geometries through one writer", "why_tests_cant": "Tests compare the bytes of a handful of blobs; a header repeated, a count left out for one nested kind, or an ordinate dropped for one combination of dimensions changes the size only for geometries no test has.", "anchors": ["geozero/src/wkb/wkb_writer.rs:139-330", "geozero/src/wkb/wkb_writer.rs:330-760", "geozero/src/wkb/wkb_reader.rs:115-490"]}
{"id": "C81", "title": "Numbers and announced sizes in callbacks", "statement": "A writer's output depends on the idx and size arguments of the callbacks only in these ways. SVG text and bounds: not at all. WKB: on the low 32 bits of the announced sizes. WKT, EWKT and CSV: on whether the number of a position or of a beginning geometry is 0 and whether an announced size is 0 (CSV also on the numbers of properties). GeoJSON: on whether numbers of positions, beginning geometries, features and properties are 0, not on sizes; text sequences not on the numbers of features. geo-types values and features, vector tiles: on whether an announced size exceeds the allocation budget. GEOS: on the numbers of positions, the announced numbers of positions modulo 2^32, and whether a vector of the announced number of members can be allocated. GDAL: on the numbers of positions. Tessellator: on whether a position has number 0. The numbers in end callbacks matter nowhere, and wrapping or multiplexing processors add no dependence.", "quantifier": "all streams of callbacks, balanced or not, all pairs of streams that differ only in such arguments, all writer states, configurations and formatting functions", "why_tests_cant": "Tests drive the writers with the library's own readers, which always number from 0 and announce true sizes; a third-party datasource that numbers across geometries or announces an estimate is never run, and the arguments range over all usize values.", "anchors": ["geozero/src/geometry_processor.rs:30-420", "geozero/src/wkb/wkb_writer.rs:269-439", "geozero/src/wkt/wkt_writer.rs:45-233", "geozero/src/geojson/geojson_writer.rs:32-243", "geozero/src/geojson/geojson_line_writer.rs:41-231", "geozero/src/svg/writer.rs:46-139", "geozero/src/csv/csv_writer.rs:30-245", "geozero/src/geo_types/geo_types_writer.rs:53-188", "geozero/src/mvt/mvt_writer.rs:205-375", "geozero/src/geos/geos_writer.rs:40-195", "geozero/src/gdal/gdal_writer.rs:64-178", "geozero/src/tessellator/mod.rs:38-96"]}
{"id": "C82", "title": "Callbacks that leave no trace", "statement": "For every writer there is a fixed set of callbacks that change neither its output nor its result wherever they come in a stream, and all of them can be left out at once. The sets are exact: every other callback shows in some stream. Bounds look at positions only. The tessellator looks at two-dimensional positions and the ends of lines, rings and polygons. SVG drops positions told by coordinate(), frames of multipoints, multipolygons, collections, curves and properties, and geometry frames. GeoJSON drops SRIDs, the frames of curves and a binary first property. geo-types values, geo-types features and vector tiles drop SRIDs, coordinate() and curve frames (a value also everything that is not geometry). GDAL drops SRIDs, all end callbacks, collections and curve frames; GEOS drops coordinate(), the ends of rings, collections and curve frames. WKT drops SRIDs, and EWKT those after one was configured. WKB drops SRIDs and, unless end marks are written, the ends of geometries that are neither multi geometries nor polygons. CSV drops SRIDs and the ends of properties and geometries, and in release builds the begins that are only checked.", "quantifier": "all callbacks with all arguments, all streams before and after them (balanced or not), all configurations, dialects, formatting functions and build modes", "why_tests_cant": "That a callback is ignored is a statement about every stream it can come in and every state the writer can be in; a test shows one stream. That a set is exact needs a distinguishing stream for each of the other callbacks and all their arguments.", "anchors": ["geozero/src/geometry_processor.rs:60-330", "geozero/src/svg/writer.rs:1-200", "geozero/src/geojson/geojson_writer.rs:1-330", "geozero/src/wkt/wkt_writer.rs:90-238", "geozero/src/wkb/wkb_writer.rs:269-443", "geozero/src/geo_types/geo_types_writer.rs:53-188", "geozero/src/csv/csv_writer.rs:44-245", "geozero/src/gdal/gdal_writer.rs:1-240", "geozero/src/geos/geos_writer.rs:41-171", "geozero/src/mvt/mvt_writer.rs:205-402", "geozero/src/tessellator/mod.rs:38-127"]}
{"id": "C83", "title": "What was written stays written", "statement": "The output of the text writers (WKT, EWKT, GeoJSON, GeoJSON lines, SVG), of the WKB writer in every dialect, the records of CSV output, the features collected as geo-types or for a vector tile, and the triangles of the tessellator only grow at their end: whatever callbacks come later, failing ones included, what was there before is a prefix of what is there after. The writers do not look at earlier output either: with anything written before, the same is written after it and the same is returned. SVG and GeoJSON streams can be cut anywhere, GeoJSON lines where nothing is open, and the pieces given to new writers; the outputs put together are the output of the whole. Geometry values are different: a geo-types value turns into a collection when a second geometry comes, GDAL and GEOS geometries are replaced by it.", "quantifier": "all streams of callbacks, balanced or not, all ways to cut them, all writer states, all configurations, dialects and formatting functions", "why_tests_cant": "Streaming consumers rely on never having to take back bytes; a test checks the final output of one stream, not every intermediate output of every stream and state.", "anchors": ["geozero/src/wkt/wkt_writer.rs:45-238", "geozero/src/wkb/wkb_writer.rs:102-443", "geozero/src/geojson/geojson_writer.rs:24-243", "geozero/src/geojson/geojson_line_writer.rs:10-239", "geozero/src/svg/writer.rs:40-141", "geozero/src/csv/csv_writer.rs:44-245", "geozero/src/geo_types/geo_types_feature_writer.rs:25-257", "geozero/src/mvt/mvt_writer.rs:205-402", "geozero/src/tessellator/mod.rs:38-127"]}
{"id": "C84", "title": "Geometry and attributes do not mix", "statement": "In two streams of callbacks that a writer accepts and that differ in their properties only (values, names, numbers, places, or whether there are any), the geometries written are the same: the geometries of geo-types features, the first column of CSV output and the geometries of tile features. In two accepted streams that differ in their geometry callbacks only, the attributes written are the same: the attributes of geo-types features, the other columns of CSV output and, where every feature of both streams has a geometry, the attributes of tile features. A tile feature without a geometry is dropped together with its attributes.", "quantifier": "all pairs of accepted streams of callbacks (balanced or not, properties before, after or between geometry callbacks), all number formats, dimensions, build profiles and tile configurations", "why_tests_cant": "a test compares a few streams; that no callback of one kind ever reaches the output of the other, in whatever order they come, is a statement about all pairs of streams and all states between", "anchors": ["geozero/src/geo_types/geo_types_feature_writer.rs:25-257", "geozero/src/csv/csv_writer.rs:44-245", "geozero/src/mvt/mvt_writer.rs:205-402"]}
{"id": "C85", "title": "Every way a writer can fail is known", "statement": "For each writer there is a table that gives, for every callback, the errors it can return. After any callbacks that the writer accepted the next one either succeeds or fails with an error of its row, and every error in the table does occur after some accepted callbacks. Bounds and SVG refuse empty points only; GeoJSON never fails; GeoJSON lines and WKT panic only at an end without a begin; WKB fails on empty points, on ends without a begin and on a negative SRID for MySQL; geo-types and tiles fail with a geometry error on missing begins and on announced sizes above 16 MiB, and panic only with debug assertions or at the end of a point that was never begun; CSV fails on rows and columns that do not fit the header; GDAL, GEOS and the tessellator fail where the library refuses. Finishing a tile feature fails exactly when it has no geometry.", "quantifier": "all streams of callbacks in any order, all configurations, number formats, dimensions, build profiles and library answers", "why_tests_cant": "a test shows that one error occurs; that no other error or panic can occur at a callback, whatever came before, is a statement about all states the writer can reach", "anchors": ["geozero/src/bounds.rs:59-86", "geozero/src/svg/writer.rs:46-139", "geozero/src/geojson/geojson_writer.rs:32-243", "geozero/src/geojson/geojson_line_writer.rs:41-231", "geozero/src/wkt/wkt_writer.rs:45-238", "geozero/src/wkb/wkb_writer.rs:102-443", "geozero/src/geo_types/geo_types_writer.rs:53-188", "geozero/src/geo_types/geo_types_feature_writer.rs:25-257", "geozero/src/csv/csv_writer.rs:44-245", "geozero/src/mvt/mvt_writer.rs:205-402", "geozero/src/gdal/gdal_writer.rs:64-178", "geozero/src/geos/geos_writer.rs:40-195", "geozero/src/tessellator/mod.rs:38-127"]}
{"id": "C86", "title": "Every way a reader can fail is known", "statement": "A reader driving any writer fails only with an error of its own table, or because the writer refused a callback after accepting all callbacks before it, in which case the error and the writer's state are those of that refusal. WKB adds truncated input, a format error and the nesting limit; parsed WKT, geo-types, GEOS geometries, decoded tiles and attributes of shapefile records add nothing; GDAL adds a format error; GPX adds a geometry error when the document was not read; GeoJSON adds what the parser refused, a panic exactly when there is a position with fewer than two numbers, and for lines a dataset error exactly for a feature collection; CSV adds a missing column, a missing field, text that is not WKT and what the parser refused; shapefile records, headers and indexes add truncated input, wrong codes and types, wrong sizes and panics. With a writer that accepts everything the result of a GeoJSON or CSV reader is the complaint about the first bad document, feature, line or record. A conversion fails in the ways of its reader or of its writer and in no other.", "quantifier": "all inputs of any size, all writers and writer states, all WKB dialects, dimensions and build profiles", "why_tests_cant": "a test shows one error for one input and one writer; that no other error or panic can come out, for any input and any writer that may stop at any callback, cannot be enumerated", "anchors": ["geozero/src/wkb/wkb_reader.rs:21-692", "geozero/src/wkt/wkt_reader.rs:13-460", "geozero/src/geojson/geojson_reader.rs:20-303", "geozero/src/geojson/geojson_line_reader.rs:13-123", "geozero/src/csv/csv_reader.rs:13-215", "geozero/src/geo_types/geo_types_reader.rs:6-114", "geozero/src/geos/geos_reader.rs:6-158", "geozero/src/gdal/gdal_reader.rs:7-256", "geozero/src/gpx/gpx_reader.rs:8-147", "geozero/src/mvt/mvt_reader.rs:9-149", "geozero/src/shp/shp_reader.rs:26-432", "geozero/src/shp/shx_reader.rs:1-31", "geozero/src/shp/header.rs:101-191", "geozero/src/shp/property_processor.rs:1-56"]}
{"id": "C87", "title": "Writers do not look at coordinate values", "statement": "If two streams of callbacks differ only in the values of their coordinates, every writer except the vector tile writer answers both in the same way: both are accepted, or both fail with the same error. For SVG, GeoJSON, GeoJSON lines, WKT, EWKT and all dialects of WKB the output of an accepted stream is a form with gaps that does not depend on the values, filled in with the coordinates that the format carries, each exactly once and in the order of the callbacks; nothing is rounded, skipped, merged or reordered because of its value. WKT looks at one thing only: a position of nothing but NaN is written as EMPTY. In geo-types features the attributes, and in GDAL the kinds, members and numbers of positions, are the same. Vector tiles do look: a ring of three positions is refused if the last is the first.", "quantifier": "all streams of callbacks in any order, well-formed or not, all coordinate values including NaN and infinities, all dialects, dimensions, byte orders, number formats and build profiles", "why_tests_cant": "a test uses a handful of coordinate values; that no value anywhere changes what is accepted or how the rest is written is a statement about all 2^64 values at every position of every stream", "anchors": ["geozero/src/svg/writer.rs:46-139", "geozero/src/geojson/geojson_writer.rs:32-243", "geozero/src/geojson/geojson_line_writer.rs:41-231", "geozero/src/wkt/wkt_writer.rs:45-238", "geozero/src/wkb/wkb_writer.rs:102-443", "geozero/src/csv/csv_writer.rs:44-245", "geozero/src/geo_types/geo_types_writer.rs:53-188", "geozero/src/geo_types/geo_types_feature_writer.rs:25-257", "geozero/src/gdal/gdal_writer.rs:64-178", "geozero/src/mvt/mvt_writer.rs:196-320"]}
{"id": "C88", "title": "Moving an input commutes with reading it", "statement": "Transforming the coordinates of an input and then reading it has the same effect on any processor as reading the input itself through a WrappedXYProcessor with that transformation: same callbacks in the same order with moved x and y, same sizes, indices, tags, z and m, features and properties, same result and same error. This holds for every function on coordinates, also one that yields NaN or merges positions: parsed WKT, CSV (features and geometries), geo-types, GEOS, GDAL, GPX, GeoJSON documents, feature collections and lines. It holds for vector tiles when grid points go to grid points, and for WKB, EWKB, GeoPackage, MySQL and SpatiaLite bytes in every byte order, unless a function makes the point of NaNs, which is the empty point of WKB, or makes something of it. It holds for shapefile records and whole shapefiles if the rings of areas keep their orientation. So no reader drops, reorders, deduplicates or classifies by coordinates, with this exception: the polygons of a shapefile record are found by the orientation of its rings, and a mirror image has other polygons.", "quantifier": "all inputs, all functions on coordinates, all processors with any state and any errors, both forms of coordinates (xy and coordinate)", "why_tests_cant": "a test reads some inputs with some transformation; that no input, no nesting and no coordinate value makes a reader behave differently under any transformation and with any processor is a statement about all of them", "anchors": ["geozero/src/wkt/wkt_reader.rs:91-188", "geozero/src/csv/csv_reader.rs:102-202", "geozero/src/geo_types/geo_types_reader.rs:7-117", "geozero/src/geos/geos_reader.rs:7-159", "geozero/src/gdal/gdal_reader.rs:7-256", "geozero/src/gpx/gpx_reader.rs:26-147", "geozero/src/geojson/geojson_reader.rs:57-304", "geozero/src/geojson/geojson_line_reader.rs:35-124", "geozero/src/mvt/mvt_reader.rs:9-149", "geozero/src/wkb/wkb_reader.rs:490-514", "geozero/src/wrap.rs:28-182"]}
{"id": "C89", "title": "Conversions do not amplify", "statement": "What a writer has written never exceeds a sum of fixed shares, one for each callback it got: at most 25 characters for the opening of a geometry in WKT and 48 in GeoJSON, a few characters around the numbers of a position, twice the characters of a property name and value in GeoJSON, 9 bytes for the opening of a geometry and 37 for a position in WKB, in CSV a property costs its name and its value once, plus one prefix (SRID, magic number, envelope) per output. Counts, indices and nesting in the callbacks do not matter, nor does the order of callbacks, nor a refused callback. So converting WKB of any dialect to WKT, EWKT, GeoJSON, SVG or WKB of any dialect gives an output that is linear in the number of input bytes, whatever element counts these bytes claim. The same holds for the shapes of a shapefile in builds with overflow checks; without them there are records whose GeoJSON is as long as the square of their length.", "quantifier": "all callback sequences, well formed or not, all number formatters, all writer settings; all byte strings as input, all dialects and dimensions", "why_tests_cant": "a test measures the output of some inputs; that no count, nesting or combination of callbacks in any input makes the output grow out of proportion is a claim about all of them", "anchors": ["geozero/src/wkt/wkt_writer.rs:45-233", "geozero/src/geojson/geojson_writer.rs:24-243", "geozero/src/geojson/geojson_line_writer.rs:41-231", "geozero/src/svg/writer.rs:46-139", "geozero/src/wkb/wkb_writer.rs:102-443", "geozero/src/wkb/wkb_reader.rs:168-700", "geozero/src/shp/shp_reader.rs:1-432", "geozero/src/csv/csv_writer.rs:44-245"]}
{"id": "C90", "title": "Boxes of parts make the box of the whole", "statement": "The bounds of what comes in several parts are the smallest box around the bounds of the parts, bit for bit, parts without positions counting for nothing; in particular the bounds of a collection, from whatever source, are those around the bounds of its members. The bounds of a part lie in the bounds of the whole. The order of the positions, how often they come and the geometry around them do not matter, up to the sign of zeros. Pre-processing that keeps the order along each axis moves the bounds as it moves positions, one that turns an axis around exchanges its two ends, and exchanging the axes exchanges those of the bounds. All this holds for positions without NaNs (for parts: not beginning with one); with NaNs it does not.", "quantifier": "all callback sequences without empty points, well formed or not; all collections of any depth from all sources; all functions that keep or turn around the order of the numbers given, rounding included", "why_tests_cant": "tests compute the bounds of some geometries; that tiling, reordering or moving any data never changes the outcome otherwise quantifies over all splits, permutations and functions, and depends on the treatment of zeros and NaNs", "anchors": ["geozero/src/bounds.rs:11-90", "geozero/src/wrap.rs:28-182"]}
{"id": "C91", "title": "Overflow checks change nothing until they panic", "statement": "WkbWriter counts open multi geometries in a u32 and GeoJsonLineWriter open objects in a usize. As long as fewer than 2^32 (2^64) are begun, a build with overflow checks writes what counting without bound would, and a build without them writes the same whenever the checked build does not panic. The build without checks never panics, and its counter is the number of objects begun less those ended, modulo 2^32 (2^64). An end too many panics in the one and spoils what follows in the other: SpatiaLite geometries lose their end mark, lines end in the middle of features.", "quantifier": "all callback sequences, well formed or not, property callbacks included; all dialects and settings; builds with and without overflow checks", "why_tests_cant": "tests run in one kind of build, on streams that are balanced; 2^32 begins cannot be tried, and that two builds agree on every stream is a claim about all of them", "anchors": ["geozero/src/wkb/wkb_writer.rs:28", "geozero/src/wkb/wkb_writer.rs:256-266", "geozero/src/wkb/wkb_writer.rs:307-412", "geozero/src/geojson/geojson_line_writer.rs:20-47", "geozero/src/geojson/geojson_line_writer.rs:56-225"]}
