# Formal model of geozero: design

The Rust sources in /repo are read as text.  Nothing in /repo is built or run.
The model is written in Rocq (Coq 8.16.1) under `rocq/theories`.

## 1. Shape of the model

geozero connects *readers* (formats -> callbacks) and *processors* (callbacks ->
output) through the traits `GeomProcessor`, `FeatureProcessor` and
`PropertyProcessor`.  The model follows this architecture.

* `event` (Event.v): one constructor per trait callback, with the arguments of the Rust method.
* `proc S` (Event.v): a processor with state `S`: the constant answer to
  `dimensions()`, a step function for the callbacks and one for `property`
  (which also returns the abort flag).
* `prog A` (Event.v): a reader run.  `Call e k` is `processor.e()?`, `CallIgn e k`
  is `processor.e().ok()`, `CallProp` is `processor.property(..)?` with its boolean result,
  `Done r` is the return value.  `exec` runs a `prog` against any processor.
* Panics (`unwrap`, slice index, checked overflow, `assert_eq!`) are the explicit
  error value `Panic`.  Rust integer wrap and truncation are written out with `mod`.
* `f64` is a 64-bit pattern (`N`).  NaN tests and comparisons are defined on the
  pattern.  Arithmetic, where the code does any, goes through `Coq.Floats.SpecFloat`.
* Bytes are `Coq.Init.Byte.byte`.  Binary input and output is `list byte`; text output is `string`.
* `geom` (Geom.v) is the *specification side*: geometry trees, and `gevents`, the
  callback sequence that the trait documentation prescribes for a tree.

Each format has a Model file (definitions citing /repo lines), a Spec file where a
declarative format description is needed, Proofs files, and a Props file
containing only theorems, `Print Assumptions` and non-vacuity examples.

## 2. Plan per property

| id | modelled | proof |
|----|----------|-------|
| C01 | WkbWriter, all four OGC-like readers | writer emits declarative encoding (C03); reader inverts it (C04); compose |
| C02 | SpatiaLite writer/reader | same as C01 for blobs without a top level ringed geometry; `_refuted` for polygons; `C02_exact` gives the bytes of every output and decides which read back |
| C03 | WkbWriter | induction over geometry with writer-state invariant against the declarative encoding |
| C04 | readers | declarative encoding relation with free byte order per sub-geometry; induction; `_refuted` for GPKG mixed order |
| C05 | headers, `dims()`/`srid()` | computation on the encoding |
| C06 | readers | extension lemma (success is stable under appended bytes) + exact consumption |
| C07 | readers | extension lemma, compositional over reader combinators |
| C08 | readers | compositional bound: callbacks <= consumed bytes + constant; no `Panic`/fuel error reachable |
| C09 | readers | inversion: successful run yields a geometry whose events were emitted, up to the relation `slips` for compressed lines of SpatiaLite; `_refuted` for equality there |
| C10 | readers | nested collections family by induction on depth; recursion bound |
| C11 | `prog`/`exec`, all readers | generic theorem over checked programs; each reader shown checked; `_refuted` for shapefile feature iterator |
| C12 | reader + writer | composition of C03, C04 through `exec` |
| C13 | reader Point case, writers | case analysis; `_refuted` for WkbWriter re-encoding |
| C14 | process_linestring compressed | induction on count; `_refuted` for last index and count 1; differences widened bit by bit and sums nearest (WidenProps.v) |
| C15 | WktWriter | induction over geometry, writer stack invariant, declarative WKT printer; `C15_exact` (by counting spaces) decides when the output is that text |
| C16 | WktWriter + reference WKT parser | parser inverts printer by induction; `C16_exact` says which geometries share a text |
| C17 | WktWriter header/srid | invariant on first_header |
| C18 | wkt_reader over the wkt crate AST | induction on the tree: the callbacks of every tree; they are those of a geometry exactly if no MULTIPOINT has an EMPTY member (a count of announced but undelivered members separates them); `_refuted` for the text written then |
| C19,C20 | geo_types reader/writer | stack invariant of GeoWriter, induction; `_exact`: necessary and sufficient conditions |
| C21,C22,C24 | GeoJsonWriter, reference JSON parser | printer/parser inversion; `_refuted` for unescaped characters, Binary, null-first properties; `_exact`: the texts that survive, because a value is read from its own tokens only and every escape sequence is longer than what it stands for |
| C23 | geojson_reader over the geojson crate AST | induction; `_refuted` for dataset_begin repeated |
| C25,C26 | line writer/reader | invariants over histories; `_refuted` for skipped lines |
| C27,C28 | csv writer/reader | history invariant; `_refuted` for panics; `C27_exact` says for every dataset which features are written and what the first other one does |
| C29-C31 | Multiplexer, WrappedXYProcessor, DatasourceGeomProcessor | simulation over arbitrary event lists; `_refuted` for missing delegations |
| C32 | Bounds | order invariant over streams; `_refuted` for NaN first; `C32_exact` covers every stream |
| C33-C35 | property readers, FeatureAccess | induction over property lists |
| C36-C38 | MVT writer/reader | float bounds on SpecFloat, history invariants |
| C39-C41 | shapefile | decode of declarative record layout; ring grouping invariant; `_refuted` for panics and swallowed errors; C40 `_exact`: the byte strings on which each build panics |
| C42 | gpx reader over the gpx crate AST | induction; `_refuted` |
| C43 | SvgWriter | tag balance by induction over streams; `C43_dataset_exact` decides for which names and styles the document says what it should |
| C44 | validate_capacity | arithmetic |
| C45 | GeoTypes feature writer | history invariant; `_refuted` for aborted properties |
| C46 | geo-types from WKB | totality of the composition |
| C47 | WKB type codes | case analysis over the code space; `_refuted` for codes of 4000 and more, `_exact` for what they are taken as |
| C48 | SvgWriter path data | reference path grammar; `_refuted` for lines and multi points; `C48_exact` decides every geometry |
| C49 | csv writer + reader | composition on records |
| C50 | shp and shx headers, index reader | decode of declarative layouts; `_refuted` for length 0; `C50_exact`: the byte strings on which each build panics |
| C51 | geometry view of GeoJSON documents | induction over documents |
| C52 | PostGIS and GeoPackage columns | composition of the WKB theorems; totality over byte strings |
| C53-C54 | GEOS | reader refines the grammar; writer invariant over the callbacks of each type; `_refuted` for collections, curves, empty points, compressed lines; every geometry cut into parts, each part one step of a small specification (GeosExactSpec.v) |
| C55-C56 | GDAL | reader refines the grammar for every OGR tree; writer invariant on the tree and the pointer to the current ring; `_refuted` for z, collections, curves and the freed ring; every geometry cut into parts, the writer shown to refine a machine on geometry trees (GdalExactSpec.v) |
| C57 | tessellator, OBJ | the path handed to lyon is the polygon's and nothing else, by induction over the calls; `_refuted` for multi lines, points, TINs, failures of lyon, OBJ numbering; every geometry cut into parts and the tessellator shown to refine a machine on them (TessExactSpec.v) |
| C58 | command line tool | each pair of formats composes the readers' streams (C15, C18, C23, C28) with the writers' theorems (C21, C22, C27, C43) and C32 for the view box; `_refuted` for clobbered destinations, panics, the ignored extent, in-place conversion, numbered geometries, bare geometries, a full disk |
| C59 | full destination | a writer over a destination of n bytes is the writer that fails the callback that does not fit; induction over the source's program, which drops no result; every reader is shown to be such a program; `_refuted` for the shapefile feature iterator (drops the result of dataset_end) and CsvWriter (the rest of its buffer is passed on by a drop) |
| C60 | stop requests | a processor that records everything and asks to stop by an arbitrary rule, run through the shapefile loop and (through the streams of C23, C28, C38) through the other readers; `_refuted`: only the shapefile reader looks at the answer, and a second multiplexed processor with the default `property` takes attributes away from the first |
| C61 | shapefile end to end | the loop over a file feeds the dataset of its records to any writer that takes all properties; composed with C22, C27, C43, C37 and C45; `_refuted`: geo_types features keep one attribute, null shapes give invalid GeoJSON, null attributes break CSV |
| C62 | chains of conversions | every form is a function from sources to sources that keeps what is delivered (C01, C16, C18, C19, C20, C21, C51); induction over the chain.  The parsers of the crates wkt and geojson are arguments assumed to follow the reference grammars |
| C63 | WkbWriter reused | the writer lemma of C03 from an arbitrary state; induction over the sequence; `_refuted` for the dialects with a blob header |
| C64 | amount of work of the shapefile reader | telescoping weights over the part table (checked build), product bound (unchecked), family of records with k*k callbacks (`_refuted`); simulation of the checked by the unchecked build; the source shrinks by 12 bytes a round |
| C65 | form of positions | a predicate over programs (`only`) met by every reader; soundness against every processor by a logging wrapper; `_refuted` for GPX, GEOS, GDAL and for times alone in shapefiles |
| C66 | dimensions asked for and the rest | a relation between two programs (`alike`: same callbacks up to height and measure) met by each reader with itself under two settings; soundness by induction over the program |
| C67 | accepted bytes as a source | inversion of the readers (C09) with a bound on the nesting, made uniform in the dimensions by `alike` (C66); then the writer theorems (C03), the readers of standard bytes (C02) and chains (C62) compose; compressed SpatiaLite lines by a relation that forgets the numbers of positions, under which most writers are invariant (SlipSpec.v); that sums of ordinates are 64-bit patterns comes from Flocq (FloatOk.v), so the `C67_spatialite…_partial` theorems use the axioms of the reals |
| C68 | different geometries, different output | callback sequences shown prefix-decodable by induction on the geometry; the WKB layouts shown prefix-decodable without reference to the reader (WkbInj.v), for any depth and with the SpatiaLite writer's extra end marks; for GeoJSON and geo-types an equivalence (same output exactly if the same geometry without M / unrequested Z, or with closed rings) from the round trips; counterexamples where M is dropped or an open ring is closed |
| C69 | datasets by way of several files | induction over the chain of files; invariant: the source delivers the dataset with the numbering and name the last file gives; per step the writers' and readers' theorems are combined under stated assumptions on the crates geojson and wkt; counterexample for GeoJSON after GeoJSON |
| C70 | WKB read into the types of other formats | the eight FromWkb implementations as one family beside the eight conversions; equality for every byte string; acceptance from the linear shape of the reader; meaning from C67 and the theorems of the formats |
| C71 | numbers as decimal text | an exact decimal reader (integer arithmetic, round half to even) and the shortest digits as functions on bit patterns (DecSpec.v); existence of digits that are read back from the exact expansion; nearest by comparison with Flocq's rounding over the reals |
| C72 | orientation of rings | the f64 sum bounded step by step against the real area through Flocq (at most 19 n^2 half units in the last place of the largest term), exact on grids; uniqueness of the grouping; `_refuted` for a sliver |
| C73 | shapefile record types | for every byte string: induction over the callbacks the reader makes (positions carry z exactly if the type says so); `_refuted` for measures of types without and for no-data values |
| C74 | opening a shapefile from disk | file system and dbase crate as arguments; composition of header, index and iterator theorems; `_refuted` for damaged index files |
| C75 | callbacks in any order | one lemma about processors with a depth counter, instantiated for WKT, WKB and GeoJSON lines; history invariants for geo-types and GDAL; `_refuted` for the two release panics |
| C76 | dialects are WKB behind a header | simulation between two writers for arbitrary programs (in step before and after the first header); program equality for the readers; `_refuted` for positions before the first begin |
| C77 | input that breaks off | class of reader programs closed under extension of the input (WKB, shapefiles), a relation between programs for readers of pieces, induction on loop steps; stated by reachability for every processor |
| C78 | readers of one dialect on blobs of another | the first bytes of every encoding computed for all kinds and dimensions; arithmetic on SRIDs; equality of encodings by induction on the geometry |
| C79 | sources of several geometries | the two shapes of streams as lists of numbered geometries (SeveralSpec.v); per writer an induction over the list from any state between geometries; tokens of the texts run through the JSON automaton for the `_refuted` cases; instantiated for the CSV, GeoJSON lines and GeoJSON readers |
| C80 | WKB sizes | three counts over the geometry (WkbSizeSpec.v); lengths of the standard encodings and of SpatiaLite output by induction on the geometry, joined with what C02, C03 and C63 say the bytes are |
| C81 | numbers and sizes in callbacks | a relation on streams that leaves chosen arguments free (NumbersSpec.v); every step of every writer respects it, by cases over the callbacks, then induction over the stream; equal outputs imply the relation where a writer does look |
| C82 | callbacks without a trace | a table of ignored callbacks per writer (TraceSpec.v); each is a step that changes nothing (or only what the output never shows: the SRID in plain WKT), lifted to streams by induction; a pair of streams shows the trace of every other callback.  WKB: the counter of nesting panics when it underflows (overflow checks); GEOS and the tessellator under hypotheses on the libraries |
| C83 | what was written stays | every step commutes with putting something in front of the output (StaysTop.v, by cases over the callbacks), lifted to streams by induction; growth, independence and cutting into pieces follow |
| C84 | geometry and attributes apart | a view of the state that only the selected callbacks change (ApartTop.v, `determined`, by induction over the stream); for tiles the count of features shows that none was dropped |
| C85 | errors of the writers | tables of errors per callback (FaultSpec.v); each direction by cases on the callback and the state, with an invariant where the state restricts what can fail: WKB under MySQL, GDAL (basic types; members of a multipolygon are polygons), tessellator (a path is open exactly when started) |
| C86 | errors of the readers | tables of each reader's own errors (RaiseSpec.v); shapefile records by their raw fields (ShpKindSpec.v: unknown type, length that does not fit, both exact); a predicate on reader programs (every `Done (Err x)` leaf is in the table) carried through all readers, one lemma from it to runs with any writer; exact results of GeoJSON and CSV readers as the first complaint; occurrence of the binary readers' errors by witnesses |
| C87 | coordinate values | forms with gaps (FormSpec.v); one lemma from single callbacks to streams, using that output is only added to (C83); for the collecting writers a relation of states that forgets coordinates and is kept by every callback |
| C88 | moving coordinates | moved inputs (MoveSpec.v); a relation between reader programs (the second run is the first one under WrappedXYProcessor) that sequencing and loops respect; WKB from the round trip C01, shapefiles (MoveShpSpec.v) from the decoding theorems C39 and C41; a mirror image shows why orientation must stay |
| C89 | size of the output | the share of each callback (AmpSpec.v), read off the callback alone; a potential (length written, plus the prefix while it is still to come) that grows by at most the share; with C08 (callbacks of WKB are at most its bytes) the output is linear in the input; callbacks that reach their shares |
| C90 | bounds put together | `around` and `inside` on boxes (BoxSpec.v); the running minimum is an associative join for numbers (NaNs only on the left), so folds split at any place; least and greatest elements determine a box up to the sign of zeros; witnesses for NaNs and for zeros |
| C91 | counters of machine size | the same writers with u32 / usize counters that panic or wrap (CountModel.v); a step asks of the counter only whether it is zero, so both models run in step while the counts fit; balance modulo 2^32 / 2^64 otherwise; witnesses for an end too many |

## 3. Trusted base

* Coq's kernel (8.16.1), `vm_compute` included.
* Axioms.  None is declared in this development.  `Print Assumptions` is printed below every
  property theorem and answers "Closed under the global context" for all of them, except for the
  theorems that speak about `value : f64 -> R`, the real number of a float, or use it in their proof
  (`C36_inside_partial`, `C36_inside_refuted_extent`, `C36_inside_refuted_tiny`, `C36_order`,
  `C36_corner`, `C36_far_corner`, `C36_proportional`, `C36_collapse`, `C36_infinite`,
  `C36_nan`, `C36_unscaled`, `C36_unscaled_cut`, `C38_round_trip`, `C38_geometry_round_trip`, `C14_sums`,
  `C19_same_number`, `C32_numbers`, `C32_order`, `C43_negated_value`,
  `C71_nearest`, `C71_overflow`, the theorems of C72, `C67_spatialite_partial`,
  `C67_spatialite_reencoded_partial`, `C67_spatialite_chain_partial`).  They depend on axioms of the standard library's real numbers, and on
  nothing else:
  `ClassicalDedekindReals.sig_forall_dec`, `ClassicalDedekindReals.sig_not_dec`,
  `FunctionalExtensionality.functional_extensionality_dep` and, through Flocq's rounding lemmas,
  `Classical_Prop.classic`.
* The reading of the Rust code recorded in the model comments.
* Rust: `usize` has 64 bits; a computed NaN has no specified payload; `as` casts of floats saturate.

### Modelled code

| file in /repo/geozero/src | model | remarks |
|---|---|---|
| geometry_processor.rs, feature_processor.rs, property_processor.rs, lib.rs, error.rs | Event.v, Base.v, ProcModel.v | all callbacks and their defaults; error values without their texts |
| api.rs, multiplex.rs, wrap.rs, bounds.rs | ProcModel.v | |
| wkb/{wkb_common,wkb_reader,wkb_writer,mod}.rs | WkbModel.v, WkbApiModel.v (the named conversions of mod.rs), CountModel.v (the u32 counter; also usize of geojson_line_writer.rs) | input is a finite byte list, output a growing one |
| wkt/{wkt_reader,wkt_writer,mod}.rs | WktModel.v | reader starts from the tree of the crate wkt; number formatting is an argument |
| geo_types/*.rs | GeoModel.v | geo-types 0.7 values as trees; `Polygon::new` closes rings with float equality |
| geojson/*.rs | GeoJsonModel.v | readers start from the document of the crate geojson; `serde_json::to_string` and number formatting are arguments |
| svg/*.rs | SvgModel.v | number formatting is an argument |
| csv/*.rs | CsvModel.v | records, not their quoting; the crate csv refuses records of another length; the WKT parser is an argument |
| gpx/gpx_reader.rs | GpxModel.v | reader starts from the document of the crate gpx |
| shp/{shp_reader,header,shx_reader,reader,property_processor}.rs | ShpModel.v | with and without overflow checks; the crate dbase is a list of records or errors; a panic in a callback whose result is dropped (`.ok()`) ends the iteration; allocation failure is not modelled; what a failed read leaves in the stream is arbitrary; `from_path` over a file system given as a function, `Path::with_extension` and dbase::Reader::new as arguments; not modelled: the Display texts of ShapeType and PointZ |
| mvt/{mvt_writer,mvt_reader,mod}.rs | MvtModel.v | with and without debug assertions; `size_of::<Geometry>()` and base64 are arguments; fast-mvt records are plain records, protobuf is not modelled |
| postgis/{postgis_sqlx,postgis_postgres,postgis_diesel}.rs, gpkg/geopackage.rs | DbModel.v | the database crates are not modelled: a column is NULL or bytes |
| geos/{geos_reader,geos_writer}.rs | GeosModel.v | a GEOS geometry is a tree of coordinate sequences; which lines, rings and polygons libgeos accepts, and what it does with a position out of range, is an argument |
| gdal/{gdal_reader,gdal_writer,mod}.rs | GdalModel.v | an OGR geometry is a tree of nodes with a kind, z and m flags, positions and members; the C functions used (creating, set_point, set_point_2d, adding a member, the pointer to a member) are small functions stated there; use of a freed ring is an error value of its own; what the crate gives for an empty point is an argument |
| tessellator/mod.rs | TessModel.v | what lyon makes of a path, its assertions and `as f32` are arguments; the debug print of stroked lines is not modelled |
| geozero-cli/src/main.rs | CliModel.v | the crates flatgeobuf, geoparquet, csv, geojson, wkt and number parsing are arguments (record `world`); a file is read when it is opened; the file system is a function from names to texts; clap, the log and standard output are not modelled |
| wkb/wkb_common.rs (Debug), geojson/mod.rs and svg/mod.rs (FromWkb) | FromModel.v | number formatting is an argument |
| `?` after every write of the text and WKB writers | SinkModel.v | the destination takes n bytes, then every write fails; the state of a writer after a failed callback is as if it had succeeded (only the destination is observed); the buffer of csv::Writer is passed on when full |

### Not modelled

* I/O errors of the output sink outside SinkModel.v (the other models write to a growing buffer), memory exhaustion, stack
  exhaustion, the text of error messages, Rust's float formatting (an argument, with
  stated hypotheses, which C71 derives from digits being read back to the same number), and the third party parsers and printers named above.
* The database crates, libgeos and the crate geos (only their results appear, as arguments), libgdal and the crate gdal, lyon, clap, flatgeobuf, geoparquet, the file system.
