(** C59: a destination that runs full is reported. *)
From Coq Require Import String Ascii.
From Coq Require Import List NArith ZArith Lia Bool.
From Verif Require Import Base Event ProcModel WkbModel WktModel GeoJsonModel SvgModel CsvModel GeoModel
  GeosModel GdalModel GpxModel MvtModel ShpModel ShpSpec ShpMore SinkModel SinkSpec SinkTop SinkRead SinkShp SinkWit.
Import ListNotations.
Local Open Scope list_scope.

(** The writers only add to their output (what [source_reports] asks of a writer). *)
Theorem C59_writers : forall fmt32 fmt,
  (forall c, appends w_out (wkb_writer c)) /\
  (forall c, appends (fun s => list_ascii_of_string (k_out s)) (wkt_writer fmt c)) /\
  (forall d, appends list_ascii_of_string (geojson_writer fmt32 fmt d)) /\
  appends (fun s => list_ascii_of_string (snd s)) (geojson_line_writer fmt32 fmt) /\
  (forall c, appends list_ascii_of_string (svg_writer fmt c)) /\
  (forall encode debug d, appends (csv_bytes encode) (csv_writer fmt32 fmt debug d)).
Proof. exact writers_append. Qed.
Print Assumptions C59_writers.

Theorem C59_buffers : passes_on unbuffered /\ forall buf, passes_on (buffered buf).
Proof. exact buffers_pass. Qed.
Print Assumptions C59_buffers.
(** A buffer is passed on whole, when it is full and more is to be written: it never holds more than its size, and
    after the first byte it is never empty. *)
Theorem C59_buffer_holds : forall buf n, 0 < buf ->
  n - buffered buf n <= buf /\ (0 < n -> buffered buf n < n) /\ exists k, buffered buf n = k * buf.
Proof. exact buffer_holds. Qed.
Print Assumptions C59_buffer_holds.
Example C59_buffer_holds_met : buffered 8 8 = 0 /\ buffered 8 9 = 8 /\ buffered 8 17 = 16.
Proof. repeat split. Qed.

(** The readers, over every input and with every such writer. *)
Theorem C59_wkb : forall dl b, source_reports (fun d => process_wkb_type_geom dl d b).
Proof. intros. apply heeds_reports. intros. apply wkb_heeds. Qed.
Print Assumptions C59_wkb.
Theorem C59_wkt : forall g, source_reports (process_wkt_geom g).
Proof. intros. apply heeds_reports. intros. apply wkt_heeds. Qed.
Print Assumptions C59_wkt.
Theorem C59_geojson : forall ser doc, source_reports (fun d => read_geojson ser (multi_dim d) doc).
Proof. intros. apply heeds_reports. intros. apply read_geojson_heeds. Qed.
Print Assumptions C59_geojson.
Theorem C59_geojson_geometry : forall doc, source_reports (fun d => read_geojson_geom (multi_dim d) doc).
Proof. intros. apply heeds_reports. intros. apply read_geojson_geom_heeds. Qed.
Print Assumptions C59_geojson_geometry.
Theorem C59_geojson_collection : forall ser l, source_reports (fun d => read_geojson_fc ser (multi_dim d) l).
Proof. intros. apply heeds_reports. intros. apply read_geojson_fc_heeds. Qed.
Print Assumptions C59_geojson_collection.
Theorem C59_geojson_lines : forall ser l, source_reports (fun d => read_geojson_lines ser (multi_dim d) l).
Proof. intros. apply heeds_reports. intros. apply read_geojson_lines_heeds. Qed.
Print Assumptions C59_geojson_lines.
Theorem C59_geojson_line_geometries : forall l, source_reports (fun d => read_geojson_line_geometries (multi_dim d) l).
Proof. intros. apply heeds_reports. intros. apply read_geojson_line_geometries_heeds. Qed.
Print Assumptions C59_geojson_line_geometries.
Theorem C59_csv : forall parse column headers records,
  source_reports (fun d => process_csv_features parse (multi_dim d) column headers records).
Proof. intros. apply heeds_reports. intros. apply csv_features_heeds. Qed.
Print Assumptions C59_csv.
Theorem C59_csv_geometries : forall parse column headers records,
  source_reports (fun d => process_csv_geom parse (multi_dim d) column headers records).
Proof. intros. apply heeds_reports. intros. apply csv_geom_heeds. Qed.
Print Assumptions C59_csv_geometries.
Theorem C59_geo : forall rect tri g, source_reports (geo_process rect tri g).
Proof. intros. apply heeds_reports. intros. apply geo_heeds. Qed.
Print Assumptions C59_geo.
Theorem C59_geos : forall g, source_reports (geos_process g).
Proof. intros. apply heeds_reports. intros. apply geos_heeds. Qed.
Print Assumptions C59_geos.
Theorem C59_gdal : forall missing g, source_reports (gdal_process missing g).
Proof. intros. apply heeds_reports. intros. apply gdal_heeds. Qed.
Print Assumptions C59_gdal.
Theorem C59_gpx : forall doc, source_reports (fun _ => read_gpx doc).
Proof. intros. apply heeds_reports. intros. apply gpx_heeds. Qed.
Print Assumptions C59_gpx.
Theorem C59_mvt : forall l, source_reports (process_layer l).
Proof. intros. apply heeds_reports. intros. apply mvt_layer_heeds. Qed.
Print Assumptions C59_mvt.
Theorem C59_mvt_geometry : forall f, source_reports (process_mvt_geom f).
Proof. intros. apply heeds_reports. intros. apply mvt_geom_heeds. Qed.
Print Assumptions C59_mvt_geometry.

(** A loop over the geometries of a shapefile ([n] calls of next). *)
Theorem C59_shp_geometries : forall ck leftover n it S X (out : S -> list X) (p : proc S), appends out p ->
  reports out unbuffered p (fun q s => consume_shapes ck leftover q n it s) (Some (Err EIo)).
Proof. exact shapes_report. Qed.
Print Assumptions C59_shp_geometries.
(** A concrete case: a point written as GeoJSON (39 bytes), and 38 bytes of room. *)
Example C59_met : forall fmt32,
  exec (geojson_writer fmt32 (fun _ => "7"%string) xy_dims) (geo_process no_rect no_tri (TPoint (1, 2)%N) xy_dims) ""%string
  = (dot, Ok tt) /\ length (list_ascii_of_string dot) = 39 /\
  exists s2, exec (limited list_ascii_of_string unbuffered 38 (geojson_writer fmt32 (fun _ => "7"%string) xy_dims))
               (geo_process no_rect no_tri (TPoint (1, 2)%N) xy_dims) ""%string = (s2, Err EIo).
Proof. exact dot_cut. Qed.

(** A loop over the features of a shapefile: what is in the destination is as much of the output as
    fits and no other error is made up.  Missing: that the I/O error is returned if not all fits. *)
Theorem C59_shp_features_partial : forall ck leftover S X (out : S -> list X) cap (p : proc S), appends out p ->
  calm_framing p -> forall n it s,
  let (s1, r1) := consume ck leftover p n it s in
  let (s2, r2) := consume ck leftover (limited out unbuffered cap p) n it s in
  stored out cap s2 = firstn cap (out s1) /\ (r2 = r1 \/ r2 = Some (Err EIo)) /\
  (length (out s1) <= cap -> r2 = r1).
Proof. intros ck leftover S X. exact (@consume_stored S X ck leftover). Qed.
Print Assumptions C59_shp_features_partial.
Example C59_shp_features_met : forall fmt32 fmt d,
  appends list_ascii_of_string (geojson_writer fmt32 fmt d) /\ calm_framing (geojson_writer fmt32 fmt d).
Proof. intros fmt32 fmt d. exact (conj (geojson_appends fmt32 fmt d) (geojson_calm fmt32 fmt d)). Qed.
(** The iterator drops the error of dataset_end: of every file that converts, the GeoJSON without its
    last two bytes, or the SVG without its last twelve, passes for complete. *)
Theorem C59_shp_geojson_refuted : forall ck leftover fmt32 fmt d n it s t,
  consume ck leftover (geojson_writer fmt32 fmt d) n it s = (t, Some (Ok tt)) ->
  forall cap, length (list_ascii_of_string t) = cap + 2 ->
  exists s2, consume ck leftover (limited list_ascii_of_string unbuffered cap (geojson_writer fmt32 fmt d)) n it s
             = (s2, Some (Ok tt)) /\
    length (stored list_ascii_of_string cap s2) = cap.
Proof. exact geojson_cut. Qed.
Print Assumptions C59_shp_geojson_refuted.
Theorem C59_shp_svg_refuted : forall ck leftover fmt c n it s t,
  consume ck leftover (svg_writer fmt c) n it s = (t, Some (Ok tt)) ->
  forall cap, length (list_ascii_of_string t) = cap + 12 ->
  exists s2, consume ck leftover (limited list_ascii_of_string unbuffered cap (svg_writer fmt c)) n it s
             = (s2, Some (Ok tt)) /\
    length (stored list_ascii_of_string cap s2) = cap.
Proof. exact svg_cut. Qed.
Print Assumptions C59_shp_svg_refuted.
Example C59_shp_met : forall ck leftover fmt32 fmt, exists it t cap,
  iter_features ck places_header (shp_body places) (Some (map (fun f => Ok (en_record f)) places, None)) = Ok it /\
  consume ck leftover (geojson_writer fmt32 fmt xy_dims) 4 it ""%string = (t, Some (Ok tt)) /\
  length (list_ascii_of_string t) = cap + 2.
Proof. exact places_file. Qed.

(** CsvWriter: [buf] is the size of the buffer of csv::Writer.  The theorems above hold with
    [buffered buf]: the error is returned if what is passed on before the drop does not fit. *)
Theorem C59_csv_writer_partial : forall A (src : dims -> prog A), source_reports src ->
  forall buf encode fmt32 fmt debug d,
  reports (csv_bytes encode) (buffered buf) (csv_writer fmt32 fmt debug d)
    (fun q s => exec q (src (p_dims q)) s) (Err EIo).
Proof. exact csv_reports. Qed.
Print Assumptions C59_csv_writer_partial.
(** What is left for the drop is lost in silence: every conversion of at most [buf] bytes succeeds, were
    there no room at all. *)
Theorem C59_csv_writer_refuted : forall A (src : dims -> prog A), source_reports src ->
  forall buf encode fmt32 fmt debug d s1 a,
  exec (csv_writer fmt32 fmt debug d) (src d) csv_init = (s1, Ok a) ->
  length (csv_bytes encode s1) <= buf ->
  exec (limited (csv_bytes encode) (buffered buf) 0 (csv_writer fmt32 fmt debug d)) (src d) csv_init = (s1, Ok a) /\
  stored (csv_bytes encode) 0 s1 = [].
Proof. exact csv_lost. Qed.
Print Assumptions C59_csv_writer_refuted.
Example C59_csv_writer_met : forall fmt32 fmt,
  exists s1, exec (csv_writer fmt32 fmt true xy_dims) (fun_source one_row xy_dims) csv_init = (s1, Ok tt) /\
    source_reports (fun_source one_row) /\ length (csv_bytes comma_separated s1) = 10.
Proof. exact one_row_csv. Qed.
