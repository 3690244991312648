(** C65: positions arrive in the form the processor asks for.  C66: asking for more dimensions changes
    nothing else. *)
From Coq Require Import String Ascii.
From Coq Require Import List NArith ZArith Lia Bool.
From Verif Require Import Base Event Geom ProcModel WkbModel WktModel GeoJsonModel SvgModel CsvModel GeoModel
  GeosModel GdalModel GpxModel MvtModel ShpModel ShpSpec ShpMore OrdSpec OrdTop OrdSame OrdWit.
Import ListNotations.
Local Open Scope list_scope.

(** ** C65 *)
(** By coordinate if the processor asks for any dimension beyond x and y, by xy if it does not. *)
Theorem C65_wkb : forall dl b, gives multi_dim (fun d => process_wkb_type_geom dl d b).
Proof. intros. apply gives_only. intros. apply wkb_only. Qed.
Print Assumptions C65_wkb.
Theorem C65_wkt : forall g, gives multi_dim (process_wkt_geom g).
Proof. intros. apply gives_only. intros. apply wkt_only. Qed.
Print Assumptions C65_wkt.
Theorem C65_geojson : forall ser doc, gives multi_dim (fun d => read_geojson ser (multi_dim d) doc).
Proof. intros. apply gives_only. intros. apply read_geojson_only. Qed.
Print Assumptions C65_geojson.
Theorem C65_geojson_geometry : forall doc, gives multi_dim (fun d => read_geojson_geom (multi_dim d) doc).
Proof. intros. apply gives_only. intros. apply read_geojson_geom_only. Qed.
Print Assumptions C65_geojson_geometry.
Theorem C65_geojson_collection : forall ser l, gives multi_dim (fun d => read_geojson_fc ser (multi_dim d) l).
Proof. intros. apply gives_only. intros. apply read_geojson_fc_only. Qed.
Print Assumptions C65_geojson_collection.
Theorem C65_geojson_lines : forall ser l, gives multi_dim (fun d => read_geojson_lines ser (multi_dim d) l).
Proof. intros. apply gives_only. intros. apply read_geojson_lines_only. Qed.
Print Assumptions C65_geojson_lines.
Theorem C65_geojson_line_geometries : forall l, gives multi_dim (fun d => read_geojson_line_geometries (multi_dim d) l).
Proof. intros. apply gives_only. intros. apply read_geojson_line_geometries_only. Qed.
Print Assumptions C65_geojson_line_geometries.
Theorem C65_csv : forall parse column headers records,
  gives multi_dim (fun d => process_csv_features parse (multi_dim d) column headers records).
Proof. intros. apply gives_only. intros. apply csv_features_only. Qed.
Print Assumptions C65_csv.
Theorem C65_csv_geometries : forall parse column headers records,
  gives multi_dim (fun d => process_csv_geom parse (multi_dim d) column headers records).
Proof. intros. apply gives_only. intros. apply csv_geom_only. Qed.
Print Assumptions C65_csv_geometries.
Theorem C65_geo : forall rect tri g, gives multi_dim (geo_process rect tri g).
Proof. intros. apply gives_only. intros. apply geo_only. Qed.
Print Assumptions C65_geo.
Theorem C65_mvt : forall l, gives multi_dim (process_layer l).
Proof. intros. apply gives_only. intros. apply mvt_layer_only. Qed.
Print Assumptions C65_mvt.
Theorem C65_mvt_geometry : forall f, gives multi_dim (process_mvt_geom f).
Proof. intros. apply gives_only. intros. apply mvt_geom_only. Qed.
Print Assumptions C65_mvt_geometry.
(** Three readers deviate: GPX never gives a coordinate; GEOS and GDAL look at z only, so that a
    processor that asks for measures gets xy. *)
Theorem C65_gpx_partial : forall doc, gives (fun _ => false) (fun _ => read_gpx doc).
Proof. intros. apply gives_only. intros. apply gpx_only. Qed.
Print Assumptions C65_gpx_partial.
Theorem C65_geos_partial : forall g, gives dz (geos_process g).
Proof. intros. apply gives_only. intros. apply geos_only. Qed.
Print Assumptions C65_geos_partial.
Theorem C65_gdal_partial : forall missing g, gives dz (gdal_process missing g).
Proof. intros. apply gives_only. intros. apply gdal_only. Qed.
Print Assumptions C65_gdal_partial.
Theorem C65_gpx_refuted : exists doc, ~ gives multi_dim (fun _ => read_gpx doc).
Proof. exact (ex_intro _ (Some stop_by) gpx_form_refuted). Qed.
Print Assumptions C65_gpx_refuted.
Theorem C65_geos_refuted : exists g, ~ gives multi_dim (geos_process g).
Proof. exact (ex_intro _ tall_point geos_form_refuted). Qed.
Print Assumptions C65_geos_refuted.
Theorem C65_gdal_refuted : forall missing, exists g, ~ gives multi_dim (gdal_process missing g).
Proof. exact (fun missing => ex_intro _ ogr_point (gdal_form_refuted missing)). Qed.
Print Assumptions C65_gdal_refuted.
(** Shapefiles, over every content of the files and any number of records: a height or a measure comes
    only to who asked for it, never a time; and the form is right for a processor that does not ask for
    times alone. *)
Theorem C65_shp_geometries_partial : forall ck leftover n it S (p : proc S) s,
  let got := snd (snd (fst (shapes ck leftover (logged p) n it (s, [])))) in
  let d := p_dims p in
  Forall (fun e => modest d e /\ timeless e /\ (multi_dim d = dz d || dm d -> form (multi_dim d) e)) got.
Proof. intros. apply log_of_shapes. exact (fun _ H => H). Qed.
Print Assumptions C65_shp_geometries_partial.
Theorem C65_shp_features_partial : forall ck leftover n it S (p : proc S) s,
  let got := snd (snd (fst (features ck leftover (logged p) n it (s, [])))) in
  let d := p_dims p in
  Forall (fun e => modest d e /\ timeless e /\ (multi_dim d = dz d || dm d -> form (multi_dim d) e)) got.
Proof. intros. apply log_of_features. exact (fun _ H => H). Qed.
Print Assumptions C65_shp_features_partial.
(** A processor that asks for times alone gets the points by coordinate and the polygons by xy. *)
Theorem C65_shp_times_refuted : forall ck, exists point polygon,
  existsb is_coord (arriving t_dims (fun d => read_shape ck d point)) = true /\
  existsb is_xy (arriving t_dims (fun d => read_shape ck d polygon)) = true.
Proof. intros ck. exists (record_bytes 7 (dot f2)), (record_bytes 7 island). destruct ck; vm_compute; split; reflexivity. Qed.
Print Assumptions C65_shp_times_refuted.
(** WKT and GeoJSON (and WKB) hand a height to a processor that asked for measures only. *)
Theorem C65_unasked_refuted : exists g j,
  ~ Forall (modest xym_dims) (arriving xym_dims (process_wkt_geom g)) /\
  ~ Forall (modest xym_dims) (arriving xym_dims (fun d => read_geojson_geom (multi_dim d) j)).
Proof. exact (ex_intro _ high_wkt (ex_intro _ (Ok (GjGeometry high_json)) (conj unasked_wkt unasked_json))). Qed.
Print Assumptions C65_unasked_refuted.
(** A concrete case: the same polygon, to a processor that asks for z and m and to one that does not. *)
Example C65_met : forall ck,
  existsb is_coord (arriving xyzm_dims (fun d => read_shape ck d (record_bytes 7 island))) = true /\
  existsb is_xy (arriving xyzm_dims (fun d => read_shape ck d (record_bytes 7 island))) = false /\
  existsb is_xy (arriving xy_dims (fun d => read_shape ck d (record_bytes 7 island))) = true /\
  arriving xyzm_dims (process_wkt_geom high_wkt) =
    [PointBegin 0; Coord 1%N 2%N (Some 3%N) (Some 4%N) None None 0; PointEnd 0] /\
  arriving xy_dims (process_wkt_geom high_wkt) = [PointBegin 0; Xy 1%N 2%N 0; PointEnd 0].
Proof. intros []; vm_compute; repeat split. Qed.

(** ** C66 *)
(** To a processor that looks at x and y only it makes no difference which dimensions it asks for. *)
Theorem C66_wkb : forall dl b, indifferent (fun d => process_wkb_type_geom dl d b).
Proof. intros. apply alike_indifferent. intros. apply wkb_alike. Qed.
Print Assumptions C66_wkb.
Theorem C66_wkt : forall g, indifferent (process_wkt_geom g).
Proof. intros. apply alike_indifferent. intros. apply wkt_alike. Qed.
Print Assumptions C66_wkt.
Theorem C66_geojson : forall ser doc, indifferent (fun d => read_geojson ser (multi_dim d) doc).
Proof. intros. apply alike_indifferent. intros. apply read_geojson_alike. Qed.
Print Assumptions C66_geojson.
Theorem C66_geojson_geometry : forall doc, indifferent (fun d => read_geojson_geom (multi_dim d) doc).
Proof. intros. apply alike_indifferent. intros. apply read_geojson_geom_alike. Qed.
Print Assumptions C66_geojson_geometry.
Theorem C66_geojson_collection : forall ser l, indifferent (fun d => read_geojson_fc ser (multi_dim d) l).
Proof. intros. apply alike_indifferent. intros. apply read_geojson_fc_alike. Qed.
Print Assumptions C66_geojson_collection.
Theorem C66_geojson_lines : forall ser l, indifferent (fun d => read_geojson_lines ser (multi_dim d) l).
Proof. intros. apply alike_indifferent. intros. apply read_geojson_lines_alike. Qed.
Print Assumptions C66_geojson_lines.
Theorem C66_geojson_line_geometries : forall l, indifferent (fun d => read_geojson_line_geometries (multi_dim d) l).
Proof. intros. apply alike_indifferent. intros. apply read_geojson_line_geometries_alike. Qed.
Print Assumptions C66_geojson_line_geometries.
Theorem C66_csv : forall parse column headers records,
  indifferent (fun d => process_csv_features parse (multi_dim d) column headers records).
Proof. intros. apply alike_indifferent. intros. apply csv_features_alike. Qed.
Print Assumptions C66_csv.
Theorem C66_csv_geometries : forall parse column headers records,
  indifferent (fun d => process_csv_geom parse (multi_dim d) column headers records).
Proof. intros. apply alike_indifferent. intros. apply csv_geom_alike. Qed.
Print Assumptions C66_csv_geometries.
Theorem C66_geo : forall rect tri g, indifferent (geo_process rect tri g).
Proof. intros. apply alike_indifferent. intros. apply geo_alike. Qed.
Print Assumptions C66_geo.
Theorem C66_geos : forall g, indifferent (geos_process g).
Proof. intros. apply alike_indifferent. intros. apply geos_alike. Qed.
Print Assumptions C66_geos.
Theorem C66_gdal : forall missing g, indifferent (gdal_process missing g).
Proof. intros. apply alike_indifferent. intros. apply gdal_alike. Qed.
Print Assumptions C66_gdal.
Theorem C66_gpx : forall doc, indifferent (fun _ => read_gpx doc).
Proof. intros. apply alike_indifferent. intros. apply alike_refl. Qed.
Print Assumptions C66_gpx.
Theorem C66_mvt : forall l, indifferent (process_layer l).
Proof. intros. apply alike_indifferent. intros. apply mvt_layer_alike. Qed.
Print Assumptions C66_mvt.
Theorem C66_mvt_geometry : forall f, indifferent (process_mvt_geom f).
Proof. intros. apply alike_indifferent. intros. apply mvt_geom_alike. Qed.
Print Assumptions C66_mvt_geometry.
Theorem C66_shp_record : forall ck b, indifferent (fun d => read_shape ck d b).
Proof. intros. apply alike_indifferent. intros. apply shape_alike. Qed.
Print Assumptions C66_shp_record.
Theorem C66_shp_geometries : forall ck leftover S (p : proc S), flat_minded p -> forall d d' n it s,
  shapes ck leftover (asking d p) n it s = shapes ck leftover (asking d' p) n it s.
Proof. intros. now apply shapes_same. Qed.
Print Assumptions C66_shp_geometries.
Theorem C66_shp_features : forall ck leftover S (p : proc S), flat_minded p -> forall d d' n it s,
  features ck leftover (asking d p) n it s = features ck leftover (asking d' p) n it s.
Proof. intros. now apply features_same. Qed.
Print Assumptions C66_shp_features.
(** The bounds of a dataset, and a record of everything but heights and measures, are such processors;
    a GeoWriter is not. *)
Example C66_met : flat_minded bounds_proc /\ flat_minded shadows /\
  ~ flat_minded (geo_writer true).
Proof.
  split; [exact bounds_flat|]. split; [exact shadows_flat|].
  intros H. specialize (H (GeoModel.mkGw [] [] None None (Some [])) 1%N 2%N None None None None 0). discriminate H.
Qed.
