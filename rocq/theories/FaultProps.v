(** C85: every way a writer can fail is known.  Read with: FaultSpec.v ([fails_as]: the errors a callback can meet after
    callbacks that were accepted are those of the table, and each of them occurs; the tables).  Callbacks come in any
    order.  EPanic is a panic, EGeometry a GeozeroError::Geometry.  Output streams do not fail here: C48, C59. *)
From Coq Require Import String Ascii.
From Coq Require Import List NArith ZArith Lia Bool.
From Verif Require Import Base Float Event ProcModel Claims FaultSpec FaultTop FaultGdal.
From Verif Require SvgModel GeoJsonModel WktModel WkbModel GeoModel CsvModel MvtModel GdalModel GeosModel TessModel.
Import ListNotations.
Local Open Scope list_scope.

(** Bounds and SVG refuse empty points and nothing else. *)
Theorem C85_bounds : fails_as bounds_proc None no_empty_point.
Proof. exact bounds_fails. Qed.
Print Assumptions C85_bounds.
Theorem C85_svg : forall fmt c, fails_as (SvgModel.svg_writer fmt c) ""%string no_empty_point.
Proof. exact svg_fails. Qed.
Print Assumptions C85_svg.
(** GeoJSON never fails; GeoJSON lines and WKT panic at ends without a begin. *)
Theorem C85_geojson : forall fmt32 fmt d, fails_as (GeoJsonModel.geojson_writer fmt32 fmt d) ""%string never.
Proof. exact json_fails. Qed.
Print Assumptions C85_geojson.
Theorem C85_geojson_lines : forall fmt32 fmt,
  fails_as (GeoJsonModel.geojson_line_writer fmt32 fmt) (0, ""%string) lines_ways.
Proof. exact lines_fails. Qed.
Print Assumptions C85_geojson_lines.
Theorem C85_wkt : forall fmt c srid, fails_as (WktModel.wkt_writer fmt c) (WktModel.wkt_init srid) wkt_ways.
Proof. exact wkt_fails. Qed.
Print Assumptions C85_wkt.
(** WKB: empty points, ends without a begin, a negative SRID for MySQL. *)
Theorem C85_wkb : forall c, fails_as (WkbModel.wkb_writer c) WkbModel.wst_init (wkb_ways c).
Proof. exact wkb_fails. Qed.
Print Assumptions C85_wkb.
(** geo-types: with and without debug assertions. *)
Theorem C85_geo : forall debug, fails_as (GeoModel.geo_writer debug) GeoModel.gw_init (geo_ways debug).
Proof. exact geo_fails. Qed.
Print Assumptions C85_geo.
Theorem C85_geo_features : forall debug,
  fails_as (GeoModel.feature_writer debug) GeoModel.gf_init (features_ways debug).
Proof. exact features_fail. Qed.
Print Assumptions C85_geo_features.
Theorem C85_csv : forall fmt32 fmt debug d,
  fails_as (CsvModel.csv_writer fmt32 fmt debug d) CsvModel.csv_init (csv_ways debug).
Proof. exact csv_fails. Qed.
Print Assumptions C85_csv.
(** Tiles; finishing a feature fails exactly when it has no geometry. *)
Theorem C85_mvt : forall gsize base64 debug c,
  fails_as (MvtModel.mvt_writer gsize base64 debug c) MvtModel.mw_init (mvt_ways gsize debug).
Proof. exact mvt_fails. Qed.
Print Assumptions C85_mvt.
Theorem C85_mvt_feature : forall s x, MvtModel.into_feature s = Err x <-> MvtModel.mw_geoms s = [] /\ x = EGeometry.
Proof. exact tile_feature_fails. Qed.
Print Assumptions C85_mvt_feature.
(** GDAL; with z or m nothing else fails, but xy() always does (C56_xy_refused). *)
Theorem C85_gdal : fails_as (GdalModel.gdal_writer xy_dims) (GdalModel.gw_with xy_dims) gdal_ways.
Proof. exact gdal_fails. Qed.
Print Assumptions C85_gdal.
Theorem C85_gdal_dims : forall d, fails_only (GdalModel.gdal_writer d) (GdalModel.gw_with d) gdal_ways.
Proof. exact gdal_only. Qed.
Print Assumptions C85_gdal_dims.
Example C85_gdal_dims_met : let w := GdalModel.gdal_writer xyz_dims in let s := GdalModel.gw_with xyz_dims in
  snd (feed w [OEv (MultiPolygonBegin 1 0)] s) = Ok tt /\
  snd (feed w [OEv (MultiPolygonBegin 1 0); OEv (LineStringBegin false 1 0)] s) = Err GdalModel.gdal_error.
Proof. split; reflexivity. Qed.
(** GEOS, whatever the library decides, and with a library that refuses lines of one position. *)
Theorem C85_geos : forall lib, fails_only (GeosModel.geos_writer lib) GeosModel.gs_init (geos_ways lib).
Proof. exact geos_fails_only. Qed.
Print Assumptions C85_geos.
Theorem C85_geos_each : forall lib, refuses_single lib ->
  fails_as (GeosModel.geos_writer lib) GeosModel.gs_init (geos_ways lib).
Proof. exact geos_fails. Qed.
Print Assumptions C85_geos_each.
Example C85_geos_each_met : let long (l : list GeosModel.pos) := Nat.leb 2 (length l) in
  let lib := GeosModel.mkLib long long (fun _ _ => true) GeosModel.geos_error 16 16 in
  refuses_single lib /\
  snd (feed (GeosModel.geos_writer lib) [OEv (LineStringBegin true 1 0); OEv (Xy 1%N 2%N 0)] GeosModel.gs_init) = Ok tt /\
  snd (feed (GeosModel.geos_writer lib) [OEv (LineStringBegin true 1 0); OEv (Xy 1%N 2%N 0); OEv (LineStringEnd true 0)] GeosModel.gs_init)
    = Err GeosModel.geos_error.
Proof. repeat split. Qed.
(** The tessellator likewise. *)
Theorem C85_tessellator : forall narrow ly, fails_only (TessModel.tessellator narrow ly) TessModel.ts_init (tess_ways ly).
Proof. exact tess_fails_only. Qed.
Print Assumptions C85_tessellator.
Theorem C85_tessellator_each : forall narrow ly, refuses_empty ly ->
  fails_as (TessModel.tessellator narrow ly) TessModel.ts_init (tess_ways ly).
Proof. exact tess_fails. Qed.
Print Assumptions C85_tessellator_each.
Example C85_tessellator_each_met :
  let ly := TessModel.mkLyon true (fun _ => true)
              (fun p => match p with [] => Err EPanic | _ => Ok ([], []) end) (fun p => match p with [] => Err EPanic | _ => Ok tt end) in
  refuses_empty ly /\
  snd (feed (TessModel.tessellator (fun x => x) ly) [OEv (Xy 1%N 2%N 0)] TessModel.ts_init) = Ok tt /\
  snd (feed (TessModel.tessellator (fun x => x) ly) [OEv (Xy 1%N 2%N 0); OEv (Xy 1%N 2%N 0)] TessModel.ts_init) = Err EPanic.
Proof. repeat split; eexists; reflexivity. Qed.
