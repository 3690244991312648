(** C82: callbacks that leave no trace.  Read with: TraceSpec.v ([traceless], [ignores] and the table of each
    writer: [ign_svg], [ign_wkb], ...).  The streams are any lists of callbacks, also unbalanced ones. *)
From Coq Require Import String Ascii.
From Coq Require Import List NArith ZArith Lia Bool.
From Verif Require Import Base Float Event ProcModel Claims TraceSpec TraceTop.
From Verif Require WkbModel WktModel GeoJsonModel CsvModel SvgModel GeoModel MvtModel GeosModel GdalModel
  TessModel GeosSpec TessWit.
Import ListNotations.
Local Open Scope list_scope.

(** What is left out without a trace: the extent of what was seen. *)
Theorem C82_bounds : ignores (fun s => s) bounds_proc None ign_bounds.
Proof. exact bounds_ignores. Qed.
Print Assumptions C82_bounds.

(** What is left out without a trace: SVG text. *)
Theorem C82_svg : forall fmt c, ignores (fun s => s) (SvgModel.svg_writer fmt c) ""%string ign_svg.
Proof. exact svg_ignores. Qed.
Print Assumptions C82_svg.
(** of a feature's callbacks those remain that draw *)
Example C82_svg_case : filter (fun o => negb (ign_svg o))
  [OEv (FeatureBegin 0); OEv PropertiesBegin; OProp 0 "a"%string (CBool true); OEv PropertiesEnd; OEv GeometryBegin;
   OEv (MultiPointBegin 1 0); OEv (Xy 1%N 2%N 0); OEv (MultiPointEnd 0); OEv GeometryEnd; OEv (FeatureEnd 0)] =
  [OEv (FeatureBegin 0); OEv (Xy 1%N 2%N 0)].
Proof. reflexivity. Qed.

(** What is left out without a trace: GeoJSON text. *)
Theorem C82_geojson : forall fmt32 fmt d, ignores (fun s => s) (GeoJsonModel.geojson_writer fmt32 fmt d) ""%string ign_json.
Proof. exact json_ignores. Qed.
Print Assumptions C82_geojson.
(** a curve loses its name: what is left is not a geometry *)
Example C82_geojson_case : filter (fun o => negb (ign_json o))
  [OEv (Srid (Some 4326%Z)); OEv (CircularStringBegin 1 0); OEv (Xy 1%N 2%N 0); OEv (CircularStringEnd 0)] = [OEv (Xy 1%N 2%N 0)].
Proof. reflexivity. Qed.

(** What is left out without a trace: GeoJSON text sequences. *)
Theorem C82_geojson_lines : forall fmt32 fmt, ignores snd (GeoJsonModel.geojson_line_writer fmt32 fmt) (0, ""%string) ign_lines.
Proof. exact lines_ignores. Qed.
Print Assumptions C82_geojson_lines.

(** What is left out without a trace: WKT and EWKT. *)
Theorem C82_wkt : forall fmt c srid,
  ignores WktModel.k_out (WktModel.wkt_writer fmt c) (WktModel.wkt_init srid)
    (ign_wkt (is_ewkt (WktModel.k_dialect c)) srid).
Proof. exact wkt_ignores. Qed.
Print Assumptions C82_wkt.

(** What is left out without a trace: WKB of every dialect, with any options.  (Underflow of the depth of nesting panics here: a build with overflow checks.). *)
Theorem C82_wkb : forall c, srid_fits c ->
  ignores WkbModel.w_out (WkbModel.wkb_writer c) WkbModel.wst_init (ign_wkb (marked c)).
Proof. exact wkb_ignores. Qed.
Print Assumptions C82_wkb.
Example C82_wkb_met : srid_fits (WkbModel.with_opts WkbModel.MySQL xyzm_dims (Some 4326%Z) []) /\
  forall srid, srid_fits (WkbModel.with_opts WkbModel.Ewkb xy_dims srid []).
Proof. split; [intros _; cbn; lia|]. intros srid E. discriminate E. Qed.

(** What is left out without a trace: the geo-types value that is taken from the writer. *)
Theorem C82_geo : forall debug,
  ignores (fun s => snd (GeoModel.take_geometry s)) (GeoModel.geo_writer debug) GeoModel.gw_init ign_geo.
Proof. exact geo_ignores. Qed.
Print Assumptions C82_geo.

(** What is left out without a trace: geo-types features. *)
Theorem C82_geo_features : forall debug,
  ignores GeoModel.f_features (GeoModel.feature_writer debug) GeoModel.gf_init (ign_features debug).
Proof. exact features_ignore. Qed.
Print Assumptions C82_geo_features.

(** What is left out without a trace: CSV records. *)
Theorem C82_csv : forall fmt32 fmt debug d,
  ignores csv_text (CsvModel.csv_writer fmt32 fmt debug d) CsvModel.csv_init (ign_csv debug).
Proof. exact csv_ignores. Qed.
Print Assumptions C82_csv.

(** What is left out without a trace: GDAL geometries. *)
Theorem C82_gdal : forall d, ignores GdalModel.g_geom (GdalModel.gdal_writer d) (GdalModel.gw_with d) ign_gdal.
Proof. exact gdal_ignores. Qed.
Print Assumptions C82_gdal.

(** What is left out without a trace: GEOS geometries, of a library that accepts an empty ring and an empty polygon. *)
Theorem C82_geos : forall lib, GeosModel.ring_ok lib [] = true -> GeosModel.poly_ok lib [] [] = true ->
  ignores GeosModel.s_geom (GeosModel.geos_writer lib) GeosModel.gs_init ign_geos.
Proof. exact geos_ignores. Qed.
Print Assumptions C82_geos.
Example C82_geos_met : exists lib, GeosModel.ring_ok lib [] = true /\ GeosModel.poly_ok lib [] [] = true /\
  GeosModel.line_ok lib [(1%N, 2%N)] = false.
Proof. exists GeosSpec.sample_lib. repeat split. Qed.

(** What is left out without a trace: features of a vector tile. *)
Theorem C82_mvt : forall gsize base64 debug c,
  ignores MvtModel.mw_features (MvtModel.mvt_writer gsize base64 debug c) MvtModel.mw_init ign_mvt.
Proof. exact mvt_ignores. Qed.
Print Assumptions C82_mvt.

(** What is left out without a trace: triangles, with the assertions of lyon's path builder compiled in. *)
Theorem C82_tessellator : forall narrow ly, TessModel.checks ly = true ->
  (exists x y, TessModel.point_ok ly (TessModel.pos32 narrow x y) = true) ->
  ignores TessModel.ts_out (TessModel.tessellator narrow ly) TessModel.ts_init ign_tess.
Proof. exact tess_ignores. Qed.
Print Assumptions C82_tessellator.
Example C82_tessellator_met : TessModel.checks TessWit.sample_lyon = true /\
  exists x y, TessModel.point_ok TessWit.sample_lyon (TessModel.pos32 (fun x => x) x y) = true.
Proof. split; [reflexivity|]. exists 0%N, 0%N. reflexivity. Qed.
