(** C83: what was written stays written.  Read with: StaysSpec.v ([stays], [unread], [pieces]).  The streams are any
    lists of callbacks, also unbalanced ones, and later callbacks may fail. *)
From Coq Require Import String Ascii.
From Coq Require Import List NArith ZArith Lia Bool.
From Verif Require Import Base Float Event ProcModel Claims StaysSpec StaysTop.
From Verif Require WkbModel WktModel GeoJsonModel CsvModel SvgModel GeoModel MvtModel GeosModel GdalModel
  TessModel.
Import ListNotations.
Local Open Scope list_scope.

(** SVG text. *)
Theorem C83_svg : forall fmt c, stays chars (SvgModel.svg_writer fmt c) /\ unread chars text_after (SvgModel.svg_writer fmt c).
Proof. exact svg_stays. Qed.
Print Assumptions C83_svg.
(** GeoJSON text. *)
Theorem C83_geojson : forall fmt32 fmt d,
  stays chars (GeoJsonModel.geojson_writer fmt32 fmt d) /\ unread chars text_after (GeoJsonModel.geojson_writer fmt32 fmt d).
Proof. exact json_stays. Qed.
Print Assumptions C83_geojson.
(** GeoJSON text sequences. *)
Theorem C83_geojson_lines : forall fmt32 fmt, let out s := chars (snd s) in
  stays out (GeoJsonModel.geojson_line_writer fmt32 fmt) /\ unread out lines_after (GeoJsonModel.geojson_line_writer fmt32 fmt).
Proof. exact lines_stay. Qed.
Print Assumptions C83_geojson_lines.
(** WKT and EWKT. *)
Theorem C83_wkt : forall fmt c, let out s := chars (WktModel.k_out s) in
  stays out (WktModel.wkt_writer fmt c) /\ unread out wkt_after (WktModel.wkt_writer fmt c).
Proof. exact wkt_stays. Qed.
Print Assumptions C83_wkt.
(** WKB of every dialect. *)
Theorem C83_wkb : forall c, stays WkbModel.w_out (WkbModel.wkb_writer c) /\ unread WkbModel.w_out wkb_after (WkbModel.wkb_writer c).
Proof. exact wkb_stays. Qed.
Print Assumptions C83_wkb.
(** CSV records. *)
Theorem C83_csv : forall fmt32 fmt debug d,
  stays csv_records (CsvModel.csv_writer fmt32 fmt debug d) /\ unread csv_records csv_after (CsvModel.csv_writer fmt32 fmt debug d).
Proof. exact csv_stays. Qed.
Print Assumptions C83_csv.
(** geo-types features. *)
Theorem C83_geo_features : forall debug,
  stays GeoModel.f_features (GeoModel.feature_writer debug) /\ unread GeoModel.f_features features_after (GeoModel.feature_writer debug).
Proof. exact features_stay. Qed.
Print Assumptions C83_geo_features.
(** Features of a vector tile. *)
Theorem C83_mvt : forall gsize base64 debug c,
  stays MvtModel.mw_features (MvtModel.mvt_writer gsize base64 debug c) /\
  unread MvtModel.mw_features tile_after (MvtModel.mvt_writer gsize base64 debug c).
Proof. exact mvt_stays. Qed.
Print Assumptions C83_mvt.
(** Vertices and triangles. *)
Theorem C83_tessellator : forall narrow ly,
  stays TessModel.ts_out (TessModel.tessellator narrow ly) /\ unread TessModel.ts_out triangles_after (TessModel.tessellator narrow ly).
Proof. exact tess_stays. Qed.
Print Assumptions C83_tessellator.
(** SVG can be cut anywhere ... *)
Theorem C83_svg_pieces : forall fmt c, pieces chars (SvgModel.svg_writer fmt c) ""%string (fun _ => True).
Proof. exact svg_pieces. Qed.
Print Assumptions C83_svg_pieces.
Example C83_svg_pieces_met : forall fmt c,
  snd (feed (SvgModel.svg_writer fmt c) [OEv (FeatureBegin 0); OEv (PolygonBegin true 1 0)] ""%string) = Ok tt.
Proof. reflexivity. Qed.
(** ... GeoJSON too ... *)
Theorem C83_geojson_pieces : forall fmt32 fmt d, pieces chars (GeoJsonModel.geojson_writer fmt32 fmt d) ""%string (fun _ => True).
Proof. exact json_pieces. Qed.
Print Assumptions C83_geojson_pieces.
(** the dataset's frame by one writer, its feature by another *)
Example C83_geojson_pieces_met : forall fmt32 fmt d,
  snd (feed (GeoJsonModel.geojson_writer fmt32 fmt d) [OEv (DatasetBegin None); OEv (FeatureBegin 0)] ""%string) = Ok tt.
Proof. reflexivity. Qed.
(** ... and text sequences where no feature or geometry is open. *)
Theorem C83_geojson_lines_pieces : forall fmt32 fmt,
  pieces (fun s => chars (snd s)) (GeoJsonModel.geojson_line_writer fmt32 fmt) (0, ""%string) (fun s => fst s = 0).
Proof. exact lines_pieces. Qed.
Print Assumptions C83_geojson_lines_pieces.
Example C83_geojson_lines_pieces_met : forall fmt32 fmt,
  let r := feed (GeoJsonModel.geojson_line_writer fmt32 fmt)
    [OEv (PointBegin 0); OEv (Xy 1%N 2%N 0); OEv (PointEnd 0)] (0, ""%string) in
  snd r = Ok tt /\ fst (fst r) = 0.
Proof. split; reflexivity. Qed.
(** A geo-types value is replaced by a collection when a second geometry comes ... *)
Theorem C83_geo_refuted : forall debug, let out s := match snd (GeoModel.take_geometry s) with Some g => [g] | None => [] end in
  ~ stays out (GeoModel.geo_writer debug).
Proof. exact geo_replaced. Qed.
Print Assumptions C83_geo_refuted.
(** ... and a GDAL ... *)
Theorem C83_gdal_refuted : let out s := [GdalModel.g_geom s] in
  ~ stays out (GdalModel.gdal_writer xy_dims).
Proof. exact gdal_replaced. Qed.
Print Assumptions C83_gdal_refuted.
(** ... or GEOS geometry by the next one. *)
Theorem C83_geos_refuted : forall lib, let out s := [GeosModel.s_geom s] in ~ stays out (GeosModel.geos_writer lib).
Proof. exact geos_replaced. Qed.
Print Assumptions C83_geos_refuted.
