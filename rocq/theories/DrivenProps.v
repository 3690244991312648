(** C75: processors driven with callbacks in any order. *)
From Coq Require Import String Ascii.
From Coq Require Import List NArith ZArith Lia Bool.
From Verif Require Import Base Event DrivenSpec DrivenTop DrivenGdal.
From Verif Require WkbModel WktModel GeoJsonModel SvgModel GeosModel GeoModel GdalModel.
Import ListNotations.

(** The WKT writer answers every sequence of callbacks: it panics (with debug assertions) exactly if at
    some moment more geometries were ended than begun. *)
Theorem C75_wkt : forall fmt c srid l,
  (overdrawn begins_geometry ends_geometry l ->
     snd (run (WktModel.wkt_writer fmt c) l (WktModel.wkt_init srid)) = Err EPanic) /\
  (~ overdrawn begins_geometry ends_geometry l ->
     snd (run (WktModel.wkt_writer fmt c) l (WktModel.wkt_init srid)) = Ok tt).
Proof. exact wkt_exact. Qed.
Print Assumptions C75_wkt.
Example C75_wkt_met : overdrawn begins_geometry ends_geometry [PointBegin 0; PointEnd 0; PointEnd 0] /\
  ~ overdrawn begins_geometry ends_geometry [PointBegin 0; LineStringEnd true 3; TinBegin 2 9].
Proof. exact wkt_met. Qed.

(** The WKB writer fails for one of three reasons: an empty point, a negative SRID for MySQL, or more
    multi-geometries and collections ended than begun (a panic, with overflow checks). *)
Theorem C75_wkb_errors : forall c l x, snd (run (WkbModel.wkb_writer c) l WkbModel.wst_init) = Err x ->
  (x = EGeometry /\ exists i, In (EmptyPoint i) l) \/
  (exists v, WkbModel.w_dialect c = WkbModel.MySQL /\ WkbModel.w_srid c = Some v /\ (v < 0)%Z /\ x = ESrid v) \/
  (x = EPanic /\ overdrawn begins_multi ends_multi l).
Proof. exact wkb_errors. Qed.
Print Assumptions C75_wkb_errors.
Theorem C75_wkb_overdrawn : forall c l, overdrawn begins_multi ends_multi l ->
  exists x, snd (run (WkbModel.wkb_writer c) l WkbModel.wst_init) = Err x.
Proof. exact wkb_overdrawn. Qed.
Print Assumptions C75_wkb_overdrawn.
Example C75_wkb_met : overdrawn begins_multi ends_multi [CollectionBegin 1 0; CollectionEnd 0; MultiCurveEnd 0] /\
  ~ overdrawn begins_multi ends_multi [PointEnd 0; PolygonEnd true 1; LineStringEnd false 0].
Proof. exact wkb_met. Qed.

(** The GeoJSON writer accepts every sequence; the SVG writer refuses empty points only. *)
Theorem C75_geojson : forall fmt32 fmt d l out,
  snd (run (GeoJsonModel.geojson_writer fmt32 fmt d) l out) = Ok tt.
Proof. exact gj_run. Qed.
Print Assumptions C75_geojson.
Theorem C75_svg : forall fmt c l out,
  snd (run (SvgModel.svg_writer fmt c) l out) = if existsb is_empty_point l then Err EGeometry else Ok tt.
Proof. exact svg_exact. Qed.
Print Assumptions C75_svg.

(** The line writer panics (with overflow checks) exactly if more was ended than begun. *)
Theorem C75_geojson_lines : forall fmt32 fmt out l,
  (overdrawn begins_json ends_json l ->
     snd (run (GeoJsonModel.geojson_line_writer fmt32 fmt) l (0, out)) = Err EPanic) /\
  (~ overdrawn begins_json ends_json l ->
     snd (run (GeoJsonModel.geojson_line_writer fmt32 fmt) l (0, out)) = Ok tt).
Proof. exact gjl_exact. Qed.
Print Assumptions C75_geojson_lines.
Example C75_geojson_lines_met : overdrawn begins_json ends_json [FeatureBegin 0; FeatureEnd 0; PointEnd 0] /\
  ~ overdrawn begins_json ends_json [TinEnd 0; FeatureBegin 0; GeometryEnd; PolygonEnd true 0].
Proof. exact lines_met. Qed.

(** The GEOS writer reports an error of its own or of the library in any state; a position can be out of
    range, and it panics only for an impossible size. *)
Theorem C75_geos : forall lib s e x, snd (GeosModel.geos_step lib s e) = Err x ->
  x = EGeometry \/ x = GeosModel.geos_error \/ (x = GeosModel.out_of_range lib /\ exists a b i, e = Xy a b i) \/
  (x = EPanic /\ exists size idx, (e = MultiLineStringBegin size idx /\ huge (GeosModel.seq_bytes lib) size) \/
    ((exists tagged, e = PolygonBegin tagged size idx) /\ huge (GeosModel.seq_bytes lib) size) \/
    (e = MultiPolygonBegin size idx /\ huge (GeosModel.geom_bytes lib) size)).
Proof. exact geos_kinds. Qed.
Print Assumptions C75_geos.
Example C75_geos_met : forall lib, snd (GeosModel.geos_step lib GeosModel.gs_init (Xy 0%N 0%N 0)) = Err EGeometry.
Proof. reflexivity. Qed.

(** Without debug assertions the writer of geo-types panics only when a point ends and no position came
    since something that takes positions began ... *)
Theorem C75_geo : forall l, snd (run (GeoModel.geo_writer false) l GeoModel.gw_init) = Err EPanic ->
  exists a e k i b, l = a ++ e :: k ++ PointEnd i :: b /\ takes_positions e = true /\ existsb is_xy k = false.
Proof. exact geo_panics. Qed.
Print Assumptions C75_geo.
Theorem C75_geo_errors : forall s e x, snd (GeoModel.geo_step false s e) = Err x ->
  x = EGeometry \/ (x = EPanic /\ exists i, e = PointEnd i).
Proof. exact geo_kinds. Qed.
Print Assumptions C75_geo_errors.
(** ... and then it does, in release builds also. *)
Theorem C75_geo_refuted : forall debug i j,
  snd (run (GeoModel.geo_writer debug) [PointBegin i; PointEnd j] GeoModel.gw_init) = Err EPanic.
Proof. exact geo_bare_point. Qed.
Print Assumptions C75_geo_refuted.

(** The GDAL writer panics only when a ring is begun in a multipolygon that has no polygon yet ... *)
Theorem C75_gdal : forall d l, snd (run (GdalModel.gdal_writer d) l (GdalModel.gw_with d)) = Err EPanic ->
  exists a n i k m j b, l = a ++ MultiPolygonBegin n i :: k ++ LineStringBegin false m j :: b /\
    existsb adds_polygon k = false.
Proof. exact gdal_panics. Qed.
Print Assumptions C75_gdal.
(** (its other errors: its own, the library's, and the use of a freed line) *)
Theorem C75_gdal_errors : forall s e x, snd (GdalModel.gdal_step s e) = Err x ->
  x = EGeometry \/ x = GdalModel.gdal_error \/ x = GdalModel.undefined \/
  (x = EPanic /\ exists n i, e = LineStringBegin false n i).
Proof. exact gdal_kinds. Qed.
Print Assumptions C75_gdal_errors.
(** ... and then it does. *)
Theorem C75_gdal_refuted : forall n i m j,
  snd (run (GdalModel.gdal_writer xy_dims) [MultiPolygonBegin n i; LineStringBegin false m j] (GdalModel.gw_with xy_dims)) =
  Err EPanic.
Proof. exact gdal_bare_ring. Qed.
Print Assumptions C75_gdal_refuted.
