(** Properties C55, C56 (GDAL conversions).  Specification vocabulary: Claims.v, Geom.v, GdalSpec.v.
    Model: GdalModel.v. *)
From Coq Require Import String Ascii.
From Coq Require Import List NArith ZArith Lia Bool.
From Coq Require Import Init.Byte.
From Verif Require Import Base Event Claims Geom GdalModel GdalSpec GdalTop GdalMore GdalWit.
From Verif Require GdalWrite WkbModel WkbSpec WkbClaims GeoModel GeoSpec.
Import ListNotations.
Local Open Scope N_scope.
Local Open Scope list_scope.

(** ** C55 *)
(** the documented callbacks, for every processor; a processor gets full coordinates if it asks for
    z.  What is missing for the full property: empty points come as [missing], whatever the crate gdal
    gives for them, and processors that ask for m, t or tm but not for z (refutations below). *)
Theorem C55_reader_partial : forall missing g t, tree (fill missing g) = Some t -> forall S (p : proc S) s,
  exec p (gdal_process missing g (p_dims p)) s = run p (gevents (dz (p_dims p)) 0 t) s.
Proof. exact gdal_reads. Qed.
Print Assumptions C55_reader_partial.
Example C55_reader_met :
  tree (fill (7, 8, 0) some_og) = Some (GCollection [GPoint (p3 1 2 3); GMultiPoint [p3 7 8 0];
    GCurvePolygon [CvCompound [SegLine [p3 0 0 0; p3 1 0 0]; SegArc [p3 1 0 0; p3 2 1 0; p3 0 0 0]]];
    GTin [[[p3 0 0 0; p3 1 0 0; p3 1 1 0; p3 0 0 0]]]]).
Proof. exact some_og_met. Qed.
Theorem C55_wkb_partial : forall missing g t dl d srid env, tree (fill missing g) = Some t -> multi_dim d = dz d ->
  WkbClaims.srid_ok dl srid -> (dl = WkbModel.SpatiaLite -> WkbClaims.spatialite_safe t) ->
  WkbModel.to_wkb_dialect (gdal_process missing g) dl d srid env =
  Ok (WkbClaims.std dl d srid env xy_dims false false WkbClaims.little t).
Proof. exact gdal_to_wkb. Qed.
Print Assumptions C55_wkb_partial.
Theorem C55_geo_partial : forall debug missing g t, tree (fill missing g) = Some t ->
  GeoSpec.plain t = true -> GeoSpec.small t ->
  GeoModel.to_geo debug (gdal_process missing g) = Ok (GeoSpec.value_of t).
Proof. exact gdal_to_geo. Qed.
Print Assumptions C55_geo_partial.
Example C55_geo_met : exists t, tree (fill zero_pt plain_og) = Some t /\ GeoSpec.plain t = true /\ GeoSpec.small t.
Proof. exact plain_og_met. Qed.
(** members of a wrong type and unknown geometries are refused *)
Theorem C55_refused_partial : forall missing g, tree (fill missing g) = None -> surfaces_ok g -> forall S (p : proc S) s,
  exists e, snd (exec p (gdal_process missing g (p_dims p)) s) = Err e /\
    ((forall s e, snd (p_step p s e) = Ok tt) -> e = EGeometryFormat).
Proof. exact gdal_refuses. Qed.
Print Assumptions C55_refused_partial.
Example C55_refused_met : tree (fill zero_pt odd_og) = None /\ surfaces_ok odd_og.
Proof. exact odd_og_met. Qed.
(** … but not in polyhedral surfaces and TINs: a line comes as a polygon without rings *)
Theorem C55_surface_refuted : forall S (p : proc S) s,
  exec p (gdal_process zero_pt bad_surface (p_dims p)) s = run p (gevents (dz (p_dims p)) 0 (GPolyhedralSurface [[]])) s.
Proof. exact bad_surface_read. Qed.
Print Assumptions C55_surface_refuted.
Example C55_surface_met : tree bad_surface = None.
Proof. exact bad_surface_met. Qed.
(** an empty point is a point at the place the crate gdal gives *)
Theorem C55_empty_point_refuted : forall missing S (p : proc S) s,
  exec p (gdal_process missing empty_point (p_dims p)) s =
  run p (gevents (dz (p_dims p)) 0 (GPoint (pos_of missing))) s.
Proof. exact empty_calls. Qed.
Print Assumptions C55_empty_point_refuted.
(** a processor that asks for m alone does not get the coordinate callback *)
Theorem C55_measured_refuted :
  ~ delivers (gdal_process zero_pt plain_og) (fun multi => gevents multi 0 (GPolygon [[p3 0 0 0; p3 1 0 0; p3 1 1 0; p3 0 0 0]])) (Ok tt).
Proof. exact m_only_plain. Qed.
Print Assumptions C55_measured_refuted.

(** ** C56 *)
(** [h]: z and m asked for; without, x and y only.  What is missing for the full property: collections,
    curves and surfaces, z without m, m values (refutations below). *)
Theorem C56_writer_partial : forall h g, simple g = true -> short_geom g -> forall i s, g_dims s = GdalWrite.wd h ->
  exists r, run (gdal_writer (GdalWrite.wd h)) (gevents h i g) s = (mkGw (GdalWrite.wd h) (gvalue h g) r, Ok tt).
Proof. exact GdalWrite.writes. Qed.
Print Assumptions C56_writer_partial.
Theorem C56_to_gdal_partial : forall (h : bool) src l g, srids l -> simple g = true -> short_geom g ->
  delivers src (fun multi => l ++ gevents multi 0 g) (Ok tt) ->
  to_gdal_ndim src (if h then xyzm_dims else xy_dims) = Ok (gvalue h g).
Proof. exact GdalWrite.to_gdal_simple. Qed.
Print Assumptions C56_to_gdal_partial.
Theorem C56_from_wkb_partial : forall dl d srid env ed ext emp o g tail,
  WkbSpec.encodable g -> (WkbSpec.levels g <= 128)%nat -> WkbClaims.srid_ok dl srid ->
  WkbClaims.env_ok dl ed env -> WkbClaims.order_ok dl o ->
  let g' := WkbSpec.retained (dz d) (dm d) g in simple g' = true -> short_geom g' ->
  gdal_from_wkb dl (WkbClaims.std dl d srid env ed ext emp o g ++ tail) = Ok (gvalue false g').
Proof. exact gdal_wkb_value. Qed.
Print Assumptions C56_from_wkb_partial.
Theorem C56_round_trip_partial : forall missing (h : bool) t, simple t = true -> short_geom t ->
  to_gdal_ndim (gdal_process missing (gvalue h t)) (if h then xyzm_dims else xy_dims) = Ok (gvalue h t).
Proof. exact gdal_round. Qed.
Print Assumptions C56_round_trip_partial.
Example C56_met : simple some_geom = true /\ short_geom some_geom /\ positions some_geom <> [] /\
  gvalue true some_geom = Og OMultiPolygon true true []
    [Og OPolygon true true [] [Og OLineString true true [(0, 0, 5); (1, 0, 6); (1, 1, 7); (0, 0, 8)] []; Og OLineString true true [] []];
     Og OPolygon true true [] []] /\
  delivers (said some_geom) (fun multi => gevents multi 0 some_geom) (Ok tt).
Proof. exact some_geom_met. Qed.
(** m values are dropped *)
Theorem C56_measures_refuted : gvalue true (GPoint (mkC 1 2 (Some 3) (Some 4))) = gvalue true (GPoint (mkC 1 2 (Some 3) None)).
Proof. exact measures_lost. Qed.
Print Assumptions C56_measures_refuted.
(** with z and without m every position is refused *)
Theorem C56_z_refuted : forall src g (r : unit), simple g = true -> positions g <> [] ->
  delivers src (fun multi => gevents multi 0 g) (Ok r) -> to_gdal_ndim src xyz_dims = Err gdal_error.
Proof. exact z_refused. Qed.
Print Assumptions C56_z_refuted.
(** of a collection the last member is left, of an empty one an empty point *)
Theorem C56_collection_refuted : forall (h : bool) src l (r : unit), l <> [] ->
  Forall (fun g => simple g = true /\ short_geom g) l ->
  delivers src (fun multi => gevents multi 0 (GCollection l)) (Ok r) ->
  to_gdal_ndim src (if h then xyzm_dims else xy_dims) = Ok (gvalue h (last l GEmptyPoint)).
Proof. exact collection_last. Qed.
Print Assumptions C56_collection_refuted.
Theorem C56_empty_collection_refuted : forall src (r : unit),
  delivers src (fun multi => gevents multi 0 (GCollection [])) (Ok r) -> to_gdal src = Ok empty_point.
Proof. exact collection_none. Qed.
Print Assumptions C56_empty_collection_refuted.
(** an arc becomes its first position *)
Theorem C56_arc_refuted : forall c l (r : unit) src, short (c :: l) ->
  delivers src (fun multi => gevents multi 0 (GCircularString (c :: l))) (Ok r) -> to_gdal src = Ok (gvalue false (GPoint c)).
Proof. exact arc_point. Qed.
Print Assumptions C56_arc_refuted.
(** curves made of lines, triangles, TINs, surfaces and empty points are refused *)
Theorem C56_curve : forall src g r l, g = GCompoundCurve (SegLine l :: r) \/
    (exists q, g = GMultiCurve (CvLine l :: q)) \/ (exists q, g = GCurvePolygon (CvLine l :: q)) \/
    (exists q p, g = GTin ((l :: p) :: q)) \/ (exists p, g = GTriangle (l :: p)) ->
  forall x : unit, delivers src (fun multi => gevents multi 0 g) (Ok x) -> to_gdal src = Err gdal_error.
Proof. exact curve_refused. Qed.
Print Assumptions C56_curve.
Theorem C56_surface : forall src g r q, g = GMultiSurface (SfPolygon r :: q) \/ (exists q, g = GPolyhedralSurface (r :: q)) ->
  forall x : unit, delivers src (fun multi => gevents multi 0 g) (Ok x) -> to_gdal src = Err EGeometry.
Proof. exact surface_refused. Qed.
Print Assumptions C56_surface.
Theorem C56_empty_point : forall src d (x : unit), delivers src (fun multi => gevents multi 0 GEmptyPoint) (Ok x) ->
  to_gdal_ndim src d = Err EGeometry.
Proof. exact empty_refused. Qed.
Print Assumptions C56_empty_point.
(** positions of an arc that follows a polygon go into the polygon *)
Theorem C56_polluted_refuted : forall src p q c (x : unit),
  delivers src (fun multi => gevents multi 0 (GCollection [GPolygon [p :: q]; GCircularString [c]])) (Ok x) -> short (p :: q) ->
  to_gdal src = Ok (gvalue false (GPolygon [c :: q])).
Proof. exact polluted_ring. Qed.
Print Assumptions C56_polluted_refuted.
(** positions of an arc that follows a polygon and an empty multi polygon go into a ring that was freed *)
Theorem C56_dangling_refuted : forall src l c arc (x : unit), l <> [] -> Forall short l ->
  delivers src (fun multi => gevents multi 0 (GCollection [GPolygon l; GMultiPolygon []; GCircularString (c :: arc)])) (Ok x) ->
  to_gdal src = Err undefined.
Proof. exact dangling_undefined. Qed.
Print Assumptions C56_dangling_refuted.
Theorem C56_dangling_wkb_refuted : exists b, gdal_from_wkb WkbModel.Wkb b = Err undefined /\
  b = bytes_of (dangling [[p2 0 0; p2 1 0; p2 1 1; p2 0 0]] (p2 3 3) []).
Proof. exact freed_bytes. Qed.
Print Assumptions C56_dangling_wkb_refuted.
(** a curve made of lines that follows an empty multi polygon panics (in a build without overflow
    checks a null pointer is used) *)
Theorem C56_no_polygon_refuted : forall src l q (x : unit),
  delivers src (fun multi => gevents multi 0 (GCollection [GMultiPolygon []; GCompoundCurve (SegLine l :: q)])) (Ok x) ->
  to_gdal src = Err EPanic.
Proof. exact no_polygon_panics. Qed.
Print Assumptions C56_no_polygon_refuted.
Theorem C56_no_polygon_wkb_refuted : exists b, gdal_from_wkb WkbModel.Wkb b = Err EPanic /\
  b = bytes_of (GCollection [GMultiPolygon []; GCompoundCurve [SegLine [p2 0 0; p2 1 0]]]).
Proof. exact panic_bytes. Qed.
Print Assumptions C56_no_polygon_wkb_refuted.
