(** What C81 is stated with: streams of callbacks that tell the same, except for the numbers (`idx`)
    and the announced sizes (`size`) they carry. *)
From Coq Require Import String.
From Coq Require Import List NArith Bool.
From Verif Require Import Base Event Claims.
Import ListNotations.

(** Which numbers may stand for which others. *)
Record use := mkUse {
  u_pos : nat -> nat -> Prop;        (* numbers of positions: xy, coordinate *)
  u_geom : nat -> nat -> Prop;       (* numbers of geometries, where they begin; empty_point *)
  u_feat : nat -> nat -> Prop;       (* numbers of features, where they begin *)
  u_prop : nat -> nat -> Prop;       (* numbers of properties *)
  u_count : nat -> nat -> Prop;      (* announced numbers of positions *)
  u_members : nat -> nat -> Prop     (* announced numbers of rings, members, ... *)
}.

Definition any (a b : nat) : Prop := True.
Definition same (a b : nat) : Prop := a = b.
(** both zero or both not *)
Definition zero_alike (a b : nat) : Prop := a = 0 <-> b = 0.
(** the same 32 bits *)
Definition u32_alike (a b : nat) : Prop := (N.of_nat a mod 2 ^ 32 = N.of_nat b mod 2 ^ 32)%N.
(** vectors of [a] and of [b] elements of these sizes are both within 16 MiB, or both not *)
Definition budget_alike (sizes : list N) (a b : nat) : Prop :=
  Forall (fun z => (N.of_nat a * z <= 16777216 <-> N.of_nat b * z <= 16777216)%N) sizes.
(** vectors of [a] and of [b] elements of these sizes can both be asked for, or both not *)
Definition vec_alike (sizes : list N) (a b : nat) : Prop :=
  Forall (fun z => (N.of_nat a * z < 2 ^ 63 <-> N.of_nat b * z < 2 ^ 63)%N) sizes.

(** The same callback with the same data; the numbers of the end callbacks are free. *)
Inductive same_call (u : use) : event -> event -> Prop :=
| sc_srid v : same_call u (Srid v) (Srid v)
| sc_xy x y i j : u_pos u i j -> same_call u (Xy x y i) (Xy x y j)
| sc_coord x y z m t tm i j : u_pos u i j -> same_call u (Coord x y z m t tm i) (Coord x y z m t tm j)
| sc_empty i j : u_geom u i j -> same_call u (EmptyPoint i) (EmptyPoint j)
| sc_point i j : u_geom u i j -> same_call u (PointBegin i) (PointBegin j)
| sc_multipoint a b i j : u_count u a b -> u_geom u i j -> same_call u (MultiPointBegin a i) (MultiPointBegin b j)
| sc_line t a b i j : u_count u a b -> u_geom u i j ->
    same_call u (LineStringBegin t a i) (LineStringBegin t b j)
| sc_circular a b i j : u_count u a b -> u_geom u i j ->
    same_call u (CircularStringBegin a i) (CircularStringBegin b j)
| sc_multiline a b i j : u_members u a b -> u_geom u i j ->
    same_call u (MultiLineStringBegin a i) (MultiLineStringBegin b j)
| sc_polygon t a b i j : u_members u a b -> u_geom u i j ->
    same_call u (PolygonBegin t a i) (PolygonBegin t b j)
| sc_multipolygon a b i j : u_members u a b -> u_geom u i j ->
    same_call u (MultiPolygonBegin a i) (MultiPolygonBegin b j)
| sc_collection a b i j : u_members u a b -> u_geom u i j ->
    same_call u (CollectionBegin a i) (CollectionBegin b j)
| sc_compound a b i j : u_members u a b -> u_geom u i j ->
    same_call u (CompoundCurveBegin a i) (CompoundCurveBegin b j)
| sc_curvepolygon a b i j : u_members u a b -> u_geom u i j ->
    same_call u (CurvePolygonBegin a i) (CurvePolygonBegin b j)
| sc_multicurve a b i j : u_members u a b -> u_geom u i j ->
    same_call u (MultiCurveBegin a i) (MultiCurveBegin b j)
| sc_multisurface a b i j : u_members u a b -> u_geom u i j ->
    same_call u (MultiSurfaceBegin a i) (MultiSurfaceBegin b j)
| sc_triangle t a b i j : u_members u a b -> u_geom u i j ->
    same_call u (TriangleBegin t a i) (TriangleBegin t b j)
| sc_polyhedral a b i j : u_members u a b -> u_geom u i j ->
    same_call u (PolyhedralSurfaceBegin a i) (PolyhedralSurfaceBegin b j)
| sc_tin a b i j : u_members u a b -> u_geom u i j -> same_call u (TinBegin a i) (TinBegin b j)
| sc_point_end i j : same_call u (PointEnd i) (PointEnd j)
| sc_multipoint_end i j : same_call u (MultiPointEnd i) (MultiPointEnd j)
| sc_line_end t i j : same_call u (LineStringEnd t i) (LineStringEnd t j)
| sc_circular_end i j : same_call u (CircularStringEnd i) (CircularStringEnd j)
| sc_multiline_end i j : same_call u (MultiLineStringEnd i) (MultiLineStringEnd j)
| sc_polygon_end t i j : same_call u (PolygonEnd t i) (PolygonEnd t j)
| sc_multipolygon_end i j : same_call u (MultiPolygonEnd i) (MultiPolygonEnd j)
| sc_collection_end i j : same_call u (CollectionEnd i) (CollectionEnd j)
| sc_compound_end i j : same_call u (CompoundCurveEnd i) (CompoundCurveEnd j)
| sc_curvepolygon_end i j : same_call u (CurvePolygonEnd i) (CurvePolygonEnd j)
| sc_multicurve_end i j : same_call u (MultiCurveEnd i) (MultiCurveEnd j)
| sc_multisurface_end i j : same_call u (MultiSurfaceEnd i) (MultiSurfaceEnd j)
| sc_triangle_end t i j : same_call u (TriangleEnd t i) (TriangleEnd t j)
| sc_polyhedral_end i j : same_call u (PolyhedralSurfaceEnd i) (PolyhedralSurfaceEnd j)
| sc_tin_end i j : same_call u (TinEnd i) (TinEnd j)
| sc_dataset n : same_call u (DatasetBegin n) (DatasetBegin n)
| sc_dataset_end : same_call u DatasetEnd DatasetEnd
| sc_feature i j : u_feat u i j -> same_call u (FeatureBegin i) (FeatureBegin j)
| sc_feature_end i j : same_call u (FeatureEnd i) (FeatureEnd j)
| sc_properties : same_call u PropertiesBegin PropertiesBegin
| sc_properties_end : same_call u PropertiesEnd PropertiesEnd
| sc_geometry : same_call u GeometryBegin GeometryBegin
| sc_geometry_end : same_call u GeometryEnd GeometryEnd.

Inductive same_obs (u : use) : obs -> obs -> Prop :=
| so_event e e' : same_call u e e' -> same_obs u (OEv e) (OEv e')
| so_prop i j n v : u_prop u i j -> same_obs u (OProp i n v) (OProp j n v).

(** The two streams tell the same. *)
Definition same_stream (u : use) (l l' : list obs) : Prop := Forall2 (same_obs u) l l'.

(** The processor heeds the numbers and sizes only so far as [u] says: two streams that tell the same
    leave it, from any state, in the same state and with the same answer. *)
Definition heeds_only {S} (u : use) (p : proc S) : Prop :=
  forall l l' s, same_stream u l l' -> feed p l s = feed p l' s.

(** ** What each writer heeds, in the order of [use]: numbers of positions, geometries, features and
    properties, announced positions and announced members *)

(** nothing: SVG text, bounds *)
Definition use_none : use := mkUse any any any any any any.
(** WKB, every dialect: the low 32 bits of the announced sizes *)
Definition use_wkb : use := mkUse any any any any u32_alike u32_alike.
(** WKT and EWKT: is it the first?  Is it announced as empty? *)
Definition use_wkt : use := mkUse zero_alike zero_alike any any zero_alike zero_alike.
(** CSV: as WKT; the numbers of properties find the column *)
Definition use_csv : use := mkUse zero_alike zero_alike any same zero_alike zero_alike.
(** GeoJSON: is it the first? *)
Definition use_json : use := mkUse zero_alike zero_alike zero_alike zero_alike any any.
(** GeoJSON text sequences: every feature is the first of its line *)
Definition use_lines : use := mkUse zero_alike zero_alike any zero_alike any any.
(** geo-types values and features: the announced sizes only against the allocation budget, for elements
    of 16 (Coord<f64>), 24 (LineString), 48 (Polygon) and 56 bytes (Geometry) *)
Definition use_geo : use := mkUse any any any any (budget_alike [16]%N) (budget_alike [24; 48; 56]%N).
(** vector tiles: the same with Coord<i32>; [gsize] is the size of a Geometry<i32> *)
Definition use_mvt (gsize : N) : use :=
  mkUse any any any any (budget_alike [8]%N) (budget_alike [24; 48; gsize]%N).
(** GEOS: a position is stored under its number in a sequence of the announced length; [seq] and [geom]
    are the sizes of the elements of vectors *)
Definition use_geos (seq geom : N) : use := mkUse same any any any u32_alike (vec_alike [seq; geom]).
(** GDAL: a position is stored under its number *)
Definition use_gdal : use := mkUse same any any any any any.
(** tessellator: is it the first position? *)
Definition use_tess : use := mkUse zero_alike any any any any any.
