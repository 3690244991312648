(** Vocabulary of C80 (specification side): how many bytes a geometry takes as WKB. *)
From Coq Require Import List NArith ZArith Lia Bool.
From Coq Require Import Init.Byte.
From Verif Require Import Base Event Geom WkbModel WkbSpec WkbClaims.
Import ListNotations.
Local Open Scope nat_scope.
Local Open Scope list_scope.

Definition total {A} (f : A -> nat) (l : list A) : nat := list_sum (map f l).

(** ** Geometries: a geometry, its members, and the members of those; each has a header of 5 bytes
    (byte order and type) *)
Definition curve_headers (c : curve) : nat := match c with CvCompound s => 1 + length s | _ => 1 end.
Definition surface_headers (s : surface) : nat :=
  match s with SfPolygon _ => 1 | SfCurvePolygon c => 1 + total curve_headers c end.
Fixpoint headers (g : geom) : nat :=
  match g with
  | GPoint _ | GEmptyPoint | GLineString _ | GCircularString _ | GPolygon _ | GTriangle _ => 1
  | GMultiPoint l => 1 + length l
  | GMultiLineString l => 1 + length l
  | GMultiPolygon l | GPolyhedralSurface l | GTin l => 1 + length l
  | GCompoundCurve l => 1 + length l
  | GCurvePolygon l | GMultiCurve l => 1 + total curve_headers l
  | GMultiSurface l => 1 + total surface_headers l
  | GCollection l => 1 + total headers l
  end.

(** ** Counts: every line, ring, and geometry with members or rings has one of 4 bytes *)
Definition rings_counts (r : rings) : nat := 1 + length r.
Definition curve_counts (c : curve) : nat := match c with CvCompound s => 1 + length s | _ => 1 end.
Definition surface_counts (s : surface) : nat :=
  match s with SfPolygon r => rings_counts r | SfCurvePolygon c => 1 + total curve_counts c end.
Fixpoint counts (g : geom) : nat :=
  match g with
  | GPoint _ | GEmptyPoint => 0
  | GLineString _ | GCircularString _ | GMultiPoint _ => 1
  | GPolygon r | GTriangle r => rings_counts r
  | GMultiLineString l => 1 + length l
  | GMultiPolygon l | GPolyhedralSurface l | GTin l => 1 + total rings_counts l
  | GCompoundCurve l => 1 + length l
  | GCurvePolygon l | GMultiCurve l => 1 + total curve_counts l
  | GMultiSurface l => 1 + total surface_counts l
  | GCollection l => 1 + total counts l
  end.

(** ** Positions; an empty point takes the place of one *)
Definition rings_positions (r : rings) : nat := total (@length coord) r.
Definition segment_positions (s : segment) : nat := match s with SegLine l | SegArc l => length l end.
Definition curve_positions (c : curve) : nat :=
  match c with CvLine l | CvArc l => length l | CvCompound s => total segment_positions s end.
Definition surface_positions (s : surface) : nat :=
  match s with SfPolygon r => rings_positions r | SfCurvePolygon c => total curve_positions c end.
Fixpoint positions (g : geom) : nat :=
  match g with
  | GPoint _ | GEmptyPoint => 1
  | GLineString l | GCircularString l | GMultiPoint l => length l
  | GPolygon r | GTriangle r | GMultiLineString r => rings_positions r
  | GMultiPolygon l | GPolyhedralSurface l | GTin l => total rings_positions l
  | GCompoundCurve l => total segment_positions l
  | GCurvePolygon l | GMultiCurve l => total curve_positions l
  | GMultiSurface l => total surface_positions l
  | GCollection l => total positions l
  end.

(** ** The size *)
(** 8 bytes per ordinate *)
Definition position_size (d : dims) : nat := 16 + (if dz d then 8 else 0) + (if dm d then 8 else 0).
Definition content (d : dims) (g : geom) : nat :=
  5 * headers g + 4 * counts g + position_size d * positions g.
(** What a dialect adds: EWKB an SRID of 4 bytes if there is one; GeoPackage 8 bytes and the envelope;
    MySQL an SRID of 4 bytes; SpatiaLite the start mark, an SRID of 4 bytes, the rectangle of 32 bytes,
    a mark, and the end mark (39 bytes, if an envelope is given it has four numbers). *)
Definition extra (dl : dialect) (srid : option Z) (env : list f64) : nat :=
  match dl with
  | Wkb => 0
  | Ewkb => match srid with Some _ => 4 | None => 0 end
  | Geopackage => 8 + 8 * length env
  | MySQL => 4
  | SpatiaLite => 7 + 8 * (match env with [] => 4 | _ => length env end)
  end.
(** the further end marks in SpatiaLite output: one after every part of a top-level polygon, triangle,
    compound curve, curve polygon, polyhedral surface or TIN, and after the parts of those parts *)
Definition end_marks (g : geom) : nat :=
  match g with
  | GPolygon r | GTriangle r => length r
  | GCompoundCurve l => length l
  | GCurvePolygon l => total curve_headers l
  | GPolyhedralSurface l | GTin l => total rings_counts l
  | _ => 0
  end.
Definition marks (dl : dialect) (g : geom) : nat := match dl with SpatiaLite => end_marks g | _ => 0 end.

(** the same kinds and the same numbers of members and positions, whatever the ordinates *)
Definition same_line (l l' : line) : Prop := length l = length l'.
Definition same_rings (r r' : rings) : Prop := Forall2 same_line r r'.
Definition same_segment (s s' : segment) : Prop :=
  match s, s' with SegLine l, SegLine l' | SegArc l, SegArc l' => same_line l l' | _, _ => False end.
Definition same_curve (c c' : curve) : Prop :=
  match c, c' with
  | CvLine l, CvLine l' | CvArc l, CvArc l' => same_line l l'
  | CvCompound s, CvCompound s' => Forall2 same_segment s s'
  | _, _ => False
  end.
Definition same_surface (s s' : surface) : Prop :=
  match s, s' with
  | SfPolygon r, SfPolygon r' => same_rings r r'
  | SfCurvePolygon c, SfCurvePolygon c' => Forall2 same_curve c c'
  | _, _ => False
  end.
Inductive same_shape : geom -> geom -> Prop :=
| same_point : forall c c', same_shape (GPoint c) (GPoint c')
| same_empty : same_shape GEmptyPoint GEmptyPoint
| same_multipoint : forall l l', same_line l l' -> same_shape (GMultiPoint l) (GMultiPoint l')
| same_linestring : forall l l', same_line l l' -> same_shape (GLineString l) (GLineString l')
| same_circularstring : forall l l', same_line l l' -> same_shape (GCircularString l) (GCircularString l')
| same_polygon : forall r r', same_rings r r' -> same_shape (GPolygon r) (GPolygon r')
| same_triangle : forall r r', same_rings r r' -> same_shape (GTriangle r) (GTriangle r')
| same_multilinestring : forall r r', same_rings r r' -> same_shape (GMultiLineString r) (GMultiLineString r')
| same_multipolygon : forall l l', Forall2 same_rings l l' -> same_shape (GMultiPolygon l) (GMultiPolygon l')
| same_polyhedral : forall l l', Forall2 same_rings l l' -> same_shape (GPolyhedralSurface l) (GPolyhedralSurface l')
| same_tin : forall l l', Forall2 same_rings l l' -> same_shape (GTin l) (GTin l')
| same_compound : forall l l', Forall2 same_segment l l' -> same_shape (GCompoundCurve l) (GCompoundCurve l')
| same_curvepolygon : forall l l', Forall2 same_curve l l' -> same_shape (GCurvePolygon l) (GCurvePolygon l')
| same_multicurve : forall l l', Forall2 same_curve l l' -> same_shape (GMultiCurve l) (GMultiCurve l')
| same_multisurface : forall l l', Forall2 same_surface l l' -> same_shape (GMultiSurface l) (GMultiSurface l')
| same_collection : forall l l', Forall2 same_shape l l' -> same_shape (GCollection l) (GCollection l').

(** what a SpatiaLite writer that has already written a geometry writes for the next one *)
Definition later_blob (z m : bool) (g : geom) : list byte :=
  spatialite_sub_header z m LE (kind_code g) ++ marked (spatialite_sub_header z m) (coord_bytes z m) [] g ++ [xfe].
(** the bytes of one SpatiaLite writer for several geometries *)
Definition blobs (d : dims) (srid : option Z) (env : list f64) (l : list geom) : list byte :=
  match l with
  | [] => []
  | g :: r => spatialite_blob (dz d) (dm d) (opt_default 0%Z srid) env g ++ flat_map (later_blob (dz d) (dm d)) r
  end.
(** a member of a collection in a SpatiaLite blob *)
Definition blob_member (z m : bool) (g : geom) : list byte :=
  spatialite_sub_header z m LE (kind_code g) ++ body (spatialite_sub_header z m) (coord_bytes z m) little [] g.
(** a collection announced with one member that has the members [l] *)
Definition gathered_blob (d : dims) (srid : option Z) (env : list f64) (l : list geom) : list byte :=
  spatialite_header (dz d) (dm d) (opt_default 0%Z srid) env LE 7 ++ bytes_of LE 4 1 ++
  flat_map (blob_member (dz d) (dm d)) l ++ [xfe].
