(** Specification side: geometry trees and their documented callback sequences. *)
From Coq Require Import String Ascii.
From Coq Require Import List NArith ZArith Lia Bool.
From Verif Require Import Base Event.
Import ListNotations.

(** A position with its optional extra ordinates. *)
Record coord := mkC { cx : f64; cy : f64; cz : option f64; cm : option f64 }.

Definition line := list coord.          (* a sequence of positions *)
Definition rings := list line.          (* polygon or triangle: rings *)

Inductive segment := SegLine (l : line) | SegArc (l : line).
Inductive curve := CvLine (l : line) | CvArc (l : line) | CvCompound (s : list segment).
Inductive surface := SfPolygon (r : rings) | SfCurvePolygon (c : list curve).

Inductive geom : Type :=
| GPoint (c : coord)
| GEmptyPoint
| GMultiPoint (l : list coord)
| GLineString (l : line)
| GMultiLineString (l : list line)
| GPolygon (r : rings)
| GMultiPolygon (l : list rings)
| GCollection (l : list geom)
| GCircularString (l : line)
| GCompoundCurve (l : list segment)
| GCurvePolygon (l : list curve)
| GMultiCurve (l : list curve)
| GMultiSurface (l : list surface)
| GTriangle (r : rings)
| GPolyhedralSurface (l : list rings)
| GTin (l : list rings).

(** Induction principle that goes under the list of a collection. *)
Section GeomInd.
  Variable P : geom -> Prop.
  Hypothesis HPoint : forall c, P (GPoint c).
  Hypothesis HEmptyPoint : P GEmptyPoint.
  Hypothesis HMultiPoint : forall l, P (GMultiPoint l).
  Hypothesis HLineString : forall l, P (GLineString l).
  Hypothesis HMultiLineString : forall l, P (GMultiLineString l).
  Hypothesis HPolygon : forall l, P (GPolygon l).
  Hypothesis HMultiPolygon : forall l, P (GMultiPolygon l).
  Hypothesis HCollection : forall l, Forall P l -> P (GCollection l).
  Hypothesis HCircularString : forall l, P (GCircularString l).
  Hypothesis HCompoundCurve : forall l, P (GCompoundCurve l).
  Hypothesis HCurvePolygon : forall l, P (GCurvePolygon l).
  Hypothesis HMultiCurve : forall l, P (GMultiCurve l).
  Hypothesis HMultiSurface : forall l, P (GMultiSurface l).
  Hypothesis HTriangle : forall l, P (GTriangle l).
  Hypothesis HPolyhedralSurface : forall l, P (GPolyhedralSurface l).
  Hypothesis HTin : forall l, P (GTin l).

  Fixpoint geom_ind' (g : geom) : P g :=
    match g with
    | GPoint c => HPoint c
    | GEmptyPoint => HEmptyPoint
    | GMultiPoint l => HMultiPoint l
    | GLineString l => HLineString l
    | GMultiLineString l => HMultiLineString l
    | GPolygon l => HPolygon l
    | GMultiPolygon l => HMultiPolygon l
    | GCollection l =>
        HCollection l
          ((fix go (l : list geom) : Forall P l :=
              match l with
              | [] => Forall_nil P
              | a :: r => Forall_cons a (geom_ind' a) (go r)
              end) l)
    | GCircularString l => HCircularString l
    | GCompoundCurve l => HCompoundCurve l
    | GCurvePolygon l => HCurvePolygon l
    | GMultiCurve l => HMultiCurve l
    | GMultiSurface l => HMultiSurface l
    | GTriangle l => HTriangle l
    | GPolyhedralSurface l => HPolyhedralSurface l
    | GTin l => HTin l
    end.
End GeomInd.

(** ** Documented callback sequences (geometry_processor.rs:113-409, "Following events").
    [multi] tells whether the consumer asked for extra dimensions (then `coordinate` is
    called, otherwise `xy`). *)
Section Events.
  Variable multi : bool.

  Definition ev_coord (idx : nat) (c : coord) : event :=
    if multi then Coord (cx c) (cy c) (cz c) (cm c) None None idx
    else Xy (cx c) (cy c) idx.

  Definition ev_coords (l : list coord) : list event := mapi ev_coord 0 l.

  (** LineString or ring *)
  Definition ev_line (tagged : bool) (idx : nat) (l : line) : list event :=
    LineStringBegin tagged (length l) idx :: ev_coords l ++ [LineStringEnd tagged idx].

  Definition ev_arc (idx : nat) (l : line) : list event :=
    CircularStringBegin (length l) idx :: ev_coords l ++ [CircularStringEnd idx].

  Definition ev_polygon (tagged : bool) (idx : nat) (r : rings) : list event :=
    PolygonBegin tagged (length r) idx
      :: flat_mapi (ev_line false) 0 r ++ [PolygonEnd tagged idx].

  Definition ev_triangle (tagged : bool) (idx : nat) (r : rings) : list event :=
    TriangleBegin tagged (length r) idx
      :: flat_mapi (ev_line false) 0 r ++ [TriangleEnd tagged idx].

  Definition ev_segment (idx : nat) (s : segment) : list event :=
    match s with SegLine l => ev_line false idx l | SegArc l => ev_arc idx l end.

  Definition ev_compound (idx : nat) (l : list segment) : list event :=
    CompoundCurveBegin (length l) idx :: flat_mapi ev_segment 0 l ++ [CompoundCurveEnd idx].

  Definition ev_curve (idx : nat) (c : curve) : list event :=
    match c with
    | CvLine l => ev_line false idx l
    | CvArc l => ev_arc idx l
    | CvCompound s => ev_compound idx s
    end.

  Definition ev_curvepolygon (idx : nat) (l : list curve) : list event :=
    CurvePolygonBegin (length l) idx :: flat_mapi ev_curve 0 l ++ [CurvePolygonEnd idx].

  Definition ev_surface (idx : nat) (s : surface) : list event :=
    match s with
    | SfPolygon r => ev_polygon false idx r
    | SfCurvePolygon c => ev_curvepolygon idx c
    end.

  Fixpoint gevents (idx : nat) (g : geom) : list event :=
    match g with
    | GPoint c => [PointBegin idx; ev_coord 0 c; PointEnd idx]
    | GEmptyPoint => [EmptyPoint idx]
    | GMultiPoint l => MultiPointBegin (length l) idx :: ev_coords l ++ [MultiPointEnd idx]
    | GLineString l => ev_line true idx l
    | GMultiLineString l =>
        MultiLineStringBegin (length l) idx
          :: flat_mapi (ev_line false) 0 l ++ [MultiLineStringEnd idx]
    | GPolygon r => ev_polygon true idx r
    | GMultiPolygon l =>
        MultiPolygonBegin (length l) idx
          :: flat_mapi (ev_polygon false) 0 l ++ [MultiPolygonEnd idx]
    | GCollection l =>
        CollectionBegin (length l) idx
          :: (fix go (i : nat) (l : list geom) : list event :=
                match l with [] => [] | a :: r => gevents i a ++ go (S i) r end) 0%nat l
          ++ [CollectionEnd idx]
    | GCircularString l => ev_arc idx l
    | GCompoundCurve l => ev_compound idx l
    | GCurvePolygon l => ev_curvepolygon idx l
    | GMultiCurve l =>
        MultiCurveBegin (length l) idx :: flat_mapi ev_curve 0 l ++ [MultiCurveEnd idx]
    | GMultiSurface l =>
        MultiSurfaceBegin (length l) idx :: flat_mapi ev_surface 0 l ++ [MultiSurfaceEnd idx]
    | GTriangle r => ev_triangle true idx r
    | GPolyhedralSurface l =>
        PolyhedralSurfaceBegin (length l) idx
          :: flat_mapi (ev_polygon false) 0 l ++ [PolyhedralSurfaceEnd idx]
    | GTin l =>
        TinBegin (length l) idx :: flat_mapi (ev_triangle false) 0 l ++ [TinEnd idx]
    end.
End Events.

(** ** Nesting of begin/end callbacks *)
Definition level_change (e : event) : Z :=
  match e with
  | PointBegin _ | MultiPointBegin _ _ | LineStringBegin _ _ _ | MultiLineStringBegin _ _
  | PolygonBegin _ _ _ | MultiPolygonBegin _ _ | CollectionBegin _ _ | CircularStringBegin _ _
  | CompoundCurveBegin _ _ | CurvePolygonBegin _ _ | MultiCurveBegin _ _ | MultiSurfaceBegin _ _
  | TriangleBegin _ _ _ | PolyhedralSurfaceBegin _ _ | TinBegin _ _ => 1
  | PointEnd _ | MultiPointEnd _ | LineStringEnd _ _ | MultiLineStringEnd _
  | PolygonEnd _ _ | MultiPolygonEnd _ | CollectionEnd _ | CircularStringEnd _
  | CompoundCurveEnd _ | CurvePolygonEnd _ | MultiCurveEnd _ | MultiSurfaceEnd _
  | TriangleEnd _ _ | PolyhedralSurfaceEnd _ | TinEnd _ => -1
  | _ => 0
  end.
(** containers still open after the callbacks [l] *)
Fixpoint nesting (l : list event) : Z :=
  match l with [] => 0 | e :: r => level_change e + nesting r end%Z.
