(** Callbacks in any order, for C75: what a sequence of callbacks opens and closes. *)
From Coq Require Import String Ascii.
From Coq Require Import List NArith ZArith Lia Bool.
From Verif Require Import Base Event.
Import ListNotations.

(** the callbacks that begin, and that end, a geometry or a part of one *)
Definition begins_geometry (e : event) : bool :=
  match e with
  | PointBegin _ | MultiPointBegin _ _ | LineStringBegin _ _ _ | MultiLineStringBegin _ _
  | PolygonBegin _ _ _ | MultiPolygonBegin _ _ | CollectionBegin _ _ | CircularStringBegin _ _
  | CompoundCurveBegin _ _ | CurvePolygonBegin _ _ | MultiCurveBegin _ _ | MultiSurfaceBegin _ _
  | TriangleBegin _ _ _ | PolyhedralSurfaceBegin _ _ | TinBegin _ _ => true
  | _ => false
  end.
Definition ends_geometry (e : event) : bool :=
  match e with
  | PointEnd _ | MultiPointEnd _ | LineStringEnd _ _ | MultiLineStringEnd _
  | PolygonEnd _ _ | MultiPolygonEnd _ | CollectionEnd _ | CircularStringEnd _
  | CompoundCurveEnd _ | CurvePolygonEnd _ | MultiCurveEnd _ | MultiSurfaceEnd _
  | TriangleEnd _ _ | PolyhedralSurfaceEnd _ | TinEnd _ => true
  | _ => false
  end.

(** those of the types made of further geometries of their own *)
Definition begins_multi (e : event) : bool :=
  match e with
  | MultiPointBegin _ _ | MultiLineStringBegin _ _ | MultiPolygonBegin _ _ | CollectionBegin _ _
  | MultiCurveBegin _ _ | MultiSurfaceBegin _ _ => true
  | _ => false
  end.
Definition ends_multi (e : event) : bool :=
  match e with
  | MultiPointEnd _ | MultiLineStringEnd _ | MultiPolygonEnd _ | CollectionEnd _
  | MultiCurveEnd _ | MultiSurfaceEnd _ => true
  | _ => false
  end.

(** those GeoJSON has a name for: features and the seven types of the simple features *)
Definition begins_json (e : event) : bool :=
  match e with
  | FeatureBegin _ | PointBegin _ | MultiPointBegin _ _ | LineStringBegin _ _ _ | MultiLineStringBegin _ _
  | PolygonBegin _ _ _ | MultiPolygonBegin _ _ | CollectionBegin _ _ => true
  | _ => false
  end.
Definition ends_json (e : event) : bool :=
  match e with
  | FeatureEnd _ | PointEnd _ | MultiPointEnd _ | LineStringEnd _ _ | MultiLineStringEnd _
  | PolygonEnd _ _ | MultiPolygonEnd _ | CollectionEnd _ => true
  | _ => false
  end.

Definition is_empty_point (e : event) : bool := match e with EmptyPoint _ => true | _ => false end.

Definition count (f : event -> bool) (l : list event) : nat := length (filter f l).

(** at some moment more has been ended than was begun *)
Definition overdrawn (begins ends : event -> bool) (l : list event) : Prop :=
  exists now later, l = now ++ later /\ count begins now < count ends now.

(** a size no vector can have on a 64-bit machine *)
Definition huge (bytes : N) (size : nat) : Prop := (2 ^ 63 <= N.of_nat size * bytes)%N.

(** a position, and what positions are given to *)
Definition takes_positions (e : event) : bool :=
  match e with PointBegin _ | MultiPointBegin _ _ | LineStringBegin _ _ _ => true | _ => false end.
Definition is_xy (e : event) : bool := match e with Xy _ _ _ => true | _ => false end.
(** a polygon of a multipolygon *)
Definition adds_polygon (e : event) : bool := match e with PolygonBegin false _ _ => true | _ => false end.
