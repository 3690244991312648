(** Vocabulary of the GPX claims (specification side). *)
From Coq Require Import List NArith ZArith Bool.
From Verif Require Import Base Event Claims Geom GpxModel.
Import ListNotations.
Local Open Scope list_scope.

(** ** Announced sizes and indices *)
(** the kinds of containers *)
Inductive kind := KPoint | KMultiPoint | KLine (t : bool) | KMultiLine | KPolygon (t : bool) | KMultiPolygon
  | KCollection | KArc | KCompound | KCurvePolygon | KMultiCurve | KMultiSurface | KTriangle (t : bool) | KPolyhedral | KTin.
Definition kind_dec : forall a b : kind, {a = b} + {a <> b}.
Proof. decide equality; apply bool_dec. Defined.
(** kind, announced size and index of a container that begins *)
Definition opens (e : event) : option (kind * nat * nat) :=
  match e with
  | PointBegin i => Some (KPoint, 1, i)
  | MultiPointBegin n i => Some (KMultiPoint, n, i)
  | LineStringBegin t n i => Some (KLine t, n, i)
  | MultiLineStringBegin n i => Some (KMultiLine, n, i)
  | PolygonBegin t n i => Some (KPolygon t, n, i)
  | MultiPolygonBegin n i => Some (KMultiPolygon, n, i)
  | CollectionBegin n i => Some (KCollection, n, i)
  | CircularStringBegin n i => Some (KArc, n, i)
  | CompoundCurveBegin n i => Some (KCompound, n, i)
  | CurvePolygonBegin n i => Some (KCurvePolygon, n, i)
  | MultiCurveBegin n i => Some (KMultiCurve, n, i)
  | MultiSurfaceBegin n i => Some (KMultiSurface, n, i)
  | TriangleBegin t n i => Some (KTriangle t, n, i)
  | PolyhedralSurfaceBegin n i => Some (KPolyhedral, n, i)
  | TinBegin n i => Some (KTin, n, i)
  | _ => None
  end.
Definition closes (e : event) : option (kind * nat) :=
  match e with
  | PointEnd i => Some (KPoint, i)
  | MultiPointEnd i => Some (KMultiPoint, i)
  | LineStringEnd t i => Some (KLine t, i)
  | MultiLineStringEnd i => Some (KMultiLine, i)
  | PolygonEnd t i => Some (KPolygon t, i)
  | MultiPolygonEnd i => Some (KMultiPolygon, i)
  | CollectionEnd i => Some (KCollection, i)
  | CircularStringEnd i => Some (KArc, i)
  | CompoundCurveEnd i => Some (KCompound, i)
  | CurvePolygonEnd i => Some (KCurvePolygon, i)
  | MultiCurveEnd i => Some (KMultiCurve, i)
  | MultiSurfaceEnd i => Some (KMultiSurface, i)
  | TriangleEnd t i => Some (KTriangle t, i)
  | PolyhedralSurfaceEnd i => Some (KPolyhedral, i)
  | TinEnd i => Some (KTin, i)
  | _ => None
  end.
(** members that are no containers *)
Definition leaf (e : event) : option nat :=
  match e with Xy _ _ i | Coord _ _ _ _ _ _ i | EmptyPoint i => Some i | _ => None end.

(** an open container: kind, announced size, index, members so far *)
Record frame := mkFrame { fr_kind : kind; fr_size : nat; fr_index : nat; fr_seen : nat }.
Definition one_more (f : frame) : frame := mkFrame (fr_kind f) (fr_size f) (fr_index f) (S (fr_seen f)).
(** members are numbered 0, 1, ... in each container; a container ends with as many members as
    announced, with the index it began with *)
Definition announced_step (st : list frame) (e : event) : option (list frame) :=
  match st with
  | [] => None
  | f :: r =>
      match leaf e, opens e, closes e with
      | Some i, _, _ => if Nat.eqb i (fr_seen f) then Some (one_more f :: r) else None
      | _, Some (k, n, i), _ =>
          if Nat.eqb i (fr_seen f) then Some (mkFrame k n i 0 :: one_more f :: r) else None
      | _, _, Some (k, i) =>
          if kind_dec k (fr_kind f) then
            if Nat.eqb i (fr_index f) && Nat.eqb (fr_seen f) (fr_size f) then Some r else None
          else None
      | _, _, _ => None
      end
  end.
Fixpoint announced_run (st : list frame) (l : list event) : option (list frame) :=
  match l with
  | [] => Some st
  | e :: r => match announced_step st e with Some st' => announced_run st' r | None => None end
  end.
(** [l] is one geometry whose containers are announced correctly *)
Definition well_announced (l : list event) : Prop :=
  forall f st, fr_seen f = 0%nat -> announced_run (f :: st) l = Some (one_more f :: st).

(** ** Documents *)
Definition point_of (p : waypoint) : coord := mkC (fst p) (snd p) None None.
(** nothing empty, at most one route *)
Definition tidy (g : gpx) : Prop :=
  Forall (fun t => t <> [] /\ Forall (fun s => s <> []) t) (gpx_tracks g) /\
  Forall (fun r => r <> []) (gpx_routes g) /\ (length (gpx_routes g) <= 1)%nat.
(** the collection of the waypoints, the tracks and one member for all routes *)
Definition gpx_geom (g : gpx) : geom :=
  GCollection (map (fun p => GPoint (point_of p)) (gpx_waypoints g) ++
               map (fun t => GMultiLineString (map (map point_of) t)) (gpx_tracks g) ++
               match gpx_routes g with [] => [] | r => [GMultiLineString (map (map point_of) r)] end).
