(** Vocabulary of the exact GEOS claim (specification side): which pieces of a geometry GeosWriter
    keeps and when it refuses. *)
From Coq Require Import String Ascii.
From Coq Require Import List NArith ZArith Lia Bool.
From Verif Require Import Base Event Geom GeosModel GeosSpec.
Import ListNotations.
Local Open Scope list_scope.

(** The parts of a geometry in the order of delivery: what GEOS knows ([Whole]); polygons of a
    surface; lines and arcs of curves, curve polygons and triangles; empty points *)
Inductive piece : Type :=
| Whole (g : geom)
| Face (r : rings)
| Open (l : line)
| Arc (l : line)
| Nowhere.
Definition segment_piece (s : segment) : piece := match s with SegLine l => Open l | SegArc l => Arc l end.
Definition curve_pieces (c : curve) : list piece :=
  match c with CvLine l => [Open l] | CvArc l => [Arc l] | CvCompound s => map segment_piece s end.
Definition surface_pieces (s : surface) : list piece :=
  match s with SfPolygon r => [Face r] | SfCurvePolygon c => flat_map curve_pieces c end.
Fixpoint pieces (g : geom) : list piece :=
  match g with
  | GEmptyPoint => [Nowhere]
  | GCollection l => flat_map pieces l
  | GCircularString l => [Arc l]
  | GCompoundCurve l => map segment_piece l
  | GCurvePolygon l | GMultiCurve l => flat_map curve_pieces l
  | GMultiSurface l => flat_map surface_pieces l
  | GTriangle r => map Open r
  | GPolyhedralSurface l => map Face l
  | GTin l => flat_map (map Open) l
  | _ => [Whole g]
  end.

(** The writer goes through with these pieces.  [room] is the length of the line left over from a
    triangle or curve before; the positions of an arc are put there. *)
Definition fits (room : option nat) (l : line) : bool :=
  match l, room with
  | [], _ => true
  | _, Some n => Nat.leb (length l) n
  | _, None => false
  end.
Definition room_after (p : piece) (room : option nat) : option nat :=
  match p with
  | Open l => Some (length l)
  | Whole (GMultiPolygon []) | Arc _ | Nowhere => room
  | Whole _ | Face _ => None
  end.
Definition passes (lib : geos_lib) (room : option nat) (p : piece) : bool :=
  match p with
  | Whole g => accepted lib g
  | Face r => rings_ok lib r
  | Open _ => true
  | Arc l => fits room l
  | Nowhere => false
  end.
Fixpoint pass (lib : geos_lib) (room : option nat) (l : list piece) : bool :=
  match l with [] => true | p :: r => passes lib room p && pass lib (room_after p room) r end.

(** what is left: the last part GEOS knows *)
Fixpoint last_whole (l : list piece) : option geom :=
  match l with
  | [] => None
  | p :: r => match last_whole r with Some g => Some g | None => match p with Whole g => Some g | _ => None end end
  end.
Definition left_of (l : list piece) (srid : option Z) : gval :=
  match last_whole l with Some g => mkVal (gvalue g) (opt_default 0%Z srid) | None => mkVal empty_point 0%Z end.

(** sizes *)
Definition short_piece (p : piece) : Prop :=
  match p with Whole g => short_geom g | Face r => short_rings r | Open l => short l | _ => True end.
