(** Vocabulary of the exact theorem of C57 (specification side): what the tessellator makes of the parts of
    a geometry, of whatever kind. *)
From Coq Require Import String Ascii.
From Coq Require Import List NArith ZArith Lia Bool.
From Verif Require Import Base Event Geom TessModel TessSpec.
Import ListNotations.
Local Open Scope list_scope.

(** The parts of a geometry in order: positions in a row that nothing closes (points, arcs), a line or ring
    inside something else, a line on its own, the end of a polygon, an empty point. *)
Inductive part := Loose (l : line) | Sub (l : line) | Alone (l : line) | PolygonDone | Nowhere.
Definition rings_parts (r : rings) : list part := map Sub r.
Definition polygon_parts (r : rings) : list part := rings_parts r ++ [PolygonDone].
Definition segment_parts (s : segment) : list part := match s with SegLine l => [Sub l] | SegArc l => [Loose l] end.
Definition curve_parts (c : curve) : list part :=
  match c with CvLine l => [Sub l] | CvArc l => [Loose l] | CvCompound s => flat_map segment_parts s end.
Definition surface_parts (s : surface) : list part :=
  match s with SfPolygon r => polygon_parts r | SfCurvePolygon c => flat_map curve_parts c end.
Fixpoint geom_parts (g : geom) : list part :=
  match g with
  | GPoint c => [Loose [c]]
  | GEmptyPoint => [Nowhere]
  | GMultiPoint l | GCircularString l => [Loose l]
  | GLineString l => [Alone l]
  | GMultiLineString l => rings_parts l
  | GPolygon r => polygon_parts r
  | GMultiPolygon l | GPolyhedralSurface l => flat_map polygon_parts l
  | GCollection l => flat_map geom_parts l
  | GCompoundCurve l => flat_map segment_parts l
  | GCurvePolygon l | GMultiCurve l => flat_map curve_parts l
  | GMultiSurface l => flat_map surface_parts l
  | GTriangle r => rings_parts r
  | GTin l => flat_map rings_parts l
  end.

(** what has gathered: the path since the last polygon or single line, whether its last sub path is open,
    and the output *)
Record held := mkHeld { h_path : list pathev; h_open : bool; h_out : list out }.
Definition nothing : held := mkHeld [] false [].

Section Take.
  Variable narrow : f64 -> N.
  Variable ly : lyon.
  (** positions in a row begin a sub path; a build with checks refuses them inside another one *)
  Definition traced (l : line) (h : held) : res held :=
    match l with
    | [] => Ok h
    | c :: r =>
        if checks ly && (h_open h || negb (forallb (fun d => point_ok ly (pos_of narrow d)) l)) then Err EPanic
        else Ok (mkHeld (h_path h ++ PBegin (pos_of narrow c) :: map (fun d => PLine (pos_of narrow d)) r) true (h_out h))
    end.
  Definition closed (h : held) : held :=
    if h_open h then mkHeld (h_path h ++ [PClose]) false (h_out h) else h.
  (** a single line is stroked together with all that has gathered, without output *)
  Definition stroked (h : held) : res held :=
    match stroke ly (h_path h) with Ok _ => Ok (mkHeld [] false (h_out h)) | Err _ => Err EPanic end.
  (** so is a polygon filled: vertices and triangles *)
  Definition filled (h : held) : res held :=
    match fill ly (h_path h) with
    | Ok (vs, idx) =>
        if Nat.eqb (length idx mod 3) 0 then Ok (mkHeld [] false (h_out h ++ map OVertex vs ++ faces idx)) else Err EPanic
    | Err _ => Err EPanic
    end.
  Definition then_ {A B} (r : res A) (f : A -> res B) : res B := match r with Ok a => f a | Err e => Err e end.
  Definition take (p : part) (h : held) : res held :=
    match p with
    | Loose l => traced l h
    | Sub l => then_ (traced l h) (fun h => Ok (closed h))
    | Alone l => then_ (traced l h) (fun h => stroked (closed h))
    | PolygonDone => filled (closed h)
    | Nowhere => Err EGeometry
    end.
  Fixpoint takes (l : list part) (h : held) : res held :=
    match l with [] => Ok h | p :: r => then_ (take p h) (takes r) end.
End Take.
