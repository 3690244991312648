(** Vocabulary of the geo-types claims (specification side). *)
From Coq Require Import String Ascii.
From Coq Require Import List NArith ZArith Lia Bool.
From Verif Require Import Base Float Event Claims Geom GeoModel.
Import ListNotations.
Local Open Scope N_scope.
Local Open Scope list_scope.

(** ** Which geo_types value a geometry tree stands for *)
Definition xy_of (c : coord) : pos := (cx c, cy c).
Definition line_of (l : line) : lstr := map xy_of l.

(** a ring repeats its first position at the end (compared as numbers) *)
Definition closed_ring (l : lstr) : Prop :=
  match l with
  | [] => True
  | a :: _ => f64_eqb (fst a) (fst (last l a)) = true /\ f64_eqb (snd a) (snd (last l a)) = true
  end.
(** the ring with its closing position *)
Definition ring_of (l : line) : lstr :=
  let l := line_of l in
  match l with
  | [] => []
  | a :: _ => if f64_eqb (fst a) (fst (last l a)) && f64_eqb (snd a) (snd (last l a)) then l else l ++ [a]
  end.
Definition poly_of (r : rings) : poly :=
  match r with
  | [] => ([], [])
  | e :: i => (ring_of e, map ring_of i)
  end.

(** the seven geometry types geo_types has in common with the callbacks *)
Fixpoint plain (g : geom) : bool :=
  match g with
  | GPoint _ | GMultiPoint _ | GLineString _ | GMultiLineString _ | GPolygon _ | GMultiPolygon _ => true
  | GCollection l => forallb plain l
  | _ => false
  end.
(** (the last case is not used for plain geometries) *)
Fixpoint value_of (g : geom) : gt :=
  match g with
  | GPoint c => TPoint (xy_of c)
  | GMultiPoint l => TMultiPoint (map xy_of l)
  | GLineString l => TLineString (line_of l)
  | GMultiLineString l => TMultiLineString (map line_of l)
  | GPolygon r => TPolygon (poly_of r)
  | GMultiPolygon l => TMultiPolygon (map poly_of l)
  | GCollection l => TCollection (map value_of l)
  | _ => TCollection []
  end.

(** ** The 16 MiB preallocation budget *)
Definition fits {A} (bytes : N) (l : list A) : Prop := N.of_nat (length l) * bytes <= 16777216.
Definition small_rings (r : rings) : Prop := fits 24 r /\ Forall (fits 16) r.
Fixpoint small (g : geom) : Prop :=
  match g with
  | GPoint _ => True
  | GMultiPoint l => fits 16 l
  | GLineString l => fits 16 l
  | GMultiLineString l => fits 24 l /\ Forall (fits 16) l
  | GPolygon r => small_rings r
  | GMultiPolygon l => fits 48 l /\ Forall small_rings l
  | GCollection l => fits 56 l /\ (fix all l := match l with [] => True | a :: r => small a /\ all r end) l
  | _ => True
  end.

(** ** Trees of geo_types values *)
Definition at_xy (p : pos) : coord := mkC (fst p) (snd p) None None.
Definition tree_line (l : lstr) : line := map at_xy l.
Definition tree_poly (p : poly) : rings := tree_line (fst p) :: map tree_line (snd p).

Section Tree.
  Variable rect_polygon : pos -> pos -> poly.
  Variable triangle_polygon : pos -> pos -> pos -> poly.

  (** Line is a LineString of two positions, Rect and Triangle are the polygons geo_types
      makes of them *)
  Fixpoint normal (g : gt) : gt :=
    match g with
    | TLine a b => TLineString [a; b]
    | TRect a b => TPolygon (rect_polygon a b)
    | TTriangle a b c => TPolygon (triangle_polygon a b c)
    | TCollection l => TCollection (map normal l)
    | _ => g
    end.
  Fixpoint tree (g : gt) : geom :=
    match g with
    | TPoint p => GPoint (at_xy p)
    | TLine a b => GLineString (tree_line [a; b])
    | TLineString l => GLineString (tree_line l)
    | TPolygon p => GPolygon (tree_poly p)
    | TMultiPoint l => GMultiPoint (map at_xy l)
    | TMultiLineString l => GMultiLineString (map tree_line l)
    | TMultiPolygon l => GMultiPolygon (map tree_poly l)
    | TCollection l => GCollection (map tree l)
    | TRect a b => GPolygon (tree_poly (rect_polygon a b))
    | TTriangle a b c => GPolygon (tree_poly (triangle_polygon a b c))
    end.
  (** every ring of every polygon in [g] is closed (an invariant geo_types keeps for rings whose
      first position is not NaN) *)
  Definition closed_poly (p : poly) : Prop := closed_ring (fst p) /\ Forall closed_ring (snd p).
  Fixpoint closed (g : gt) : Prop :=
    match g with
    | TPolygon p => closed_poly p
    | TMultiPolygon l => Forall closed_poly l
    | TCollection l => (fix all l := match l with [] => True | a :: r => closed a /\ all r end) l
    | TRect a b => closed_poly (rect_polygon a b)
    | TTriangle a b c => closed_poly (triangle_polygon a b c)
    | _ => True
    end.
End Tree.

(** the polygons of the crate: counterclockwise from the lower right corner, closed triangle *)
Definition sample_rect (a b : pos) : poly :=
  ([(fst b, snd a); b; (fst a, snd b); a; (fst b, snd a)], []).
Definition sample_triangle (a b c : pos) : poly := ([a; b; c; a], []).

(** ** Features *)
(** a feature: its properties in order of delivery and its geometries *)
Definition ftr : Type := (list (nat * string * colval) * list geom)%type.
Definition feature_obs (multi : bool) (i : nat) (f : ftr) : list obs :=
  OEv (FeatureBegin i) :: OEv PropertiesBegin ::
  map (fun q => OProp (fst (fst q)) (snd (fst q)) (snd q)) (fst f) ++
  OEv PropertiesEnd :: OEv GeometryBegin ::
  map OEv (flat_mapi (gevents multi) 0 (snd f)) ++ [OEv GeometryEnd; OEv (FeatureEnd i)].
Definition dataset_obs (multi : bool) (name : option string) (l : list ftr) : list obs :=
  OEv (DatasetBegin name) :: flat_mapi (feature_obs multi) 0 l ++ [OEv DatasetEnd].
(** the single geometry, or the collection of several *)
Definition joined (l : list geom) : gt :=
  match l with [g] => value_of g | _ => TCollection (map value_of l) end.
(** the value of the last property called [n] *)
Definition last_value (l : list (nat * string * colval)) (n : string) : option colval :=
  match find (fun q => String.eqb (snd (fst q)) n) (rev l) with Some q => Some (snd q) | None => None end.
