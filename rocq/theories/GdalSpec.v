(** Vocabulary of the GDAL claims (specification side). *)
From Coq Require Import String Ascii.
From Coq Require Import List NArith ZArith Lia Bool.
From Verif Require Import Base Event Geom GdalModel.
Import ListNotations.
Local Open Scope N_scope.
Local Open Scope list_scope.

(** ** The geometry tree of an OGR geometry, if its members have the types they should have *)
Definition collect {A B} (f : A -> option B) : list A -> option (list B) :=
  fix go (l : list A) : option (list B) :=
    match l with
    | [] => Some []
    | a :: r => match f a, go r with Some b, Some s => Some (b :: s) | _, _ => None end
    end.
Definition pos_of (p : pt) : coord := let '(x, y, z) := p in mkC x y (Some z) None.
Definition line_of (g : og) : line := map pos_of (o_pts g).
Definition point_tree (g : og) : option coord :=
  match o_kind g, o_pts g with OPoint, [p] => Some (pos_of p) | _, _ => None end.
Definition line_tree (g : og) : option line :=
  match o_kind g with OLineString => Some (line_of g) | _ => None end.
Definition rings_tree (g : og) : option rings := collect line_tree (o_kids g).
Definition segment_tree (g : og) : option segment :=
  match o_kind g with
  | OLineString => Some (SegLine (line_of g))
  | OCircularString => Some (SegArc (line_of g))
  | _ => None
  end.
Definition curve_tree (g : og) : option curve :=
  match o_kind g with
  | OLineString => Some (CvLine (line_of g))
  | OCircularString => Some (CvArc (line_of g))
  | OCompoundCurve => option_map CvCompound (collect segment_tree (o_kids g))
  | _ => None
  end.
Definition surface_tree (g : og) : option surface :=
  match o_kind g with
  | OPolygon => option_map SfPolygon (rings_tree g)
  | OCurvePolygon => option_map SfCurvePolygon (collect curve_tree (o_kids g))
  | _ => None
  end.
Definition polygon_tree (g : og) : option rings :=
  match o_kind g with OPolygon => rings_tree g | _ => None end.
(** a member of a polyhedral surface *)
Definition patch_tree (g : og) : option rings :=
  match o_kind g with OPolygon | OTriangle => rings_tree g | _ => None end.
Definition triangle_tree (g : og) : option rings :=
  match o_kind g with OTriangle => rings_tree g | _ => None end.
Fixpoint tree (g : og) : option geom :=
  match g with
  | Og k _ _ pts kids =>
      match k with
      | OPoint => match pts with [] => Some GEmptyPoint | [p] => Some (GPoint (pos_of p)) | _ => None end
      | OLineString => Some (GLineString (line_of g))
      | OPolygon => option_map GPolygon (rings_tree g)
      | OMultiPoint => option_map GMultiPoint (collect point_tree kids)
      | OMultiLineString => option_map GMultiLineString (collect line_tree kids)
      | OMultiPolygon => option_map GMultiPolygon (collect polygon_tree kids)
      | OCollection => option_map GCollection (collect tree kids)
      | OCircularString => Some (GCircularString (line_of g))
      | OCompoundCurve => option_map GCompoundCurve (collect segment_tree kids)
      | OCurvePolygon => option_map GCurvePolygon (collect curve_tree kids)
      | OMultiCurve => option_map GMultiCurve (collect curve_tree kids)
      | OMultiSurface => option_map GMultiSurface (collect surface_tree kids)
      | OTriangle => option_map GTriangle (rings_tree g)
      | OPolyhedralSurface => option_map GPolyhedralSurface (collect patch_tree kids)
      | OTin => option_map GTin (collect triangle_tree kids)
      | OOther _ => None
      end
  end.
(** [g] with its empty points replaced by [missing] *)
Definition fill_point (missing : pt) (g : og) : og :=
  match g with
  | Og OPoint z m pts kids => Og OPoint z m [hd missing pts] kids
  | _ => g
  end.
Fixpoint fill (missing : pt) (g : og) : og :=
  match g with
  | Og OPoint _ _ _ _ => fill_point missing g
  | Og OMultiPoint z m pts kids => Og OMultiPoint z m pts (map (fill_point missing) kids)
  | Og OCollection z m pts kids => Og OCollection z m pts (map (fill missing) kids)
  | _ => g
  end.
(** the members of polyhedral surfaces are polygons or triangles, those of TINs are triangles *)
Fixpoint surfaces_ok (g : og) : Prop :=
  match g with
  | Og OPolyhedralSurface _ _ _ kids => Forall (fun a => o_kind a = OPolygon \/ o_kind a = OTriangle) kids
  | Og OTin _ _ _ kids => Forall (fun a => o_kind a = OTriangle) kids
  | Og OCollection _ _ _ kids => (fix all l := match l with [] => True | a :: r => surfaces_ok a /\ all r end) kids
  | _ => True
  end.
Definition empty_point : og := Og OPoint false false [] [].

(** ** The OGR geometry of a geometry tree *)
(** [h]: with z and m flags, z values stored *)
Section Value.
  Variable h : bool.
  Definition pt_of (c : coord) : pt :=
    (cx c, cy c, if h then opt_default f64_zero (cz c) else f64_zero).
  Definition line_value (l : line) : og := Og OLineString h h (map pt_of l) [].
  Definition poly_value (r : rings) : og := Og OPolygon h h [] (map line_value r).
  Definition point_value (c : coord) : og := Og OPoint h h [pt_of c] [].
  (** (the last case is not used for simple geometries) *)
  Definition gvalue (g : geom) : og :=
    match g with
    | GPoint c => point_value c
    | GMultiPoint l => Og OMultiPoint h h [] (map point_value l)
    | GLineString l => line_value l
    | GMultiLineString l => Og OMultiLineString h h [] (map line_value l)
    | GPolygon r => poly_value r
    | GMultiPolygon l => Og OMultiPolygon h h [] (map poly_value l)
    | _ => Og OCollection h h [] []
    end.
End Value.
(** the kinds the writer handles *)
Definition simple (g : geom) : bool :=
  match g with
  | GPoint _ | GMultiPoint _ | GLineString _ | GMultiLineString _ | GPolygon _ | GMultiPolygon _ => true
  | _ => false
  end.
(** positions are numbered with an i32 *)
Definition short {A} (l : list A) : Prop := N.of_nat (length l) <= 2 ^ 31.
Definition short_geom (g : geom) : Prop :=
  match g with
  | GLineString l => short l
  | GMultiLineString l | GPolygon l => Forall short l
  | GMultiPolygon l => Forall (Forall short) l
  | _ => True
  end.
(** is there a position in [g]? *)
Definition positions (g : geom) : list coord :=
  match g with
  | GPoint c => [c]
  | GMultiPoint l => l
  | GLineString l => l
  | GMultiLineString l | GPolygon l => concat l
  | GMultiPolygon l => concat (concat l)
  | _ => []
  end.
Definition srids (l : list event) : Prop := Forall (fun e => exists v, e = Srid v) l.
