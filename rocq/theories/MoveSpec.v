(** What C88 is stated with: inputs whose coordinates are moved. *)
From Coq Require Import String Ascii.
From Coq Require Import List NArith ZArith Bool.
From Verif Require Import Base Float Event Geom ProcModel.
From Verif Require WktModel GeoModel GeosModel GdalModel GpxModel GeoJsonModel MvtModel.
Import ListNotations.

(** Reading the second source is the same, for every processor, as reading the first one through a
    WrappedXYProcessor with the function [f]. *)
Definition reads_moved {A} (f : f64 -> f64 -> f64 * f64) (src moved : dims -> prog A) : Prop :=
  forall S (p : proc S) s, exec p (moved (p_dims p)) s = exec (wrapped_xy f p) (src (p_dims p)) s.

Section Move.
  Variable f : f64 -> f64 -> f64 * f64.

  Definition mv (p : f64 * f64) : f64 * f64 := f (fst p) (snd p).

  (** documented geometry trees and parsed WKT: z and m stay *)
  Definition mv_coord (c : coord) : coord := mkC (fst (f (cx c) (cy c))) (snd (f (cx c) (cy c))) (cz c) (cm c).
  Definition mv_segment (s : segment) : segment :=
    match s with SegLine l => SegLine (map mv_coord l) | SegArc l => SegArc (map mv_coord l) end.
  Definition mv_curve (c : curve) : curve :=
    match c with
    | CvLine l => CvLine (map mv_coord l)
    | CvArc l => CvArc (map mv_coord l)
    | CvCompound s => CvCompound (map mv_segment s)
    end.
  Definition mv_surface (s : surface) : surface :=
    match s with
    | SfPolygon r => SfPolygon (map (map mv_coord) r)
    | SfCurvePolygon c => SfCurvePolygon (map mv_curve c)
    end.
  Fixpoint mv_geom (g : geom) : geom :=
    match g with
    | GPoint c => GPoint (mv_coord c)
    | GEmptyPoint => GEmptyPoint
    | GMultiPoint l => GMultiPoint (map mv_coord l)
    | GLineString l => GLineString (map mv_coord l)
    | GMultiLineString l => GMultiLineString (map (map mv_coord) l)
    | GPolygon r => GPolygon (map (map mv_coord) r)
    | GMultiPolygon l => GMultiPolygon (map (map (map mv_coord)) l)
    | GCollection l => GCollection (map mv_geom l)
    | GCircularString l => GCircularString (map mv_coord l)
    | GCompoundCurve l => GCompoundCurve (map mv_segment l)
    | GCurvePolygon l => GCurvePolygon (map mv_curve l)
    | GMultiCurve l => GMultiCurve (map mv_curve l)
    | GMultiSurface l => GMultiSurface (map mv_surface l)
    | GTriangle r => GTriangle (map (map mv_coord) r)
    | GPolyhedralSurface l => GPolyhedralSurface (map (map (map mv_coord)) l)
    | GTin l => GTin (map (map (map mv_coord)) l)
    end.
  Fixpoint mv_wkt (g : WktModel.wkt) : WktModel.wkt :=
    match g with
    | WktModel.WPoint c => WktModel.WPoint (option_map mv_coord c)
    | WktModel.WMultiPoint l => WktModel.WMultiPoint (map (option_map mv_coord) l)
    | WktModel.WLineString l => WktModel.WLineString (map mv_coord l)
    | WktModel.WMultiLineString l => WktModel.WMultiLineString (map (map mv_coord) l)
    | WktModel.WPolygon r => WktModel.WPolygon (map (map mv_coord) r)
    | WktModel.WMultiPolygon l => WktModel.WMultiPolygon (map (map (map mv_coord)) l)
    | WktModel.WCollection l => WktModel.WCollection (map mv_wkt l)
    end.

  (** geo-types; a rectangle or a triangle need not stay one: it becomes the moved polygon *)
  Definition mv_poly (p : GeoModel.poly) : GeoModel.poly := (map mv (fst p), map (map mv) (snd p)).
  Fixpoint mv_geo rect tri (g : GeoModel.gt) : GeoModel.gt :=
    match g with
    | GeoModel.TPoint p => GeoModel.TPoint (mv p)
    | GeoModel.TLine a b => GeoModel.TLine (mv a) (mv b)
    | GeoModel.TLineString l => GeoModel.TLineString (map mv l)
    | GeoModel.TPolygon p => GeoModel.TPolygon (mv_poly p)
    | GeoModel.TMultiPoint l => GeoModel.TMultiPoint (map mv l)
    | GeoModel.TMultiLineString l => GeoModel.TMultiLineString (map (map mv) l)
    | GeoModel.TMultiPolygon l => GeoModel.TMultiPolygon (map mv_poly l)
    | GeoModel.TCollection l => GeoModel.TCollection (map (mv_geo rect tri) l)
    | GeoModel.TRect a b => GeoModel.TPolygon (mv_poly (rect a b))
    | GeoModel.TTriangle a b c => GeoModel.TPolygon (mv_poly (tri a b c))
    end.

  (** GEOS, GDAL: a third number stays *)
  Definition mv3 (p : f64 * f64 * f64) : f64 * f64 * f64 := (mv (fst p), snd p).
  Definition mv_seq (s : GeosModel.cseq) : GeosModel.cseq :=
    match s with GeosModel.Flat l => GeosModel.Flat (map mv l) | GeosModel.Tall l => GeosModel.Tall (map mv3 l) end.
  Fixpoint mv_geos (g : GeosModel.gg) : GeosModel.gg :=
    match g with
    | GeosModel.KPoint s => GeosModel.KPoint (mv_seq s)
    | GeosModel.KLineString s => GeosModel.KLineString (mv_seq s)
    | GeosModel.KLinearRing s => GeosModel.KLinearRing (mv_seq s)
    | GeosModel.KPolygon e i => GeosModel.KPolygon (mv_seq e) (map mv_seq i)
    | GeosModel.KMultiPoint l => GeosModel.KMultiPoint (map mv_seq l)
    | GeosModel.KMultiLineString l => GeosModel.KMultiLineString (map mv_seq l)
    | GeosModel.KMultiPolygon l => GeosModel.KMultiPolygon (map (fun p => (mv_seq (fst p), map mv_seq (snd p))) l)
    | GeosModel.KCollection l => GeosModel.KCollection (map mv_geos l)
    end.
  Fixpoint mv_gdal (g : GdalModel.og) : GdalModel.og :=
    match g with GdalModel.Og k z m pts kids => GdalModel.Og k z m (map mv3 pts) (map mv_gdal kids) end.

  Definition mv_gpx (g : GpxModel.gpx) : GpxModel.gpx :=
    GpxModel.mkGpx (map mv (GpxModel.gpx_waypoints g)) (map (map (map mv)) (GpxModel.gpx_tracks g)) (map (map mv) (GpxModel.gpx_routes g)).

  (** GeoJSON: the first two numbers of a position *)
  Definition mv_pos (p : list f64) : list f64 :=
    match p with x :: y :: r => fst (f x y) :: snd (f x y) :: r | _ => p end.
  Fixpoint mv_json (g : GeoJsonModel.gjgeom) : GeoJsonModel.gjgeom :=
    match g with
    | GeoJsonModel.GjPoint p => GeoJsonModel.GjPoint (mv_pos p)
    | GeoJsonModel.GjMultiPoint l => GeoJsonModel.GjMultiPoint (map mv_pos l)
    | GeoJsonModel.GjLineString l => GeoJsonModel.GjLineString (map mv_pos l)
    | GeoJsonModel.GjMultiLineString l => GeoJsonModel.GjMultiLineString (map (map mv_pos) l)
    | GeoJsonModel.GjPolygon l => GeoJsonModel.GjPolygon (map (map mv_pos) l)
    | GeoJsonModel.GjMultiPolygon l => GeoJsonModel.GjMultiPolygon (map (map (map mv_pos)) l)
    | GeoJsonModel.GjCollection l => GeoJsonModel.GjCollection (map mv_json l)
    end.
  Definition mv_feature (x : GeoJsonModel.gjfeature) : GeoJsonModel.gjfeature :=
    GeoJsonModel.mkGjFeature (option_map mv_json (GeoJsonModel.gf_geometry x)) (GeoJsonModel.gf_properties x).
  Definition mv_doc (d : GeoJsonModel.gj) : GeoJsonModel.gj :=
    match d with
    | GeoJsonModel.GjFeatures l => GeoJsonModel.GjFeatures (map mv_feature l)
    | GeoJsonModel.GjFeature x => GeoJsonModel.GjFeature (mv_feature x)
    | GeoJsonModel.GjGeometry g => GeoJsonModel.GjGeometry (mv_json g)
    end.
End Move.

(** tiles: moved by a function [h] on the grid *)
Section MoveTile.
  Variable h : MvtModel.tpos -> MvtModel.tpos.
  Definition mv_tpoly (p : MvtModel.tpoly) : MvtModel.tpoly := (map h (fst p), map (map h) (snd p)).
  Fixpoint mv_tile (g : MvtModel.tgeom) : MvtModel.tgeom :=
    match g with
    | MvtModel.MPoint p => MvtModel.MPoint (h p)
    | MvtModel.MLine a b => MvtModel.MLine (h a) (h b)
    | MvtModel.MLineString l => MvtModel.MLineString (map h l)
    | MvtModel.MPolygon p => MvtModel.MPolygon (mv_tpoly p)
    | MvtModel.MMultiPoint l => MvtModel.MMultiPoint (map h l)
    | MvtModel.MMultiLineString l => MvtModel.MMultiLineString (map (map h) l)
    | MvtModel.MMultiPolygon l => MvtModel.MMultiPolygon (map mv_tpoly l)
    | MvtModel.MCollection l => MvtModel.MCollection (map mv_tile l)
    | MvtModel.MRect a b => MvtModel.MRect (h a) (h b)
    | MvtModel.MTriangle a b c => MvtModel.MTriangle (h a) (h b) (h c)
    end.
  Definition mv_tfeature (x : MvtModel.mfeature) : MvtModel.mfeature :=
    MvtModel.mkMFeature (MvtModel.mf_id x) (mv_tile (MvtModel.mf_geometry x)) (MvtModel.mf_properties x).
  Definition mv_layer (l : MvtModel.mlayer) : MvtModel.mlayer :=
    MvtModel.mkLayer (MvtModel.ml_name l) (MvtModel.ml_extent l) (map mv_tfeature (MvtModel.ml_features l)).
End MoveTile.

(** the positions of a run *)
Definition positions (l : list obs) : list (f64 * f64) :=
  flat_map (fun o => match o with OEv (Xy x y _) | OEv (Coord x y _ _ _ _ _) => [(x, y)] | _ => [] end) l.

(** 64 bit numbers go to 64 bit numbers *)
Definition keeps_bits (f : f64 -> f64 -> f64 * f64) : Prop :=
  forall x y, f64_ok x -> f64_ok y -> f64_ok (fst (f x y)) /\ f64_ok (snd (f x y)).
(** x and y both become NaN exactly if both were (such a point is the empty point of WKB) *)
Definition keeps_nan (f : f64 -> f64 -> f64 * f64) : Prop := forall x y,
  (f64_is_nan (fst (f x y)) && f64_is_nan (snd (f x y)))%bool = (f64_is_nan x && f64_is_nan y)%bool.
