(** What C82 is stated with: callbacks that a writer makes nothing of. *)
From Coq Require Import String.
From Coq Require Import List NArith ZArith Bool.
From Verif Require Import Base Event Claims.
From Verif Require WktModel WkbModel CsvModel.
Import ListNotations.

(** Wherever the callback comes in a stream, the output and the result are the same without it.  [out] is what
    the user gets from the writer, [s0] the new writer. *)
Definition traceless {S O} (out : S -> O) (p : proc S) (s0 : S) (o : obs) : Prop :=
  forall l1 l2,
    out (fst (feed p (l1 ++ o :: l2) s0)) = out (fst (feed p (l1 ++ l2) s0)) /\
    snd (feed p (l1 ++ o :: l2) s0) = snd (feed p (l1 ++ l2) s0).
(** [ign] says exactly which callbacks leave no trace; all of them can be left out of a stream at once. *)
Definition ignores {S O} (out : S -> O) (p : proc S) (s0 : S) (ign : obs -> bool) : Prop :=
  (forall o, traceless out p s0 o <-> ign o = true) /\
  forall l, let l' := filter (fun o => negb (ign o)) l in
    out (fst (feed p l s0)) = out (fst (feed p l' s0)) /\ snd (feed p l s0) = snd (feed p l' s0).

(** ** Kinds of callbacks *)
Definition is_srid (o : obs) : bool := match o with OEv (Srid _) => true | _ => false end.
Definition is_coordinate (o : obs) : bool := match o with OEv (Coord _ _ _ _ _ _ _) => true | _ => false end.
Definition is_property (o : obs) : bool := match o with OProp _ _ _ => true | _ => false end.
Definition is_dataset (o : obs) : bool := match o with OEv (DatasetBegin _) | OEv DatasetEnd => true | _ => false end.
Definition is_properties (o : obs) : bool := match o with OEv PropertiesBegin | OEv PropertiesEnd => true | _ => false end.
Definition is_geometry (o : obs) : bool := match o with OEv GeometryBegin | OEv GeometryEnd => true | _ => false end.
Definition is_geometry_end (o : obs) : bool := match o with OEv GeometryEnd => true | _ => false end.
Definition is_feature_end (o : obs) : bool := match o with OEv (FeatureEnd _) => true | _ => false end.
Definition is_feature (o : obs) : bool := match o with OEv (FeatureBegin _) | OEv (FeatureEnd _) => true | _ => false end.
(** everything that is not geometry *)
Definition is_frame (o : obs) : bool :=
  is_property o || is_dataset o || is_properties o || is_geometry o || is_feature o.
Definition is_multipoint (o : obs) : bool :=
  match o with OEv (MultiPointBegin _ _) | OEv (MultiPointEnd _) => true | _ => false end.
Definition is_multipolygon (o : obs) : bool :=
  match o with OEv (MultiPolygonBegin _ _) | OEv (MultiPolygonEnd _) => true | _ => false end.
Definition is_collection (o : obs) : bool :=
  match o with OEv (CollectionBegin _ _) | OEv (CollectionEnd _) => true | _ => false end.
(** curves and surfaces beyond the seven basic types *)
Definition is_curve (o : obs) : bool :=
  match o with
  | OEv (CircularStringBegin _ _) | OEv (CircularStringEnd _) | OEv (CompoundCurveBegin _ _) | OEv (CompoundCurveEnd _)
  | OEv (CurvePolygonBegin _ _) | OEv (CurvePolygonEnd _) | OEv (MultiCurveBegin _ _) | OEv (MultiCurveEnd _)
  | OEv (MultiSurfaceBegin _ _) | OEv (MultiSurfaceEnd _) | OEv (TriangleBegin _ _ _) | OEv (TriangleEnd _ _)
  | OEv (PolyhedralSurfaceBegin _ _) | OEv (PolyhedralSurfaceEnd _) | OEv (TinBegin _ _) | OEv (TinEnd _) => true
  | _ => false
  end.
Definition is_geom_end (o : obs) : bool :=
  match o with
  | OEv (PointEnd _) | OEv (MultiPointEnd _) | OEv (LineStringEnd _ _) | OEv (MultiLineStringEnd _)
  | OEv (PolygonEnd _ _) | OEv (MultiPolygonEnd _) => true
  | _ => false
  end.
Definition is_ring_end (o : obs) : bool := match o with OEv (LineStringEnd false _) => true | _ => false end.

(** ** What leaves no trace, writer by writer *)
(** bounds: everything but positions; an empty point is refused *)
Definition ign_bounds (o : obs) : bool :=
  match o with OEv (Xy _ _ _) | OEv (Coord _ _ _ _ _ _ _) | OEv (EmptyPoint _) => false | _ => true end.
(** tessellator: everything but the positions told in two dimensions and the ends of lines, rings and polygons *)
Definition ign_tess (o : obs) : bool :=
  match o with
  | OEv (Xy _ _ _) | OEv (EmptyPoint _) | OEv (LineStringEnd _ _) | OEv (PolygonEnd _ _) => false
  | _ => true
  end.
(** SVG: positions told by `coordinate`, the frames of multipoints, multipolygons and collections, curves,
    properties *)
Definition ign_svg (o : obs) : bool :=
  is_srid o || is_coordinate o || is_multipoint o || is_multipolygon o || is_collection o || is_curve o ||
  is_property o || is_properties o || is_geometry o || is_feature_end o.
(** GeoJSON: SRIDs, the frames of curves and surfaces, binary values of a first property *)
Definition ign_json (o : obs) : bool :=
  is_srid o || is_curve o || is_geometry_end o || match o with OProp 0 _ (CBinary _) => true | _ => false end.
(** ... and for text sequences datasets *)
Definition ign_lines (o : obs) : bool := ign_json o || is_dataset o.
(** geo-types values *)
Definition ign_geo (o : obs) : bool := is_srid o || is_coordinate o || is_curve o || is_frame o.
(** GDAL geometries: all ends too, and collections *)
Definition ign_gdal (o : obs) : bool := is_srid o || is_geom_end o || is_collection o || is_curve o || is_frame o.
(** GEOS geometries *)
Definition ign_geos (o : obs) : bool := is_coordinate o || is_ring_end o || is_collection o || is_curve o || is_frame o.
(** is the dialect the one that writes SRIDs? *)
Definition is_ewkt (d : WktModel.wkt_dialect) : bool := match d with WktModel.Ewkt => true | WktModel.PlainWkt => false end.
(** WKT, EWKT: SRIDs where none is written or one was given to the writer *)
Definition ign_wkt (ewkt : bool) (srid : option Z) (o : obs) : bool :=
  is_frame o || match o with OEv (Srid None) => true | OEv (Srid (Some _)) => negb ewkt || match srid with Some _ => true | None => false end | _ => false end.
(** is an end mark written (SpatiaLite)?  and an SRID the header can carry *)
Definition marked (c : WkbModel.wcfg) : bool := match WkbModel.w_dialect c with WkbModel.SpatiaLite => true | _ => false end.
Definition srid_fits (c : WkbModel.wcfg) : Prop :=
  WkbModel.w_dialect c = WkbModel.MySQL -> match WkbModel.w_srid c with Some v => (0 <= v)%Z | None => True end.
(** WKB: SRIDs; and the ends of geometries that are not multi geometries, unless an end mark is written *)
Definition ign_wkb (marks : bool) (o : obs) : bool :=
  is_srid o || is_frame o ||
  match o with
  | OEv (PointEnd _) | OEv (LineStringEnd _ _) | OEv (CircularStringEnd _) | OEv (CompoundCurveEnd _)
  | OEv (CurvePolygonEnd _) | OEv (PolyhedralSurfaceEnd _) | OEv (TinEnd _) => negb marks
  | _ => false
  end.
(** geo-types features; debug builds check at the beginning of a geometry that none is there *)
Definition ign_features (debug : bool) (o : obs) : bool :=
  is_srid o || is_coordinate o || is_curve o || is_dataset o || is_properties o || is_geometry_end o ||
  negb debug && is_geometry o.
(** vector tiles: datasets, the frames of properties and geometries *)
Definition ign_mvt (o : obs) : bool :=
  is_srid o || is_coordinate o || is_curve o || is_dataset o || is_properties o || is_geometry o.
(** the records of the text *)
Definition csv_text (s : CsvModel.csvst) : list (list string) := CsvModel.o_records (CsvModel.cs_csv s).
(** CSV: ends of properties and geometries; in release builds, where nothing is checked, their begins, the
    begin of the dataset and those of features too *)
Definition ign_csv (debug : bool) (o : obs) : bool :=
  is_srid o ||
  match o with
  | OEv PropertiesEnd | OEv GeometryEnd => true
  | OEv (DatasetBegin _) | OEv (FeatureBegin _) | OEv PropertiesBegin | OEv GeometryBegin => negb debug
  | _ => false
  end.
