(** What C85 is stated with: the errors a writer can return for each callback. *)
From Coq Require Import String.
From Coq Require Import List NArith ZArith Bool.
From Verif Require Import Base Event Claims.
From Verif Require WkbModel MvtModel GdalModel GeosModel TessModel.
Import ListNotations.

(** after callbacks that the writer accepted, the next one fails with an error of the table *)
Definition fails_only {S} (p : proc S) (s0 : S) (ways : obs -> list error) : Prop :=
  forall l o x, snd (feed p l s0) = Ok tt -> snd (feed p (l ++ [o]) s0) = Err x -> In x (ways o).
(** and every error of the table occurs after some accepted callbacks *)
Definition fails_each {S} (p : proc S) (s0 : S) (ways : obs -> list error) : Prop :=
  forall o x, In x (ways o) -> exists l, snd (feed p l s0) = Ok tt /\ snd (feed p (l ++ [o]) s0) = Err x.
Definition fails_as {S} (p : proc S) (s0 : S) (ways : obs -> list error) : Prop :=
  fails_only p s0 ways /\ fails_each p s0 ways.

Definition given (b : bool) (x : error) : list error := if b then [x] else [].
(** an announced size of more than 16 MiB for elements of [elt] bytes *)
Definition too_many (elt : N) (n : nat) : bool := (16 * 1024 * 1024 <? N.of_nat n * elt)%N.

(** ** The tables *)
Definition never (o : obs) : list error := [].
(** the default of the trait refuses empty points *)
Definition no_empty_point (o : obs) : list error := match o with OEv (EmptyPoint _) => [EGeometry] | _ => [] end.
(** ends that nothing was begun for: features and the seven basic types *)
Definition lines_ways (o : obs) : list error :=
  match o with
  | OEv (FeatureEnd _) | OEv (PointEnd _) | OEv (MultiPointEnd _) | OEv (LineStringEnd _ _) | OEv (MultiLineStringEnd _)
  | OEv (PolygonEnd _ _) | OEv (MultiPolygonEnd _) | OEv (CollectionEnd _) => [EPanic]
  | _ => []
  end.
(** the end of any geometry *)
Definition wkt_ways (o : obs) : list error :=
  match o with
  | OEv (PointEnd _) | OEv (MultiPointEnd _) | OEv (LineStringEnd _ _) | OEv (MultiLineStringEnd _) | OEv (PolygonEnd _ _)
  | OEv (MultiPolygonEnd _) | OEv (CollectionEnd _) | OEv (CircularStringEnd _) | OEv (CompoundCurveEnd _)
  | OEv (CurvePolygonEnd _) | OEv (MultiCurveEnd _) | OEv (MultiSurfaceEnd _) | OEv (TriangleEnd _ _)
  | OEv (PolyhedralSurfaceEnd _) | OEv (TinEnd _) => [EPanic]
  | _ => []
  end.
(** a negative SRID has no place in the header of MySQL *)
Definition bad_srid (c : WkbModel.wcfg) : list error :=
  match WkbModel.w_dialect c, WkbModel.w_srid c with
  | WkbModel.MySQL, Some v => if (v <? 0)%Z then [ESrid v] else []
  | _, _ => []
  end.
Definition wkb_ways (c : WkbModel.wcfg) (o : obs) : list error :=
  match o with
  | OEv (EmptyPoint _) => [EGeometry]
  | OEv (MultiPointEnd _) | OEv (MultiLineStringEnd _) | OEv (MultiPolygonEnd _) | OEv (CollectionEnd _)
  | OEv (MultiCurveEnd _) | OEv (MultiSurfaceEnd _) =>
      [EPanic]
  | OEv (PointBegin _) | OEv (MultiPointBegin _ _) | OEv (LineStringBegin _ _ _) | OEv (MultiLineStringBegin _ _)
  | OEv (PolygonBegin _ _ _) | OEv (MultiPolygonBegin _ _) | OEv (CollectionBegin _ _) | OEv (CircularStringBegin _ _)
  | OEv (CompoundCurveBegin _ _) | OEv (CurvePolygonBegin _ _) | OEv (MultiCurveBegin _ _) | OEv (MultiSurfaceBegin _ _)
  | OEv (TriangleBegin _ _ _) | OEv (PolyhedralSurfaceBegin _ _) | OEv (TinBegin _ _) => bad_srid c
  | _ => []
  end.
(** geo-types: sizes of positions, lines, polygons and geometries are 16, 24, 48 and 56 bytes *)
Definition geo_ways (debug : bool) (o : obs) : list error :=
  match o with
  | OEv (EmptyPoint _) | OEv (Xy _ _ _) => [EGeometry]
  | OEv (PointBegin _) => given debug EPanic
  | OEv (PointEnd _) => [EGeometry; EPanic]
  | OEv (MultiPointBegin n _) | OEv (LineStringBegin _ n _) => given debug EPanic ++ given (too_many 16 n) EGeometry
  | OEv (MultiLineStringBegin n _) | OEv (PolygonBegin _ n _) => given debug EPanic ++ given (too_many 24 n) EGeometry
  | OEv (MultiPolygonBegin n _) => given debug EPanic ++ given (too_many 48 n) EGeometry
  | OEv (CollectionBegin n _) => given (too_many 56 n) EGeometry
  | OEv (MultiPointEnd _) | OEv (LineStringEnd _ _) | OEv (MultiLineStringEnd _) | OEv (PolygonEnd _ _)
  | OEv (MultiPolygonEnd _) | OEv (CollectionEnd _) => [EGeometry]
  | _ => []
  end.
(** features: a geometry and attributes are required *)
Definition features_ways (debug : bool) (o : obs) : list error :=
  match o with
  | OEv (FeatureBegin _) | OEv GeometryBegin => given debug EPanic
  | OEv (FeatureEnd _) => [EFeatureGeometry; EFeature]
  | OProp _ _ _ => [EPanic]
  | o => geo_ways debug o
  end.
(** CSV: rows of another length than the header, columns of another name *)
Definition csv_ways (debug : bool) (o : obs) : list error :=
  match o with
  | OEv (DatasetBegin _) | OEv (FeatureBegin _) | OEv PropertiesBegin | OEv GeometryBegin => given debug EPanic
  | OEv (FeatureEnd _) => [EDataset]
  | OProp _ _ _ => [EPanic]
  | o => wkt_ways o
  end.
(** tiles: sizes of positions, lines and polygons are 8, 24 and 48 bytes *)
Definition mvt_ways (gsize : N) (debug : bool) (o : obs) : list error :=
  match o with
  | OEv (EmptyPoint _) | OEv (Xy _ _ _) => [EGeometry]
  | OEv (PointBegin _) => given debug EPanic
  | OEv (PointEnd _) => [EGeometry]
  | OEv (MultiPointBegin n _) | OEv (LineStringBegin _ n _) => given debug EPanic ++ given (too_many 8 n) EGeometry
  | OEv (MultiLineStringBegin n _) | OEv (PolygonBegin _ n _) => given debug EPanic ++ given (too_many 24 n) EGeometry
  | OEv (MultiPolygonBegin n _) => given debug EPanic ++ given (too_many 48 n) EGeometry
  | OEv (CollectionBegin n _) => given (too_many gsize n) EGeometry
  | OEv (LineStringEnd tagged _) => EGeometry :: given tagged MvtModel.TooFewCoordinates
  | OEv (MultiLineStringEnd _) | OEv (PolygonEnd _ _) => [EGeometry; MvtModel.TooFewCoordinates]
  | OEv (MultiPointEnd _) | OEv (MultiPolygonEnd _) | OEv (CollectionEnd _) => [EGeometry]
  | _ => []
  end.
(** GDAL: a position in a geometry that takes none, in a line that was freed; a ring without a polygon; a polygon
    in something else than a multipolygon *)
Definition gdal_ways (o : obs) : list error :=
  match o with
  | OEv (EmptyPoint _) => [EGeometry]
  | OEv (Xy _ _ _) | OEv (Coord _ _ _ _ _ _ _) => [GdalModel.gdal_error; GdalModel.undefined]
  | OEv (LineStringBegin false _ _) => [GdalModel.gdal_error; EPanic]
  | OEv (PolygonBegin false _ _) => [EGeometry]
  | _ => []
  end.
(** GEOS: [lib] decides how a position out of range is refused *)
Definition overfull (elt : N) (n : nat) : bool := (2 ^ 63 <=? N.of_nat n * elt)%N.
Definition geos_ways (lib : GeosModel.geos_lib) (o : obs) : list error :=
  match o with
  | OEv (EmptyPoint _) | OEv (MultiPointEnd _) => [EGeometry]
  | OEv (Xy _ _ _) => [EGeometry; GeosModel.out_of_range lib]
  | OEv (PointEnd _) | OEv (LineStringEnd true _) | OEv (PolygonEnd _ _) => [EGeometry; GeosModel.geos_error]
  | OEv (MultiLineStringEnd _) => [GeosModel.geos_error]
  | OEv (MultiLineStringBegin n _) | OEv (PolygonBegin _ n _) => given (overfull (GeosModel.seq_bytes lib) n) EPanic
  | OEv (MultiPolygonBegin n _) => given (overfull (GeosModel.geom_bytes lib) n) EPanic
  | _ => []
  end.
(** no line and no ring has a single position *)
Definition refuses_single (lib : GeosModel.geos_lib) : Prop :=
  (forall p, GeosModel.line_ok lib [p] = false) /\ (forall p, GeosModel.ring_ok lib [p] = false).
(** tessellator: everything the library refuses is a panic *)
Definition tess_ways (ly : TessModel.lyon) (o : obs) : list error :=
  match o with
  | OEv (EmptyPoint _) => [EGeometry]
  | OEv (Xy _ _ _) => given (TessModel.checks ly) EPanic
  | OEv (LineStringEnd true _) | OEv (PolygonEnd _ _) => [EPanic]
  | _ => []
  end.
(** the library refuses to stroke or fill an empty path *)
Definition refuses_empty (ly : TessModel.lyon) : Prop :=
  (exists x, TessModel.stroke ly [] = Err x) /\ (exists x, TessModel.fill ly [] = Err x).
