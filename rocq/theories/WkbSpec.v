(** Specification side of the WKB family: the byte layouts as the format documents describe
    them (OGC 06-103r4 section 8.2, PostGIS ZMSgeoms.txt, GeoPackage "gpb_format", SpatiaLite
    BLOB-Geometry, MySQL "gis-data-formats").  Nothing here refers to the model. *)
From Coq Require Import String Ascii.
From Coq Require Import List NArith ZArith Lia Bool.
From Coq Require Import Init.Byte.
From Verif Require Import Base Event Geom.
Import ListNotations.
Local Open Scope N_scope.
Local Open Scope list_scope.

(** geometry kind codes *)
Definition kind_code (g : geom) : N :=
  match g with
  | GPoint _ | GEmptyPoint => 1
  | GLineString _ => 2
  | GPolygon _ => 3
  | GMultiPoint _ => 4
  | GMultiLineString _ => 5
  | GMultiPolygon _ => 6
  | GCollection _ => 7
  | GCircularString _ => 8
  | GCompoundCurve _ => 9
  | GCurvePolygon _ => 10
  | GMultiCurve _ => 11
  | GMultiSurface _ => 12
  | GPolyhedralSurface _ => 15
  | GTin _ => 16
  | GTriangle _ => 17
  end.

Definition order_byte (e : endian) : byte := match e with BE => x00 | LE => x01 end.
Definition flag (b : bool) (n : N) : N := if b then n else 0.

(** ISO type code: +1000 for Z, +2000 for M *)
Definition iso_code (z m : bool) (code : N) : N := code + flag z 1000 + flag m 2000.
(** EWKB type word: high bits for Z, M and "SRID present" *)
Definition ewkb_code (z m s : bool) (code : N) : N :=
  code + flag z 0x80000000 + flag m 0x40000000 + flag s 0x20000000.

(** header of a (sub)geometry *)
Definition iso_header (z m : bool) (e : endian) (code : N) : list byte :=
  order_byte e :: bytes_of e 4 (iso_code z m code).
Definition ewkb_header (z m : bool) (srid : option Z) (e : endian) (code : N) : list byte :=
  order_byte e ::
  bytes_of e 4 (ewkb_code z m (match srid with Some _ => true | None => false end) code) ++
  match srid with Some s => bytes_of e 4 (i32_to_u32 s) | None => [] end.
Definition spatialite_sub_header (z m : bool) (e : endian) (code : N) : list byte :=
  x69 :: bytes_of e 4 (iso_code z m code).

(** GeoPackage envelope indicator and length for the dimensions of the envelope *)
Definition gpkg_env_code (env : list f64) (ez em : bool) : N :=
  match env with [] => 0 | _ => 1 + (if ez then (if em then 3 else 1) else (if em then 2 else 0)) end.
Definition gpkg_header (e : endian) (extended empty : bool) (ez em : bool) (srid : Z)
    (env : list f64) : list byte :=
  [x47; x50; x00;
   byte_of (flag extended 32 + flag empty 16 + 2 * gpkg_env_code env ez em +
            flag (endian_eqb e LE) 1)] ++
  bytes_of e 4 (i32_to_u32 srid) ++ flat_map (bytes_of e 8) env.

(** SpatiaLite: start mark, byte order, SRID, minimum bounding rectangle, mark, type *)
Definition spatialite_header (z m : bool) (srid : Z) (env : list f64) (e : endian) (code : N)
  : list byte :=
  [x00; order_byte e] ++ bytes_of e 4 (i32_to_u32 srid) ++
  flat_map (bytes_of e 8) (match env with [] => [0; 0; 0; 0] | _ => env end) ++
  [x7c] ++ bytes_of e 4 (iso_code z m code).

(** one position; an ordinate that is required but missing is stored as 0 *)
Definition coord_bytes (z m : bool) (e : endian) (c : coord) : list byte :=
  bytes_of e 8 (cx c) ++ bytes_of e 8 (cy c) ++
  (if z then bytes_of e 8 (opt_default 0 (cz c)) else []) ++
  (if m then bytes_of e 8 (opt_default 0 (cm c)) else []).

(** ** Body layout.  [hdr e code] is the header of a sub-geometry, [cb e c] one position.  The
    byte order of the sub-geometry at path [p] is [o p]; the child number [k] of the geometry
    at path [p] has path [k :: p]. *)
Section Layout.
  Variable hdr : endian -> N -> list byte.
  Variable cb : endian -> coord -> list byte.
  Variable o : list nat -> endian.

  Definition count_bytes (e : endian) (n : nat) : list byte := bytes_of e 4 (N.of_nat n).
  (** count, positions *)
  Definition line_bytes (e : endian) (l : line) : list byte :=
    count_bytes e (length l) ++ flat_map (cb e) l.
  (** count, rings (rings have no header) *)
  Definition rings_bytes (e : endian) (r : rings) : list byte :=
    count_bytes e (length r) ++ flat_map (line_bytes e) r.
  (** count, members *)
  Definition members {A} (p : list nat) (f : list nat -> A -> list byte) (l : list A)
    : list byte :=
    count_bytes (o p) (length l) ++ flat_mapi (fun k a => f (k :: p) a) 0 l.

  Definition point_bytes (p : list nat) (c : coord) : list byte := hdr (o p) 1 ++ cb (o p) c.
  Definition linestring_bytes (p : list nat) (l : line) : list byte :=
    hdr (o p) 2 ++ line_bytes (o p) l.
  Definition arc_bytes (p : list nat) (l : line) : list byte :=
    hdr (o p) 8 ++ line_bytes (o p) l.
  Definition polygon_bytes (p : list nat) (r : rings) : list byte :=
    hdr (o p) 3 ++ rings_bytes (o p) r.
  Definition triangle_bytes (p : list nat) (r : rings) : list byte :=
    hdr (o p) 17 ++ rings_bytes (o p) r.
  Definition segment_bytes (p : list nat) (s : segment) : list byte :=
    match s with SegLine l => linestring_bytes p l | SegArc l => arc_bytes p l end.
  Definition curve_bytes (p : list nat) (c : curve) : list byte :=
    match c with
    | CvLine l => linestring_bytes p l
    | CvArc l => arc_bytes p l
    | CvCompound s => hdr (o p) 9 ++ members p segment_bytes s
    end.
  Definition surface_bytes (p : list nat) (s : surface) : list byte :=
    match s with
    | SfPolygon r => polygon_bytes p r
    | SfCurvePolygon c => hdr (o p) 10 ++ members p curve_bytes c
    end.

  (** the quiet NaN used for the ordinates of an empty point *)
  Definition nan_coord : coord :=
    mkC 0x7FF8000000000000 0x7FF8000000000000 (Some 0x7FF8000000000000) (Some 0x7FF8000000000000).

  Fixpoint body (p : list nat) (g : geom) {struct g} : list byte :=
    match g with
    | GPoint c => cb (o p) c
    | GEmptyPoint => cb (o p) nan_coord
    | GLineString l | GCircularString l => line_bytes (o p) l
    | GPolygon r | GTriangle r => rings_bytes (o p) r
    | GMultiPoint l => members p point_bytes l
    | GMultiLineString l => members p linestring_bytes l
    | GMultiPolygon l | GPolyhedralSurface l => members p polygon_bytes l
    | GTin l => members p triangle_bytes l
    | GCompoundCurve l => members p segment_bytes l
    | GCurvePolygon l | GMultiCurve l => members p curve_bytes l
    | GMultiSurface l => members p surface_bytes l
    | GCollection l =>
        count_bytes (o p) (length l) ++
        (fix go (k : nat) (l : list geom) : list byte :=
           match l with
           | [] => []
           | a :: r => (hdr (o (k :: p)) (kind_code a) ++ body (k :: p) a) ++ go (S k) r
           end) 0%nat l
    end.
End Layout.

(** ** Complete encodings *)
Section Encodings.
  Variables z m : bool.
  Variable o : list nat -> endian.

  Definition enc_wkb (g : geom) : list byte :=
    iso_header z m (o []) (kind_code g) ++ body (iso_header z m) (coord_bytes z m) o [] g.

  (** the SRID is stored in the outermost header only *)
  Definition enc_ewkb (srid : option Z) (g : geom) : list byte :=
    ewkb_header z m srid (o []) (kind_code g) ++
    body (ewkb_header z m None) (coord_bytes z m) o [] g.

  (** [he]: byte order of the GeoPackage header *)
  Definition enc_gpkg (he : endian) (extended empty ez em : bool) (srid : Z) (env : list f64)
      (g : geom) : list byte :=
    gpkg_header he extended empty ez em srid env ++ enc_wkb g.

  Definition enc_mysql (srid : Z) (g : geom) : list byte :=
    bytes_of LE 4 (i32_to_u32 srid) ++ enc_wkb g.

  (** one byte order for the whole blob; end mark 0xFE *)
  Definition enc_spatialite (srid : Z) (env : list f64) (g : geom) : list byte :=
    spatialite_header z m srid env (o []) (kind_code g) ++
    body (spatialite_sub_header z m) (coord_bytes z m) (fun _ => o []) [] g ++ [xfe].
End Encodings.

(** ** What an encoding can hold *)

(** the ordinates an encoding with flags [z], [m] stores for a position *)
Definition stored (z m : bool) (c : coord) : coord :=
  mkC (cx c) (cy c)
      (if z then Some (opt_default 0 (cz c)) else None)
      (if m then Some (opt_default 0 (cm c)) else None).

Definition onan (o : option f64) : Prop :=
  match o with Some x => f64_is_nan x = true | None => True end.
(** every ordinate present is NaN *)
Definition all_nan (c : coord) : Prop :=
  f64_is_nan (cx c) = true /\ f64_is_nan (cy c) = true /\ onan (cz c) /\ onan (cm c).
Definition all_nanb (c : coord) : bool :=
  f64_is_nan (cx c) && f64_is_nan (cy c) &&
  (match cz c with Some x => f64_is_nan x | None => true end) &&
  (match cm c with Some x => f64_is_nan x | None => true end).

(** a stand-alone point whose stored ordinates are all NaN is the empty point *)
Definition point_or_empty (c : coord) : geom := if all_nanb c then GEmptyPoint else GPoint c.

(** coordinate-wise map; stand-alone points go through [pt] *)
Section Map.
  Variable pt : coord -> geom.
  Variable f : coord -> coord.
  Definition map_segment (s : segment) : segment :=
    match s with SegLine l => SegLine (map f l) | SegArc l => SegArc (map f l) end.
  Definition map_curve (c : curve) : curve :=
    match c with
    | CvLine l => CvLine (map f l)
    | CvArc l => CvArc (map f l)
    | CvCompound s => CvCompound (map map_segment s)
    end.
  Definition map_surface (s : surface) : surface :=
    match s with
    | SfPolygon r => SfPolygon (map (map f) r)
    | SfCurvePolygon c => SfCurvePolygon (map map_curve c)
    end.
  Fixpoint map_geom (g : geom) : geom :=
    match g with
    | GPoint c => pt (f c)
    | GEmptyPoint => GEmptyPoint
    | GMultiPoint l => GMultiPoint (map f l)
    | GLineString l => GLineString (map f l)
    | GMultiLineString l => GMultiLineString (map (map f) l)
    | GPolygon r => GPolygon (map (map f) r)
    | GMultiPolygon l => GMultiPolygon (map (map (map f)) l)
    | GCollection l => GCollection (map map_geom l)
    | GCircularString l => GCircularString (map f l)
    | GCompoundCurve l => GCompoundCurve (map map_segment l)
    | GCurvePolygon l => GCurvePolygon (map map_curve l)
    | GMultiCurve l => GMultiCurve (map map_curve l)
    | GMultiSurface l => GMultiSurface (map map_surface l)
    | GTriangle r => GTriangle (map (map f) r)
    | GPolyhedralSurface l => GPolyhedralSurface (map (map (map f)) l)
    | GTin l => GTin (map (map (map f)) l)
    end.
End Map.

(** the geometry an encoding with flags [z], [m] represents *)
Definition retained (z m : bool) (g : geom) : geom :=
  map_geom point_or_empty (stored z m) g.

(** ** Side conditions *)

(** [all_coords pt P g]: [P] holds for every coordinate of [g], [pt] for every stand-alone
    point, [Q n] for the length of every list. *)
Section Conditions.
  Variable E : Prop.                 (* is GEmptyPoint allowed? *)
  Variable PT : coord -> Prop.
  Variable P : coord -> Prop.
  Variable Q : nat -> Prop.
  Definition on_line (l : line) : Prop := Q (length l) /\ Forall P l.
  Definition on_rings (r : rings) : Prop := Q (length r) /\ Forall on_line r.
  Definition on_segment (s : segment) : Prop :=
    match s with SegLine l | SegArc l => on_line l end.
  Definition on_curve (c : curve) : Prop :=
    match c with
    | CvLine l | CvArc l => on_line l
    | CvCompound s => Q (length s) /\ Forall on_segment s
    end.
  Definition on_surface (s : surface) : Prop :=
    match s with
    | SfPolygon r => on_rings r
    | SfCurvePolygon c => Q (length c) /\ Forall on_curve c
    end.
  Fixpoint on_geom (g : geom) : Prop :=
    match g with
    | GPoint c => P c /\ PT c
    | GEmptyPoint => E
    | GMultiPoint l | GLineString l | GCircularString l => on_line l
    | GMultiLineString l | GPolygon l | GTriangle l => on_rings l
    | GMultiPolygon l | GPolyhedralSurface l | GTin l => Q (length l) /\ Forall on_rings l
    | GCompoundCurve l => Q (length l) /\ Forall on_segment l
    | GCurvePolygon l | GMultiCurve l => Q (length l) /\ Forall on_curve l
    | GMultiSurface l => Q (length l) /\ Forall on_surface l
    | GCollection l =>
        Q (length l) /\
        (fix go (l : list geom) : Prop :=
           match l with [] => True | a :: r => on_geom a /\ go r end) l
    end.
End Conditions.

Definition of64_ok (o : option f64) : Prop := match o with Some x => f64_ok x | None => True end.
(** the ordinates are 64-bit patterns *)
Definition coord64 (c : coord) : Prop :=
  f64_ok (cx c) /\ f64_ok (cy c) /\ of64_ok (cz c) /\ of64_ok (cm c).

(** 64-bit ordinates, counts fit in the 32 bits the formats provide *)
Definition encodable (g : geom) : Prop :=
  on_geom True (fun _ => True) coord64 (fun n => N.of_nat n < 2 ^ 32) g.

(** no empty point anywhere *)
Definition no_empty (g : geom) : Prop :=
  on_geom False (fun _ => True) (fun _ => True) (fun _ => True) g.

(** positions have a z iff [z] and an m iff [m]; no point is empty or all-NaN: exactly the
    geometries for which an encoding with these flags loses nothing *)
Definition conforming (z m : bool) (g : geom) : Prop :=
  on_geom False (fun c => all_nanb c = false)
          (fun c => (if z then cz c <> None else cz c = None) /\
                    (if m then cm c <> None else cm c = None))
          (fun _ => True) g.

(** Levels of containers with their own recursion in the readers: every collection is one
    level, a compound curve one, a curve polygon one, a compound curve as a member of a
    multicurve two, as ring of a curve polygon two more than the curve polygon. *)
Definition curve_levels (c : curve) : nat := match c with CvCompound _ => 2 | _ => 0 end.
Definition max_of {A} (f : A -> nat) (l : list A) : nat := fold_right (fun a n => Nat.max (f a) n) 0%nat l.
Definition surface_levels (s : surface) : nat :=
  match s with SfPolygon _ => 0 | SfCurvePolygon c => 1 + max_of curve_levels c end.
Fixpoint levels (g : geom) : nat :=
  match g with
  | GCollection l =>
      (fix go (l : list geom) : nat :=
         match l with [] => 0 | a :: r => Nat.max (S (levels a)) (go r) end) l
  | GCompoundCurve _ => 1
  | GCurvePolygon l => 1 + max_of curve_levels l
  | GMultiCurve l => max_of curve_levels l
  | GMultiSurface l => max_of surface_levels l
  | _ => 0
  end%nat.

(** nesting depth of collections alone *)
Fixpoint coll_depth (g : geom) : nat :=
  match g with
  | GCollection l =>
      S ((fix go (l : list geom) : nat :=
         match l with [] => 0 | a :: r => Nat.max (coll_depth a) (go r) end) l)
  | _ => 0
  end%nat.
