(** Specification for C89: what one callback may add to a text that is being written.  Nothing here
    uses the writers: a share is a number of characters, read off the callback alone. *)
From Coq Require Import String Ascii.
From Coq Require Import List NArith ZArith Lia Bool.
From Verif Require Import Base Event.
From Verif Require WkbModel.
Import ListNotations.
Local Open Scope nat_scope.

(** the characters of the numbers of a coordinate as the formatter prints them *)
Definition number_chars (fmt : f64 -> string) (o : option f64) : nat :=
  match o with Some x => String.length (fmt x) | None => 0 end.
Definition total (share : obs -> nat) (l : list obs) : nat := list_sum (map share l).

(** callbacks that open a geometry, and those that close one *)
Definition opens (e : event) : bool :=
  match e with
  | PointBegin _ | MultiPointBegin _ _ | LineStringBegin _ _ _ | MultiLineStringBegin _ _
  | PolygonBegin _ _ _ | MultiPolygonBegin _ _ | CollectionBegin _ _ | CircularStringBegin _ _
  | CompoundCurveBegin _ _ | CurvePolygonBegin _ _ | MultiCurveBegin _ _ | MultiSurfaceBegin _ _
  | TriangleBegin _ _ _ | PolyhedralSurfaceBegin _ _ | TinBegin _ _ => true
  | _ => false
  end.
Definition closes (e : event) : bool :=
  match e with
  | PointEnd _ | MultiPointEnd _ | LineStringEnd _ _ | MultiLineStringEnd _ | PolygonEnd _ _
  | MultiPolygonEnd _ | CollectionEnd _ | CircularStringEnd _ | CompoundCurveEnd _
  | CurvePolygonEnd _ | MultiCurveEnd _ | MultiSurfaceEnd _ | TriangleEnd _ _
  | PolyhedralSurfaceEnd _ | TinEnd _ => true
  | _ => false
  end.

(** WKT: [srid_chars int v] for the prefix of EWKT with SRID v, [int v] being its decimal text; plain
    WKT has no prefix.  [prefix v] is one or the other. *)
Definition srid_chars (int : Z -> string) (v : option Z) : nat :=
  match v with Some v => 6 + String.length (int v) | None => 0 end.
Definition wkt_share (prefix : option Z -> nat) (fmt : f64 -> string) (o : obs) : nat :=
  match o with
  | OProp _ _ _ => 0
  | OEv e =>
      match e with
      | Srid v => prefix v
      | Xy x y _ => 6 + number_chars fmt (Some x) + number_chars fmt (Some y)
      | Coord x y z m _ _ _ =>
          6 + number_chars fmt (Some x) + number_chars fmt (Some y) + number_chars fmt z + number_chars fmt m
      | EmptyPoint _ => 12
      | _ => if opens e then 25 else if closes e then 1 else 0
      end
  end.

(** GeoJSON, as a document or in lines: [text v] is a property value as text; escaping at most
    doubles it *)
Definition json_share (text : colval -> string) (fmt : f64 -> string) (o : obs) : nat :=
  match o with
  | OProp _ n v => 8 + 2 * String.length n + 2 * String.length (text v)
  | OEv e =>
      match e with
      | DatasetBegin None => 44
      | DatasetBegin (Some n) => 56 + String.length n
      | DatasetEnd => 2
      | FeatureBegin _ => 20
      | FeatureEnd _ => 2
      | PropertiesBegin => 17
      | PropertiesEnd => 1
      | GeometryBegin => 14
      | Xy x y _ => 4 + number_chars fmt (Some x) + number_chars fmt (Some y)
      | Coord x y z _ _ _ _ =>
          5 + number_chars fmt (Some x) + number_chars fmt (Some y) + number_chars fmt z
      | EmptyPoint _ => 39
      | _ => if opens e then 48 else if closes e then 3 else 0
      end
  end.

(** SVG: [header] is what the head of the document needs; [flip] says what happens to the y axis *)
Definition svg_share (header : nat) (flip : f64 -> f64) (fmt : f64 -> string) (o : obs) : nat :=
  match o with
  | OProp _ _ _ => 0
  | OEv e =>
      match e with
      | DatasetBegin None => header
      | DatasetBegin (Some n) => header + String.length n
      | DatasetEnd => 12
      | FeatureBegin _ => 1
      | Xy x y _ => 2 + number_chars fmt (Some x) + number_chars fmt (Some (flip y))
      | _ => if opens e then 11 else if closes e then 4 else 0
      end
  end.

(** WKB: in bytes.  A header is a mark of one byte and a type of four; a geometry that opens has a
    count of four beside it; SpatiaLite closes with a byte.  [d] says which ordinates are written; a
    point of a multipoint has a header of its own. *)
Definition wkb_share (d : dims) (o : obs) : nat :=
  match o with
  | OProp _ _ _ => 0
  | OEv e =>
      match e with
      | Xy _ _ _ | Coord _ _ _ _ _ _ _ => 5 + 16 + (if dz d then 8 else 0) + (if dm d then 8 else 0)
      | PointBegin _ => 5
      | _ => if opens e then 9 else if closes e then 1 else 0
      end
  end.
(** what stands before the first header: SRID, magic number, flags and envelope *)
Definition wkb_prefix (dl : WkbModel.dialect) (env : list f64) : nat :=
  match dl with
  | WkbModel.Wkb => 0
  | WkbModel.Ewkb => 4                                          (* the SRID *)
  | WkbModel.Geopackage => 8 + 8 * length env
  | WkbModel.MySQL => 4                                         (* the SRID *)
  | WkbModel.SpatiaLite => 6 + 8 * Nat.max 4 (length env)       (* its mark is in the header *)
  end.

(** CSV: a field is its text and the separator behind it (quotes around fields are not counted); a
    property is a column name, once, and a value; the end of a feature ends the field with the geometry *)
Definition field_chars (f : string) : nat := 1 + String.length f.
Definition fields_chars (l : list string) : nat := list_sum (map field_chars l).
Definition table_chars (l : list (list string)) : nat := list_sum (map fields_chars l).
Definition csv_share (text : colval -> string) (fmt : f64 -> string) (o : obs) : nat :=
  match o with
  | OProp _ n v => field_chars n + field_chars (text v)
  | OEv DatasetEnd => field_chars "geometry"
  | OEv (FeatureEnd _) => 1
  | OEv e => wkt_share (fun _ => 0) fmt (OEv e)
  end.
