(** Vocabulary of claim C62 (specification side): chains of conversions. *)
From Coq Require Import String Ascii.
From Coq Require Import List NArith ZArith Lia Bool.
From Verif Require Import Base Event Claims Geom WkbModel WkbSpec WkbClaims WktModel WktSpec GeoModel GeoSpec
  JsonSpec GeoJsonModel GeoJsonSpec DbModel.
Import ListNotations.
Local Open Scope list_scope.

(** What the other crates do: formatting of numbers, the parsers of the crates wkt and geojson, and
    the polygons geo_types makes of rectangles and triangles.  [c_dims]: the ordinates in WKT texts. *)
Record crates := mkCrates {
  c_debug : bool;
  c_rect : pos -> pos -> poly;
  c_triangle : pos -> pos -> pos -> poly;
  c_dims : dims;
  c_wkt_format : f64 -> string;
  c_wkt : string -> res wkt;
  c_format32 : N -> string;
  c_format : f64 -> string;
  c_geojson : string -> res gj
}.

(** a form a geometry is stored in on the way *)
Inductive form :=
| AsWkb (dl : dialect) (d : dims) (srid : option Z) (envelope : list f64)
| AsWkt
| AsGeo
| AsJson (d : dims).

Definition on_ok {A B} (r : res A) (f : A -> res B) : res B := match r with Ok a => f a | Err e => Err e end.
(** store what the source delivers in the form, and read from there *)
Definition convert (c : crates) (f : form) (src : dims -> prog unit) : res (dims -> prog unit) :=
  match f with
  | AsWkb dl d srid env => on_ok (to_wkb_dialect src dl d srid env) (fun b => Ok (so_process (wkb_source dl b)))
  | AsWkt => on_ok (to_wkt_ndim (c_wkt_format c) src (c_dims c)) (fun t => on_ok (c_wkt c t) (fun w => Ok (process_wkt_geom w)))
  | AsGeo => on_ok (to_geo (c_debug c) src) (fun g => Ok (geo_process (c_rect c) (c_triangle c) g))
  | AsJson d =>
      match exec (geojson_writer (c_format32 c) (c_format c) d) (src d) EmptyString with
      | (t, Ok _) => Ok (fun d => read_geojson_geom (multi_dim d) (c_geojson c t))
      | (_, Err e) => Err e
      end
  end.
Fixpoint chain (c : crates) (fs : list form) (src : dims -> prog unit) : res (dims -> prog unit) :=
  match fs with [] => Ok src | f :: r => on_ok (convert c f src) (chain c r) end.

(** the SRIDs announced after the last conversion, [l] before the first *)
Definition announced (f : form) : list (option Z) :=
  match f with AsWkb dl _ srid _ => [reported_srid dl srid] | _ => [] end.
Fixpoint finally (l : list (option Z)) (fs : list form) : list (option Z) :=
  match fs with [] => l | f :: r => finally (announced f) r end.

(** ** The geometries that fit into a form *)
(** the seven types of WKT that crate wkt has *)
Fixpoint common (g : geom) : bool :=
  match g with
  | GPoint _ | GEmptyPoint | GMultiPoint _ | GLineString _ | GMultiLineString _ | GPolygon _ | GMultiPolygon _ => true
  | GCollection l => forallb common l
  | _ => false
  end.
(** polygons have an exterior and closed rings *)
Definition tidy_rings (r : rings) : Prop := r <> [] /\ Forall (fun l => closed_ring (line_of l)) r.
Fixpoint tidy (g : geom) : Prop :=
  match g with
  | GPolygon r => tidy_rings r
  | GMultiPolygon l => Forall tidy_rings l
  | GCollection l => (fix every l := match l with [] => True | a :: r => tidy a /\ every r end) l
  | _ => True
  end.
Definition suits (c : crates) (g : geom) (f : form) : Prop :=
  match f with
  | AsWkb dl d srid env =>
      encodable g /\ conforming (dz d) (dm d) g /\ (levels g <= 128)%nat /\ srid_ok dl srid /\ env_ok dl xy_dims env /\
      (dl = SpatiaLite -> spatialite_safe g)
  | AsWkt => common g = true /\ exactly (dz (c_dims c)) (dm (c_dims c)) g /\ nan_free g
  | AsGeo => plain g = true /\ small g /\ tidy g /\ exactly false false g
  | AsJson d =>
      geojson_kind g = true /\ no_empty g /\ finite_geom (multi_dim d) g /\ kept_geom (multi_dim d) g = g
  end.

(** ** What is assumed of the other crates *)
(** the parser of crate wkt follows the grammar *)
Definition wkt_crate (c : crates) (num : string -> option f64) : Prop :=
  forall t g, parse_wkt num (dz (c_dims c)) (dm (c_dims c)) t = Some g -> common g = true ->
  exists w, c_wkt c t = Ok w /\ wkt_geom w = Some g.
(** the parser of crate geojson follows RFC 7946 *)
Definition geojson_crate (c : crates) (num : string -> option f64) : Prop :=
  forall t j g, parse_json t = Some j -> geometry_of num j = Some g -> geojson_kind g = true -> no_empty g -> kept_geom true g = g ->
  exists x, c_geojson c t = Ok (GjGeometry x) /\ tree_of x = Some g.
