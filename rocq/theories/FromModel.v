(** The FromWkb implementations not modelled with their format, and the Debug texts of
    /repo/geozero/src/wkb/wkb_common.rs. *)
From Coq Require Import String Ascii.
From Coq Require Import List NArith ZArith Lia Bool.
From Coq Require Import Init.Byte.
From Verif Require Import Base Event WkbModel WktModel GeoJsonModel SvgModel DbModel.
Import ListNotations.
Local Open Scope list_scope.

(** geojson/mod.rs:69-79 (FromWkb for GeoJsonString); from_utf8 never fails on a concatenation of strings *)
Definition geojson_from_wkb (fmt32 : N -> string) (fmt : f64 -> string) (dl : dialect) (b : list byte) : res string :=
  match exec (geojson_writer fmt32 fmt xy_dims) (process_wkb_type_geom dl xy_dims b) EmptyString with
  | (out, Ok _) => Ok out
  | (_, Err e) => Err e
  end.
(** svg/mod.rs:90-100 (FromWkb for SvgString) *)
Definition svg_from_wkb (fmt : f64 -> string) (dl : dialect) (b : list byte) : res string :=
  match exec (svg_writer fmt (svg_new false)) (process_wkb_type_geom dl xy_dims b) EmptyString with
  | (out, Ok _) => Ok out
  | (_, Err e) => Err e
  end.
(** wkb_common.rs:20-24 (Debug for Encode) *)
Definition encode_debug (fmt : f64 -> string) (v : source) : string :=
  match to_wkt fmt (so_process v) with Ok t => t | Err _ => "<unknown geometry>" end.
