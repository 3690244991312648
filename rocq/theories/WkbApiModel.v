(** The conversions of ToWkb by name: /repo/geozero/src/wkb/mod.rs:49-80. *)
From Coq Require Import String Ascii.
From Coq Require Import List NArith ZArith Lia Bool.
From Coq Require Import Init.Byte.
From Verif Require Import Base Event WkbModel.
Import ListNotations.

(** mod.rs:49-51 *)
Definition to_wkb (src : dims -> prog unit) (d : dims) : res (list byte) := to_wkb_dialect src Wkb d None [].
(** mod.rs:53-55 *)
Definition to_ewkb (src : dims -> prog unit) (d : dims) (srid : option Z) : res (list byte) :=
  to_wkb_dialect src Ewkb d srid [].
(** mod.rs:57-64 *)
Definition to_gpkg_wkb (src : dims -> prog unit) (d : dims) (srid : option Z) (envelope : list f64) : res (list byte) :=
  to_wkb_dialect src Geopackage d srid envelope.
(** mod.rs:66-73 *)
Definition to_spatialite_wkb (src : dims -> prog unit) (d : dims) (srid : option Z) (envelope : list f64) : res (list byte) :=
  to_wkb_dialect src SpatiaLite d srid envelope.
(** mod.rs:75-82; CoordDimensions::default() is XY *)
Definition to_mysql_wkb (src : dims -> prog unit) (srid : option Z) : res (list byte) :=
  to_wkb_dialect src MySQL xy_dims srid [].
