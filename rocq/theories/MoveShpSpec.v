(** What C88 says about shapefiles: records and files whose coordinates are moved. *)
From Coq Require Import String Ascii.
From Coq Require Import List NArith ZArith Bool.
From Coq Require Import Init.Byte.
From Verif Require Import Base Float Event Geom MoveSpec ShpModel ShpSpec.
Import ListNotations.

(** The stored boxes and ranges may be any; the rings of an area after the first keep their
    orientation; the contents of a multipatch are not read and may be others of the same length. *)
Inductive moved_shape (f : f64 -> f64 -> f64 * f64) : shape -> shape -> Prop :=
| moved_null : moved_shape f Null Null
| moved_point : forall v c, moved_shape f (OnePoint v c) (OnePoint v (mv_coord f c))
| moved_points : forall v m e e' l, moved_shape f (ManyPoints v m e l) (ManyPoints v m e' (map (mv_coord f) l))
| moved_lines : forall v m e e' l, moved_shape f (Lines v m e l) (Lines v m e' (map (map (mv_coord f)) l))
| moved_areas : forall v m e e' l,
    Forall (fun r => clockwise (map (mv_coord f) r) = clockwise r) (tl l) ->
    moved_shape f (Areas v m e l) (Areas v m e' (map (map (mv_coord f)) l))
| moved_patches : forall b b', length b' = length b -> moved_shape f (Patches b) (Patches b').

(** a file: attributes and record numbers stay *)
Definition moved_entry (f : f64 -> f64 -> f64 * f64) (a b : entry) : Prop :=
  en_record b = en_record a /\ en_number b = en_number a /\ moved_shape f (en_shape a) (en_shape b).
