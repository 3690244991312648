(** C56, positions without a third coordinate.  Read with: GdalFlat.v ([starts_geometry]). *)
From Coq Require Import String.
From Coq Require Import List NArith ZArith Lia Bool.
From Verif Require Import Base Event Claims GdalModel GdalFlat.
Import ListNotations.
Local Open Scope list_scope.

(** C56.  Once a geometry was started, a writer for more dimensions than x and y (with a z or an m) refuses the
    callback xy, whatever came before. *)
Theorem C56_xy_refused : forall d l x y i, dz d || dm d = true -> existsb starts_geometry l = true ->
  snd (feed (gdal_writer d) l (gw_with d)) = Ok tt ->
  snd (feed (gdal_writer d) (l ++ [OEv (Xy x y i)]) (gw_with d)) = Err gdal_error.
Proof. exact xy_refused. Qed.
Print Assumptions C56_xy_refused.
(** a line with measures *)
Example C56_xy_refused_met : let d := mkDims false true false false in
  let l := [OEv (LineStringBegin true 2 0); OEv (Coord 1%N 2%N None None None None 0)] in
  dz d || dm d = true /\ existsb starts_geometry l = true /\ snd (feed (gdal_writer d) l (gw_with d)) = Ok tt.
Proof. repeat split; reflexivity. Qed.
