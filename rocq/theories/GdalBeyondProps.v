(** C56, positions that GDAL refuses silently. *)
From Coq Require Import String Ascii.
From Coq Require Import List NArith ZArith Lia Bool.
From Verif Require Import Base Event Claims Geom GdalModel GdalSpec GdalTop GdalBeyond.
Import ListNotations.
Local Open Scope N_scope.
Local Open Scope list_scope.

(** C56.  The number of a position is handed to GDAL as an i32.  Of a line of more than 2^31 positions the
    first 2^31 are kept, and the others are lost without an error. *)
Theorem C56_long_line_refuted : forall (h : bool) src head lost (x : unit),
  N.of_nat (length head) = 2 ^ 31 -> N.of_nat (length lost) <= 2 ^ 31 ->
  delivers src (fun multi => gevents multi 0 (GLineString (head ++ lost))) (Ok x) ->
  to_gdal_ndim src (if h then xyzm_dims else xy_dims) = Ok (gvalue h (GLineString head)).
Proof. exact longer_line. Qed.
Print Assumptions C56_long_line_refuted.
(** from the position 2^32 on they replace the first ones *)
Theorem C56_wrapped_line_refuted : forall (h : bool) src head lost over (x : unit),
  N.of_nat (length head) = 2 ^ 31 -> N.of_nat (length lost) = 2 ^ 31 -> N.of_nat (length over) <= 2 ^ 31 ->
  delivers src (fun multi => gevents multi 0 (GLineString (head ++ lost ++ over))) (Ok x) ->
  to_gdal_ndim src (if h then xyzm_dims else xy_dims) = Ok (gvalue h (GLineString (over ++ skipn (length over) head))).
Proof. exact long_line. Qed.
Print Assumptions C56_wrapped_line_refuted.
Example C56_long_line_met : exists head lost over : line,
  N.of_nat (length head) = 2 ^ 31 /\ N.of_nat (length lost) = 2 ^ 31 /\ over <> [] /\ N.of_nat (length over) <= 2 ^ 31 /\
  delivers (said (GLineString (head ++ lost ++ over)))
    (fun multi => gevents multi 0 (GLineString (head ++ lost ++ over))) (Ok tt).
Proof.
  exists (repeat (mkC 1 2 None None) (N.to_nat (2 ^ 31))), (repeat (mkC 3 4 None None) (N.to_nat (2 ^ 31))), [mkC 5 6 None None].
  split; [rewrite repeat_length; apply N2Nat.id|]. split; [rewrite repeat_length; apply N2Nat.id|].
  split; [discriminate|]. split; [discriminate|]. apply said_delivers.
Qed.
(** positions of an arc that follows a polygon without rings, or an empty multi line or multi polygon, are
    lost without an error *)
Theorem C56_ringless_refuted : forall src g arc (x : unit),
  g = GPolygon [] \/ g = GMultiLineString [] \/ g = GMultiPolygon [] ->
  delivers src (fun multi => gevents multi 0 (GCollection [g; GCircularString arc])) (Ok x) ->
  to_gdal src = Ok (gvalue false g).
Proof. exact ringless_lost. Qed.
Print Assumptions C56_ringless_refuted.
Example C56_ringless_met :
  delivers (said (GCollection [GPolygon []; GCircularString [mkC 1 2 None None; mkC 3 4 None None; mkC 5 6 None None]]))
    (fun multi => gevents multi 0 (GCollection [GPolygon []; GCircularString [mkC 1 2 None None; mkC 3 4 None None; mkC 5 6 None None]]))
    (Ok tt).
Proof. apply said_delivers. Qed.
