(** C72: the orientation of rings in shapefiles.  Read with: RingSpec.v (areas as real numbers), ShpSpec.v
    ([clockwise] is what the reader computes in f64; the records). *)
From Coq Require Import List NArith ZArith Lia Bool Reals.
From Verif Require Import Base Float Event Claims Geom ShpModel ShpSpec ShpMore RingSpec RingTop RingMore.
From Verif Require MvtSpec.
Import ListNotations.
Local Open Scope R_scope.
Local Open Scope list_scope.

(** C72.  A ring with an area that is not all but zero, or on a grid, is taken as an outer ring exactly
    if its real area lies to the right. *)
Theorem C72_orientation : forall l, decided l -> clockwise l = true <-> 0 <= area2 l.
Proof. exact decided_clockwise. Qed.
Print Assumptions C72_orientation.
(** The polygons of a record come out as they went in. *)
Theorem C72_polygons : forall ck n v m e polys rest S (p : proc S) s, is_i32 n ->
  well_formed (Areas v m e (concat polys)) -> Forall wound polys ->
  let d := p_dims p in
  exec p (read_shape ck d (record_bytes n (Areas v m e (concat polys)) ++ rest)) s =
  match run p (gevents (dz d || dm d) 0 (GMultiPolygon (map (map (map (visible d))) polys))) s with
  | (s', Ok _) => (s', Ok ((n, words (Areas v m e (concat polys))), rest))
  | (s', Err x) => (s', Err x)
  end.
Proof. exact wound_record. Qed.
Print Assumptions C72_polygons.
(** The same ring the other way round has the other orientation. *)
Theorem C72_reversed : forall l, decided l -> area2 l <> 0 -> clockwise (rev l) = negb (clockwise l).
Proof. exact reversed_orientation. Qed.
Print Assumptions C72_reversed.
(** The area is the usual one, and it depends neither on the starting point nor on the place. *)
Theorem C72_area : forall a b c l,
  area2 (a :: l ++ [a]) = - cross2 (a :: l ++ [a]) /\
  area2 (b :: l ++ [a; b]) = area2 (a :: b :: l ++ [a]) /\
  (forall dx dy a' l', Forall2 (moved dx dy) l l' -> moved dx dy a a' -> area2 (a' :: l' ++ [a']) = area2 (a :: l ++ [a])) /\
  area2 [a; b; c; a] = - ((px b - px a) * (py c - py a) - (px c - px a) * (py b - py a)).
Proof.
  exact (fun a b c l => conj (area2_closed a l) (conj (area2_start a b l)
    (conj (fun dx dy a' l' H A => area2_translated dx dy l l' a a' H A) (area2_triangle a b c)))).
Qed.
Print Assumptions C72_area.
(** Without the condition it fails: a counter-clockwise triangle of some 10^-13 degrees is taken as an
    outer ring. *)
Theorem C72_sliver_refuted : exists l, Forall finite_coord l /\ area2 l < 0 /\ clockwise l = true.
Proof. exact (ex_intro _ sliver sliver_misread). Qed.
Print Assumptions C72_sliver_refuted.
Example C72_met :
  well_formed island /\ is_i32 7 /\ concat [[square f0; rev (square f1)]; [square f1]] = [square f0; rev (square f1); square f1] /\
  Forall wound [[square f0; rev (square f1)]; [square f1]].
Proof. split; [exact island_ok|]. split; [split; discriminate + reflexivity|]. split; [reflexivity|exact island_wound]. Qed.
Example C72_area_met : has_area 1 (square f0).
Proof. exact square_area. Qed.
