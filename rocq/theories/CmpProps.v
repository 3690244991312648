(** Comparisons and signs as numbers: C13, C19, C32, C43 (see /verif/properties.jsonl). *)
From Coq Require Import List NArith ZArith Bool Reals.
From Verif Require Import Base Float Event Claims Geom ProcModel ProcSpec MvtSpec CmpTop.
Import ListNotations.
Local Open Scope R_scope.

(** C32: for finite positions the box is made of delivered numbers, and all delivered numbers, as real
    numbers, are inside it. *)
Theorem C32_numbers : forall l, existsb is_empty_point l = false -> positions l <> [] ->
  (forall x y, In (x, y) (positions l) -> finite x /\ finite y) ->
  exists b, feed bounds_proc l None = (Some b, Ok tt) /\
    In (min_x b) (map fst (positions l)) /\ In (max_x b) (map fst (positions l)) /\
    In (min_y b) (map snd (positions l)) /\ In (max_y b) (map snd (positions l)) /\
    forall x y, In (x, y) (positions l) ->
      value (min_x b) <= value x <= value (max_x b) /\ value (min_y b) <= value y <= value (max_y b).
Proof. exact bounds_values. Qed.
Print Assumptions C32_numbers.
Example C32_numbers_met : let l := [OEv (Xy 0x3FF0000000000000%N 0x8000000000000000%N 0%nat); OEv (Xy 0%N 1%N 1%nat)] in
  existsb is_empty_point l = false /\ positions l <> [] /\ (forall x y, In (x, y) (positions l) -> finite x /\ finite y).
Proof.
  split; [reflexivity|]. split; [discriminate|]. intros x y [E|[E|[]]]; injection E as <- <-; split; reflexivity.
Qed.
(** The order used is that of the numbers; a NaN is neither below nor above nor equal to anything. *)
Theorem C32_order : forall x y,
  (finite x -> finite y -> (f64_leb x y = true <-> value x <= value y) /\ (f64_ltb x y = true <-> value x < value y)) /\
  (not_a_number x \/ not_a_number y -> f64_leb x y = false /\ f64_ltb x y = false /\ f64_eqb x y = false) /\
  (forall neg, infinite neg x -> finite y -> f64_ltb x y = neg /\ f64_ltb y x = negb neg /\ f64_eqb x y = false).
Proof.
  exact (fun x y => conj (fun X Y => conj (leb_value x y X Y) (ltb_value x y X Y))
    (conj (nan_compares x y) (fun neg => infinite_compares neg x y))).
Qed.
Print Assumptions C32_order.
(** C19: rings are closed if the first and the last position are the same numbers (0 and -0 are). *)
Theorem C19_same_number : forall x y, finite x -> finite y -> (f64_eqb x y = true <-> value x = value y).
Proof. exact eqb_value. Qed.
Print Assumptions C19_same_number.
Example C19_same_number_met : finite 0%N /\ finite 0x8000000000000000%N /\ f64_eqb 0%N 0x8000000000000000%N = true.
Proof. repeat split. Qed.
(** C13: an ordinate counts as missing iff it is no number: all exponent bits set and some fraction bit. *)
Theorem C13_nan : forall x, f64_is_nan x = true <-> not_a_number x.
Proof. exact nan_iff. Qed.
Print Assumptions C13_nan.
Example C13_nan_met : not_a_number 0x7FF8000000000000%N /\ not_a_number 0xFFF0000000000001%N /\ ~ not_a_number 0x7FF0000000000000%N.
Proof. repeat split; try discriminate. intros [_ H]. apply H. reflexivity. Qed.
(** C43: inverting an axis changes the sign of a number and nothing else. *)
Theorem C43_negated : forall x, f64_ok x ->
  negative (f64_neg x) = negb (negative x) /\ exponent (f64_neg x) = exponent x /\ fraction (f64_neg x) = fraction x.
Proof. exact neg_fields. Qed.
Print Assumptions C43_negated.
Theorem C43_negated_value : forall x, f64_ok x -> value (f64_neg x) = - value x.
Proof. exact neg_value. Qed.
Print Assumptions C43_negated_value.
Example C43_negated_met : f64_ok 0x7FF8000000000000%N /\ f64_neg 0x3FF0000000000000%N = 0xBFF0000000000000%N.
Proof. split; reflexivity. Qed.
