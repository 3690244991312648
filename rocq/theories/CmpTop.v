(** Comparison and negation of floating point numbers as numbers: proofs. *)
From Coq Require Import List NArith ZArith Lia Bool Reals Lra.
From Coq Require Import Floats.SpecFloat.
From Flocq Require Import Core.Core IEEE754.BinarySingleNaN.
From Verif Require Import Base Float FloatReal Event Claims Geom ProcModel ProcSpec ProcTop MvtSpec.
From Verif Require MvtPlace.
Import ListNotations.
Local Open Scope R_scope.

Lemma cmp_value : forall x y, finite x -> finite y -> f64_cmp x y = Some (Rcompare (value x) (value y)).
Proof.
  intros x y X Y. destruct (MvtPlace.finite_val x X) as [Fx Vx]. destruct (MvtPlace.finite_val y Y) as [Fy Vy].
  unfold f64_cmp. rewrite <- (bits_sf x), <- (bits_sf y), <- Vx, <- Vy.
  exact (Bcompare_correct 53 1024 (bits x) (bits y) Fx Fy).
Qed.
Lemma leb_value : forall x y, finite x -> finite y -> (f64_leb x y = true <-> value x <= value y).
Proof.
  intros x y X Y. unfold f64_leb. rewrite cmp_value by assumption.
  destruct (Rcompare_spec (value x) (value y)); split; intros; try lra; try reflexivity; try discriminate.
Qed.
Lemma ltb_value : forall x y, finite x -> finite y -> (f64_ltb x y = true <-> value x < value y).
Proof.
  intros x y X Y. unfold f64_ltb. rewrite cmp_value by assumption.
  destruct (Rcompare_spec (value x) (value y)); split; intros; try lra; try reflexivity; try discriminate.
Qed.
Lemma eqb_value : forall x y, finite x -> finite y -> (f64_eqb x y = true <-> value x = value y).
Proof.
  intros x y X Y. unfold f64_eqb. rewrite cmp_value by assumption.
  destruct (Rcompare_spec (value x) (value y)); split; intros; try lra; try reflexivity; try discriminate.
Qed.
Lemma finite_num : forall x, finite x -> f64_is_nan x = false.
Proof.
  intros x H. unfold finite, exponent in H. unfold f64_is_nan.
  destruct (N.eqb_spec ((x / 2 ^ 52) mod 2 ^ 11) 2047) as [E|E]; [|reflexivity]. rewrite E in H. lia.
Qed.
Lemma nan_iff : forall x, f64_is_nan x = true <-> not_a_number x.
Proof.
  intros x. unfold f64_is_nan, not_a_number, exponent, fraction.
  rewrite andb_true_iff, negb_true_iff, N.eqb_eq, N.eqb_neq. reflexivity.
Qed.
(** nothing compares with a NaN *)
Lemma nan_compares : forall x y, not_a_number x \/ not_a_number y ->
  f64_leb x y = false /\ f64_ltb x y = false /\ f64_eqb x y = false.
Proof.
  intros x y H. assert (C : f64_cmp x y = None).
  { unfold f64_cmp. destruct H as [H|H]; apply nan_iff, cmp_nan in H; rewrite H; [reflexivity|].
    destruct (f64_decode x) as [s|s| |s m e]; try destruct s; reflexivity. }
  unfold f64_leb, f64_ltb, f64_eqb. rewrite C. auto.
Qed.
Lemma infinite_compares : forall neg x y, infinite neg x -> finite y ->
  f64_ltb x y = neg /\ f64_ltb y x = negb neg /\ f64_eqb x y = false.
Proof.
  intros neg x y X Y. pose proof (MvtPlace.infinite_inf neg x X) as I. destruct (MvtPlace.finite_val y Y) as [Fy _].
  unfold f64_ltb, f64_eqb, f64_cmp. rewrite <- (bits_sf x), <- (bits_sf y), I. unfold fin in Fy.
  destruct (bits y) as [s|s| |s m e B]; try discriminate; destruct neg; repeat split; cbn; try (destruct s; reflexivity); reflexivity.
Qed.

(** ** Negation: the sign and nothing else *)
Lemma neg_fields : forall x, f64_ok x ->
  negative (f64_neg x) = negb (negative x) /\ exponent (f64_neg x) = exponent x /\ fraction (f64_neg x) = fraction x.
Proof.
  intros x H. unfold f64_ok in H. unfold negative, exponent, fraction, f64_neg.
  change (2 ^ 64)%N with 18446744073709551616%N in H. change (2 ^ 63)%N with 9223372036854775808%N.
  change (2 ^ 52)%N with 4503599627370496%N. change (2 ^ 11)%N with 2048%N.
  destruct (N.ltb_spec x 9223372036854775808) as [L|L].
  - replace ((x + 9223372036854775808) / 9223372036854775808)%N with 1%N.
    2: { apply (N.div_unique _ _ _ x); lia. }
    replace (x / 9223372036854775808)%N with 0%N by (symmetry; apply N.div_small; lia).
    replace (x + 9223372036854775808)%N with (x + 2048 * 4503599627370496)%N by lia.
    rewrite N.div_add, N.mod_add by lia. split; [reflexivity|]. split; [|reflexivity].
    replace (x / 4503599627370496 + 2048)%N with (x / 4503599627370496 + 1 * 2048)%N by lia. now rewrite N.mod_add by lia.
  - assert (E : exists r, x = (r + 9223372036854775808)%N /\ (r < 9223372036854775808)%N)
      by (exists (x - 9223372036854775808)%N; lia).
    destruct E as (r & -> & R).
    replace (r + 9223372036854775808 - 9223372036854775808)%N with r by lia.
    replace ((r + 9223372036854775808) / 9223372036854775808)%N with 1%N.
    2: { apply (N.div_unique _ _ _ r); lia. }
    replace (r / 9223372036854775808)%N with 0%N by (symmetry; apply N.div_small; lia).
    replace (r + 9223372036854775808)%N with (r + 2048 * 4503599627370496)%N by lia.
    rewrite N.div_add, N.mod_add by lia. split; [reflexivity|]. split; [|reflexivity].
    replace (r / 4503599627370496 + 2048)%N with (r / 4503599627370496 + 1 * 2048)%N by lia. now rewrite N.mod_add by lia.
Qed.
Lemma neg_value : forall x, f64_ok x -> value (f64_neg x) = - value x.
Proof.
  intros x H. destruct (neg_fields x H) as (A & B & C). unfold value, magnitude. rewrite A, B, C.
  destruct (negative x); cbn [negb]; ring.
Qed.

(** ** Bounding boxes *)
Lemma bounds_values : forall l, existsb is_empty_point l = false -> positions l <> [] ->
  (forall x y, In (x, y) (positions l) -> finite x /\ finite y) ->
  exists b, feed bounds_proc l None = (Some b, Ok tt) /\
    In (min_x b) (map fst (positions l)) /\ In (max_x b) (map fst (positions l)) /\
    In (min_y b) (map snd (positions l)) /\ In (max_y b) (map snd (positions l)) /\
    forall x y, In (x, y) (positions l) ->
      value (min_x b) <= value x <= value (max_x b) /\ value (min_y b) <= value y <= value (max_y b).
Proof.
  intros l E N F. destruct (bounds_exact l E) as (b & H & _ & B).
  destruct (positions l) as [|[x0 y0] r] eqn:P; [contradiction|].
  destruct (F x0 y0 (or_introl eq_refl)) as [X0 Y0].
  destruct (B x0 y0 r eq_refl (finite_num _ X0) (finite_num _ Y0)) as (b' & -> & [A1 A2] & [B1 B2] & [C1 C2] & [D1 D2] & _).
  exists b'. repeat (split; [assumption|]).
  assert (FX : forall v, In v (map fst ((x0, y0) :: r)) -> finite v).
  { intros v I. apply in_map_iff in I. destruct I as ([a c] & <- & I). exact (proj1 (F a c I)). }
  assert (FY : forall v, In v (map snd ((x0, y0) :: r)) -> finite v).
  { intros v I. apply in_map_iff in I. destruct I as ([a c] & <- & I). exact (proj2 (F a c I)). }
  intros x y I. destruct (F x y I) as [X Y].
  pose proof (in_map fst _ _ I) as IX. pose proof (in_map snd _ _ I) as IY. cbn [fst snd] in IX, IY.
  rewrite <- !leb_value by auto.
  repeat split; [apply A2|apply B2|apply C2|apply D2]; auto using finite_num.
Qed.
