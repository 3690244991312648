(** Where coordinates land: the transform in terms of the specification. *)
From Coq Require Import String Ascii.
From Coq Require Import List NArith ZArith Lia Bool Reals Lra.
From Coq Require Import Floats.SpecFloat.
From Flocq Require Import Core.Core IEEE754.BinarySingleNaN.
From Verif Require Import Base BaseLemmas Float Event EventLemmas Claims Geom GeoModel GeoSpec.
From Verif Require Import FloatReal MvtModel MvtSpec MvtFloat MvtTop.
From Verif Require WkbModel WkbSpec WkbClaims WkbTop.
Import ListNotations.
Local Open Scope R_scope.

Lemma two_power : forall e, bpow radix2 e = powerRZ 2 e.
Proof. intros e. apply bpow_powerRZ. Qed.
Lemma decode_cases : forall x,
  f64_decode x =
  (if (exponent x =? 0)%N then
     match fraction x with N0 => S754_zero (negative x) | Npos p => S754_finite (negative x) p (-1074) end
   else if (exponent x =? 2047)%N then
     (if (fraction x =? 0)%N then S754_infinity (negative x) else S754_nan)
   else match (fraction x + 2 ^ 52)%N with
        | N0 => S754_zero (negative x)
        | Npos p => S754_finite (negative x) p (Z.of_N (exponent x) - 1075)
        end).
Proof.
  intros x. unfold f64_decode, sf_decode. change (52 + 11)%N with 63%N. fold (exponent x) (fraction x) (negative x).
  change (2 ^ 11 - 1)%N with 2047%N. change (Z.of_N (2 ^ (11 - 1) - 1)) with 1023%Z. change (Z.of_N 52) with 52%Z.
  destruct (fraction x + 2 ^ 52)%N; [reflexivity|]. replace (Z.of_N (exponent x) - 1023 - 52)%Z with (Z.of_N (exponent x) - 1075)%Z by lia.
  reflexivity.
Qed.
Lemma finite_val : forall x, finite x -> fin x = true /\ val x = value x.
Proof.
  intros x F. unfold finite in F. pose proof (bits_class x) as C. rewrite decode_cases in C.
  unfold value, magnitude. destruct (exponent x =? 0)%N.
  - destruct (fraction x) as [|p]; destruct C as [C1 C2]; split; try exact C1; rewrite C2.
    + cbn [Z.of_N]. rewrite Rmult_0_l, Ropp_0. destruct (negative x); reflexivity.
    + unfold F2R. cbn [Fnum Fexp]. rewrite two_power. cbn [Z.of_N].
      destruct (negative x); cbn [SpecFloat.cond_Zopp]; [|reflexivity].
      change (Z.neg p) with (- Z.pos p)%Z. rewrite opp_IZR. ring.
  - destruct (N.eqb_spec (exponent x) 2047) as [E|_]; [lia|].
    rewrite (N.add_comm (2 ^ 52)). destruct (fraction x + 2 ^ 52)%N as [|p] eqn:P; [lia|].
    destruct C as [C1 C2]; split; [exact C1|]; rewrite C2.
    unfold F2R. cbn [Fnum Fexp]. rewrite two_power. cbn [Z.of_N].
    destruct (negative x); cbn [SpecFloat.cond_Zopp]; [|reflexivity].
    change (Z.neg p) with (- Z.pos p)%Z. rewrite opp_IZR. ring.
Qed.
Lemma infinite_inf : forall b x, infinite b x -> inf b x.
Proof.
  intros b x (E & F & S). pose proof (bits_class x) as C. rewrite decode_cases in C. rewrite E, F, S in C. exact C.
Qed.
Lemma nan_bits : forall x, not_a_number x -> bits x = B754_nan.
Proof.
  intros x (E & F). pose proof (bits_class x) as C. rewrite decode_cases in C. rewrite E in C.
  change (2047 =? 0)%N with false in C. change (2047 =? 2047)%N with true in C. cbv iota in C.
  destruct (N.eqb_spec (fraction x) 0); [contradiction|exact C].
Qed.
Lemma bits_of_decode : forall x y, f64_decode x = f64_decode y -> bits x = bits y.
Proof. intros x y E. apply B2SF_inj. rewrite !bits_sf. exact E. Qed.

(** ** The writer's two axes *)
Lemma position_axes : forall E l b r t x y,
  position E l b r t x y =
  if (E =? 0)%N then Err InvalidExtent
  else Ok (axis E l r x, saturating_sub (u32_as_i32 E) (axis E b t y)).
Proof. intros. unfold position, mvt_new. destruct (E =? 0)%N; reflexivity. Qed.
Lemma axis_range : forall E l r x, (- 2 ^ 31 <= axis E l r x < 2 ^ 31)%Z.
Proof.
  intros. pose proof (cell_range (f64_mul (f64_sub x l) (f64_div (f64_of_int (Z.of_N E)) (f64_sub r l)))) as H.
  unfold axis, i32_min, i32_max in *. change (2 ^ 31)%Z with 2147483648%Z. lia.
Qed.
Lemma saturating_range : forall a b, (- 2 ^ 31 <= saturating_sub a b < 2 ^ 31)%Z.
Proof. intros a b. pose proof (clamp_range (a - b)). unfold saturating_sub, i32_min, i32_max in *. change (2 ^ 31)%Z with 2147483648%Z. lia. Qed.
Lemma position_range : forall E l b r t x y p, position E l b r t x y = Ok p -> i32_pos p.
Proof.
  intros E l b r t x y p. rewrite position_axes. destruct (E =? 0)%N; [discriminate|]. intros H. injection H as <-.
  split; cbn [fst snd]; [apply axis_range|apply saturating_range].
Qed.
Lemma small_extent : forall E, (0 < E < 2 ^ 31)%N -> u32_as_i32 E = Z.of_N E /\ (E =? 0)%N = false /\ (0 < E < 2 ^ 32)%N.
Proof.
  intros E [H1 H2]. change (2 ^ 31)%N with 2147483648%N in H2. change (2 ^ 32)%N with 4294967296%N. unfold u32_as_i32.
  destruct (N.ltb_spec E 2147483648); [|lia]. destruct (N.eqb_spec E 0); [lia|]. repeat split; lia.
Qed.

Lemma inside_box : forall E l b r t x y, (0 < E < 2 ^ 31)%N ->
  finite l -> finite b -> finite r -> finite t -> finite x -> finite y ->
  powerRZ 2 (-990) <= value r - value l -> powerRZ 2 (-990) <= value t - value b ->
  value l <= value x <= value r -> value b <= value y <= value t ->
  exists px py, position E l b r t x y = Ok (px, py) /\ (0 <= px <= Z.of_N E)%Z /\ (0 <= py <= Z.of_N E)%Z.
Proof.
  intros E l b r t x y HE Fl Fb Fr Ft Fx Fy Wx Wy Ix Iy.
  destruct (small_extent E HE) as (U & Z & HE').
  destruct (finite_val l Fl) as [Fl1 Fl2], (finite_val b Fb) as [Fb1 Fb2], (finite_val r Fr) as [Fr1 Fr2],
    (finite_val t Ft) as [Ft1 Ft2], (finite_val x Fx) as [Fx1 Fx2], (finite_val y Fy) as [Fy1 Fy2].
  rewrite <- two_power, <- Fl2, <- Fr2 in Wx. rewrite <- two_power, <- Fb2, <- Ft2 in Wy.
  rewrite <- Fl2, <- Fr2, <- Fx2 in Ix. rewrite <- Fb2, <- Ft2, <- Fy2 in Iy.
  pose proof (bpow_gt_0 radix2 (-990)) as P.
  pose proof (axis_inside E l r HE' Fl1 Fr1 ltac:(lra) Wx x Fx1 Ix) as Ax.
  pose proof (axis_inside E b t HE' Fb1 Ft1 ltac:(lra) Wy y Fy1 Iy) as Ay.
  rewrite position_axes, Z, U. eexists. eexists. split; [reflexivity|]. split; [exact Ax|].
  destruct HE as [_ HE]. change (2 ^ 31)%N with 2147483648%N in HE.
  unfold saturating_sub, clamp_i32, i32_min, i32_max. lia.
Qed.

Lemma position_order : forall E l b r t x1 y1 x2 y2 p1 p2, (0 < E < 2 ^ 32)%N ->
  finite l -> finite b -> finite r -> finite t -> finite x1 -> finite y1 -> finite x2 -> finite y2 ->
  value l < value r -> value b < value t ->
  position E l b r t x1 y1 = Ok p1 -> position E l b r t x2 y2 = Ok p2 ->
  (value x1 <= value x2 -> (fst p1 <= fst p2)%Z) /\ (value y1 <= value y2 -> (snd p2 <= snd p1)%Z).
Proof.
  intros E l b r t x1 y1 x2 y2 p1 p2 HE Fl Fb Fr Ft Fx1 Fy1 Fx2 Fy2 Wx Wy.
  destruct (finite_val l Fl) as [Fl1 Fl2], (finite_val b Fb) as [Fb1 Fb2], (finite_val r Fr) as [Fr1 Fr2],
    (finite_val t Ft) as [Ft1 Ft2], (finite_val x1 Fx1) as [Fx11 Fx12], (finite_val y1 Fy1) as [Fy11 Fy12],
    (finite_val x2 Fx2) as [Fx21 Fx22], (finite_val y2 Fy2) as [Fy21 Fy22].
  rewrite <- Fl2, <- Fr2 in Wx. rewrite <- Fb2, <- Ft2 in Wy. rewrite <- Fx12, <- Fx22, <- Fy12, <- Fy22.
  rewrite !position_axes. destruct (E =? 0)%N; [discriminate|]. intros H1 H2. injection H1 as <-. injection H2 as <-. cbn [fst snd].
  split; intros L.
  - apply axis_mono; assumption.
  - pose proof (axis_mono E b t HE Fb1 Ft1 Wy y1 y2 Fy11 Fy21 L). unfold saturating_sub. apply clamp_mono. lia.
Qed.

Lemma position_corner : forall E l b r t, (0 < E < 2 ^ 31)%N ->
  finite l -> finite b -> finite r -> finite t -> value l < value r -> value b < value t ->
  position E l b r t l b = Ok (0%Z, Z.of_N E).
Proof.
  intros E l b r t HE Fl Fb Fr Ft Wx Wy. destruct (small_extent E HE) as (U & Z & HE').
  destruct (finite_val l Fl) as [Fl1 Fl2], (finite_val b Fb) as [Fb1 Fb2], (finite_val r Fr) as [Fr1 Fr2], (finite_val t Ft) as [Ft1 Ft2].
  rewrite <- Fl2, <- Fr2 in Wx. rewrite <- Fb2, <- Ft2 in Wy.
  rewrite position_axes, Z, U, !axis_left by (assumption || reflexivity).
  f_equal. f_equal. destruct HE as [_ HE]. change (2 ^ 31)%N with 2147483648%N in HE. unfold saturating_sub, clamp_i32, i32_min, i32_max. lia.
Qed.
(** differences up to 2^1023 do not overflow *)
Lemma no_overflow : forall w, 0 <= w <= powerRZ 2 1023 -> RN w < bpow radix2 1024.
Proof.
  intros w [_ H]. apply Rle_lt_trans with (bpow radix2 1023); [|now apply bpow_lt].
  assert (X : RN (bpow radix2 1023) = bpow radix2 1023).
  { replace (bpow radix2 1023) with (IZR (2 ^ 53) * bpow radix2 970).
    - apply (RN_exact (2 ^ 53) 970); [discriminate|lia].
    - change (IZR (2 ^ 53)) with (bpow radix2 53). rewrite <- bpow_plus. reflexivity. }
  rewrite <- X. apply RN_le. rewrite two_power. exact H.
Qed.
Lemma position_far_corner : forall E l b r t, (0 < E < 2 ^ 31)%N ->
  finite l -> finite b -> finite r -> finite t ->
  powerRZ 2 (-990) <= value r - value l <= powerRZ 2 1023 -> powerRZ 2 (-990) <= value t - value b <= powerRZ 2 1023 ->
  exists px py, position E l b r t r t = Ok (px, py) /\
    (px = Z.of_N E \/ px = Z.of_N E - 1)%Z /\ (py = 0 \/ py = 1)%Z.
Proof.
  intros E l b r t HE Fl Fb Fr Ft [Wx1 Wx2] [Wy1 Wy2]. destruct (small_extent E HE) as (U & Z & HE').
  destruct (finite_val l Fl) as [Fl1 Fl2], (finite_val b Fb) as [Fb1 Fb2], (finite_val r Fr) as [Fr1 Fr2], (finite_val t Ft) as [Ft1 Ft2].
  rewrite <- two_power in Wx1, Wy1. rewrite <- Fl2, <- Fr2 in *. rewrite <- Fb2, <- Ft2 in *.
  pose proof (bpow_gt_0 radix2 (-990)) as P.
  pose proof (axis_right E l r HE' Fl1 Fr1 ltac:(lra) Wx1 r Fr1 eq_refl (no_overflow (val r - val l) ltac:(lra)) (proj2 HE)) as Ax.
  pose proof (axis_right E b t HE' Fb1 Ft1 ltac:(lra) Wy1 t Ft1 eq_refl (no_overflow (val t - val b) ltac:(lra)) (proj2 HE)) as Ay.
  rewrite position_axes, Z, U. eexists. eexists. split; [reflexivity|]. split; [exact Ax|].
  destruct HE as [_ HE]. change (2 ^ 31)%N with 2147483648%N in HE. unfold saturating_sub, clamp_i32, i32_min, i32_max. lia.
Qed.
Lemma position_accuracy : forall E l b r t x y, (0 < E < 2 ^ 31)%N ->
  finite l -> finite b -> finite r -> finite t -> finite x -> finite y ->
  powerRZ 2 (-990) <= value r - value l <= powerRZ 2 1023 -> powerRZ 2 (-990) <= value t - value b <= powerRZ 2 1023 ->
  value l <= value x <= value r -> value b <= value y <= value t ->
  exists px py, position E l b r t x y = Ok (px, py) /\
    let ux := IZR (Z.of_N E) * (value x - value l) / (value r - value l) in
    let uy := IZR (Z.of_N E) * (value t - value y) / (value t - value b) in
    ux - 1 - / 65536 < IZR px <= ux + / 65536 /\
    uy - / 65536 <= IZR py < uy + 1 + / 65536.
Proof.
  intros E l b r t x y HE Fl Fb Fr Ft Fx Fy [Wx1 Wx2] [Wy1 Wy2] Ix Iy. destruct (small_extent E HE) as (U & Z & HE').
  destruct (inside_box E l b r t x y HE Fl Fb Fr Ft Fx Fy Wx1 Wy1 Ix Iy) as (px & py & Pos & Rx & Ry).
  exists px, py. split; [exact Pos|]. cbv zeta.
  destruct (finite_val l Fl) as [Fl1 Fl2], (finite_val b Fb) as [Fb1 Fb2], (finite_val r Fr) as [Fr1 Fr2],
    (finite_val t Ft) as [Ft1 Ft2], (finite_val x Fx) as [Fx1 Fx2], (finite_val y Fy) as [Fy1 Fy2].
  rewrite <- two_power in Wx1, Wy1. rewrite <- Fl2, <- Fr2, <- Fx2 in *. rewrite <- Fb2, <- Ft2, <- Fy2 in *.
  pose proof (bpow_gt_0 radix2 (-990)) as P.
  pose proof (axis_accuracy E l r HE' Fl1 Fr1 ltac:(lra) Wx1 x Fx1 Ix (no_overflow (val r - val l) ltac:(lra)) (proj2 HE)) as Ax.
  pose proof (axis_accuracy E b t HE' Fb1 Ft1 ltac:(lra) Wy1 y Fy1 Iy (no_overflow (val t - val b) ltac:(lra)) (proj2 HE)) as Ay.
  pose proof (axis_inside E b t HE' Fb1 Ft1 ltac:(lra) Wy1 y Fy1 Iy) as Az.
  cbv zeta in Ax, Ay. rewrite position_axes, Z, U in Pos. injection Pos as <- <-. split; [exact Ax|].
  assert (S : saturating_sub (Z.of_N E) (axis E b t y) = (Z.of_N E - axis E b t y)%Z).
  { destruct HE as [_ HE]. change (2 ^ 31)%N with 2147483648%N in HE. unfold saturating_sub, clamp_i32, i32_min, i32_max. lia. }
  rewrite S, minus_IZR.
  replace (IZR (Z.of_N E) * (val t - val y) / (val t - val b))
    with (IZR (Z.of_N E) - IZR (Z.of_N E) * (val y - val b) / (val t - val b)) by (field; lra).
  lra.
Qed.

(** ** Special values *)
Lemma sub_nan : forall x l, bits x = B754_nan -> bits (f64_sub x l) = B754_nan.
Proof. intros x l H. rewrite bits_sub, H. reflexivity. Qed.
Lemma mul_nan : forall x m, bits x = B754_nan -> bits (f64_mul x m) = B754_nan.
Proof. intros x m H. rewrite bits_mul, H. reflexivity. Qed.
Lemma axis_nan : forall E l r x, not_a_number x -> axis E l r x = 0%Z.
Proof. intros E l r x H. apply cell_nan, mul_nan, sub_nan, nan_bits, H. Qed.
Lemma position_nan : forall E l b r t x y, (0 < E < 2 ^ 31)%N -> not_a_number x -> not_a_number y ->
  position E l b r t x y = Ok (0%Z, Z.of_N E).
Proof.
  intros E l b r t x y HE Hx Hy. destruct (small_extent E HE) as (U & Z & _). rewrite position_axes, Z, U, !axis_nan by assumption.
  f_equal. f_equal. destruct HE as [_ HE]. change (2 ^ 31)%N with 2147483648%N in HE. unfold saturating_sub, clamp_i32, i32_min, i32_max. lia.
Qed.
Lemma sub_inf : forall b x l, inf b x -> fin l = true -> inf b (f64_sub x l).
Proof.
  intros b x l H F. unfold inf, fin in *. rewrite bits_sub, H. destruct (bits l); try discriminate F; reflexivity.
Qed.
Lemma multiplier_positive : forall E l r, (0 < E < 2 ^ 32)%N -> fin l = true -> fin r = true -> val l < val r ->
  RN (val r - val l) < bpow radix2 1024 ->
  let M := f64_div (f64_of_int (Z.of_N E)) (f64_sub r l) in (fin M = true /\ 0 < val M) \/ inf false M.
Proof.
  intros E l r HE Fl Fr W L M. destruct (ER_val E l r HE) as [F1 F2]. pose proof (ER_pos E l r HE) as [P _].
  pose proof (sub_positive r l W) as Q. pose proof (sub_val r l Fr Fl) as S.
  rewrite Rlt_bool_true in S by (rewrite Rabs_pos_eq by lra; exact L). destruct S as [S1 S2].
  pose proof (div_val _ (f64_sub r l) F1 S1 ltac:(lra)) as V. fold M in V. rewrite F2, S2 in V.
  set (d := RN (val r - val l)) in *. set (e := IZR (Z.of_N E)) in *.
  assert (B : bpow radix2 (-1024) <= e / d).
  { apply Rmult_le_reg_r with d; [exact Q|]. unfold Rdiv. rewrite Rmult_assoc, Rinv_l, Rmult_1_r by lra.
    apply Rle_trans with (bpow radix2 (-1024) * bpow radix2 1024).
    - apply Rmult_le_compat_l; [apply bpow_ge_0|lra].
    - rewrite <- bpow_plus. change (bpow radix2 (-1024 + 1024)) with 1. lra. }
  pose proof (bpow_gt_0 radix2 (-1024)) as B0.
  destruct (Rlt_bool (Rabs (RN (e / d))) (bpow radix2 1024)).
  - left. destruct V as [V1 V2]. split; [exact V1|]. rewrite V2.
    assert (X : RN (bpow radix2 (-1024)) = bpow radix2 (-1024)).
    { rewrite <- (Rmult_1_l (bpow radix2 (-1024))). apply (RN_exact 1 (-1024)); [discriminate|lia]. }
    apply Rlt_le_trans with (bpow radix2 (-1024)); [exact B0|]. rewrite <- X. apply RN_le, B.
  - right. rewrite Rlt_bool_false in V by lra. exact V.
Qed.
Lemma axis_infinite : forall E l r s x, (0 < E < 2 ^ 32)%N -> finite l -> finite r ->
  0 < value r - value l <= powerRZ 2 1023 -> infinite s x ->
  axis E l r x = if s then (- 2 ^ 31)%Z else (2 ^ 31 - 1)%Z.
Proof.
  intros E l r s x HE Fl Fr [W1 W2] I. destruct (finite_val l Fl) as [Fl1 Fl2], (finite_val r Fr) as [Fr1 Fr2].
  rewrite <- Fl2, <- Fr2 in *. apply infinite_inf in I. pose proof (sub_inf s x l I Fl1) as S.
  unfold axis. destruct (multiplier_positive E l r HE Fl1 Fr1 ltac:(lra) (no_overflow (val r - val l) ltac:(lra))) as [[F P]|M].
  - pose proof (mul_inf _ _ _ S F ltac:(lra)) as X. rewrite Rlt_bool_false, xorb_false_r in X by lra.
    rewrite (cell_inf _ _ X). destruct s; reflexivity.
  - pose proof (mul_inf_inf _ _ _ _ S M) as X. rewrite xorb_false_r in X. rewrite (cell_inf _ _ X). destruct s; reflexivity.
Qed.
Lemma position_infinite : forall E l b r t sx sy x y, (0 < E < 2 ^ 31)%N ->
  finite l -> finite b -> finite r -> finite t ->
  0 < value r - value l <= powerRZ 2 1023 -> 0 < value t - value b <= powerRZ 2 1023 ->
  infinite sx x -> infinite sy y ->
  position E l b r t x y =
  Ok (if sx then (- 2 ^ 31)%Z else (2 ^ 31 - 1)%Z, if sy then (2 ^ 31 - 1)%Z else (Z.of_N E - (2 ^ 31 - 1))%Z).
Proof.
  intros E l b r t sx sy x y HE Fl Fb Fr Ft Wx Wy Ix Iy. destruct (small_extent E HE) as (U & Z & HE').
  rewrite position_axes, Z, U, (axis_infinite E l r sx x), (axis_infinite E b t sy y) by assumption.
  f_equal. f_equal. destruct HE as [_ HE]. change (2 ^ 31)%N with 2147483648%N in HE. change (2 ^ 31)%Z with 2147483648%Z.
  unfold saturating_sub, clamp_i32, i32_min, i32_max. destruct sy; lia.
Qed.
(** ** Without scaling *)
Lemma unscaled_finite : forall c x y, mc_scale c = false -> finite x -> finite y ->
  transform c x y = (clamp_i32 (Ztrunc (value x)), clamp_i32 (Ztrunc (value y))).
Proof.
  intros c x y S Fx Fy. unfold transform. rewrite S. destruct (finite_val x Fx) as [F1 F2], (finite_val y Fy) as [G1 G2].
  rewrite !as_i32_fin by assumption. rewrite F2, G2. reflexivity.
Qed.
Lemma unscaled_exact : forall c x y zx zy, mc_scale c = false -> finite x -> finite y ->
  (- 2 ^ 31 <= zx < 2 ^ 31)%Z -> (- 2 ^ 31 <= zy < 2 ^ 31)%Z -> value x = IZR zx -> value y = IZR zy ->
  transform c x y = (zx, zy).
Proof.
  intros c x y zx zy S Fx Fy Hx Hy Vx Vy. rewrite unscaled_finite by assumption. rewrite Vx, Vy, !Ztrunc_IZR.
  change (2 ^ 31)%Z with 2147483648%Z in *. unfold clamp_i32, i32_min, i32_max. f_equal; lia.
Qed.
