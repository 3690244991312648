(** The coordinate transform of MvtWriter in real numbers. *)
From Coq Require Import NArith ZArith Lia Bool Reals Lra.
From Coq Require Import Floats.SpecFloat.
From Flocq Require Import Core.Core Relative Plus_error IEEE754.BinarySingleNaN.
From Verif Require Import Base Float FloatReal MvtModel.
Local Open Scope R_scope.

(** ** Integers from floating point *)
Lemma bits_class : forall x,
  match f64_decode x with
  | S754_finite s m e => fin x = true /\ val x = F2R (Float radix2 (SpecFloat.cond_Zopp s (Zpos m)) e)
  | S754_zero _ => fin x = true /\ val x = 0
  | S754_infinity s => inf s x
  | S754_nan => bits x = B754_nan
  end.
Proof.
  intros x. rewrite <- bits_sf. unfold fin, val, inf. destruct (bits x); cbn; auto.
Qed.
Lemma trunc_spec : forall s m e, trunc_int s m e = Ztrunc (F2R (Float radix2 (SpecFloat.cond_Zopp s (Zpos m)) e)).
Proof.
  intros s m e. unfold trunc_int.
  assert (P : (if (0 <=? e)%Z then (Zpos m * 2 ^ e)%Z else (Zpos m / 2 ^ (- e))%Z) = Ztrunc (F2R (Float radix2 (Zpos m) e))).
  { unfold F2R. cbn [Fnum Fexp]. destruct (Z.leb_spec 0 e) as [E|E].
    - rewrite <- IZR_Zpower by exact E. rewrite <- mult_IZR, Ztrunc_IZR. reflexivity.
    - rewrite Ztrunc_floor.
      + replace e with (- (- e))%Z at 2 by lia. rewrite bpow_opp, <- IZR_Zpower by lia.
        fold (Rdiv (IZR (Zpos m)) (IZR (Zpower radix2 (- e)))).
        rewrite Zfloor_div; [reflexivity|]. change (Zpower radix2 (- e)) with (2 ^ (- e))%Z. lia.
      + apply Rmult_le_pos; [apply IZR_le; lia|apply bpow_ge_0]. }
  rewrite P. destruct s; cbn [SpecFloat.cond_Zopp]; [|reflexivity].
  rewrite <- Ztrunc_opp, <- F2R_Zopp. reflexivity.
Qed.
Lemma floor_spec : forall s m e, floor_int s m e = Zfloor (F2R (Float radix2 (SpecFloat.cond_Zopp s (Zpos m)) e)).
Proof.
  intros s m e. unfold floor_int, F2R. cbn [Fnum Fexp]. destruct (Z.leb_spec 0 e) as [E|E].
  - rewrite <- IZR_Zpower by exact E. rewrite <- mult_IZR, Zfloor_IZR. reflexivity.
  - replace e with (- (- e))%Z at 2 by lia. rewrite bpow_opp, <- IZR_Zpower by lia.
    fold (Rdiv (IZR (SpecFloat.cond_Zopp s (Zpos m))) (IZR (Zpower radix2 (- e)))).
    rewrite Zfloor_div; [reflexivity|]. change (Zpower radix2 (- e)) with (2 ^ (- e))%Z. lia.
Qed.
Lemma as_i32_fin : forall x, fin x = true -> f64_as_i32 x = clamp_i32 (Ztrunc (val x)).
Proof.
  intros x F. pose proof (bits_class x) as C. unfold f64_as_i32. unfold fin, inf in *.
  destruct (f64_decode x) as [s|s| |s m e].
  - destruct C as [_ ->]. rewrite (Ztrunc_IZR 0). reflexivity.
  - rewrite C in F. discriminate.
  - rewrite C in F. discriminate.
  - destruct C as [_ ->]. rewrite trunc_spec. reflexivity.
Qed.
Lemma of_int_val : forall z s, (Z.abs z <= 2 ^ 53)%Z ->
  let x := f64_encode (SpecFloat.binary_normalize 53 1024 z 0 s) in fin x = true /\ val x = IZR z.
Proof.
  intros z s Z x. unfold fin, val. subst x. rewrite normalize_spec, bits_encode.
  pose proof (binary_normalize_correct 53 1024 Hprec Hmax mode_NE z 0 s) as H. cbn [round_mode] in H.
  assert (F : F2R (Float radix2 z 0) = IZR z) by (unfold F2R; cbn; ring).
  assert (X : RN (F2R (Float radix2 z 0)) = IZR z).
  { rewrite F. rewrite <- (Rmult_1_r (IZR z)). change 1 with (bpow radix2 0). apply RN_exact; [exact Z|lia]. }
  rewrite X in H. rewrite Rlt_bool_true in H.
  - destruct H as [H1 [H2 _]]. split; assumption.
  - rewrite <- abs_IZR. change (bpow radix2 1024) with (IZR (2 ^ 1024)). apply IZR_lt.
    eapply Z.le_lt_trans; [exact Z|]. reflexivity.
Qed.
Lemma of_int_spec : forall z, (Z.abs z <= 2 ^ 53)%Z -> fin (f64_of_int z) = true /\ val (f64_of_int z) = IZR z.
Proof. intros z H. apply of_int_val, H. Qed.
(** the significand has 53 bits *)
Lemma mantissa_small : forall x s m e, f64_decode x = S754_finite s m e -> (Zpos m < 2 ^ 53)%Z.
Proof.
  intros x s m e D. pose proof (decode_valid x) as V. rewrite D in V. cbn in V.
  unfold SpecFloat.bounded in V. apply andb_prop in V. destruct V as [C _].
  unfold SpecFloat.canonical_mantissa in C. apply Zeq_bool_eq in C. unfold SpecFloat.fexp, SpecFloat.emin in C.
  rewrite digits2_log2 in C. apply Z.log2_lt_pow2; [lia|]. lia.
Qed.
Lemma floor_val : forall x, fin x = true -> fin (f64_floor x) = true /\ val (f64_floor x) = IZR (Zfloor (val x)).
Proof.
  intros x F. pose proof (bits_class x) as C. unfold f64_floor.
  destruct (f64_decode x) as [s|s| |s m e] eqn:D.
  - destruct C as [_ C]. rewrite C. split; [exact F|]. rewrite (Zfloor_IZR 0). reflexivity.
  - unfold fin, inf in *. rewrite C in F. discriminate.
  - unfold fin, inf in *. rewrite C in F. discriminate.
  - destruct C as [_ C]. destruct (Z.leb_spec 0 e) as [E|E].
    + split; [exact F|]. rewrite C. unfold F2R. cbn [Fnum Fexp]. rewrite <- IZR_Zpower by exact E.
      rewrite <- mult_IZR, Zfloor_IZR. reflexivity.
    + rewrite C, <- floor_spec. apply of_int_val. pose proof (mantissa_small _ _ _ _ D) as M.
      unfold floor_int. destruct (Z.leb_spec 0 e) as [E'|_]; [lia|].
      assert (Q : (2 <= 2 ^ (- e))%Z) by (replace (- e)%Z with (1 + (- e - 1))%Z by lia; rewrite Z.pow_add_r by lia;
                                        pose proof (Z.pow_pos_nonneg 2 (- e - 1)); lia).
      set (q := (2 ^ (- e))%Z) in *. set (z := SpecFloat.cond_Zopp s (Zpos m)).
      assert (Zb : (- 2 ^ 53 <= z <= 2 ^ 53)%Z) by (subst z; destruct s; cbn [SpecFloat.cond_Zopp]; lia).
      set (b := (2 ^ 53)%Z) in *. assert (B : (0 < b)%Z) by reflexivity.
      assert (L : (- b <= z / q)%Z) by (apply Z.div_le_lower_bound; nia).
      assert (U : (z / q <= b)%Z) by (apply Z.div_le_upper_bound; nia). lia.
Qed.

(** the tile coordinate of a transformed number *)
Definition cell (t : f64) : Z := f64_as_i32 (f64_floor t).
Lemma cell_fin : forall t, fin t = true -> cell t = clamp_i32 (Zfloor (val t)).
Proof.
  intros t F. unfold cell. destruct (floor_val t F) as [F1 F2].
  rewrite as_i32_fin by exact F1. rewrite F2, Ztrunc_IZR. reflexivity.
Qed.
Lemma cell_inf : forall s t, inf s t -> cell t = if s then i32_min else i32_max.
Proof.
  intros s t I. unfold cell, f64_floor, f64_as_i32. pose proof (bits_sf t) as B. unfold inf in I. rewrite I in B.
  cbn in B. rewrite <- B, <- B. reflexivity.
Qed.
Lemma cell_nan : forall t, bits t = B754_nan -> cell t = 0%Z.
Proof.
  intros t I. unfold cell, f64_floor, f64_as_i32. pose proof (bits_sf t) as B. rewrite I in B.
  cbn in B. rewrite <- B, <- B. reflexivity.
Qed.
Lemma clamp_mono : forall a b, (a <= b)%Z -> (clamp_i32 a <= clamp_i32 b)%Z.
Proof. intros a b H. unfold clamp_i32. lia. Qed.
Lemma clamp_range : forall a, (i32_min <= clamp_i32 a <= i32_max)%Z.
Proof. intros a. unfold clamp_i32, i32_min, i32_max. lia. Qed.
Lemma cell_range : forall t, (i32_min <= cell t <= i32_max)%Z.
Proof.
  intros t. unfold cell, f64_as_i32. destruct (f64_decode (f64_floor t)).
  - split; discriminate.
  - destruct s; split; discriminate.
  - split; discriminate.
  - apply clamp_range.
Qed.
(** a product overflows only beyond the range of i32 *)
Lemma huge_floor : forall v, Rlt_bool (Rabs v) (bpow radix2 1024) = false ->
  clamp_i32 (Zfloor v) = if Rlt_bool v 0 then i32_min else i32_max.
Proof.
  intros v H. destruct (Rlt_bool_spec (Rabs v) (bpow radix2 1024)) as [|L]; [discriminate|].
  change (bpow radix2 1024) with (IZR (2 ^ 1024)) in L.
  assert (B : IZR 2147483648 <= IZR (2 ^ 1024)) by (apply IZR_le; discriminate).
  destruct (Rlt_bool_spec v 0) as [N|P].
  - rewrite Rabs_left in L by exact N.
    assert (X : (Zfloor v <= -2147483648)%Z).
    { apply le_IZR. eapply Rle_trans; [apply Zfloor_lb|]. replace (-2147483648)%Z with (Z.opp 2147483648) by reflexivity.
      rewrite opp_IZR. lra. }
    unfold clamp_i32, i32_min, i32_max. lia.
  - rewrite Rabs_pos_eq in L by exact P.
    assert (X : (2147483648 <= Zfloor v)%Z) by (apply Zfloor_lub; lra).
    unfold clamp_i32, i32_min, i32_max. lia.
Qed.
Lemma RN_sign : forall r, Rlt_bool (Rabs (RN r)) (bpow radix2 1024) = false -> Rlt_bool (RN r) 0 = Rlt_bool r 0.
Proof.
  intros r H. assert (N : RN r <> 0).
  { intros E. rewrite E, Rabs_R0, Rlt_bool_true in H; [discriminate|apply bpow_gt_0]. }
  destruct (Rlt_bool_spec r 0) as [L|L].
  - apply Rlt_bool_true. assert (RN r <= 0) by (rewrite <- RN_0; apply RN_le; lra). lra.
  - apply Rlt_bool_false. apply RN_pos, L.
Qed.
Lemma cell_mul : forall x y, fin x = true -> fin y = true ->
  cell (f64_mul x y) = clamp_i32 (Zfloor (RN (val x * val y))).
Proof.
  intros x y Fx Fy. pose proof (mul_val x y Fx Fy) as H. destruct (Rlt_bool _ _) eqn:L.
  - destruct H as [H1 H2]. rewrite cell_fin by exact H1. rewrite H2. reflexivity.
  - rewrite (cell_inf _ _ H), (huge_floor _ L), (RN_sign _ L). reflexivity.
Qed.

(** ** One axis of the transform *)
Definition axis (E : N) (l r x : f64) : Z :=
  cell (f64_mul (f64_sub x l) (f64_div (f64_of_int (Z.of_N E)) (f64_sub r l))).

Lemma val_format : forall x, generic_format radix2 (SpecFloat.fexp 53 1024) (val x).
Proof. intros x. apply generic_format_B2R. Qed.
Lemma sub_nonzero : forall x y, val x - val y <> 0 -> RN (val x - val y) <> 0.
Proof.
  intros x y H. unfold Rminus. apply round_plus_neq_0.
  - apply fexp_correct. exact Hprec.
  - change (Exp_not_FTZ (FLT_exp (-1074) 53)). intros e. unfold FLT_exp. lia.
  - apply valid_rnd_N.
  - apply val_format.
  - apply generic_format_opp, val_format.
  - exact H.
Qed.
Lemma sub_positive : forall x y, val y < val x -> 0 < RN (val x - val y).
Proof.
  intros x y H. assert (0 <= RN (val x - val y)) by (apply RN_pos; lra).
  assert (RN (val x - val y) <> 0) by (apply sub_nonzero; lra). lra.
Qed.
Lemma mul_inf_inf : forall s t x y, inf s x -> inf t y -> inf (xorb s t) (f64_mul x y).
Proof. intros s t x y Ix Iy. unfold inf in *. rewrite bits_mul, Ix, Iy. reflexivity. Qed.
Lemma inf_bits : forall s x y, bits x = bits y -> inf s x -> inf s y.
Proof. intros s x y E I. unfold inf in *. rewrite <- E. exact I. Qed.
Lemma cell_comm : forall x y, cell (f64_mul x y) = cell (f64_mul y x).
Proof.
  intros x y. unfold cell.
  assert (E : f64_decode (f64_mul x y) = f64_decode (f64_mul y x)).
  { rewrite <- !bits_sf, (mul_comm x y). reflexivity. }
  assert (F : forall a b, f64_decode a = f64_decode b -> f64_decode (f64_floor a) = f64_decode (f64_floor b)).
  { intros a b D. unfold f64_floor. rewrite D. destruct (f64_decode b) eqn:B; try (rewrite D, <- B; reflexivity).
    destruct (0 <=? e)%Z; [|reflexivity]. rewrite D, <- B. reflexivity. }
  unfold f64_as_i32. rewrite (F _ _ E). reflexivity.
Qed.

Section Axis.
  Variables (E : N) (l r : f64).
  Hypothesis HE : (0 < E < 2 ^ 32)%N.
  Hypothesis Fl : fin l = true.
  Hypothesis Fr : fin r = true.
  Hypothesis Hlr : val l < val r.

  Let D := f64_sub r l.
  Let M := f64_div (f64_of_int (Z.of_N E)) D.
  Let W := val r - val l.
  Let ER := IZR (Z.of_N E).

  Lemma ER_pos : 1 <= ER < 4294967296.
  Proof.
    subst ER. change 1 with (IZR 1). change 4294967296 with (IZR 4294967296).
    split; [apply IZR_le|apply IZR_lt]; destruct HE as [H1 H2]; change (2 ^ 32)%N with 4294967296%N in H2; lia.
  Qed.
  Lemma ER_val : fin (f64_of_int (Z.of_N E)) = true /\ val (f64_of_int (Z.of_N E)) = ER.
  Proof.
    apply of_int_spec. destruct HE as [H1 H2]. change (2 ^ 32)%N with 4294967296%N in H2.
    rewrite Z.abs_eq by lia. change (2 ^ 53)%Z with 9007199254740992%Z. lia.
  Qed.
  (** the multiplier is zero or positive, finite or infinite *)
  Lemma multiplier : (fin M = true /\ 0 <= val M) \/ inf false M.
  Proof.
    destruct ER_val as [F1 F2]. pose proof ER_pos as [P _]. pose proof (sub_val r l Fr Fl) as S. fold D in S.
    destruct (Rlt_bool _ _).
    - destruct S as [S1 S2]. pose proof (sub_positive r l Hlr) as Q. rewrite <- S2 in Q.
      pose proof (div_val _ D F1 S1 (Rgt_not_eq _ _ Q)) as V. rewrite F2 in V. fold M in V.
      assert (0 <= ER / val D) by (apply Rmult_le_pos; [lra|left; apply Rinv_0_lt_compat, Q]).
      destruct (Rlt_bool (Rabs _) _).
      + left. destruct V as [V1 V2]. split; [exact V1|]. rewrite V2. apply RN_pos. assumption.
      + right. rewrite Rlt_bool_false in V by assumption. exact V.
    - left. destruct (div_inf _ _ _ F1 S) as [V1 V2]. fold M in V1, V2. split; [exact V1|]. rewrite V2. lra.
  Qed.
  Lemma axis_zero_multiplier : forall x, fin x = true -> fin M = true -> val M = 0 -> axis E l r x = 0%Z.
  Proof.
    intros x Fx FM VM. unfold axis. fold D M. pose proof (sub_val x l Fx Fl) as S. destruct (Rlt_bool _ _).
    - destruct S as [S1 S2]. rewrite cell_mul by assumption. rewrite VM, Rmult_0_r, RN_0, (Zfloor_IZR 0). reflexivity.
    - apply cell_nan. apply (mul_inf_zero _ _ _ S FM VM).
  Qed.
  Lemma axis_infinite_multiplier : forall x, fin x = true -> inf false M ->
    axis E l r x = if Rlt_bool (val x) (val l) then i32_min else if Rlt_bool (val l) (val x) then i32_max else 0%Z.
  Proof.
    intros x Fx IM. unfold axis. fold D M.
    assert (X : forall b, inf b (f64_sub x l) ->
      cell (f64_mul (f64_sub x l) M) = if b then i32_min else i32_max).
    { intros b I. rewrite (cell_inf b). { reflexivity. }
      rewrite <- (xorb_false_r b). apply mul_inf_inf; assumption. }
    assert (Y : fin (f64_sub x l) = true -> val (f64_sub x l) <> 0 ->
      cell (f64_mul (f64_sub x l) M) = if Rlt_bool (val (f64_sub x l)) 0 then i32_min else i32_max).
    { intros F N. rewrite cell_comm. rewrite (cell_inf (xorb false (Rlt_bool (val (f64_sub x l)) 0))).
      - destruct (Rlt_bool _ _); reflexivity.
      - apply mul_inf; assumption. }
    pose proof (sub_val x l Fx Fl) as S.
    destruct (Rlt_bool_spec (val x) (val l)) as [L|L]; [|destruct (Rlt_bool_spec (val l) (val x)) as [L'|L']].
    - destruct (Rlt_bool (Rabs _) _).
      + destruct S as [S1 S2]. assert (N : RN (val x - val l) <> 0) by (apply sub_nonzero; lra).
        rewrite <- S2 in N. rewrite (Y S1 N), Rlt_bool_true; [reflexivity|].
        assert (val (f64_sub x l) <= 0) by (rewrite S2, <- RN_0; apply RN_le; lra). lra.
      + rewrite Rlt_bool_true in S by lra. exact (X _ S).
    - destruct (Rlt_bool (Rabs _) _).
      + destruct S as [S1 S2]. assert (N : RN (val x - val l) <> 0) by (apply sub_nonzero; lra).
        rewrite <- S2 in N. rewrite (Y S1 N), Rlt_bool_false; [reflexivity|].
        rewrite S2. apply RN_pos. lra.
      + rewrite Rlt_bool_false in S by lra. exact (X _ S).
    - assert (Z : val x - val l = 0) by lra. rewrite Z, RN_0, Rabs_R0 in S.
      rewrite Rlt_bool_true in S by apply bpow_gt_0. destruct S as [S1 S2].
      rewrite cell_comm. apply cell_nan. apply (mul_inf_zero false); assumption.
  Qed.

  (** coordinates keep their order *)
  Lemma axis_mono : forall x y, fin x = true -> fin y = true -> val x <= val y -> (axis E l r x <= axis E l r y)%Z.
  Proof.
    intros x y Fx Fy L. destruct multiplier as [[FM PM]|IM].
    - destruct (Req_dec (val M) 0) as [Z|N].
      + rewrite !axis_zero_multiplier by assumption. lia.
      + unfold axis. fold D M. pose proof (sub_val x l Fx Fl) as Sx. pose proof (sub_val y l Fy Fl) as Sy.
        assert (R : RN (val x - val l) <= RN (val y - val l)) by (apply RN_le; lra).
        destruct (Rlt_bool_spec (Rabs (RN (val x - val l))) (bpow radix2 1024)) as [Lx|Lx],
                 (Rlt_bool_spec (Rabs (RN (val y - val l))) (bpow radix2 1024)) as [Ly|Ly].
        * destruct Sx as [Sx1 Sx2], Sy as [Sy1 Sy2]. rewrite !cell_mul by assumption.
          apply clamp_mono, Zfloor_le, RN_le. rewrite Sx2, Sy2. apply Rmult_le_compat_r; assumption.
        * rewrite (Rlt_bool_false (val y - val l)) in Sy.
          { pose proof (mul_inf _ _ _ Sy FM N) as I. rewrite (Rlt_bool_false (val M)) in I by assumption.
            rewrite (cell_inf _ _ I). apply cell_range. }
          destruct (Rle_or_lt 0 (val y - val l)) as [G|G]; [exact G|exfalso].
          assert (RN (val y - val l) <= 0) by (rewrite <- RN_0; apply RN_le; lra).
          rewrite Rabs_left1 in Ly by assumption. rewrite Rabs_left1 in Lx by lra. lra.
        * rewrite (Rlt_bool_true (val x - val l)) in Sx.
          { pose proof (mul_inf _ _ _ Sx FM N) as I. rewrite (Rlt_bool_false (val M)) in I by assumption.
            rewrite (cell_inf _ _ I). apply cell_range. }
          destruct (Rlt_or_le (val x - val l) 0) as [G|G]; [exact G|exfalso].
          assert (0 <= RN (val x - val l)) by (apply RN_pos; lra).
          rewrite Rabs_pos_eq in Lx by assumption. rewrite Rabs_pos_eq in Ly by lra. lra.
        * pose proof (mul_inf _ _ _ Sx FM N) as Ix. pose proof (mul_inf _ _ _ Sy FM N) as Iy.
          rewrite (cell_inf _ _ Ix), (cell_inf _ _ Iy). rewrite (Rlt_bool_false (val M)) by assumption.
          destruct (Rlt_bool_spec (val x - val l) 0) as [G|G], (Rlt_bool_spec (val y - val l) 0) as [G'|G']; cbn;
            unfold i32_min, i32_max; try lia. exfalso. lra.
    - rewrite !axis_infinite_multiplier by assumption.
      destruct (Rlt_bool_spec (val x) (val l)), (Rlt_bool_spec (val y) (val l)),
               (Rlt_bool_spec (val l) (val x)), (Rlt_bool_spec (val l) (val y)); unfold i32_min, i32_max; try lia; exfalso; lra.
  Qed.
  Lemma axis_left : forall x, fin x = true -> val x = val l -> axis E l r x = 0%Z.
  Proof.
    intros x Fx Ex. destruct multiplier as [[FM PM]|IM].
    - unfold axis. fold D M. pose proof (sub_val x l Fx Fl) as S.
      replace (val x - val l) with 0 in S by lra. rewrite RN_0, Rabs_R0, Rlt_bool_true in S by apply bpow_gt_0.
      destruct S as [S1 S2]. rewrite cell_mul by assumption. rewrite S2, Rmult_0_l, RN_0, (Zfloor_IZR 0). reflexivity.
    - rewrite axis_infinite_multiplier by assumption. rewrite Ex, !Rlt_bool_false by lra. reflexivity.
  Qed.

  (** ** Boxes that are not vanishingly narrow *)
  Hypothesis Wide : bpow radix2 (-990) <= W.

  Let u := / 9007199254740992.
  Let h := bpow radix2 (-1075).
  Lemma u_eq : bpow radix2 (-53) = u.
  Proof. reflexivity. Qed.
  Lemma h_small : 0 < h /\ h <= W * / 38685626227668133590597632.
  Proof.
    split; [apply bpow_gt_0|]. change (-1075)%Z with (-990 + -85)%Z in h. subst h. rewrite bpow_plus.
    change (bpow radix2 (-85)) with (/ 38685626227668133590597632).
    apply Rmult_le_compat_r; [|exact Wide]. lra.
  Qed.
  Lemma h_big : forall d, 0 <= d -> d <= bpow radix2 1024 -> d * h <= 4 * u.
  Proof.
    intros d P L. apply Rle_trans with (bpow radix2 1024 * h).
    - apply Rmult_le_compat_r; [apply bpow_ge_0|exact L].
    - subst h. rewrite <- bpow_plus. change (bpow radix2 (1024 + -1075)) with (/ 2251799813685248). subst u. lra.
  Qed.
  Lemma wide_D : bpow radix2 (-990) <= RN W.
  Proof.
    assert (X : RN (bpow radix2 (-990)) = bpow radix2 (-990)).
    { rewrite <- (Rmult_1_l (bpow radix2 (-990))). apply (RN_exact 1 (-990)); [discriminate|lia]. }
    rewrite <- X. apply RN_le. exact Wide.
  Qed.
  (** with a finite width the multiplier is finite *)
  Lemma finite_multiplier : RN W < bpow radix2 1024 ->
    fin D = true /\ val D = RN W /\ fin M = true /\ val M = RN (ER / RN W).
  Proof.
    intros L. destruct ER_val as [F1 F2]. pose proof ER_pos as [P Q]. pose proof wide_D as WD.
    assert (G : 0 < RN W) by (eapply Rlt_le_trans; [apply (bpow_gt_0 radix2 (-990))|exact WD]).
    pose proof (sub_val r l Fr Fl) as S. fold D W in S. rewrite Rlt_bool_true in S by (rewrite Rabs_pos_eq by lra; exact L).
    destruct S as [S1 S2]. split; [exact S1|]. split; [exact S2|].
    assert (N : val D <> 0) by (rewrite S2; lra).
    pose proof (div_val _ D F1 S1 N) as V. rewrite F2, S2 in V. fold M in V.
    assert (B : 0 <= ER / RN W <= bpow radix2 1022).
    { split; [apply Rmult_le_pos; [lra|left; apply Rinv_0_lt_compat, G]|].
      apply Rmult_le_reg_r with (RN W); [exact G|]. unfold Rdiv. rewrite Rmult_assoc, Rinv_l, Rmult_1_r by lra.
      apply Rle_trans with (bpow radix2 1022 * bpow radix2 (-990)).
      - rewrite <- bpow_plus. change (bpow radix2 (1022 + -990)) with 4294967296. lra.
      - apply Rmult_le_compat_l; [apply bpow_ge_0|exact WD]. }
    assert (T : RN (ER / RN W) <= bpow radix2 1022).
    { assert (X : RN (bpow radix2 1022) = bpow radix2 1022).
      { replace (bpow radix2 1022) with (IZR (2 ^ 52) * bpow radix2 970).
        - apply (RN_exact (2 ^ 52) 970); [discriminate|lia].
        - change (IZR (2 ^ 52)) with (bpow radix2 52). rewrite <- bpow_plus. reflexivity. }
      rewrite <- X. apply RN_le, B. }
    rewrite Rlt_bool_true in V.
    - destruct V as [V1 V2]. split; assumption.
    - rewrite Rabs_pos_eq by apply RN_pos, B. eapply Rle_lt_trans; [exact T|]. apply bpow_lt. reflexivity.
  Qed.
  (** the product, in terms of the multiplier *)
  Lemma multiplier_bounds : RN W < bpow radix2 1024 ->
    ER * (1 - 5 * u) <= RN W * RN (ER / RN W) <= ER * (1 + 5 * u).
  Proof.
    intros L. pose proof ER_pos as [P Q]. pose proof wide_D as WD.
    assert (G : 0 < RN W) by (eapply Rlt_le_trans; [apply (bpow_gt_0 radix2 (-990))|exact WD]).
    assert (C : RN W * (ER / RN W) = ER) by (field; lra).
    assert (B : 0 <= ER / RN W) by (apply Rmult_le_pos; [lra|left; apply Rinv_0_lt_compat, G]).
    pose proof (RN_error _ B) as [X Y]. rewrite u_eq in X, Y. fold h in X, Y.
    pose proof (h_big (RN W) (Rlt_le _ _ G) (Rlt_le _ _ L)) as HB.
    assert (U : 0 < u) by (subst u; lra).
    split.
    - apply Rle_trans with (RN W * (ER / RN W * (1 - u) - h)).
      + replace (RN W * (ER / RN W * (1 - u) - h)) with (ER * (1 - u) - RN W * h) by (rewrite <- C at 1; ring). nra.
      + apply Rmult_le_compat_l; [lra|exact X].
    - apply Rle_trans with (RN W * (ER / RN W * (1 + u) + h)).
      + apply Rmult_le_compat_l; [lra|exact Y].
      + replace (RN W * (ER / RN W * (1 + u) + h)) with (ER * (1 + u) + RN W * h) by (rewrite <- C at 1; ring). nra.
  Qed.
  Lemma RN_int_half : forall z, (0 <= z <= 2 ^ 34)%Z -> RN (IZR z * / 2) = IZR z * / 2.
  Proof.
    intros z B. change (/ 2) with (bpow radix2 (-1)). apply RN_exact; [|lia].
    rewrite Z.abs_eq by lia. change (2 ^ 34)%Z with 17179869184%Z in B. change (2 ^ 53)%Z with 9007199254740992%Z. lia.
  Qed.
  Lemma E_bound : (1 <= Z.of_N E < 4294967296)%Z.
  Proof. destruct HE as [H1 H2]. change (2 ^ 32)%N with 4294967296%N in H2. lia. Qed.

  (** a coordinate inside the box lands inside the tile *)
  Lemma axis_inside : forall x, fin x = true -> val l <= val x <= val r ->
    (0 <= axis E l r x <= Z.of_N E)%Z.
  Proof.
    intros x Fx [L1 L2]. pose proof ER_pos as [P Q]. pose proof E_bound as EB.
    destruct (Rlt_or_le (RN W) (bpow radix2 1024)) as [L|L].
    - destruct (finite_multiplier L) as [FD [VD [FM VM]]]. pose proof (multiplier_bounds L) as [_ MB].
      assert (A0 : 0 <= RN (val x - val l)) by (apply RN_pos; lra).
      assert (A1 : RN (val x - val l) <= RN W) by (apply RN_le; subst W; lra).
      pose proof (sub_val x l Fx Fl) as S. rewrite Rlt_bool_true in S by (rewrite Rabs_pos_eq by lra; lra).
      destruct S as [S1 S2]. unfold axis. fold D M. rewrite cell_mul by assumption. rewrite S2, VM.
      assert (M0 : 0 <= RN (ER / RN W)) by (rewrite <- VM; destruct multiplier as [[_ ?]|I]; [assumption|];
                                           unfold inf in I; unfold fin in FM; rewrite I in FM; discriminate).
      set (t := RN (val x - val l) * RN (ER / RN W)).
      assert (T0 : 0 <= t) by (apply Rmult_le_pos; assumption).
      assert (T1 : t <= IZR (2 * Z.of_N E + 1) * / 2).
      { apply Rle_trans with (RN W * RN (ER / RN W)); [apply Rmult_le_compat_r; assumption|].
        rewrite plus_IZR, mult_IZR. fold ER. subst u. lra. }
      assert (T2 : RN t <= IZR (2 * Z.of_N E + 1) * / 2).
      { rewrite <- RN_int_half by (change (2 ^ 34)%Z with 17179869184%Z; lia). apply RN_le, T1. }
      assert (F0 : (0 <= Zfloor (RN t))%Z) by (apply Zfloor_lub, RN_pos, T0).
      assert (F1 : (Zfloor (RN t) < Z.of_N E + 1)%Z).
      { apply lt_IZR. eapply Rle_lt_trans; [apply Zfloor_lb|]. eapply Rle_lt_trans; [exact T2|].
        rewrite !plus_IZR, mult_IZR. lra. }
      unfold clamp_i32, i32_min, i32_max. lia.
    - assert (I : inf false D).
      { pose proof (sub_val r l Fr Fl) as S. fold D W in S.
        rewrite Rlt_bool_false in S by (eapply Rle_trans; [exact L|apply Rle_abs]).
        rewrite Rlt_bool_false in S by (subst W; lra). exact S. }
      destruct ER_val as [F1 F2]. destruct (div_inf _ _ _ F1 I) as [V1 V2]. fold M in V1, V2.
      rewrite axis_zero_multiplier by assumption. lia.
  Qed.
  (** the position is proportional, up to one unit and rounding *)
  Lemma axis_accuracy : forall x, fin x = true -> val l <= val x <= val r -> RN W < bpow radix2 1024 -> (E < 2 ^ 31)%N ->
    let t := ER * (val x - val l) / W in
    t - 1 - / 65536 < IZR (axis E l r x) <= t + / 65536.
  Proof.
    intros x Fx [L1 L2] L E31 t. pose proof ER_pos as [P _]. assert (Q : ER < 2147483648).
    { subst ER. change 2147483648 with (IZR 2147483648). apply IZR_lt. change (2 ^ 31)%N with 2147483648%N in E31. lia. }
    destruct (finite_multiplier L) as [FD [VD [FM VM]]]. pose proof (multiplier_bounds L) as [MB1 MB2].
    pose proof h_small as [H0 H1]. assert (U : 0 < u) by (subst u; lra).
    set (a := val x - val l) in *. assert (A : 0 <= a <= W) by (subst a W; lra).
    assert (A0 : 0 <= RN a) by (apply RN_pos; lra).
    assert (A1 : RN a <= RN W) by (apply RN_le; lra).
    pose proof (sub_val x l Fx Fl) as S. fold a in S. rewrite Rlt_bool_true in S by (rewrite Rabs_pos_eq by lra; lra).
    destruct S as [S1 S2].
    assert (W0 : 0 < W) by (subst W; lra). pose proof wide_D as WD.
    assert (G : 0 < RN W) by (eapply Rlt_le_trans; [apply (bpow_gt_0 radix2 (-990))|exact WD]).
    assert (Ea : a * (1 - u) - h <= RN a <= a * (1 + u) + h) by (apply RN_error; lra).
    assert (EW : W * (1 - u) - h <= RN W <= W * (1 + u) + h) by (apply RN_error; lra).
    set (m := RN (ER / RN W)) in *.
    assert (M0 : 0 <= m) by (subst m; apply RN_pos, Rmult_le_pos; [lra|left; apply Rinv_0_lt_compat, G]).
    (* everything over W *)
    assert (At : t = ER * (a / W)) by (subst t; unfold Rdiv; ring).
    set (b := a / W) in *. assert (Hab : a = b * W) by (subst b; field; lra).
    assert (B : 0 <= b <= 1).
    { split; [apply Rmult_le_pos; [lra|left; apply Rinv_0_lt_compat, W0]|]. apply Rmult_le_reg_r with W; [exact W0|]. lra. }
    set (q := W * m). assert (Q0 : 0 <= q) by (apply Rmult_le_pos; lra).
    set (v := / 38685626227668133590597632) in *. assert (V : 0 < v) by (subst v; lra).
    assert (Hm : h * m <= v * q) by (subst q; replace (v * (W * m)) with (W * v * m) by ring; apply Rmult_le_compat_r; assumption).
    assert (Qu : q * (1 - u) - v * q <= ER * (1 + 5 * u)).
    { apply Rle_trans with (RN W * m); [|exact MB2].
      apply Rle_trans with ((W * (1 - u) - h) * m); [|apply Rmult_le_compat_r; [exact M0|apply EW]]. subst q. lra. }
    assert (Ql : ER * (1 - 5 * u) <= q * (1 + u) + v * q).
    { apply Rle_trans with (RN W * m); [exact MB1|].
      apply Rle_trans with ((W * (1 + u) + h) * m); [apply Rmult_le_compat_r; [exact M0|apply EW]|]. subst q. lra. }
    assert (Qu' : q <= ER * (1 + 7 * u)) by (subst u v; lra).
    assert (Ql' : ER * (1 - 7 * u) <= q) by (subst u v; lra).
    set (p := RN a * m).
    assert (Pu : p <= b * q * (1 + u) + v * q).
    { apply Rle_trans with ((a * (1 + u) + h) * m); [apply Rmult_le_compat_r; [exact M0|apply Ea]|].
      rewrite Hab. replace ((b * W * (1 + u) + h) * m) with (b * q * (1 + u) + h * m) by (subst q; ring). lra. }
    assert (Pl : b * q * (1 - u) - v * q <= p).
    { apply Rle_trans with ((a * (1 - u) - h) * m); [|apply Rmult_le_compat_r; [exact M0|apply Ea]].
      rewrite Hab. replace ((b * W * (1 - u) - h) * m) with (b * q * (1 - u) - h * m) by (subst q; ring). lra. }
    assert (T : 0 <= t <= ER).
    { rewrite At. split; [apply Rmult_le_pos; lra|].
      assert (ER * b <= ER * 1) by (apply Rmult_le_compat_l; lra). lra. }
    assert (Bq1 : b * q <= t * (1 + 7 * u)) by (rewrite At; replace (ER * b * (1 + 7 * u)) with (b * (ER * (1 + 7 * u))) by ring;
                                               apply Rmult_le_compat_l; lra).
    assert (Bq2 : t * (1 - 7 * u) <= b * q) by (rewrite At; replace (ER * b * (1 - 7 * u)) with (b * (ER * (1 - 7 * u))) by ring;
                                               apply Rmult_le_compat_l; lra).
    assert (P0 : 0 <= p) by (apply Rmult_le_pos; assumption).
    pose proof (RN_error p P0) as [R1 R2]. rewrite u_eq in R1, R2. fold h in R1, R2.
    assert (Hh : h <= / 16777216).
    { subst h. apply Rle_trans with (bpow radix2 (-24)); [apply bpow_le; discriminate|]. change (bpow radix2 (-24)) with (/ 16777216). lra. }
    assert (Bq0 : 0 <= b * q) by (apply Rmult_le_pos; lra).
    assert (Y : t - / 65536 <= RN p <= t + / 65536).
    { clear - Pu Pl Bq1 Bq2 Qu' Ql' R1 R2 Hh T Q P0 Q0 Bq0 P. subst u v. lra. }
    unfold axis. fold D M. rewrite cell_mul by assumption. rewrite S2, VM. fold m p.
    pose proof (Zfloor_lb (RN p)) as F1. pose proof (Zfloor_ub (RN p)) as F2.
    assert (F3 : (0 <= Zfloor (RN p))%Z) by (apply Zfloor_lub, RN_pos, P0).
    assert (F4 : (Zfloor (RN p) <= 2147483648)%Z).
    { assert (IZR (Zfloor (RN p)) < IZR 2147483649) by lra. apply lt_IZR in H. lia. }
    unfold clamp_i32, i32_min, i32_max. rewrite Z.max_r by lia.
    destruct (Z.eq_dec (Zfloor (RN p)) 2147483648) as [Eq|Ne].
    - (* excluded: the position is at most the extent *)
      exfalso. rewrite Eq in F1. assert (X : (Z.of_N E < 2147483648)%Z) by (change (2 ^ 31)%N with 2147483648%N in E31; lia).
      assert (ER <= 2147483647) by (subst ER; change 2147483647 with (IZR 2147483647); apply IZR_le; lia). lra.
    - rewrite Z.min_r by lia. lra.
  Qed.
  (** the far edge lands on the extent or one before *)
  Lemma axis_right : forall x, fin x = true -> val x = val r -> RN W < bpow radix2 1024 -> (E < 2 ^ 31)%N ->
    axis E l r x = Z.of_N E \/ axis E l r x = (Z.of_N E - 1)%Z.
  Proof.
    intros x Fx Ex L E31. pose proof (axis_accuracy x Fx) as H. cbv zeta in H.
    rewrite Ex in H. fold W in H. assert (W0 : 0 < W) by (subst W; lra).
    specialize (H ltac:(lra) L E31). replace (ER * W / W) with ER in H by (field; lra). destruct H as [H1 H2].
    assert (X : (Z.of_N E - 2 < axis E l r x)%Z) by (apply lt_IZR; rewrite minus_IZR; fold ER; lra).
    assert (Y : (axis E l r x < Z.of_N E + 1)%Z) by (apply lt_IZR; rewrite plus_IZR; fold ER; lra). lia.
  Qed.
End Axis.
