(** The bit-pattern arithmetic of Float.v as real arithmetic with rounding, through Flocq.  The lemmas
    of this file use the axioms of the standard library's real numbers. *)
From Coq Require Import NArith ZArith Lia Bool Reals Lra.
From Coq Require Import Floats.SpecFloat.
From Flocq Require Import Core.Core Relative IEEE754.BinarySingleNaN.
From Verif Require Import Base Float.

Local Instance Hprec : FLX.Prec_gt_0 53 := eq_refl.
Local Instance Hmax : Prec_lt_emax 53 1024 := eq_refl.
Notation bin := (binary_float 53 1024).
Notation valid := (SpecFloat.valid_binary 53 1024).

(** ** Bit patterns and floating-point numbers *)
Lemma digits2_log2 : forall p, Zpos (digits2_pos p) = (Z.log2 (Zpos p) + 1)%Z.
Proof.
  intros p. rewrite Zpos_digits2_pos. apply Zdigits_unique.
  rewrite Z.abs_eq by lia. replace (Z.log2 (Zpos p) + 1 - 1)%Z with (Z.log2 (Zpos p)) by lia.
  pose proof (Z.log2_spec (Zpos p) eq_refl) as H. replace (Z.log2 (Zpos p) + 1)%Z with (Z.succ (Z.log2 (Zpos p))) by lia.
  exact H.
Qed.
Lemma log2_bounds : forall p k, (0 <= k)%Z -> (2 ^ k <= Zpos p < 2 ^ (k + 1))%Z -> Zpos (digits2_pos p) = (k + 1)%Z.
Proof.
  intros p k K H. rewrite digits2_log2. f_equal. apply Z.log2_unique; [exact K|]. exact H.
Qed.

Lemma decode_valid : forall x, valid (f64_decode x) = true.
Proof.
  intros x. unfold f64_decode, sf_decode.
  set (s := N.odd _). set (e := ((x / 2 ^ 52) mod 2 ^ 11)%N). set (m := (x mod 2 ^ 52)%N).
  assert (M : (m < 2 ^ 52)%N) by (apply N.mod_lt; discriminate).
  assert (E : (e < 2 ^ 11)%N) by (apply N.mod_lt; discriminate).
  change (Z.of_N (2 ^ (11 - 1) - 1)) with 1023%Z. change (Z.of_N 52) with 52%Z.
  change (2 ^ 11 - 1)%N with 2047%N. change (2 ^ 52)%N with 4503599627370496%N in *.
  change (2 ^ 11)%N with 2048%N in E.
  destruct (N.eqb_spec e 0) as [E0|E0].
  - destruct m as [|p] eqn:P; [reflexivity|]. change (1 - 1023 - 52)%Z with (-1074)%Z. cbn [SpecFloat.valid_binary].
    unfold SpecFloat.bounded. apply andb_true_intro. split; [|reflexivity].
    unfold SpecFloat.canonical_mantissa. apply Zeq_is_eq_bool.
    unfold SpecFloat.fexp, SpecFloat.emin.
    assert (D : (Zpos (digits2_pos p) <= 52)%Z).
    { rewrite digits2_log2. assert (Z.log2 (Zpos p) < 52)%Z; [|lia]. apply Z.log2_lt_pow2; [lia|].
      change (2 ^ 52)%Z with 4503599627370496%Z. lia. }
    lia.
  - destruct (N.eqb_spec e 2047) as [E1|E1]; [destruct (m =? 0)%N; reflexivity|].
    destruct (m + 4503599627370496)%N as [|p] eqn:P; [lia|]. cbn [SpecFloat.valid_binary].
    assert (D : Zpos (digits2_pos p) = 53%Z).
    { apply (log2_bounds p 52); [lia|]. change (2 ^ 52)%Z with 4503599627370496%Z.
      change (2 ^ (52 + 1))%Z with 9007199254740992%Z. lia. }
    unfold SpecFloat.bounded. apply andb_true_intro. split.
    + unfold SpecFloat.canonical_mantissa. apply Zeq_is_eq_bool. unfold SpecFloat.fexp, SpecFloat.emin. rewrite D. lia.
    + apply Z.leb_le. lia.
Qed.

(** decoding an encoded number *)
Lemma split_bits : forall s e m : N, (s < 2)%N -> (e < 2048)%N -> (m < 4503599627370496)%N ->
  let x := (s * 9223372036854775808 + e * 4503599627370496 + m)%N in
  N.odd (x / 2 ^ (52 + 11)) = (1 =? s)%N /\ ((x / 2 ^ 52) mod 2 ^ 11 = e)%N /\ (x mod 2 ^ 52 = m)%N.
Proof.
  intros s e m S E M x. change (2 ^ (52 + 11))%N with 9223372036854775808%N.
  change (2 ^ 52)%N with 4503599627370496%N. change (2 ^ 11)%N with 2048%N.
  assert (X : (x = (s * 2048 + e) * 4503599627370496 + m)%N) by (subst x; lia).
  assert (D1 : (x / 4503599627370496 = s * 2048 + e)%N).
  { symmetry. apply (N.div_unique _ _ _ m); lia. }
  assert (D2 : (x / 9223372036854775808 = s)%N).
  { symmetry. apply (N.div_unique _ _ _ (e * 4503599627370496 + m)); subst x; lia. }
  rewrite D1, D2. split; [|split].
  - assert (s = 0 \/ s = 1)%N as [-> | ->] by lia; reflexivity.
  - symmetry. apply (N.mod_unique _ _ s); lia.
  - symmetry. apply (N.mod_unique _ _ (s * 2048 + e)); lia.
Qed.
Lemma sign_bit : forall s : bool, (if s then 2 ^ 63 else 0)%N = ((if s then 1 else 0) * 9223372036854775808)%N.
Proof. intros []; reflexivity. Qed.

Lemma decode_encode : forall f, valid f = true -> f64_decode (f64_encode f) = f.
Proof.
  intros f V. destruct f as [s|s| |s p e].
  - destruct s; reflexivity.
  - destruct s; reflexivity.
  - reflexivity.
  - cbn [SpecFloat.valid_binary] in V. unfold SpecFloat.bounded in V. apply andb_true_iff in V. destruct V as [C L].
    apply Z.leb_le in L. unfold SpecFloat.canonical_mantissa in C. apply Zeq_bool_eq in C.
    unfold SpecFloat.fexp, SpecFloat.emin in C. change (3 - 1024 - 53)%Z with (-1074)%Z in C.
    change (1024 - 53)%Z with 971%Z in L.
    unfold f64_encode. rewrite sign_bit.
    assert (S : ((if s then 1 else 0) < 2)%N) by (destruct s; lia).
    assert (SE : (1 =? (if s then 1 else 0))%N = s) by (destruct s; reflexivity).
    change (2 ^ 52)%N with 4503599627370496%N.
    pose proof (digits2_log2 p) as DL.
    destruct (N.ltb_spec (Npos p) 4503599627370496) as [Lt|Ge].
    + assert (LG : (Z.log2 (Zpos p) < 52)%Z).
      { apply Z.log2_lt_pow2; [lia|]. change (2 ^ 52)%Z with 4503599627370496%Z. lia. }
      assert (e = -1074)%Z by lia. subst e.
      pose proof (split_bits (if s then 1 else 0) 0 (Npos p) S eq_refl Lt) as [H1 [H2 H3]].
      rewrite N.mul_0_l, N.add_0_r in H1, H2, H3.
      unfold f64_decode, sf_decode. rewrite H1, H2, H3, SE. reflexivity.
    + assert (LG : (52 <= Z.log2 (Zpos p))%Z).
      { apply Z.log2_le_pow2; [lia|]. change (2 ^ 52)%Z with 4503599627370496%Z. lia. }
      assert (D : Zpos (digits2_pos p) = 53%Z) by lia.
      assert (EB : (-1074 <= e)%Z) by lia.
      assert (PB : (Zpos p < 9007199254740992)%Z).
      { change 9007199254740992%Z with (2 ^ 53)%Z. apply Z.log2_lt_pow2; [lia|]. lia. }
      assert (EE : (Z.to_N (e + 1075) < 2048)%N) by lia.
      assert (MM : (Npos p - 4503599627370496 < 4503599627370496)%N) by lia.
      pose proof (split_bits (if s then 1 else 0) (Z.to_N (e + 1075)) (Npos p - 4503599627370496) S EE MM) as [H1 [H2 H3]].
      rewrite N.add_assoc. unfold f64_decode, sf_decode. rewrite H1, H2, H3, SE.
      change (Z.of_N (2 ^ (11 - 1) - 1)) with 1023%Z. change (Z.of_N 52) with 52%Z.
      change (2 ^ 11 - 1)%N with 2047%N. change (2 ^ 52)%N with 4503599627370496%N.
      destruct (N.eqb_spec (Z.to_N (e + 1075)) 0) as [Z0|_]; [lia|].
      destruct (N.eqb_spec (Z.to_N (e + 1075)) 2047) as [Z1|_]; [lia|].
      replace (Npos p - 4503599627370496 + 4503599627370496)%N with (Npos p) by lia.
      f_equal. lia.
Qed.

Definition bits (x : f64) : bin := SF2B (f64_decode x) (decode_valid x).
Lemma bits_sf : forall x, B2SF (bits x) = f64_decode x.
Proof. intros x. unfold bits. apply B2SF_SF2B. Qed.
Lemma bits_encode : forall b : bin, bits (f64_encode (B2SF b)) = b.
Proof.
  intros b. apply B2SF_inj. rewrite bits_sf. apply decode_encode. apply valid_binary_B2SF.
Qed.

(** ** Operations *)
Lemma round_even : forall s m l, SpecFloat.round_nearest_even m l = choice_mode mode_NE s m l.
Proof.
  intros s m l. destruct l as [|c]; [reflexivity|]. destruct c; [|reflexivity..].
  cbn. unfold Round.cond_incr. now destruct (Z.even m).
Qed.
Lemma round_aux : forall s m e l,
  SpecFloat.binary_round_aux 53 1024 s m e l = BinarySingleNaN.binary_round_aux 53 1024 mode_NE s m e l.
Proof.
  intros s m e l. unfold SpecFloat.binary_round_aux, BinarySingleNaN.binary_round_aux.
  destruct (SpecFloat.shr_fexp 53 1024 m e l) as [mrs' e'].
  rewrite (round_even s). reflexivity.
Qed.
Lemma round_spec : forall s m e,
  SpecFloat.binary_round 53 1024 s m e = BinarySingleNaN.binary_round 53 1024 mode_NE s m e.
Proof.
  intros s m e. unfold SpecFloat.binary_round, BinarySingleNaN.binary_round, shl_align_fexp.
  destruct (SpecFloat.shl_align _ _ _) as [mz ez]. apply round_aux.
Qed.
Lemma normalize_spec : forall m e z,
  SpecFloat.binary_normalize 53 1024 m e z = B2SF (BinarySingleNaN.binary_normalize 53 1024 Hprec Hmax mode_NE m e z).
Proof.
  intros m e z. destruct m as [|p|p]; [reflexivity| |]; cbn; rewrite B2SF_SF2B; apply round_spec.
Qed.
Lemma bits_op : forall f (b : bin), f = B2SF b -> bits (f64_encode f) = b.
Proof. intros f b ->. apply bits_encode. Qed.
Lemma bits_add : forall x y, bits (f64_add x y) = Bplus mode_NE (bits x) (bits y).
Proof.
  intros x y. apply bits_op. rewrite <- (bits_sf x), <- (bits_sf y).
  destruct (bits x) as [sx|sx| |sx mx ex Bx], (bits y) as [sy|sy| |sy my ey By];
    try (cbn; repeat match goal with |- context [if ?c then _ else _] => destruct c end; reflexivity).
  apply normalize_spec.
Qed.
Lemma bits_sub : forall x y, bits (f64_sub x y) = Bminus mode_NE (bits x) (bits y).
Proof.
  intros x y. apply bits_op. rewrite <- (bits_sf x), <- (bits_sf y).
  destruct (bits x) as [sx|sx| |sx mx ex Bx], (bits y) as [sy|sy| |sy my ey By];
    try (cbn; repeat match goal with |- context [if ?c then _ else _] => destruct c end; reflexivity).
  cbn. unfold Zminus. rewrite <- cond_Zopp_negb. apply normalize_spec.
Qed.
Lemma bits_mul : forall x y, bits (f64_mul x y) = Bmult mode_NE (bits x) (bits y).
Proof.
  intros x y. apply bits_op. rewrite <- (bits_sf x), <- (bits_sf y).
  destruct (bits x) as [sx|sx| |sx mx ex Bx], (bits y) as [sy|sy| |sy my ey By]; try reflexivity.
  cbn. rewrite B2SF_SF2B. apply round_aux.
Qed.
Lemma bits_div : forall x y, bits (f64_div x y) = Bdiv mode_NE (bits x) (bits y).
Proof.
  intros x y. apply bits_op. rewrite <- (bits_sf x), <- (bits_sf y).
  destruct (bits x) as [sx|sx| |sx mx ex Bx], (bits y) as [sy|sy| |sy my ey By]; try reflexivity.
  cbn. rewrite B2SF_SF2B. destruct (SFdiv_core_binary _ _ _ _ _ _) as [[mz ez] lz]. apply round_aux.
Qed.

(** ** Values *)
Notation RN := (round radix2 (SpecFloat.fexp 53 1024) ZnearestE).
Definition val (x : f64) : R := B2R (bits x).
Definition fin (x : f64) : bool := is_finite (bits x).
Definition inf (s : bool) (x : f64) : Prop := bits x = B754_infinity s.

Lemma sub_val : forall x y, fin x = true -> fin y = true ->
  if Rlt_bool (Rabs (RN (val x - val y))) (bpow radix2 1024) then
    fin (f64_sub x y) = true /\ val (f64_sub x y) = RN (val x - val y)
  else inf (Rlt_bool (val x - val y) 0) (f64_sub x y).
Proof.
  intros x y Fx Fy. unfold fin, val, inf in *. rewrite bits_sub.
  pose proof (Bminus_correct 53 1024 Hprec Hmax mode_NE (bits x) (bits y) Fx Fy) as H.
  cbn [round_mode] in H. destruct (Rlt_bool _ _) eqn:L.
  - destruct H as [H1 [H2 _]]. split; assumption.
  - destruct H as [H1 H2]. apply B2SF_inj. rewrite H1. unfold binary_overflow. cbn [overflow_to_inf B2SF]. f_equal.
    assert (N : (B2R (bits x) - B2R (bits y) <> 0)%R).
    { intros E. rewrite E, round_0, Rabs_R0 in L by apply valid_rnd_N. rewrite Rlt_bool_true in L; [discriminate|].
      apply bpow_gt_0. }
    assert (SG : forall b : bin, is_finite b = true ->
              if Bsign b then (B2R b <= 0)%R else (0 <= B2R b)%R).
    { intros [s|s| |s m e B] F; try discriminate; cbn [Bsign B2R].
      - destruct s; lra.
      - destruct s; [now apply F2R_le_0|now apply F2R_ge_0]. }
    pose proof (SG _ Fx) as Sx. pose proof (SG _ Fy) as Sy. rewrite H2 in Sx |- *.
    destruct (Bsign (bits y)); cbn [negb] in *; symmetry.
    + apply Rlt_bool_false. lra.
    + apply Rlt_bool_true. lra.
Qed.
Lemma sign_val : forall b : bin, B2R b <> 0%R -> Bsign b = Rlt_bool (B2R b) 0.
Proof.
  intros [s|s| |s m e B] N; cbn [B2R Bsign] in *; try (exfalso; apply N; reflexivity).
  destruct s; symmetry; [apply Rlt_bool_true; now apply F2R_lt_0|apply Rlt_bool_false; now apply F2R_ge_0].
Qed.
Lemma sign_mul : forall a b : R, a <> 0%R -> b <> 0%R -> xorb (Rlt_bool a 0) (Rlt_bool b 0) = Rlt_bool (a * b) 0.
Proof.
  intros a b A B. destruct (Rlt_bool_spec a 0) as [La|La], (Rlt_bool_spec b 0) as [Lb|Lb]; cbn; symmetry.
  - apply Rlt_bool_false. nra.
  - apply Rlt_bool_true. nra.
  - apply Rlt_bool_true. nra.
  - apply Rlt_bool_false. nra.
Qed.
Lemma overflow_nonzero : forall r, Rlt_bool (Rabs (RN r)) (bpow radix2 1024) = false -> r <> 0%R.
Proof.
  intros r L E. rewrite E, round_0, Rabs_R0 in L by apply valid_rnd_N. rewrite Rlt_bool_true in L; [discriminate|].
  apply bpow_gt_0.
Qed.
Lemma mul_val : forall x y, fin x = true -> fin y = true ->
  if Rlt_bool (Rabs (RN (val x * val y))) (bpow radix2 1024) then
    fin (f64_mul x y) = true /\ val (f64_mul x y) = RN (val x * val y)
  else inf (Rlt_bool (val x * val y) 0) (f64_mul x y).
Proof.
  intros x y Fx Fy. unfold fin, val, inf in *. rewrite bits_mul.
  pose proof (Bmult_correct 53 1024 Hprec Hmax mode_NE (bits x) (bits y)) as H.
  cbn [round_mode] in H. destruct (Rlt_bool _ _) eqn:L.
  - destruct H as [H1 [H2 _]]. rewrite Fx, Fy in H2. split; assumption.
  - apply overflow_nonzero in L. apply B2SF_inj. rewrite H. unfold binary_overflow. cbn [overflow_to_inf B2SF]. f_equal.
    assert (B2R (bits x) <> 0)%R by (intros E; apply L; rewrite E; ring).
    assert (B2R (bits y) <> 0)%R by (intros E; apply L; rewrite E; ring).
    rewrite !sign_val by assumption. apply sign_mul; assumption.
Qed.
Lemma div_val : forall x y, fin x = true -> fin y = true -> val y <> 0%R ->
  if Rlt_bool (Rabs (RN (val x / val y))) (bpow radix2 1024) then
    fin (f64_div x y) = true /\ val (f64_div x y) = RN (val x / val y)
  else inf (Rlt_bool (val x / val y) 0) (f64_div x y).
Proof.
  intros x y Fx Fy Ny. unfold fin, val, inf in *. rewrite bits_div.
  pose proof (Bdiv_correct 53 1024 Hprec Hmax mode_NE (bits x) (bits y) Ny) as H.
  cbn [round_mode] in H. destruct (Rlt_bool _ _) eqn:L.
  - destruct H as [H1 [H2 _]]. rewrite Fx in H2. split; assumption.
  - apply overflow_nonzero in L. apply B2SF_inj. rewrite H. unfold binary_overflow. cbn [overflow_to_inf B2SF]. f_equal.
    assert (B2R (bits x) <> 0)%R by (intros E; apply L; rewrite E; unfold Rdiv; ring).
    rewrite !sign_val by assumption. unfold Rdiv in *.
    assert (I : (/ B2R (bits y) <> 0)%R) by (apply Rinv_neq_0_compat; exact Ny).
    rewrite <- sign_mul by assumption. f_equal.
    destruct (Rlt_bool_spec (B2R (bits y)) 0) as [Lb|Lb]; symmetry.
    + apply Rlt_bool_true. now apply Rinv_lt_0_compat.
    + apply Rlt_bool_false. left. apply Rinv_0_lt_compat. lra.
Qed.
Lemma div_inf : forall s x y, fin x = true -> inf s y -> fin (f64_div x y) = true /\ val (f64_div x y) = 0%R.
Proof.
  intros s x y Fx Iy. unfold fin, val, inf in *. rewrite bits_div, Iy.
  destruct (bits x) as [sx|sx| |sx mx ex Bx]; try discriminate; split; reflexivity.
Qed.
Lemma div_zero : forall x y, fin x = true -> val x <> 0%R -> fin y = true -> val y = 0%R ->
  exists s, inf s (f64_div x y).
Proof.
  intros x y Fx Nx Fy Zy. unfold fin, val, inf in *. rewrite bits_div.
  destruct (bits x) as [sx|sx| |sx mx ex Bx]; try discriminate; [elim Nx; reflexivity|].
  destruct (bits y) as [sy|sy| |sy my ey By]; try discriminate; [eexists; reflexivity|].
  exfalso. cbn [B2R] in Zy. destruct sy; cbn in Zy.
  - assert (F2R (Float radix2 (Z.neg my) ey) < 0)%R by now apply F2R_lt_0. lra.
  - assert (0 < F2R (Float radix2 (Z.pos my) ey))%R by now apply F2R_gt_0. lra.
Qed.
Lemma mul_inf : forall s x y, inf s x -> fin y = true -> val y <> 0%R ->
  inf (xorb s (Rlt_bool (val y) 0)) (f64_mul x y).
Proof.
  intros s x y Ix Fy Ny. unfold fin, val, inf in *. rewrite bits_mul, Ix.
  rewrite <- sign_val by exact Ny.
  destruct (bits y) as [sy|sy| |sy my ey By]; try discriminate; [elim Ny; reflexivity|]. reflexivity.
Qed.
Lemma mul_inf_zero : forall s x y, inf s x -> fin y = true -> val y = 0%R -> bits (f64_mul x y) = B754_nan.
Proof.
  intros s x y Ix Fy Zy. unfold fin, val, inf in *. rewrite bits_mul, Ix.
  destruct (bits y) as [sy|sy| |sy my ey By]; try discriminate; [reflexivity|].
  exfalso. cbn [B2R] in Zy. destruct sy; cbn in Zy.
  - assert (F2R (Float radix2 (Z.neg my) ey) < 0)%R by now apply F2R_lt_0. lra.
  - assert (0 < F2R (Float radix2 (Z.pos my) ey))%R by now apply F2R_gt_0. lra.
Qed.
Lemma mul_comm : forall x y, bits (f64_mul x y) = bits (f64_mul y x).
Proof.
  intros x y. rewrite !bits_mul. apply B2SF_inj.
  destruct (bits x) as [sx|sx| |sx mx ex Bx], (bits y) as [sy|sy| |sy my ey By]; cbn;
    try rewrite xorb_comm; try reflexivity.
  rewrite !B2SF_SF2B. rewrite xorb_comm, Pos.mul_comm, Z.add_comm. reflexivity.
Qed.

(** ** Rounding *)
Lemma RN_le : forall a b, (a <= b)%R -> (RN a <= RN b)%R.
Proof. intros a b H. apply round_le; [apply fexp_correct; exact Hprec|apply valid_rnd_N|exact H]. Qed.
Lemma RN_0 : RN 0 = 0%R.
Proof. apply round_0, valid_rnd_N. Qed.
Lemma RN_pos : forall a, (0 <= a)%R -> (0 <= RN a)%R.
Proof. intros a H. rewrite <- RN_0. apply RN_le, H. Qed.
Lemma fexp_FLT : forall e, SpecFloat.fexp 53 1024 e = FLT_exp (-1074) 53 e.
Proof. intros e. reflexivity. Qed.
(** integers of at most 53 bits over a power of two are exact *)
Lemma RN_exact : forall m e, (Z.abs m <= 2 ^ 53)%Z -> (-1074 <= e <= 970)%Z ->
  RN (IZR m * bpow radix2 e) = (IZR m * bpow radix2 e)%R.
Proof.
  intros m e M E. apply round_generic; [apply valid_rnd_N|].
  change (IZR m * bpow radix2 e)%R with (F2R (Float radix2 m e)).
  change (generic_format radix2 (FLT_exp (-1074) 53) (F2R (Float radix2 m e))).
  destruct (Z.eq_dec (Z.abs m) (2 ^ 53)) as [Eq|Ne].
  - assert (X : F2R (Float radix2 m e) = F2R (Float radix2 (Z.sgn m) (e + 53))).
    { unfold F2R. cbn [Fnum Fexp]. rewrite bpow_plus. rewrite <- (Z.abs_sgn m) at 1. rewrite Eq.
      rewrite mult_IZR. change (bpow radix2 53) with (IZR (2 ^ 53)). ring. }
    rewrite X. apply generic_format_FLT. exists (Float radix2 (Z.sgn m) (e + 53)); cbn [Fnum Fexp].
    + reflexivity.
    + change (Zpower radix2 53) with (2 ^ 53)%Z. pose proof (Z.sgn_spec m). lia.
    + lia.
  - apply generic_format_FLT. exists (Float radix2 m e); cbn [Fnum Fexp].
    + reflexivity.
    + change (Zpower radix2 53) with (2 ^ 53)%Z. lia.
    + lia.
Qed.
(** the rounding error: relative 2^-53, absolute 2^-1075 for subnormal results *)
Lemma RN_error : forall a, (0 <= a)%R ->
  (a * (1 - bpow radix2 (-53)) - bpow radix2 (-1075) <= RN a <= a * (1 + bpow radix2 (-53)) + bpow radix2 (-1075))%R.
Proof.
  intros a A.
  destruct (error_N_FLT radix2 (-1074)%Z 53%Z eq_refl (fun x => negb (Z.even x)) a) as [eps [eta [H1 [H2 [_ H3]]]]].
  change (round radix2 (FLT_exp (-1074) 53) (Znearest (fun x => negb (Z.even x))) a) with (RN a) in H3.
  rewrite H3.
  assert (E1 : (Rabs eps <= bpow radix2 (-53))%R).
  { eapply Rle_trans; [exact H1|]. change (- (53) + 1)%Z with (-52)%Z.
    replace (bpow radix2 (-53)) with (bpow radix2 (-1) * bpow radix2 (-52))%R by (rewrite <- bpow_plus; reflexivity).
    change (bpow radix2 (-1)) with (/ 2)%R. apply Rle_refl. }
  assert (E2 : (Rabs eta <= bpow radix2 (-1075))%R).
  { eapply Rle_trans; [exact H2|].
    replace (bpow radix2 (-1075)) with (bpow radix2 (-1) * bpow radix2 (-1074))%R by (rewrite <- bpow_plus; reflexivity).
    change (bpow radix2 (-1)) with (/ 2)%R. apply Rle_refl. }
  apply Rabs_le_inv in E1. apply Rabs_le_inv in E2. split; nra.
Qed.
