(** Running sums of single precision differences in real numbers (helper lemmas for C14). *)
From Coq Require Import NArith ZArith Lia Bool Reals Lra.
From Coq Require Import Floats.SpecFloat.
From Flocq Require Import Core.Core IEEE754.BinarySingleNaN.
From Verif Require Import Base Float FloatReal Geom WkbClaims WidenSpec.
From Verif Require MvtSpec MvtPlace MvtFloat.
Local Open Scope R_scope.
Local Instance Hprec : FLX.Prec_gt_0 53 := eq_refl.
Local Instance Hmax : Prec_lt_emax 53 1024 := eq_refl.

Lemma normalize_val : forall z k s, (Z.abs z <= 2 ^ 53)%Z -> (-1074 <= k <= 970)%Z ->
  let x := f64_encode (SpecFloat.binary_normalize 53 1024 z k s) in
  fin x = true /\ val x = IZR z * bpow radix2 k.
Proof.
  intros z k s Z K x. unfold fin, val. subst x. rewrite normalize_spec, bits_encode.
  pose proof (binary_normalize_correct 53 1024 Hprec Hmax mode_NE z k s) as H. cbn [round_mode] in H.
  assert (F : F2R (Float radix2 z k) = IZR z * bpow radix2 k) by reflexivity.
  rewrite F, RN_exact in H by assumption. rewrite Rlt_bool_true in H.
  - destruct H as [H1 [H2 _]]. split; assumption.
  - rewrite Rabs_mult, (Rabs_pos_eq (bpow radix2 k)) by apply bpow_ge_0. rewrite <- abs_IZR.
    apply Rle_lt_trans with (IZR (2 ^ 53) * bpow radix2 970).
    + apply Rmult_le_compat; [apply IZR_le; lia|apply bpow_ge_0|apply IZR_le; lia|apply bpow_le; lia].
    + change (IZR (2 ^ 53)) with (bpow radix2 53). rewrite <- bpow_plus. apply bpow_lt. lia.
Qed.
Lemma signed : forall (s : bool) p k,
  IZR (if s then Zneg p else Zpos p) * bpow radix2 k = (if s then Ropp (IZR (Zpos p) * powerRZ 2 k) else IZR (Zpos p) * powerRZ 2 k).
Proof.
  intros s p k. rewrite bpow_powerRZ. change (IZR radix2) with 2. destruct s; [|reflexivity].
  change (Zneg p) with (- Zpos p)%Z. rewrite opp_IZR. ring.
Qed.
(** widening is exact *)
Lemma widen_val : forall x, finite32 x -> fin (f32_to_f64 x) = true /\ val (f32_to_f64 x) = value32 x.
Proof.
  intros x F. unfold finite32 in F. unfold f32_to_f64, f32_decode, sf_decode, value32.
  change (23 + 8)%N with 31%N. change (Z.of_N (2 ^ (8 - 1) - 1)) with 127%Z. change (Z.of_N 23) with 23%Z.
  change (2 ^ 8 - 1)%N with 255%N. fold (negative32 x). fold (exponent32 x). fold (fraction32 x).
  assert (M : (fraction32 x < 2 ^ 23)%N) by (apply N.mod_lt; discriminate).
  change (2 ^ 23)%N with 8388608%N in *.
  destruct (N.eqb_spec (exponent32 x) 0) as [E0|E0].
  - destruct (fraction32 x) as [|p].
    + split; [destruct (negative32 x); reflexivity|]. cbn [Z.of_N]. rewrite Rmult_0_l, Ropp_0.
      unfold val. destruct (negative32 x); reflexivity.
    + change (1 - 127 - 23)%Z with (-149)%Z. cbn [Z.of_N]. rewrite <- signed. apply normalize_val; [|lia].
      change (2 ^ 53)%Z with 9007199254740992%Z. destruct (negative32 x); lia.
  - destruct (N.eqb_spec (exponent32 x) 255) as [E|_]; [lia|].
    rewrite (N.add_comm 8388608). destruct (fraction32 x + 8388608)%N as [|p] eqn:P; [lia|].
    cbn [Z.of_N]. replace (Z.of_N (exponent32 x) - 127 - 23)%Z with (Z.of_N (exponent32 x) - 150)%Z by lia.
    rewrite <- signed. apply normalize_val; [|lia].
    change (2 ^ 53)%Z with 9007199254740992%Z. destruct (negative32 x); lia.
Qed.
Lemma fin_finite : forall x, fin x = true -> MvtSpec.finite x.
Proof.
  intros x F. pose proof (MvtFloat.bits_class x) as C. rewrite MvtPlace.decode_cases in C. unfold MvtSpec.finite.
  assert (E : (MvtSpec.exponent x < 2048)%N) by (apply N.mod_lt; discriminate).
  destruct (N.eqb_spec (MvtSpec.exponent x) 0) as [->|E0]; [reflexivity|].
  destruct (N.eqb_spec (MvtSpec.exponent x) 2047) as [E1|E1]; [|lia]. exfalso. unfold fin, inf in *.
  destruct (MvtSpec.fraction x =? 0)%N; rewrite C in F; discriminate.
Qed.
Lemma value_format : forall y, MvtSpec.finite y -> generic_format radix2 (SpecFloat.fexp 53 1024) (MvtSpec.value y).
Proof. intros y H. destruct (MvtPlace.finite_val y H) as [_ <-]. unfold val. apply generic_format_B2R. Qed.
(** the sum is the double nearest to the exact sum *)
Lemma sum_nearest : forall a d, MvtSpec.finite a -> finite32 d -> MvtSpec.finite (f64_add a (f32_to_f64 d)) ->
  forall y, MvtSpec.finite y ->
  Rabs (MvtSpec.value (f64_add a (f32_to_f64 d)) - (MvtSpec.value a + value32 d)) <=
  Rabs (MvtSpec.value y - (MvtSpec.value a + value32 d)).
Proof.
  intros a d A D S y Y. destruct (MvtPlace.finite_val a A) as [Fa Va]. destruct (widen_val d D) as [Fd Vd].
  destruct (MvtPlace.finite_val _ S) as [Fs Vs]. rewrite <- Vs, <- Va, <- Vd.
  pose proof (Bplus_correct 53 1024 Hprec Hmax mode_NE (bits a) (bits (f32_to_f64 d)) Fa Fd) as H.
  cbn [round_mode] in H. rewrite <- bits_add in H. fold (val a) (val (f32_to_f64 d)) in H.
  destruct (Rlt_bool _ _) in H.
  - destruct H as [H _]. fold (val (f64_add a (f32_to_f64 d))) in H. rewrite H.
    apply (round_N_pt radix2 (SpecFloat.fexp 53 1024) (fun x => negb (Z.even x))). apply value_format, Y.
  - destruct H as [H _]. unfold fin in Fs. exfalso.
    destruct (bits (f64_add a (f32_to_f64 d))); try discriminate Fs; cbn in H; discriminate H.
Qed.
(** the sum is infinite only if the exact sum is as large as the largest double can be *)
Lemma sum_finite : forall a d, MvtSpec.finite a -> finite32 d ->
  Rabs (MvtSpec.value a + value32 d) < powerRZ 2 1023 -> MvtSpec.finite (f64_add a (f32_to_f64 d)).
Proof.
  intros a d A D S. destruct (MvtPlace.finite_val a A) as [Fa Va]. destruct (widen_val d D) as [Fd Vd].
  rewrite <- Va, <- Vd in S. apply fin_finite.
  pose proof (Bplus_correct 53 1024 Hprec Hmax mode_NE (bits a) (bits (f32_to_f64 d)) Fa Fd) as H.
  cbn [round_mode] in H. rewrite <- bits_add in H. fold (val a) (val (f32_to_f64 d)) in H.
  rewrite Rlt_bool_true in H; [apply H|].
  assert (P : powerRZ 2 1023 = IZR (2 ^ 53) * bpow radix2 970).
  { change (IZR (2 ^ 53)) with (bpow radix2 53). rewrite <- bpow_plus, bpow_powerRZ. reflexivity. }
  assert (Q : RN (powerRZ 2 1023) = powerRZ 2 1023) by (rewrite P; apply RN_exact; lia).
  apply Rle_lt_trans with (powerRZ 2 1023).
  - apply Rlt_le, Rabs_le_inv in S. apply Rabs_le. rewrite <- Q.
    split; [rewrite <- round_NE_opp|]; apply RN_le; lra.
  - rewrite P. change (IZR (2 ^ 53)) with (bpow radix2 53). rewrite <- bpow_plus. apply bpow_lt. lia.
Qed.
Lemma sum : forall a d, addable a d -> nearest (f64_add a (f32_to_f64 d)) (MvtSpec.value a + value32 d).
Proof.
  intros a d (A & D & S). pose proof (sum_finite a d A D S) as F. split; [exact F|]. now apply sum_nearest.
Qed.
Lemma running_sums : forall z m prev d ds, addable (cx prev) (ddx d) -> addable (cy prev) (ddy d) ->
  exists c, running z m prev (d :: ds) = (c :: running z m c ds)%list /\
    nearest (cx c) (MvtSpec.value (cx prev) + value32 (ddx d)) /\
    nearest (cy c) (MvtSpec.value (cy prev) + value32 (ddy d)) /\
    (forall p, z = true -> cz prev = Some p -> addable p (ddz d) ->
       exists h, cz c = Some h /\ nearest h (MvtSpec.value p + value32 (ddz d))) /\
    (m = true -> cm c = Some (dm_ d)).
Proof.
  intros z m prev d ds X Y. eexists. split; [reflexivity|]. cbn [cx cy cz cm].
  split; [now apply sum|]. split; [now apply sum|]. split.
  - intros p -> E A. rewrite E. cbn [opt_default]. eexists. split; [reflexivity|now apply sum].
  - now intros ->.
Qed.
Lemma sums_met : addable 0%N 0%N /\ addable 0x3FF0000000000000%N 0x3F800000%N.
Proof.
  assert (V : MvtSpec.value 0x3FF0000000000000%N = 1).
  { unfold MvtSpec.value, MvtSpec.magnitude. change (MvtSpec.exponent 0x3FF0000000000000%N) with 1023%N.
    change (MvtSpec.fraction 0x3FF0000000000000%N) with 0%N. change (MvtSpec.negative 0x3FF0000000000000%N) with false.
    change (1023 =? 0)%N with false. cbv iota. change (Z.of_N (2 ^ 52 + 0)) with (2 ^ 52)%Z.
    change (Z.of_N 1023 - 1075)%Z with (-52)%Z. rewrite <- (bpow_powerRZ radix2). change (IZR (2 ^ 52)) with (bpow radix2 52).
    rewrite <- bpow_plus. reflexivity. }
  assert (W : value32 0x3F800000%N = 1).
  { unfold value32. change (exponent32 0x3F800000%N) with 127%N. change (fraction32 0x3F800000%N) with 0%N.
    change (negative32 0x3F800000%N) with false. change (127 =? 0)%N with false. cbv iota.
    change (Z.of_N (2 ^ 23 + 0)) with (2 ^ 23)%Z. change (Z.of_N 127 - 150)%Z with (-23)%Z.
    rewrite <- (bpow_powerRZ radix2). change (IZR (2 ^ 23)) with (bpow radix2 23). rewrite <- bpow_plus. reflexivity. }
  assert (B : 2 < powerRZ 2 1023).
  { change 2 with (bpow radix2 1) at 1. rewrite <- (bpow_powerRZ radix2). apply bpow_lt. lia. }
  split; (split; [reflexivity|split; [reflexivity|]]).
  - replace (MvtSpec.value 0%N) with 0 by (symmetry; apply Rmult_0_l). replace (value32 0%N) with 0 by (symmetry; apply Rmult_0_l).
    rewrite Rplus_0_l, Rabs_R0. lra.
  - rewrite V, W. rewrite Rabs_pos_eq; lra.
Qed.
