(** Proofs: the orientation of rings. *)
From Coq Require Import List NArith ZArith Lia Bool Reals Lra.
From Coq Require Import Floats.SpecFloat.
From Flocq Require Import Core.Core Relative IEEE754.BinarySingleNaN.
From Verif Require Import Base Float FloatReal Event Claims Geom ShpModel ShpSpec ShpTop RingSpec.
From Verif Require MvtSpec MvtPlace.
Import ListNotations.
Local Open Scope R_scope.
Local Instance Hprec : FLX.Prec_gt_0 53 := eq_refl.
Local Instance Hmax : Prec_lt_emax 53 1024 := eq_refl.

(** ** Operations whose result is no greater than some float *)
Lemma add_val : forall x y, fin x = true -> fin y = true -> Rabs (RN (val x + val y)) < bpow radix2 1024 ->
  fin (f64_add x y) = true /\ val (f64_add x y) = RN (val x + val y).
Proof.
  intros x y Fx Fy L. unfold fin, val in *. rewrite bits_add.
  pose proof (Bplus_correct 53 1024 Hprec Hmax mode_NE (bits x) (bits y) Fx Fy) as H.
  cbn [round_mode] in H. rewrite Rlt_bool_true in H by exact L. destruct H as [H1 [H2 _]]. split; assumption.
Qed.
Lemma sub_val' : forall x y, fin x = true -> fin y = true -> Rabs (RN (val x - val y)) < bpow radix2 1024 ->
  fin (f64_sub x y) = true /\ val (f64_sub x y) = RN (val x - val y).
Proof. intros x y Fx Fy L. pose proof (sub_val x y Fx Fy) as H. now rewrite Rlt_bool_true in H by exact L. Qed.
Lemma mul_val' : forall x y, fin x = true -> fin y = true -> Rabs (RN (val x * val y)) < bpow radix2 1024 ->
  fin (f64_mul x y) = true /\ val (f64_mul x y) = RN (val x * val y).
Proof. intros x y Fx Fy L. pose proof (mul_val x y Fx Fy) as H. now rewrite Rlt_bool_true in H by exact L. Qed.

Lemma lt_zero : forall x, fin x = true -> f64_ltb x 0%N = Rlt_bool (val x) 0.
Proof.
  intros x F. unfold f64_ltb, f64_cmp. rewrite <- (bits_sf x), <- (bits_sf 0%N).
  pose proof (Bcompare_correct 53 1024 (bits x) (bits 0%N) F eq_refl) as H. unfold Bcompare in H. rewrite H.
  change (B2R (bits 0%N)) with 0. unfold val, Rlt_bool. now destruct (Rcompare (B2R (bits x)) 0).
Qed.

Lemma RN_opp : forall a, RN (- a) = - RN a.
Proof. intros a. apply round_NE_opp. Qed.
(** a bound that is a float *)
Lemma RN_bound : forall a m e, (0 <= m <= 2 ^ 53)%Z -> (-1074 <= e <= 970)%Z ->
  Rabs a <= IZR m * bpow radix2 e -> Rabs (RN a) <= IZR m * bpow radix2 e.
Proof.
  intros a m e M E H. apply Rabs_le_inv in H. apply Rabs_le.
  rewrite <- (RN_exact m e) by lia. rewrite <- RN_opp. split; apply RN_le; lra.
Qed.
Lemma RN_near : forall a, Rabs (RN a - a) <= Rabs a * bpow radix2 (-53) + bpow radix2 (-1075).
Proof.
  intros a. destruct (Rle_or_lt 0 a) as [P|P].
  - pose proof (RN_error a P). rewrite (Rabs_pos_eq a P). apply Rabs_le. lra.
  - assert (Q : 0 <= - a) by lra. pose proof (RN_error (- a) Q) as H. rewrite RN_opp in H.
    rewrite (Rabs_left a P). apply Rabs_le. lra.
Qed.
Lemma below_max : forall m e, (0 <= m <= 2 ^ 53)%Z -> (e <= 970)%Z -> IZR m * bpow radix2 e < bpow radix2 1024.
Proof.
  intros m e M E. apply Rle_lt_trans with (IZR (2 ^ 53) * bpow radix2 970).
  - apply Rmult_le_compat; [apply IZR_le; lia|apply bpow_ge_0|apply IZR_le; lia|apply bpow_le; lia].
  - change (IZR (2 ^ 53)) with (bpow radix2 53). rewrite <- bpow_plus. apply bpow_lt. lia.
Qed.

(** ** The last step *)
Lemma two_val : fin two = true /\ val two = 2.
Proof.
  destruct (MvtPlace.finite_val two) as [F V]; [reflexivity|]. split; [exact F|]. rewrite V.
  unfold MvtSpec.value, MvtSpec.magnitude. change (MvtSpec.negative two) with false.
  change (MvtSpec.exponent two) with 1024%N. change (MvtSpec.fraction two) with 0%N. cbn [N.eqb].
  change (Z.of_N (2 ^ 52 + 0)) with (2 ^ 52)%Z. change (Z.of_N 1024 - 1075)%Z with (-51)%Z.
  rewrite <- (bpow_powerRZ radix2). change (IZR (2 ^ 52)) with (bpow radix2 52). rewrite <- bpow_plus. reflexivity.
Qed.
Lemma half_sign : forall x m e, fin x = true -> (0 <= m <= 2 ^ 53)%Z -> (-1074 <= e <= 970)%Z ->
  Rabs (val x) <= IZR m * bpow radix2 e ->
  f64_ltb (f64_div x two) 0%N = Rlt_bool (RN (val x / 2)) 0.
Proof.
  intros x m e F M E B. destruct two_val as [F2 V2].
  assert (N2 : val two <> 0) by (rewrite V2; lra). pose proof (div_val x two F F2 N2) as H. rewrite V2 in H.
  rewrite Rlt_bool_true in H.
  - destruct H as [H1 H2]. rewrite lt_zero by exact H1. now rewrite H2.
  - eapply Rle_lt_trans; [apply (RN_bound _ m e M E)|apply below_max; lia].
    unfold Rdiv. rewrite Rabs_mult, (Rabs_pos_eq (/ 2)) by lra. pose proof (Rabs_pos (val x)). lra.
Qed.

(** ** Positions on a grid *)
Lemma times : forall m n a b, IZR m * bpow radix2 a * (IZR n * bpow radix2 b) = IZR (m * n) * bpow radix2 (a + b).
Proof. intros. rewrite mult_IZR, bpow_plus. ring. Qed.
Lemma plus : forall m n a, IZR m * bpow radix2 a + IZR n * bpow radix2 a = IZR (m + n) * bpow radix2 a.
Proof. intros. rewrite plus_IZR. ring. Qed.
Lemma minus : forall m n a, IZR m * bpow radix2 a - IZR n * bpow radix2 a = IZR (m - n) * bpow radix2 a.
Proof. intros. rewrite minus_IZR. ring. Qed.
Lemma exact_small : forall m e, (Z.abs m <= 2 ^ 53)%Z -> (-1074 <= e <= 970)%Z ->
  Rabs (RN (IZR m * bpow radix2 e)) < bpow radix2 1024.
Proof.
  intros m e M E. rewrite RN_exact by assumption. rewrite Rabs_mult, <- abs_IZR, (Rabs_pos_eq (bpow _ _)) by apply bpow_ge_0.
  apply below_max; lia.
Qed.

Section Grid.
  Variables e k : Z.
  Hypothesis He : (-536 <= e <= 485)%Z.
  Hypothesis Hk : (0 <= k)%Z.
  Definition gridded (x : f64) (m : Z) : Prop := fin x = true /\ val x = IZR m * bpow radix2 e /\ (Z.abs m <= 2 ^ k)%Z.
  Let Q := (2 ^ (2 * k + 2))%Z.
  Lemma quad : (2 ^ (k + 1) * 2 ^ (k + 1))%Z = Q.
  Proof. unfold Q. rewrite <- Z.pow_add_r by lia. f_equal. lia. Qed.
  Lemma term_grid : forall x0 x1 y0 y1 m0 m1 n0 n1, (Q <= 2 ^ 53)%Z ->
    gridded x0 m0 -> gridded x1 m1 -> gridded y0 n0 -> gridded y1 n1 ->
    let t := f64_mul (f64_sub x1 x0) (f64_add y1 y0) in
    fin t = true /\ val t = IZR ((m1 - m0) * (n1 + n0)) * bpow radix2 (2 * e) /\ (Z.abs ((m1 - m0) * (n1 + n0)) <= Q)%Z.
  Proof.
    intros x0 x1 y0 y1 m0 m1 n0 n1 HQ (F0 & V0 & B0) (F1 & V1 & B1) (G0 & W0 & C0) (G1 & W1 & C1) t.
    assert (P : (2 ^ (k + 1) = 2 * 2 ^ k)%Z) by (rewrite Z.pow_add_r by lia; lia).
    assert (P0 : (0 < 2 ^ k)%Z) by (apply Z.pow_pos_nonneg; lia).
    assert (M : (Z.abs (m1 - m0) <= 2 ^ (k + 1))%Z) by lia.
    assert (N : (Z.abs (n1 + n0) <= 2 ^ (k + 1))%Z) by lia.
    assert (MN : (Z.abs ((m1 - m0) * (n1 + n0)) <= Q)%Z).
    { rewrite Z.abs_mul, <- quad. apply Z.mul_le_mono_nonneg; lia. }
    assert (S53 : (2 ^ (k + 1) <= 2 ^ 53)%Z) by (rewrite <- quad in HQ; nia).
    destruct (sub_val' x1 x0 F1 F0) as [FD VD]; [rewrite V1, V0, minus; apply exact_small; lia|].
    rewrite V1, V0, minus, RN_exact in VD by lia.
    destruct (add_val y1 y0 G1 G0) as [FS VS]; [rewrite W1, W0, plus; apply exact_small; lia|].
    rewrite W1, W0, plus, RN_exact in VS by lia.
    destruct (mul_val' _ _ FD FS) as [FT VT]; [rewrite VD, VS, times; apply exact_small; lia|].
    rewrite VD, VS, times, RN_exact in VT by lia. replace (e + e)%Z with (2 * e)%Z in VT by lia.
    split; [exact FT|]. split; [exact VT|exact MN].
  Qed.
  Definition grid_coord (c : coord) (p : Z * Z) : Prop := gridded (cx c) (fst p) /\ gridded (cy c) (snd p).
  Fixpoint area_z (l : list (Z * Z)) : Z :=
    match l with
    | a :: r => match r with b :: _ => (fst b - fst a) * (snd b + snd a) + area_z r | [] => 0 end
    | [] => 0
    end.
  Lemma shoelace_grid : forall l ps, Forall2 grid_coord l ps -> forall acc A i,
    fin acc = true -> val acc = IZR A * bpow radix2 (2 * e) -> (Z.abs A <= i * Q)%Z -> (0 <= i)%Z ->
    ((i + Z.of_nat (length l)) * Q <= 2 ^ 53)%Z ->
    fin (shoelace acc l) = true /\ val (shoelace acc l) = IZR (A + area_z ps) * bpow radix2 (2 * e) /\
    (Z.abs (A + area_z ps) <= 2 ^ 53)%Z.
  Proof.
    assert (Q0 : (0 < Q)%Z) by (apply Z.pow_pos_nonneg; lia).
    intros l ps H. induction H as [|a p l ps Ha H IH]; intros acc A i FA VA BA I0 B.
    - cbn [shoelace area_z length] in *. rewrite Z.add_0_r. repeat split; try assumption. lia.
    - destruct H as [|b q l ps Hb H].
      + cbn [shoelace area_z]. rewrite Z.add_0_r. repeat split; try assumption. cbn [length] in B. nia.
      + cbn [shoelace area_z]. destruct Ha as [HaX HaY]. destruct Hb as [HbX HbY].
        assert (HQ : (Q <= 2 ^ 53)%Z) by (cbn [length] in B; nia).
        destruct (term_grid (cx a) (cx b) (cy a) (cy b) _ _ _ _ HQ HaX HbX HaY HbY) as (FT & VT & BT). cbv zeta in *.
        set (t := f64_mul (f64_sub (cx b) (cx a)) (f64_add (cy b) (cy a))) in *.
        set (T := ((fst q - fst p) * (snd q + snd p))%Z) in *.
        assert (BS : (Z.abs (A + T) <= (i + 1) * Q)%Z) by lia.
        assert (L53 : ((i + 1) * Q <= 2 ^ 53)%Z) by (cbn [length] in B; nia).
        destruct (add_val acc t FA FT) as [FS VS]; [rewrite VA, VT, plus; apply exact_small; lia|].
        rewrite VA, VT, plus, RN_exact in VS by lia.
        rewrite Z.add_assoc. apply (IH (f64_add acc t) (A + T)%Z (i + 1)%Z FS VS BS); [lia|].
        cbn [length] in B |- *. lia.
  Qed.
End Grid.

Lemma shoelace_cons : forall acc a b l, shoelace acc (a :: b :: l) =
  shoelace (f64_add acc (f64_mul (f64_sub (cx b) (cx a)) (f64_add (cy b) (cy a)))) (b :: l).
Proof. reflexivity. Qed.
Lemma area2_cons : forall a b l, area2 (a :: b :: l) = (px b - px a) * (py b + py a) + area2 (b :: l).
Proof. reflexivity. Qed.
Lemma grid_area : forall e l ps, Forall2 (fun c p => px c = IZR (fst p) * powerRZ 2 e /\ py c = IZR (snd p) * powerRZ 2 e) l ps ->
  area2 l = IZR (area_z ps) * bpow radix2 (2 * e).
Proof.
  intros e l ps H. induction H as [|a p l ps [Ha1 Ha2] H IH].
  - cbn. lra.
  - destruct H as [|b q l ps [Hb1 Hb2] H]; [cbn; lra|]. rewrite area2_cons, IH. cbn [area_z]. rewrite plus_IZR.
    rewrite Ha1, Ha2, Hb1, Hb2, mult_IZR, minus_IZR, plus_IZR, !(bpow_powerRZ radix2).
    replace (2 * e)%Z with (e + e)%Z by lia. rewrite powerRZ_add by (cbn; lra). cbn [radix_val radix2]. ring.
Qed.
Lemma clockwise_grid : forall e k l, on_grid e k l -> clockwise l = true <-> 0 <= area2 l.
Proof.
  intros e k l (He & Hk & HL & H).
  assert (X : exists ps, Forall2 (grid_coord e k) l ps /\
    Forall2 (fun c p => px c = IZR (fst p) * powerRZ 2 e /\ py c = IZR (snd p) * powerRZ 2 e) l ps).
  { clear HL. induction H as [|c l ((Fx & Fy) & m & n & M & N & X & Y) H IH]; [exists []; split; constructor|].
    destruct IH as (ps & P1 & P2). exists ((m, n) :: ps).
    destruct (MvtPlace.finite_val _ Fx) as [F1 V1]. destruct (MvtPlace.finite_val _ Fy) as [F2 V2].
    split; constructor; try assumption.
    - split; (split; [assumption|split; [|assumption]]); cbn [fst snd]; rewrite (bpow_powerRZ radix2); [now rewrite V1|now rewrite V2].
    - split; assumption. }
  destruct X as (ps & P1 & P2). rewrite (grid_area e l ps P2).
  destruct (shoelace_grid e k He Hk l ps P1 0%N 0%Z 0%Z) as (FS & VS & BS); try reflexivity; try lia.
  { change (val 0%N) with 0. lra. }
  rewrite Z.add_0_l in VS, BS. unfold clockwise. rewrite negb_true_iff.
  rewrite (half_sign _ (Z.abs (area_z ps)) (2 * e) FS); [|lia|lia|].
  2: { rewrite VS, Rabs_mult, <- abs_IZR, (Rabs_pos_eq (bpow _ _)) by apply bpow_ge_0. apply Rle_refl. }
  assert (E2 : bpow radix2 (2 * e) = 2 * bpow radix2 (2 * e - 1)).
  { replace (2 * e)%Z with (1 + (2 * e - 1))%Z at 1 by lia. rewrite bpow_plus. reflexivity. }
  rewrite VS, E2. replace (IZR (area_z ps) * (2 * bpow radix2 (2 * e - 1)) / 2) with (IZR (area_z ps) * bpow radix2 (2 * e - 1)) by field.
  rewrite RN_exact by lia. set (w := IZR (area_z ps) * bpow radix2 (2 * e - 1)).
  replace (IZR (area_z ps) * (2 * bpow radix2 (2 * e - 1))) with (2 * w) by (unfold w; ring).
  destruct (Rlt_bool_spec w 0); split; intros G; try discriminate; try reflexivity; lra.
Qed.

(** ** Rings with an area *)
Section Near.
  Variable k : Z.
  Hypothesis Hk : (-500 <= k <= 480)%Z.
  Let M := bpow radix2 k.
  Let u := bpow radix2 (-53).
  Let U := bpow radix2 (2 * k - 53).
  Let eta := bpow radix2 (-1075).
  Lemma M_pos : 0 < M. Proof. apply bpow_gt_0. Qed.
  Lemma U_pos : 0 < U. Proof. apply bpow_gt_0. Qed.
  Lemma eta_pos : 0 < eta. Proof. apply bpow_gt_0. Qed.
  Lemma MMu : M * M * u = U.
  Proof. unfold M, u, U. rewrite <- !bpow_plus. f_equal. lia. Qed.
  Lemma eta_U : eta <= U. Proof. apply bpow_le. lia. Qed.
  Lemma M_eta : 4 * M * eta <= U.
  Proof. change 4 with (bpow radix2 2). unfold M, eta, U. rewrite <- !bpow_plus. apply bpow_le. lia. Qed.
  Lemma four_M : bpow radix2 (2 * k + 2) = 4 * (M * M).
  Proof. unfold M. rewrite !bpow_plus. replace (2 * k)%Z with (k + k)%Z by lia. rewrite bpow_plus. change (bpow radix2 2) with 4. ring. Qed.
  Lemma two_M : bpow radix2 (k + 1) = 2 * M.
  Proof. unfold M. rewrite bpow_plus. change (bpow radix2 1) with 2. ring. Qed.
  Definition near (x : f64) : Prop := fin x = true /\ Rabs (val x) <= M.
  Lemma sum_near : forall (r d : R), Rabs r <= 2 * M -> d = RN r -> Rabs d <= 2 * M /\ Rabs (d - r) <= 2 * M * u + eta.
  Proof.
    intros r d H ->. split.
    - rewrite <- two_M, <- (Rmult_1_l (bpow _ _)). apply RN_bound; [lia|lia|]. rewrite Rmult_1_l, two_M. exact H.
    - eapply Rle_trans; [apply RN_near|]. apply Rplus_le_compat_r. apply Rmult_le_compat_r; [apply bpow_ge_0|exact H].
  Qed.
  Lemma small_sum : forall r, Rabs r <= 2 * M -> Rabs (RN r) < bpow radix2 1024.
  Proof.
    intros r H. eapply Rle_lt_trans; [apply (sum_near r (RN r) H eq_refl)|]. rewrite <- two_M. apply bpow_lt. lia.
  Qed.
  Lemma term_near : forall x0 x1 y0 y1, near x0 -> near x1 -> near y0 -> near y1 ->
    let t := f64_mul (f64_sub x1 x0) (f64_add y1 y0) in
    fin t = true /\ Rabs (val t) <= bpow radix2 (2 * k + 2) /\
    Rabs (val t - (val x1 - val x0) * (val y1 + val y0)) <= 14 * U.
  Proof.
    intros x0 x1 y0 y1 (F0 & B0) (F1 & B1) (G0 & C0) (G1 & C1) t.
    apply Rabs_le_inv in B0. apply Rabs_le_inv in B1. apply Rabs_le_inv in C0. apply Rabs_le_inv in C1.
    set (dx := val x1 - val x0) in *. set (sy := val y1 + val y0) in *.
    assert (HD : Rabs dx <= 2 * M) by (apply Rabs_le; unfold dx; lra).
    assert (HS : Rabs sy <= 2 * M) by (apply Rabs_le; unfold sy; lra).
    destruct (sub_val' x1 x0 F1 F0 (small_sum _ HD)) as [FD VD].
    destruct (add_val y1 y0 G1 G0 (small_sum _ HS)) as [FS VS].
    destruct (sum_near _ _ HD VD) as [D1 D2]. destruct (sum_near _ _ HS VS) as [S1 S2].
    set (d := val (f64_sub x1 x0)) in *. set (sm := val (f64_add y1 y0)) in *.
    pose proof M_pos as MP. pose proof (Rabs_pos d). pose proof (Rabs_pos sm).
    assert (HP : Rabs (d * sm) <= bpow radix2 (2 * k + 2)).
    { rewrite Rabs_mult, four_M. nra. }
    assert (BP : Rabs (RN (d * sm)) <= bpow radix2 (2 * k + 2)).
    { rewrite <- (Rmult_1_l (bpow _ _)). apply RN_bound; [lia|lia|]. now rewrite Rmult_1_l. }
    destruct (mul_val' _ _ FD FS) as [FT VT].
    { eapply Rle_lt_trans; [exact BP|]. apply bpow_lt. lia. }
    fold t d sm in VT, FT. split; [exact FT|]. rewrite VT. split; [exact BP|].
    pose proof (RN_near (d * sm)) as E1. fold u eta in E1.
    assert (E2 : Rabs (d * sm) * u <= 4 * U).
    { apply Rle_trans with (bpow radix2 (2 * k + 2) * u); [apply Rmult_le_compat_r; [apply bpow_ge_0|exact HP]|].
      rewrite four_M. rewrite <- MMu. lra. }
    assert (E3 : Rabs (d * sm - dx * sy) <= 9 * U).
    { replace (d * sm - dx * sy) with (d * (sm - sy) + (d - dx) * sy) by ring.
      eapply Rle_trans; [apply Rabs_triang|]. rewrite !Rabs_mult.
      apply Rle_trans with (2 * M * (2 * M * u + eta) + (2 * M * u + eta) * (2 * M)).
      - apply Rplus_le_compat; apply Rmult_le_compat; try apply Rabs_pos; assumption.
      - replace (2 * M * (2 * M * u + eta) + (2 * M * u + eta) * (2 * M)) with (8 * (M * M * u) + 4 * M * eta) by ring.
        rewrite MMu. pose proof M_eta. lra. }
    replace (RN (d * sm) - dx * sy) with ((RN (d * sm) - d * sm) + (d * sm - dx * sy)) by ring.
    eapply Rle_trans; [apply Rabs_triang|]. pose proof eta_U. lra.
  Qed.
  Variable n : Z.
  Hypothesis Hn : (n <= 2 ^ 40)%Z.
  Lemma shoelace_near : forall l, Forall (fun c => near (cx c) /\ near (cy c) /\ px c = val (cx c) /\ py c = val (cy c)) l ->
    forall acc i, fin acc = true -> Rabs (val acc) <= IZR i * bpow radix2 (2 * k + 2) -> (0 <= i)%Z ->
    (i + Z.of_nat (length l) <= n)%Z ->
    fin (shoelace acc l) = true /\ Rabs (val (shoelace acc l)) <= IZR n * bpow radix2 (2 * k + 2) /\
    Rabs (val (shoelace acc l) - (val acc + area2 l)) <= INR (length l) * ((4 * IZR n + 15) * U).
  Proof.
    pose proof U_pos as UP. pose proof (bpow_gt_0 radix2 (2 * k + 2)) as BP.
    assert (stop : forall acc i j, fin acc = true -> Rabs (val acc) <= IZR i * bpow radix2 (2 * k + 2) -> (0 <= i)%Z ->
      (i + Z.of_nat j <= n)%Z -> fin acc = true /\ Rabs (val acc) <= IZR n * bpow radix2 (2 * k + 2) /\
      Rabs (val acc - (val acc + 0)) <= INR j * ((4 * IZR n + 15) * U)).
    { intros acc i j FA BA I0 IN. split; [exact FA|]. split.
      - eapply Rle_trans; [exact BA|]. apply Rmult_le_compat_r; [lra|]. apply IZR_le. lia.
      - replace (val acc - (val acc + 0)) with 0 by ring. rewrite Rabs_R0.
        apply Rmult_le_pos; [apply pos_INR|]. apply Rmult_le_pos; [|lra].
        assert (0 <= IZR n) by (apply IZR_le; lia). lra. }
    intros l H. induction H as [|a l Ha H IH]; intros acc i FA BA I0 IN.
    - cbn [shoelace area2]. now apply (stop acc i).
    - destruct H as [|b l Hb H]; [cbn [shoelace area2]; now apply (stop acc i)|].
      rewrite shoelace_cons, area2_cons. destruct Ha as (AX & AY & PX & PY). destruct Hb as (BX & BY & QX & QY).
      destruct (term_near _ _ _ _ AX BX AY BY) as (FT & BT & ET). cbv zeta in *.
      rewrite PX, PY, QX, QY. set (t := f64_mul (f64_sub (cx b) (cx a)) (f64_add (cy b) (cy a))) in *.
      set (T := (val (cx b) - val (cx a)) * (val (cy b) + val (cy a))) in *.
      cbn [length] in IN |- *.
      assert (HS : Rabs (val acc + val t) <= IZR (i + 1) * bpow radix2 (2 * k + 2)).
      { eapply Rle_trans; [apply Rabs_triang|]. rewrite plus_IZR. lra. }
      assert (BS : Rabs (RN (val acc + val t)) <= IZR (i + 1) * bpow radix2 (2 * k + 2)) by (apply RN_bound; [lia|lia|exact HS]).
      destruct (add_val acc t FA FT) as [FS VS]; [eapply Rle_lt_trans; [exact BS|]; apply below_max; lia|].
      rewrite <- VS in BS.
      destruct (IH (f64_add acc t) (i + 1)%Z FS BS) as (F1 & B1 & E1); [lia|cbn [length]; lia|].
      split; [exact F1|]. split; [exact B1|].
      assert (ES : Rabs (val (f64_add acc t) - (val acc + val t)) <= (4 * IZR n + 1) * U).
      { rewrite VS. eapply Rle_trans; [apply RN_near|].
        apply Rle_trans with (IZR n * bpow radix2 (2 * k + 2) * u + eta).
        - apply Rplus_le_compat_r. apply Rmult_le_compat_r; [apply bpow_ge_0|]. eapply Rle_trans; [exact HS|].
          apply Rmult_le_compat_r; [lra|]. apply IZR_le. lia.
        - rewrite four_M. replace (IZR n * (4 * (M * M)) * u) with (4 * IZR n * (M * M * u)) by ring. rewrite MMu.
          pose proof eta_U. lra. }
      change (length (b :: l)) with (S (length l)) in E1 |- *.
      set (R0 := val (shoelace (f64_add acc t) (b :: l))) in *.
      replace (R0 - (val acc + (T + area2 (b :: l)))) with
        ((R0 - (val (f64_add acc t) + area2 (b :: l))) + ((val (f64_add acc t) - (val acc + val t)) + (val t - T))) by ring.
      eapply Rle_trans; [apply Rabs_triang|]. rewrite (S_INR (S (length l))).
      eapply Rle_trans; [apply Rplus_le_compat; [exact E1|apply Rabs_triang]|]. lra.
  Qed.
End Near.

Lemma clockwise_near : forall k l, has_area k l -> (clockwise l = true <-> 0 < area2 l) /\ area2 l <> 0.
Proof.
  intros k l (Hk & HL & H & HA).
  assert (C : Forall (fun c => near k (cx c) /\ near k (cy c) /\ px c = val (cx c) /\ py c = val (cy c)) l).
  { eapply Forall_impl; [|exact H]. intros c ((Fx & Fy) & X & Y). unfold px, py in *.
    destruct (MvtPlace.finite_val _ Fx) as [F1 V1]. destruct (MvtPlace.finite_val _ Fy) as [F2 V2].
    rewrite <- V1, <- V2 in *. rewrite <- (bpow_powerRZ radix2) in X, Y. repeat split; assumption. }
  destruct (shoelace_near k Hk (Z.of_nat (length l)) HL l C 0%N 0%Z) as (FS & BS & ES); try reflexivity; try lia.
  { change (val 0%N) with 0. rewrite Rabs_R0. lra. }
  change (val 0%N) with 0 in ES. rewrite Rplus_0_l in ES. rewrite <- INR_IZR_INZ in *.
  set (S0 := val (shoelace 0%N l)) in *. set (n := INR (length l)) in *.
  rewrite <- (bpow_powerRZ radix2) in HA. set (U := bpow radix2 (2 * k - 53)) in *.
  assert (UP : 0 < U) by apply bpow_gt_0.
  assert (N1 : 1 <= n).
  { unfold n. change 1 with (INR 1). apply le_INR. destruct l; [|cbn; lia]. cbn in HA. rewrite Rabs_R0 in HA. lra. }
  assert (NU1 : n * U <= n * n * U) by (rewrite Rmult_assoc; pose proof (Rmult_lt_0_compat n U); nra).
  assert (ES2 : Rabs (S0 - area2 l) <= 19 * n * n * U).
  { eapply Rle_trans; [exact ES|]. replace (n * ((4 * n + 15) * U)) with (4 * (n * n * U) + 15 * (n * U)) by ring.
    replace (19 * n * n * U) with (19 * (n * n * U)) by ring. lra. }
  assert (NU : 1 * U <= n * n * U) by (apply Rmult_le_compat_r; nra).
  replace (20 * n * n * U) with (20 * (n * n * U)) in HA by ring.
  replace (19 * n * n * U) with (19 * (n * n * U)) in ES2 by ring.
  assert (A0 : area2 l <> 0).
  { intros E. rewrite E, Rabs_R0 in HA. lra. }
  split; [|exact A0].
  unfold clockwise. rewrite negb_true_iff.
  rewrite (half_sign _ (Z.of_nat (length l)) (2 * k + 2) FS); [|lia|lia|rewrite <- INR_IZR_INZ; exact BS].
  fold S0. apply Rabs_le_inv in ES2.
  destruct (Rlt_or_le 0 (area2 l)) as [P|P].
  - rewrite Rabs_pos_eq in HA by lra. rewrite Rlt_bool_false; [tauto|]. apply RN_pos. lra.
  - rewrite Rabs_left in HA by lra. rewrite Rlt_bool_true; [split; intros G; [discriminate|lra]|].
    apply Rle_lt_trans with (RN (IZR (-1) * bpow radix2 (2 * k - 54))).
    + apply RN_le. replace (bpow radix2 (2 * k - 54)) with (U / 2).
      2: { unfold U. replace (2 * k - 53)%Z with (1 + (2 * k - 54))%Z by lia. rewrite bpow_plus. change (bpow radix2 1) with 2. lra. }
      lra.
    + rewrite RN_exact by lia. pose proof (bpow_gt_0 radix2 (2 * k - 54)). lra.
Qed.
Lemma decided_clockwise : forall l, decided l -> clockwise l = true <-> 0 <= area2 l.
Proof.
  intros l [[k H]|[e [k H]]]; [|exact (clockwise_grid e k l H)].
  destruct (clockwise_near k l H) as [H1 H2]. rewrite H1. split; intros; [lra|]. destruct (Rle_lt_or_eq_dec 0 (area2 l)); lra.
Qed.
