(** Proofs: a decimal numeral is read as a number nearest to it. *)
From Coq Require Import String Ascii.
From Coq Require Import List NArith ZArith Lia Bool Reals Lra.
From Verif Require Import Base Event DecSpec DecTop.
Import ListNotations.
Local Open Scope R_scope.

Notation p2 := (powerRZ 2).
Lemma p2_pos : forall e, 0 < p2 e.
Proof. intros. apply powerRZ_lt. lra. Qed.
Lemma p2_add : forall a b, p2 (a + b) = p2 a * p2 b.
Proof. intros. apply powerRZ_add. lra. Qed.
Lemma p2_neg : forall e, p2 (- e) * p2 e = 1.
Proof. intros e. rewrite <- p2_add. replace (- e + e)%Z with 0%Z by lia. reflexivity. Qed.
Lemma p2_le : forall a b, (a <= b)%Z -> p2 a <= p2 b.
Proof.
  intros a b H. replace b with (a + (b - a))%Z by lia. rewrite p2_add.
  assert (1 <= p2 (b - a)); [|pose proof (p2_pos a); nra].
  assert (G : forall n, 1 <= p2 (Z.of_nat n)).
  { intros n. rewrite <- pow_powerRZ. apply pow_R1_Rle. lra. }
  specialize (G (Z.to_nat (b - a))). now rewrite Z2Nat.id in G by lia.
Qed.
Lemma p2_IZR : forall e, (0 <= e)%Z -> IZR (2 ^ e) = p2 e.
Proof. intros e H. rewrite <- (Z2Nat.id e H) at 1. rewrite <- pow_IZR, pow_powerRZ. f_equal. lia. Qed.

Notation rN n := (IZR (Z.of_N n)).
Lemma rN_pos : forall n, 0 <= rN n.
Proof. intros. apply IZR_le. lia. Qed.
Lemma shl_R : forall a e, rN (shl a e) = rN a * p2 (Z.max 0 e).
Proof.
  intros a e. destruct (Z_le_gt_dec 0 e) as [L|L].
  - rewrite of_N_shl, mult_IZR, p2_IZR by exact L. f_equal. f_equal. lia.
  - rewrite shl_neg by lia. replace (Z.max 0 e) with 0%Z by lia. cbn. ring.
Qed.
Lemma shl_ratio : forall a b e, (0 < b)%N -> rN (shl a (- e)) / rN (shl b e) = rN a / rN b * p2 (- e).
Proof.
  intros a b e B. rewrite !shl_R. assert (0 < rN b) by (apply IZR_lt; lia).
  pose proof (p2_pos (Z.max 0 e)).
  replace (Z.max 0 (- e)) with (- e + Z.max 0 e)%Z by lia. rewrite p2_add. field. lra.
Qed.

(** the nearest integer *)
Lemma nearest_close : forall a b, (0 < b)%N -> (2 * Z.abs (Z.of_N a - Z.of_N (nearest a b) * Z.of_N b) <= Z.of_N b)%Z.
Proof.
  intros a b B. unfold nearest. pose proof (N.div_mod a b ltac:(lia)) as E. pose proof (N.mod_lt a b ltac:(lia)) as L.
  set (q := (a / b)%N) in *. set (r := (a mod b)%N) in *. clearbody q r.
  destruct (N.compare_spec (2 * r) b) as [C|C|C].
  - destruct (N.even q); nia.
  - nia.
  - nia.
Qed.
Lemma nearest_R : forall a b (k : Z), (0 < b)%N ->
  Rabs (rN a / rN b - rN (nearest a b)) <= Rabs (rN a / rN b - IZR k).
Proof.
  intros a b k B. pose proof (nearest_close a b B) as C. set (n := nearest a b) in *. clearbody n.
  assert (P : 0 < rN b) by (apply IZR_lt; lia).
  assert (X : forall j, Rabs (rN a / rN b - IZR j) = IZR (Z.abs (Z.of_N a - j * Z.of_N b)) / rN b).
  { intros j. rewrite abs_IZR, minus_IZR, mult_IZR. rewrite <- (Rabs_pos_eq (rN b)) at 3 by lra.
    unfold Rdiv at 2. rewrite <- Rabs_inv, <- Rabs_mult. f_equal. field. lra. }
  rewrite !X. apply Rmult_le_compat_r; [left; now apply Rinv_0_lt_compat|]. apply IZR_le.
  destruct (Z.eq_dec k (Z.of_N n)) as [->|D]; [lia|]. nia.
Qed.

Section Kind.
  Variables mw ew : N.
  Notation emin := (emin mw ew).
  Notation infinite := (infinite mw ew).
  Notation parts := (parts mw ew).
  Notation w := (Z.of_N mw).
  (** the value of a finite number without sign *)
  Definition real (y : N) : R := let (m, e) := parts y in rN m * p2 e.

  Lemma pow_mw : Z.of_N (2 ^ mw) = (2 ^ w)%Z.
  Proof. now rewrite N2Z.inj_pow. Qed.
  (** the numbers of exponent [e] *)
  Lemma real_at : forall e m, (emin <= e)%Z -> (m <= 2 * 2 ^ mw)%N -> ((2 ^ mw <= m)%N \/ e = emin) ->
    real (Z.to_N (e - emin) * 2 ^ mw + m) = rN m * p2 e.
  Proof.
    intros e m E M C. assert (P : (2 ^ mw <> 0)%N) by (apply N.pow_nonzero; discriminate). unfold real, DecSpec.parts.
    destruct (N.lt_ge_cases m (2 ^ mw)) as [L|L].
    - destruct C as [C| ->]; [lia|]. replace (emin - emin)%Z with 0%Z by lia. cbn [Z.to_N N.mul N.add].
      rewrite N.div_small, N.mod_small by exact L. reflexivity.
    - destruct (N.eq_dec m (2 * 2 ^ mw)) as [->|N].
      + replace (Z.to_N (e - emin) * 2 ^ mw + 2 * 2 ^ mw)%N with ((Z.to_N (e - emin) + 2) * 2 ^ mw)%N by lia.
        rewrite N.div_mul, N.mod_mul by exact P. destruct (N.eqb_spec (Z.to_N (e - emin) + 2) 0) as [Q|_]; [lia|].
        rewrite N.add_0_r. replace (emin + Z.of_N (Z.to_N (e - emin) + 2) - 1)%Z with (1 + e)%Z by lia.
        rewrite p2_add, N2Z.inj_mul, mult_IZR. change (p2 1) with (2 * 1). ring.
      + replace (Z.to_N (e - emin) * 2 ^ mw + m)%N with ((m - 2 ^ mw) + (Z.to_N (e - emin) + 1) * 2 ^ mw)%N by lia.
        rewrite N.div_add, N.mod_add by exact P. rewrite N.div_small, N.mod_small by lia.
        destruct (N.eqb_spec (0 + (Z.to_N (e - emin) + 1)) 0) as [Q|_]; [lia|].
        replace (2 ^ mw + (m - 2 ^ mw))%N with m by lia. f_equal. f_equal. lia.
  Qed.
  Lemma real_pos : forall y, 0 <= real y.
  Proof. intros y. unfold real. destruct (parts y) as [m e]. pose proof (rN_pos m). pose proof (p2_pos e). nra. Qed.

  Lemma log2_R : forall a b, (0 < a)%N -> (0 < b)%N -> let l := log2_ratio a b in p2 l <= rN a / rN b < 2 * p2 l.
  Proof.
    intros a b A B l. pose proof (log2_ratio_spec a b (Z.abs l) A B) as S. fold l in S. cbv zeta in S.
    specialize (S ltac:(lia) ltac:(lia)). destruct S as [S1 S2].
    apply IZR_le in S1. apply IZR_lt in S2. rewrite !mult_IZR, !p2_IZR in S1 by lia. rewrite !mult_IZR, !p2_IZR in S2 by lia.
    rewrite p2_add in S1. rewrite p2_add in S2. pose proof (p2_pos (Z.abs l)) as K. assert (PB : 0 < rN b) by (apply IZR_lt; lia).
    pose proof (p2_pos l) as PL.
    split.
    - apply (Rmult_le_reg_r (rN b)); [exact PB|]. unfold Rdiv. rewrite Rmult_assoc, Rinv_l, Rmult_1_r by lra.
      apply (Rmult_le_reg_r (p2 (Z.abs l))); [exact K|]. lra.
    - apply (Rmult_lt_reg_r (rN b)); [exact PB|]. unfold Rdiv. rewrite Rmult_assoc, Rinv_l, Rmult_1_r by lra.
      apply (Rmult_lt_reg_r (p2 (Z.abs l))); [exact K|]. lra.
  Qed.

  (** what is rounded *)
  Lemma rounded : forall a b, (0 < a)%N -> (0 < b)%N ->
    exists e m, magnitude mw ew a b = N.min infinite (Z.to_N (e - emin) * 2 ^ mw + m) /\
      (emin <= e)%Z /\ (m <= 2 * 2 ^ mw)%N /\ ((2 ^ mw <= m)%N \/ e = emin) /\
      (e = emin \/ rN (2 ^ mw) * p2 e <= rN a / rN b) /\
      forall k : Z, Rabs (rN a / rN b - rN m * p2 e) <= Rabs (rN a / rN b - IZR k * p2 e).
  Proof.
    intros a b A B. unfold magnitude. destruct (N.eqb_spec a 0) as [->|_]; [lia|].
    set (l := log2_ratio a b). set (e := Z.max emin (l - w)).
    set (m := nearest (shl a (- e)) (shl b e)). exists e, m. split; [reflexivity|]. split; [lia|].
    pose proof (log2_R a b A B) as L. fold l in L. cbv zeta in L. destruct L as [L1 L2].
    pose proof (shl_pos b e B) as SB. pose proof (shl_ratio a b e B) as T.
    assert (PE : 0 < p2 e) by apply p2_pos. assert (PN : 0 < p2 (- e)) by apply p2_pos. pose proof (p2_neg e) as PM.
    set (v := rN a / rN b) in *.
    assert (NR : forall k : Z, Rabs (v * p2 (- e) - rN m) <= Rabs (v * p2 (- e) - IZR k)).
    { intros k. pose proof (nearest_R (shl a (- e)) (shl b e) k SB) as Q. fold m in Q. rewrite T in Q. exact Q. }
    assert (PW : rN (2 ^ mw) = p2 w) by (rewrite pow_mw; apply p2_IZR; lia).
    assert (UP : v * p2 (- e) <= rN (2 * 2 ^ mw)).
    { rewrite N2Z.inj_mul, mult_IZR, PW. change (Z.of_N 2) with 2%Z. assert (l <= w + e)%Z as Q by (unfold e; lia). apply p2_le in Q. rewrite p2_add in Q.
      apply (Rmult_le_reg_r (p2 e)); [exact PE|]. rewrite Rmult_assoc, PM. lra. }
    assert (LOW : e = emin \/ rN (2 ^ mw) <= v * p2 (- e)).
    { destruct (Z_le_gt_dec (l - w) emin) as [C|C]; [left; unfold e; lia|right].
      rewrite PW. apply (Rmult_le_reg_r (p2 e)); [exact PE|]. rewrite Rmult_assoc, PM, <- p2_add.
      replace (w + e)%Z with l by (unfold e; lia). lra. }
    split; [|split; [|split]].
    - pose proof (NR (Z.of_N (2 * 2 ^ mw))) as Q. destruct (N.le_gt_cases m (2 * 2 ^ mw)) as [C|C]; [exact C|exfalso].
      assert (rN (2 * 2 ^ mw) < rN m) by (apply IZR_lt; lia).
      unfold Rabs in Q. destruct (Rcase_abs (v * p2 (- e) - rN m)), (Rcase_abs (v * p2 (- e) - rN (2 * 2 ^ mw))); lra.
    - destruct LOW as [C|C]; [now right|left]. pose proof (NR (Z.of_N (2 ^ mw))) as Q.
      destruct (N.le_gt_cases (2 ^ mw) m) as [D|D]; [exact D|exfalso]. assert (rN m < rN (2 ^ mw)) by (apply IZR_lt; lia).
      unfold Rabs in Q. destruct (Rcase_abs (v * p2 (- e) - rN m)), (Rcase_abs (v * p2 (- e) - rN (2 ^ mw))); lra.
    - destruct LOW as [C|C]; [now left|right]. apply (Rmult_le_compat_r (p2 e)) in C; [|lra]. rewrite Rmult_assoc, PM in C. lra.
    - intros k. assert (X : forall j, Rabs (v - j * p2 e) = Rabs (v * p2 (- e) - j) * p2 e).
      { intros j. rewrite <- (Rabs_pos_eq (p2 e)) at 2 by lra. rewrite <- Rabs_mult. f_equal.
        replace ((v * p2 (- e) - j) * p2 e) with (v * (p2 (- e) * p2 e) - j * p2 e) by ring. rewrite PM. ring. }
      rewrite !X. apply Rmult_le_compat_r; [lra|apply NR].
  Qed.

  Lemma magnitude_nearest : forall a b y', (0 < b)%N -> (magnitude mw ew a b < infinite)%N ->
    Rabs (rN a / rN b - real (magnitude mw ew a b)) <= Rabs (rN a / rN b - real y').
  Proof.
    intros a b y' B F. destruct (N.eq_dec a 0) as [->|A].
    { change (magnitude mw ew 0 b) with 0%N. unfold real at 1, DecSpec.parts. rewrite N.div_0_l, N.mod_0_l by (apply N.pow_nonzero; discriminate).
      cbn [N.eqb Z.of_N]. unfold Rdiv. rewrite !Rmult_0_l, Rminus_0_r, Rabs_R0. apply Rabs_pos. }
    destruct (rounded a b ltac:(lia) B) as (e & m & E & E1 & M & C & LOW & NR).
    assert (R : real (magnitude mw ew a b) = rN m * p2 e).
    { rewrite E in F |- *. rewrite N.min_r by lia. now apply real_at. }
    rewrite R. clear R E F. set (v := rN a / rN b) in *.
    pose proof (parts_cases mw ew y') as P. unfold real. destruct (parts y') as [m' e'].
    assert (M' : (m' < 2 * 2 ^ mw)%N /\ (emin <= e')%Z).
    { assert (2 ^ mw <> 0)%N by (apply N.pow_nonzero; discriminate). destruct P as [(P & -> & _)|(P & Q & _)]; lia. }
    destruct M' as [M' E']. destruct (Z_le_gt_dec e e') as [L|L].
    - specialize (NR (Z.of_N m' * 2 ^ (e' - e))%Z). rewrite mult_IZR, p2_IZR, Rmult_assoc, <- p2_add in NR by lia.
      replace (e' - e + e)%Z with e' in NR by lia. exact NR.
    - destruct LOW as [->|LOW]; [lia|]. specialize (NR (Z.of_N (2 ^ mw))).
      assert (Q : rN m' * p2 e' <= rN (2 ^ mw) * p2 e).
      { assert (rN m' <= 2 * rN (2 ^ mw)) as Q1 by (rewrite <- mult_IZR; apply IZR_le; lia).
        assert (2 * p2 e' <= p2 e) as Q2.
        { pose proof (p2_le (1 + e') e ltac:(lia)) as Q. rewrite p2_add in Q. change (p2 1) with (2 * 1) in Q. lra. }
        pose proof (p2_pos e'). pose proof (rN_pos (2 ^ mw)). nra. }
      eapply Rle_trans; [exact NR|]. rewrite !Rabs_pos_eq; lra.
  Qed.
End Kind.

(** ** Overflow *)
Lemma infinite_at : forall mw ew (e : Z) m, (1 < ew)%N -> (emin mw ew <= e)%Z -> (m <= 2 * 2 ^ mw)%N ->
  (infinite mw ew <= Z.to_N (e - emin mw ew) * 2 ^ mw + m)%N ->
  let top := (emin mw ew + 2 ^ Z.of_N ew - 3)%Z in (top < e)%Z \/ (e = top /\ m = 2 * 2 ^ mw)%N.
Proof.
  intros mw ew e m W E M I top. unfold infinite in I.
  assert (P : (0 < 2 ^ mw)%N) by (apply N.neq_0_lt_0, N.pow_nonzero; discriminate).
  assert (P2 : (4 <= 2 ^ ew)%N) by (change 4%N with (2 ^ 2)%N; apply N.pow_le_mono_r; lia).
  assert (Q : Z.of_N (2 ^ ew) = (2 ^ Z.of_N ew)%Z) by now rewrite N2Z.inj_pow.
  destruct (Z_lt_le_dec top e) as [L|L]; [now left|right].
  assert (T : (Z.to_N (e - emin mw ew) <= 2 ^ ew - 3)%N) by (unfold top in L; lia).
  assert (T2 : (Z.to_N (e - emin mw ew) = 2 ^ ew - 3)%N) by nia.
  rewrite T2 in I. split; [unfold top; lia|]. nia.
Qed.
Lemma magnitude_overflow : forall mw ew a b, (1 < ew)%N -> (0 < b)%N -> magnitude mw ew a b = infinite mw ew ->
  (2 * rN (2 ^ mw) - / 2) * p2 (emin mw ew + 2 ^ Z.of_N ew - 3) <= rN a / rN b.
Proof.
  intros mw ew a b W B I. destruct (N.eq_dec a 0) as [->|A].
  { change (magnitude mw ew 0 b) with 0%N in I. exfalso. unfold infinite in I.
    assert (2 ^ mw <> 0)%N by (apply N.pow_nonzero; discriminate).
    assert (4 <= 2 ^ ew)%N by (change 4%N with (2 ^ 2)%N; apply N.pow_le_mono_r; lia). nia. }
  destruct (rounded mw ew a b ltac:(lia) B) as (e & m & E & E1 & M & C & LOW & NR).
  rewrite I in E. assert (I2 : (infinite mw ew <= Z.to_N (e - emin mw ew) * 2 ^ mw + m)%N) by lia. clear E I.
  set (top := (emin mw ew + 2 ^ Z.of_N ew - 3)%Z). set (v := rN a / rN b) in *.
  assert (X : (emin mw ew < e)%Z \/ (top < e)%Z \/ (e = top /\ (m = 2 * 2 ^ mw)%N)) by (right; exact (infinite_at mw ew e m W E1 M I2)).
  assert (F : (emin mw ew < top)%Z).
  { unfold top. assert (4 <= 2 ^ Z.of_N ew)%Z; [|lia]. change 4%Z with (2 ^ 2)%Z. apply Z.pow_le_mono_r; lia. }
  destruct (infinite_at mw ew e m W E1 M I2) as [L|[L ->]]; fold top in L.
  - destruct LOW as [->|LOW]; [lia|]. pose proof (p2_le (1 + top) e ltac:(lia)) as Q. rewrite p2_add in Q. change (p2 1) with (2 * 1) in Q.
    pose proof (rN_pos (2 ^ mw)). pose proof (p2_pos top). nra.
  - subst e. specialize (NR (Z.of_N (2 * 2 ^ mw) - 1)%Z). rewrite N2Z.inj_mul, minus_IZR, mult_IZR in NR. change (IZR (Z.of_N 2)) with 2 in NR.
    pose proof (p2_pos top). unfold Rabs in NR.
    destruct (Rcase_abs (v - 2 * rN (2 ^ mw) * p2 top)), (Rcase_abs (v - (2 * rN (2 ^ mw) - 1) * p2 top)); nra.
Qed.
