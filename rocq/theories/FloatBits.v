(** The bits of numbers that a floating point number holds exactly (helper lemmas for C38 and C14). *)
From Coq Require Import NArith ZArith Lia Bool.
From Coq Require Import Floats.SpecFloat.
From Verif Require Import Base Float.
Local Open Scope Z_scope.

Lemma digits2_log : forall p, Zpos (digits2_pos p) = Z.log2 (Zpos p) + 1.
Proof.
  induction p as [p IH|p IH|]; cbn [digits2_pos]; [| |reflexivity]; rewrite Pos2Z.inj_succ, IH.
  - rewrite Pos2Z.inj_xI. rewrite Z.log2_succ_double by lia. lia.
  - rewrite Pos2Z.inj_xO. rewrite Z.log2_double by lia. lia.
Qed.
Lemma shr_exact : forall m e, Zpos (digits2_pos m) = 53 -> -1074 <= e ->
  shr_fexp 53 1024 (Zpos m) e loc_Exact = (Build_shr_record (Zpos m) false false, e).
Proof.
  intros m e D E. unfold shr_fexp, fexp, Zdigits2. rewrite D. unfold emin.
  replace (Z.max (53 + e - 53) (3 - 1024 - 53) - e) with 0 by lia. reflexivity.
Qed.
Lemma round_exact : forall s m e, Zpos (digits2_pos m) = 53 -> -1074 <= e <= 971 ->
  binary_round_aux 53 1024 s (Zpos m) e loc_Exact = S754_finite s m e.
Proof.
  intros s m e D E. unfold binary_round_aux. rewrite shr_exact by (exact D || lia).
  cbn [loc_of_shr_record shr_m round_nearest_even]. rewrite shr_exact by (exact D || lia). cbn [shr_m].
  destruct (Z.leb_spec e (1024 - 53)); [reflexivity|lia].
Qed.
(** a number below 2^53 times a power of two *)
Lemma round_scaled : forall s p k, Zpos p < 2 ^ 53 -> -1022 <= Z.log2 (Zpos p) + k <= 1023 ->
  let e := N.log2 (Npos p) in
  f64_encode (binary_round 53 1024 s p k) =
    ((if s then 2 ^ 63 else 0) + (Z.to_N (1023 + Z.of_N e + k) * 2 ^ 52 + (Npos p - 2 ^ e) * 2 ^ (52 - e)))%N.
Proof.
  intros s p k P K e. set (l := Z.log2 (Zpos p)) in *.
  assert (L0 : 0 <= l) by apply Z.log2_nonneg.
  assert (L : l < 53) by (apply Z.log2_lt_pow2; lia).
  destruct (Z.log2_spec (Zpos p)) as [B1 B2]; [lia|]. fold l in B1, B2.
  pose proof (digits2_log p) as D. fold l in D.
  assert (G : exists m, shl_align p k (fexp 53 1024 (Zpos (digits2_pos p) + k)) = (m, l + k - 52) /\ Zpos m = Zpos p * 2 ^ (52 - l)).
  { unfold shl_align, fexp, emin. rewrite D.
    replace (Z.max (l + 1 + k - 53) (3 - 1024 - 53)) with (l + k - 52) by lia.
    replace (l + k - 52 - k) with (l - 52) by lia.
    destruct (l - 52) as [|q|q] eqn:Q; [|lia|].
    - exists p. split; [f_equal; lia|]. replace (52 - l) with 0 by lia. lia.
    - exists (Zpower.shift_pos q p). split; [reflexivity|]. rewrite Zpower.shift_pos_correct.
      replace (52 - l) with (Zpos q) by lia. change (Z.pow_pos 2 q) with (2 ^ Zpos q). lia. }
  destruct G as (m & G & M). unfold binary_round. rewrite G.
  assert (R : 2 ^ 52 <= Zpos m < 2 ^ 53).
  { rewrite M. replace (2 ^ 52) with (2 ^ l * 2 ^ (52 - l)) by (rewrite <- Z.pow_add_r by lia; f_equal; lia).
    replace (2 ^ 53) with (2 ^ Z.succ l * 2 ^ (52 - l)) by (rewrite <- Z.pow_add_r by lia; f_equal; lia).
    assert (0 < 2 ^ (52 - l)) by (apply Z.pow_pos_nonneg; lia). nia. }
  rewrite round_exact.
  2: { rewrite digits2_log. rewrite (Z.log2_unique (Zpos m) 52); lia. }
  2: lia.
  unfold f64_encode. destruct (N.ltb_spec (Npos m) (2 ^ 52)) as [X|X].
  { exfalso. apply N2Z.inj_lt in X. change (Z.of_N (2 ^ 52)) with (2 ^ 52) in X. change (Z.of_N (Npos m)) with (Zpos m) in X. lia. }
  f_equal.
  assert (E : Z.of_N (N.log2 (Npos p)) = l) by (unfold l; destruct p; reflexivity).
  fold e in E. replace (Z.to_N (l + k - 52 + 1075)) with (Z.to_N (1023 + Z.of_N e + k)) by (rewrite E; f_equal; lia). f_equal.
  assert (Pe : (2 ^ e <= Npos p)%N) by (apply N2Z.inj_le; rewrite N2Z.inj_pow, E; exact B1).
  apply N2Z.inj. rewrite (N2Z.inj_sub _ _ X), N2Z.inj_mul, (N2Z.inj_sub _ _ Pe), !N2Z.inj_pow, N2Z.inj_sub by lia.
  rewrite E. change (Z.of_N (Npos m)) with (Zpos m). change (Z.of_N (Npos p)) with (Zpos p).
  change (Z.of_N 2) with 2. change (Z.of_N 52) with 52. rewrite M.
  replace (2 ^ 52) with (2 ^ l * 2 ^ (52 - l)) by (rewrite <- Z.pow_add_r by lia; f_equal; lia). lia.
Qed.
