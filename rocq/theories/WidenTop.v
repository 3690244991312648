(** Single precision numbers as doubles: proofs. *)
From Coq Require Import NArith ZArith Lia Bool.
From Coq Require Import Floats.SpecFloat.
From Verif Require Import Base Float FloatBits WidenSpec.
Local Open Scope Z_scope.

Lemma normalize_scaled : forall (s : bool) p k z, Zpos p < 2 ^ 53 -> -1022 <= Z.log2 (Zpos p) + k <= 1023 ->
  f64_encode (binary_normalize 53 1024 (if s then Zneg p else Zpos p) k z) =
    ((if s then 2 ^ 63 else 0) + (Z.to_N (1023 + Z.of_N (N.log2 (Npos p)) + k) * 2 ^ 52 +
     (Npos p - 2 ^ N.log2 (Npos p)) * 2 ^ (52 - N.log2 (Npos p))))%N.
Proof. intros [] p k z P K; cbn [binary_normalize]; now rewrite round_scaled. Qed.
Lemma f32_widen : forall x, f32_to_f64 x = widen x.
Proof.
  intros x. unfold f32_to_f64, f32_decode, sf_decode, widen.
  change (23 + 8)%N with 31%N. change (Z.of_N (2 ^ (8 - 1) - 1)) with 127. change (Z.of_N 23) with 23.
  change (2 ^ 8 - 1)%N with 255%N.
  fold (negative32 x). fold (exponent32 x). fold (fraction32 x).
  assert (M : (fraction32 x < 2 ^ 23)%N) by (apply N.mod_lt; discriminate).
  assert (E : (exponent32 x < 2 ^ 8)%N) by (apply N.mod_lt; discriminate).
  set (m := fraction32 x) in *. set (e := exponent32 x) in *. set (s := negative32 x).
  change (2 ^ 23)%N with 8388608%N in *. change (2 ^ 8)%N with 256%N in *.
  destruct (N.eqb_spec e 0) as [E0|E0].
  - rewrite E0. cbn [N.eqb andb]. destruct m as [|p]; [cbn; destruct s; reflexivity|].
    change (1 - 127 - 23) with (-149). cbn [N.eqb Pos.eqb].
    assert (L : 0 <= Z.log2 (Zpos p) < 23).
    { split; [apply Z.log2_nonneg|]. apply Z.log2_lt_pow2; [lia|]. change (2 ^ 23) with 8388608. lia. }
    rewrite normalize_scaled; [|change (2 ^ 53) with 9007199254740992; lia|lia]. f_equal. f_equal. f_equal. lia.
  - destruct (N.eqb_spec e 255) as [E1|E1].
    + cbn [andb]. destruct (N.eqb_spec m 0) as [M0|M0]; cbn [negb f64_encode]; reflexivity.
    + cbn [andb]. destruct (m + 8388608)%N as [|p] eqn:P; [lia|].
      assert (B : 2 ^ 23 <= Zpos p < 2 ^ 24).
      { change (2 ^ 23) with 8388608. change (2 ^ 24) with 16777216. lia. }
      assert (L : Z.log2 (Zpos p) = 23) by (apply Z.log2_unique; [lia|exact B]).
      assert (LN : N.log2 (Npos p) = 23%N).
      { apply N2Z.inj. transitivity (Z.log2 (Zpos p)); [destruct p; reflexivity|exact L]. }
      rewrite normalize_scaled; [|change (2 ^ 53) with 9007199254740992; lia|rewrite L; lia].
      rewrite LN. f_equal. change (52 - 23)%N with 29%N. change (2 ^ 23)%N with 8388608%N.
      replace (Npos p - 8388608)%N with m by lia. f_equal. f_equal. lia.
Qed.
