(** Whole numbers as floating point numbers (helper lemma for C38). *)
From Coq Require Import NArith ZArith Lia Bool.
From Coq Require Import Floats.SpecFloat.
From Verif Require Import Base Float FloatBits MvtModel MvtSpec.
Local Open Scope Z_scope.

Lemma round_int : forall s p, Zpos p < 2 ^ 53 ->
  f64_encode (binary_round 53 1024 s p 0) = ((if s then 2 ^ 63 else 0) + nat_bits p)%N.
Proof.
  intros s p P.
  assert (0 <= Z.log2 (Zpos p) < 53) by (split; [apply Z.log2_nonneg|apply Z.log2_lt_pow2; lia]).
  rewrite round_scaled by lia. unfold nat_bits. do 3 f_equal. lia.
Qed.
Lemma of_int_bits : forall z, Z.abs z < 2 ^ 53 -> f64_of_int z = int_bits z.
Proof.
  intros [|p|p] H; unfold f64_of_int, binary_normalize, int_bits; [reflexivity| |]; rewrite round_int by lia; reflexivity.
Qed.
Lemma at_tile_bits : forall x y, Z.abs x < 2 ^ 53 -> Z.abs y < 2 ^ 53 ->
  at_tile (x, y) = Geom.mkC (int_bits x) (int_bits y) None None.
Proof. intros x y X Y. unfold at_tile. cbn [fst snd]. now rewrite !of_int_bits. Qed.
