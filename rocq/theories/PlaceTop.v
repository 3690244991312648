(** The digits of numbers in bytes (helper lemmas for C03). *)
From Coq Require Import List NArith ZArith Lia Bool.
From Coq Require Import Init.Byte Strings.Byte.
From Verif Require Import Base BaseLemmas.
Import ListNotations.
Local Open Scope N_scope.

Lemma byte_value : forall n, Byte.to_N (byte_of n) = n mod 256.
Proof.
  intros n. unfold byte_of. assert (H : n mod 256 < 256) by (apply N.mod_lt; discriminate).
  destruct (Byte.of_N (n mod 256)) as [b|] eqn:E; [now apply Byte.to_of_N in E|].
  apply Byte.of_N_None_iff in E. lia.
Qed.
Lemma le_length : forall k n, length (le_bytes k n) = k.
Proof. induction k as [|k IH]; intros n; cbn; [reflexivity|]. now rewrite IH. Qed.
Lemma le_digit : forall k n i, (i < k)%nat -> Byte.to_N (nth i (le_bytes k n) x00) = (n / 256 ^ N.of_nat i) mod 256.
Proof.
  induction k as [|k IH]; intros n i H; [lia|]. cbn [le_bytes]. destruct i as [|i].
  - cbn [nth]. rewrite byte_value. cbn [N.of_nat]. now rewrite N.pow_0_r, N.div_1_r.
  - cbn [nth]. rewrite IH by lia. rewrite Nnat.Nat2N.inj_succ, N.pow_succ_r', N.div_div by (try apply N.pow_nonzero; discriminate).
    reflexivity.
Qed.
Lemma digits : forall k n i, (i < k)%nat ->
  length (bytes_of LE k n) = k /\ length (bytes_of BE k n) = k /\
  Byte.to_N (nth i (bytes_of LE k n) x00) = (n / 256 ^ N.of_nat i) mod 256 /\
  Byte.to_N (nth (k - 1 - i) (bytes_of BE k n) x00) = (n / 256 ^ N.of_nat i) mod 256.
Proof.
  intros k n i H. cbn [bytes_of]. rewrite rev_length, le_length. split; [reflexivity|]. split; [reflexivity|].
  split; [now apply le_digit|]. rewrite rev_nth by (rewrite le_length; lia). rewrite le_length.
  replace (k - S (k - 1 - i))%nat with i by lia. now apply le_digit.
Qed.
Lemma signed : forall z, is_i32 z ->
  i32_to_u32 z = Z.to_N (if (z <? 0)%Z then z + 2 ^ 32 else z)%Z.
Proof.
  intros z [A B]. unfold i32_to_u32. f_equal. destruct (Z.ltb_spec z 0) as [L|L].
  - symmetry. apply (Z.mod_unique_pos _ _ (-1)); [|lia]. change (2 ^ 32)%Z with 4294967296%Z. change (2 ^ 31)%Z with 2147483648%Z in *. lia.
  - apply Z.mod_small. change (2 ^ 32)%Z with 4294967296%Z. change (2 ^ 31)%Z with 2147483648%Z in *. lia.
Qed.
