(** Facts about Base.v. *)
From Coq Require Import String Ascii.
From Coq Require Import List NArith ZArith Lia Bool.
From Coq Require Import Init.Byte Strings.Byte.
From Coq Require Import ZifyBool ZifyNat ZifyN.
From Verif Require Import Base.
Import ListNotations.
Local Open Scope N_scope.

Lemma val_lt : forall b, val b < 256.
Proof. intros b. unfold val. pose proof (Byte.to_N_bounded b). lia. Qed.

Lemma val_byte_of : forall n, val (byte_of n) = n mod 256.
Proof.
  intros n. unfold byte_of, val.
  assert (H : n mod 256 < 256) by (apply N.mod_lt; lia).
  destruct (Byte.of_N (n mod 256)) as [b|] eqn:E.
  - now apply Byte.to_of_N.
  - apply Byte.of_N_None_iff in E. lia.
Qed.

Lemma byte_of_val : forall b, byte_of (val b) = b.
Proof.
  intros b. unfold byte_of. rewrite N.mod_small by apply val_lt.
  unfold val. rewrite Byte.of_to_N. reflexivity.
Qed.

Lemma val_inj : forall a b, val a = val b -> a = b.
Proof. intros a b H. rewrite <- (byte_of_val a), <- (byte_of_val b), H. reflexivity. Qed.

Lemma le_bytes_length : forall k n, length (le_bytes k n) = k.
Proof. induction k as [|k IH]; intros n; cbn [le_bytes length]; [reflexivity|now rewrite IH]. Qed.

Lemma bytes_of_length : forall e k n, length (bytes_of e k n) = k.
Proof.
  intros [] k n; unfold bytes_of; [|rewrite rev_length]; apply le_bytes_length.
Qed.

Lemma le_val_le_bytes : forall k n, le_val (le_bytes k n) = n mod 256 ^ N.of_nat k.
Proof.
  induction k as [|k IH]; intros n.
  - cbn [le_bytes le_val N.of_nat]. rewrite N.pow_0_r, N.mod_1_r. reflexivity.
  - cbn [le_bytes le_val]. rewrite val_byte_of, IH.
    rewrite Nnat.Nat2N.inj_succ, N.pow_succ_r'.
    rewrite N.mod_mul_r by (try apply N.pow_nonzero; lia).
    lia.
Qed.

Lemma le_val_lt : forall l, le_val l < 256 ^ N.of_nat (length l).
Proof.
  induction l as [|b r IH].
  - cbn. lia.
  - cbn [le_val length]. rewrite Nnat.Nat2N.inj_succ, N.pow_succ_r'.
    pose proof (val_lt b). nia.
Qed.

Lemma le_bytes_le_val : forall l, le_bytes (length l) (le_val l) = l.
Proof.
  induction l as [|b r IH]; [reflexivity|].
  cbn [length le_bytes le_val].
  assert (Hb := val_lt b).
  assert (E1 : byte_of (val b + 256 * le_val r) = b).
  { apply val_inj. rewrite val_byte_of. rewrite N.mul_comm, N.mod_add by lia.
    apply N.mod_small; assumption. }
  assert (E2 : (val b + 256 * le_val r) / 256 = le_val r).
  { rewrite N.mul_comm, N.div_add by lia. rewrite N.div_small by assumption. lia. }
  rewrite E1, E2, IH. reflexivity.
Qed.

Lemma val_of_bytes_of : forall e k n, n < 256 ^ N.of_nat k -> val_of e (bytes_of e k n) = n.
Proof.
  intros e k n H. destruct e; unfold val_of, bytes_of; [|rewrite rev_involutive];
    rewrite le_val_le_bytes; apply N.mod_small; assumption.
Qed.

Lemma val_of_bytes_of_mod : forall e k n, val_of e (bytes_of e k n) = n mod 256 ^ N.of_nat k.
Proof.
  intros e k n. destruct e; unfold val_of, bytes_of; [|rewrite rev_involutive];
    apply le_val_le_bytes.
Qed.

Lemma val_of_lt : forall e l, val_of e l < 256 ^ N.of_nat (length l).
Proof.
  intros [] l; unfold val_of; [|rewrite <- rev_length]; apply le_val_lt.
Qed.

Lemma bytes_of_val_of : forall e l, bytes_of e (length l) (val_of e l) = l.
Proof.
  intros [] l; unfold bytes_of, val_of.
  - apply le_bytes_le_val.
  - rewrite <- rev_length at 1. rewrite le_bytes_le_val. apply rev_involutive.
Qed.

Lemma bytes_of_mod : forall e k n, bytes_of e k (n mod 256 ^ N.of_nat k) = bytes_of e k n.
Proof.
  assert (H : forall k n, le_bytes k (n mod 256 ^ N.of_nat k) = le_bytes k n).
  { induction k as [|k IH]; intros n; [reflexivity|].
    cbn [le_bytes]. rewrite Nnat.Nat2N.inj_succ, N.pow_succ_r'.
    rewrite N.mod_mul_r by (try apply N.pow_nonzero; lia).
    f_equal.
    - apply val_inj. rewrite !val_byte_of.
      rewrite (N.mul_comm 256), N.mod_add by lia. rewrite N.mod_mod by lia. reflexivity.
    - rewrite (N.mul_comm 256), N.div_add by lia.
      rewrite N.div_small by (apply N.mod_lt; lia). rewrite N.add_0_l. apply IH. }
  intros [] k n; unfold bytes_of; now rewrite H.
Qed.

Lemma i32_to_u32_lt : forall z, i32_to_u32 z < 2 ^ 32.
Proof.
  intros z. unfold i32_to_u32.
  pose proof (Z.mod_pos_bound z (2 ^ 32) ltac:(lia)). lia.
Qed.

Lemma u32_to_i32_to_u32 : forall z, is_i32 z -> u32_to_i32 (i32_to_u32 z) = z.
Proof.
  intros z Hz. unfold is_i32 in Hz. unfold u32_to_i32, i32_to_u32.
  destruct (Z_lt_le_dec z 0) as [Hneg|Hpos].
  - assert (E : (z mod 2 ^ 32 = z + 2 ^ 32)%Z).
    { rewrite <- (Z.mod_add z 1) by lia. rewrite Z.mul_1_l. apply Z.mod_small. lia. }
    rewrite E. destruct (N.ltb_spec (Z.to_N (z + 2 ^ 32)) (2 ^ 31)); lia.
  - rewrite Z.mod_small by lia. destruct (N.ltb_spec (Z.to_N z) (2 ^ 31)); lia.
Qed.

Lemma i32_to_u32_to_i32 : forall n, n < 2 ^ 32 -> i32_to_u32 (u32_to_i32 n) = n.
Proof.
  intros n Hn. unfold u32_to_i32, i32_to_u32.
  destruct (N.ltb_spec n (2 ^ 31)) as [H|H].
  - rewrite Z.mod_small by lia. lia.
  - rewrite <- (Z.mod_add _ 1) by lia. rewrite Z.mul_1_l. rewrite Z.mod_small by lia. lia.
Qed.

Lemma u32_to_i32_range : forall n, n < 2 ^ 32 -> is_i32 (u32_to_i32 n).
Proof. intros n Hn. unfold is_i32, u32_to_i32. destruct (N.ltb_spec n (2 ^ 31)); lia. Qed.

Lemma flat_mapi_app : forall A B (f : nat -> A -> list B) l1 l2 i,
  flat_mapi f i (l1 ++ l2) = (flat_mapi f i l1 ++ flat_mapi f (i + length l1) l2)%list.
Proof.
  induction l1 as [|a r IH]; intros l2 i; cbn [flat_mapi app length].
  - now rewrite Nat.add_0_r.
  - rewrite IH, <- app_assoc. now replace (S i + length r)%nat with (i + S (length r))%nat by lia.
Qed.

Lemma flat_mapi_ext : forall A B (f g : nat -> A -> list B) l i,
  (forall j a, In a l -> f j a = g j a) -> flat_mapi f i l = flat_mapi g i l.
Proof.
  induction l as [|a r IH]; intros i H; cbn [flat_mapi]; [reflexivity|].
  rewrite (H i a (or_introl eq_refl)). f_equal. apply IH. intros j b Hb. apply H. now right.
Qed.
