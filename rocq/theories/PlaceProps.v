(** The digits of numbers in bytes: C03 (see /verif/properties.jsonl). *)
From Coq Require Import List NArith ZArith Bool.
From Coq Require Import Init.Byte Strings.Byte.
From Verif Require Import Base PlaceTop.
Import ListNotations.
Local Open Scope N_scope.

(** C03: counts, codes and coordinates are written digit by digit in base 256: least significant first
    in little endian order, last in big endian order. *)
Theorem C03_digits : forall k n i, (i < k)%nat ->
  length (bytes_of LE k n) = k /\ length (bytes_of BE k n) = k /\
  Byte.to_N (nth i (bytes_of LE k n) x00) = (n / 256 ^ N.of_nat i) mod 256 /\
  Byte.to_N (nth (k - 1 - i) (bytes_of BE k n) x00) = (n / 256 ^ N.of_nat i) mod 256.
Proof. exact digits. Qed.
Print Assumptions C03_digits.
Example C03_digits_met : bytes_of LE 4 0x01020304 = [x04; x03; x02; x01] /\ bytes_of BE 4 0x01020304 = [x01; x02; x03; x04].
Proof. split; reflexivity. Qed.
(** Signed numbers: two's complement. *)
Theorem C03_signed : forall z, is_i32 z -> i32_to_u32 z = Z.to_N (if (z <? 0)%Z then z + 2 ^ 32 else z)%Z.
Proof. exact signed. Qed.
Print Assumptions C03_signed.
Example C03_signed_met : is_i32 (-1) /\ i32_to_u32 (-1) = 0xFFFFFFFF.
Proof. repeat split; try discriminate. Qed.
