(** Results of floating point operations are bit patterns of 64 bits. *)
From Coq Require Import NArith ZArith Lia Bool.
From Coq Require Import Floats.SpecFloat.
From Flocq Require Import IEEE754.BinarySingleNaN.
From Verif Require Import Base Float FloatReal.
Local Open Scope N_scope.
Local Existing Instance Hprec.
Local Existing Instance Hmax.

Lemma encode_ok : forall f, valid f = true -> f64_ok (f64_encode f).
Proof.
  intros f V. unfold f64_ok. change (2 ^ 64) with 18446744073709551616. destruct f as [s|s| |s p e].
  - destruct s; cbn; lia.
  - destruct s; cbn; lia.
  - cbn. unfold f64_nan. lia.
  - cbn [SpecFloat.valid_binary] in V. unfold SpecFloat.bounded in V. apply andb_true_iff in V. destruct V as [C L].
    apply Z.leb_le in L. unfold SpecFloat.canonical_mantissa in C. apply Zeq_bool_eq in C.
    unfold SpecFloat.fexp, SpecFloat.emin in C. change (3 - 1024 - 53)%Z with (-1074)%Z in C.
    change (1024 - 53)%Z with 971%Z in L.
    unfold f64_encode. rewrite sign_bit. change (2 ^ 52) with 4503599627370496.
    assert (S : ((if s then 1 else 0) < 2)) by (destruct s; lia).
    pose proof (digits2_log2 p) as DL.
    destruct (N.ltb_spec (Npos p) 4503599627370496) as [Lt|Ge]; [nia|].
    assert (PB : (Zpos p < 9007199254740992)%Z).
    { change 9007199254740992%Z with (2 ^ 53)%Z. apply Z.log2_lt_pow2; [lia|]. lia. }
    assert (EE : Z.to_N (e + 1075) < 2047) by lia.
    set (k := Z.to_N (e + 1075)) in *. set (u := if s then 1 else 0) in *. clearbody k u.
    clear C DL. nia.
Qed.
Lemma add_ok : forall x y, f64_ok (f64_add x y).
Proof.
  intros x y. unfold f64_add. rewrite <- (bits_sf x), <- (bits_sf y).
  assert (E : exists b : bin, SFadd 53 1024 (B2SF (bits x)) (B2SF (bits y)) = B2SF b).
  { exists (Bplus mode_NE (bits x) (bits y)).
    destruct (bits x) as [sx|sx| |sx mx ex Bx], (bits y) as [sy|sy| |sy my ey By];
      try (cbn; repeat match goal with |- context [if ?c then _ else _] => destruct c end; reflexivity).
    apply normalize_spec. }
  destruct E as [b ->]. apply encode_ok, valid_binary_B2SF.
Qed.
