(** Single precision numbers as doubles (specification side). *)
From Coq Require Import NArith ZArith Bool Reals.
From Verif Require Import Base Float.
From Verif Require MvtSpec.
Local Open Scope N_scope.

(** sign, exponent and fraction of an f32 *)
Definition exponent32 (x : N) : N := (x / 2 ^ 23) mod 2 ^ 8.
Definition fraction32 (x : N) : N := x mod 2 ^ 23.
Definition negative32 (x : N) : bool := N.odd (x / 2 ^ 31).
Definition finite32 (x : N) : Prop := exponent32 x < 255.
(** the number it stands for *)
Definition value32 (x : N) : R :=
  let m := if exponent32 x =? 0 then (IZR (Z.of_N (fraction32 x)) * powerRZ 2 (-149))%R
           else (IZR (Z.of_N (2 ^ 23 + fraction32 x)) * powerRZ 2 (Z.of_N (exponent32 x) - 150))%R in
  if negative32 x then Ropp m else m.

(** the bits of the double that equals it: another bias and 29 more places; subnormal numbers become
    normal ones; any NaN becomes the one NaN of this model *)
Definition widen (x : N) : f64 :=
  let m := fraction32 x in
  let e := N.log2 m in
  if (exponent32 x =? 255) && negb (m =? 0) then f64_nan
  else (if negative32 x then 2 ^ 63 else 0) +
       (if exponent32 x =? 255 then 2047 * 2 ^ 52
        else if exponent32 x =? 0 then
          (if m =? 0 then 0 else (874 + e) * 2 ^ 52 + (m - 2 ^ e) * 2 ^ (52 - e))
        else (exponent32 x + 896) * 2 ^ 52 + m * 2 ^ 29).

(** [s] is as near to the number [r] as a finite double can be *)
Definition nearest (s : f64) (r : R) : Prop :=
  MvtSpec.finite s /\ forall y, MvtSpec.finite y -> (Rabs (MvtSpec.value s - r) <= Rabs (MvtSpec.value y - r))%R.
(** a double and a difference whose sum is in range *)
Definition addable (a : f64) (d : N) : Prop :=
  MvtSpec.finite a /\ finite32 d /\ (Rabs (MvtSpec.value a + value32 d) < powerRZ 2 1023)%R.
