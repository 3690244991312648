(** The properties of single precision differences: C14 (see /verif/properties.jsonl). *)
From Coq Require Import List NArith ZArith Reals.
From Verif Require Import Base Float Geom WkbClaims WidenSpec WidenTop WidenSum.
From Verif Require MvtSpec.
Import ListNotations.
Local Open Scope R_scope.

(** C14: the differences of a compressed line are widened bit by bit. *)
Theorem C14_widen : forall x, f32_to_f64 x = widen x.
Proof. exact f32_widen. Qed.
Print Assumptions C14_widen.
Example C14_widen_met : widen 0x3FC00000%N = 0x3FF8000000000000%N /\ widen 0x80000000%N = 0x8000000000000000%N /\
  widen 1%N = 0x36A0000000000000%N /\ widen 0xFF800000%N = 0xFFF0000000000000%N.
Proof. repeat split. Qed.
(** Each inner position of a compressed line is the double nearest to the position before it plus the
    difference stored; measures are stored as they are. *)
Theorem C14_sums : forall z m prev d ds, addable (cx prev) (ddx d) -> addable (cy prev) (ddy d) ->
  exists c, running z m prev (d :: ds) = c :: running z m c ds /\
    nearest (cx c) (MvtSpec.value (cx prev) + value32 (ddx d)) /\
    nearest (cy c) (MvtSpec.value (cy prev) + value32 (ddy d)) /\
    (forall p, z = true -> cz prev = Some p -> addable p (ddz d) ->
       exists h, cz c = Some h /\ nearest h (MvtSpec.value p + value32 (ddz d))) /\
    (m = true -> cm c = Some (dm_ d)).
Proof. exact running_sums. Qed.
Print Assumptions C14_sums.
Example C14_sums_met : addable 0%N 0%N /\ addable 0x3FF0000000000000%N 0x3F800000%N.
Proof. exact sums_met. Qed.
