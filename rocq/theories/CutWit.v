(** Cases for C77. *)
From Coq Require Import String Ascii.
From Coq Require Import List NArith ZArith Lia Bool.
From Verif Require Import Base Event WkbModel WkbSpec WkbClaims WkbTop.
Import ListNotations.
Local Open Scope list_scope.

Lemma cut_line : exists p t l m,
  std Wkb xy_dims None [] xy_dims false false little sample_line = p ++ t /\
  exec (recorder xy_dims false) (process_wkb_type_geom Wkb xy_dims p) [] = (l, Err EIo) /\ length l = 3 /\
  exec (recorder xy_dims false) (process_wkb_type_geom Wkb xy_dims (p ++ t)) [] = (l ++ m, Ok (tt, [])) /\ length m = 2.
Proof.
  pose (b := std Wkb xy_dims None [] xy_dims false false little sample_line).
  exists (firstn 30 b), (skipn 30 b). eexists. eexists.
  split; [now rewrite firstn_skipn|]. split; [vm_compute; reflexivity|]. split; [reflexivity|].
  split; [vm_compute; reflexivity|]. reflexivity.
Qed.
