(** C40, C50: exactly which records and index files make the shapefile reader panic. *)
From Coq Require Import String Ascii.
From Coq Require Import List NArith ZArith Lia Bool.
From Coq Require Import Init.Byte.
From Verif Require Import Base Float Event Claims Geom WkbModel ShpModel ShpSpec ShpTop ShpSafe ShpMore ShpPanicSpec ShpPanic ShpPanicTop.
Import ListNotations.
Local Open Scope nat_scope.
Local Open Scope list_scope.

(** C40.  Whatever the bytes: against a processor that accepts everything, a build with overflow
    checks panics exactly on the records of [breaks_checked], one without on those of
    [breaks_unchecked].  A slice of memory has less than 2^63 bytes. *)
Theorem C40_checked_exact : forall d b, (Z.of_nat (length b) < 2 ^ 63)%Z ->
  (snd (observe (read_shape true d b)) = Err EPanic <-> breaks_checked b).
Proof. exact checked_exact. Qed.
Print Assumptions C40_checked_exact.
Theorem C40_unchecked_exact : forall d b, (Z.of_nat (length b) < 2 ^ 63)%Z ->
  (snd (observe (read_shape false d b)) = Err EPanic <-> breaks_unchecked b).
Proof. exact unchecked_exact. Qed.
Print Assumptions C40_unchecked_exact.
(** Against any processor whose own callbacks do not panic there is no panic on other records. *)
Theorem C40_any_processor : forall ck b S (p : proc S) s, (Z.of_nat (length b) < 2 ^ 63)%Z ->
  (forall s e, snd (p_step p s e) <> Err EPanic) ->
  snd (exec p (read_shape ck (p_dims p) b) s) = Err EPanic ->
  if ck then breaks_checked b else breaks_unchecked b.
Proof. exact any_processor. Qed.
Print Assumptions C40_any_processor.
(** What panics without overflow checks panics with them. *)
Theorem C40_builds : forall b, (Z.of_nat (length b) < 2 ^ 63)%Z -> breaks_unchecked b -> breaks_checked b.
Proof. exact unchecked_checked. Qed.
Print Assumptions C40_builds.
(** a polygon of two parts whose table goes down; a well-formed record *)
Example C40_exact_met : breaks_unchecked zigzag /\ breaks_checked zigzag /\ breaks_checked debug_small /\
  ~ breaks_unchecked debug_small /\ ~ breaks_checked (record_bytes 7 island).
Proof.
  assert (Hz : (Z.of_nat (length zigzag) < 2 ^ 63)%Z) by (vm_compute; reflexivity).
  assert (Hd : (Z.of_nat (length debug_small) < 2 ^ 63)%Z) by (vm_compute; reflexivity).
  assert (Hi : (Z.of_nat (length (record_bytes 7 island)) < 2 ^ 63)%Z) by (vm_compute; reflexivity).
  rewrite <- (C40_unchecked_exact xy_dims zigzag Hz), <- (C40_checked_exact xy_dims zigzag Hz),
    <- (C40_checked_exact xy_dims debug_small Hd), <- (C40_unchecked_exact xy_dims debug_small Hd),
    <- (C40_checked_exact xy_dims (record_bytes 7 island) Hi).
  repeat split; vm_compute; (reflexivity || discriminate).
Qed.

(** C50.  Index files. *)
Theorem C50_exact : forall ck b, snd (observe (read_index_file ck b)) = Err EPanic <-> index_breaks ck b.
Proof. exact index_exact. Qed.
Print Assumptions C50_exact.
Example C50_exact_met : index_breaks true short_index /\ index_breaks false short_index.
Proof. split; apply C50_exact; vm_compute; reflexivity. Qed.
