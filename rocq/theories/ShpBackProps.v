(** C41, files with records of negative size. *)
From Coq Require Import String Ascii.
From Coq Require Import List NArith ZArith Lia Bool.
From Coq Require Import Init.Byte.
From Verif Require Import Base Event ShpModel ShpBack.
Import ListNotations.
Local Open Scope list_scope.

(** C41.  The length in the header does not bound the records read: [back] is a null record that says
    it has -4 words.  Without overflow checks the iterator returns as many of them as the source has,
    whatever the header says; with overflow checks the first one panics. *)
Theorem C41_length_refuted : forall leftover S (p : proc S) h n rest s, (50 < h_length h < 2 ^ 30)%Z ->
  exists it it', iter_geometries false h (concat (repeat back n) ++ rest) = Ok it /\
    shapes false leftover p n it s = (it', s, repeat (Some (Ok tt)) n) /\ it_source it' = rest.
Proof. exact beyond. Qed.
Print Assumptions C41_length_refuted.
Theorem C41_negative_size_refuted : forall leftover S (p : proc S) h rest s, (50 < h_length h < 2 ^ 30)%Z ->
  exists it, iter_geometries true h (back ++ rest) = Ok it /\ snd (shape_next true leftover p it s) = Some (Err EPanic).
Proof. exact beyond_debug. Qed.
Print Assumptions C41_negative_size_refuted.
(** a header that says there is one null record of 12 bytes *)
Example C41_length_met : (50 < h_length (mkHeader 56 [] NullShape 1000) < 2 ^ 30)%Z.
Proof. split; reflexivity. Qed.
