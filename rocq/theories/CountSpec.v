(** Vocabulary of C91 (specification side): how many callbacks of a kind there are in a stream, property
    callbacks included.  The kinds are those of DrivenSpec.v. *)
From Coq Require Import List NArith ZArith.
From Verif Require Import Base Event.
Import ListNotations.

Definition tally (f : event -> bool) (l : list obs) : N :=
  N.of_nat (length (filter (fun o => match o with OEv e => f e | OProp _ _ _ => false end) l)).
(** begun and not yet ended, below zero if more was ended than begun *)
Definition balance (begins ends : event -> bool) (l : list obs) : Z :=
  (Z.of_N (tally begins l) - Z.of_N (tally ends l))%Z.
