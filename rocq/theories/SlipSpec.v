(** Vocabulary for C67 on SpatiaLite blobs (specification side): compressed lines. *)
From Coq Require Import String Ascii.
From Coq Require Import List NArith ZArith Bool.
From Coq Require Import Init.Byte.
From Verif Require Import Base Event Claims Geom.
Import ListNotations.
Local Open Scope list_scope.

(** the same callback, except perhaps for the number of a position that is not the first *)
Inductive same_place : event -> event -> Prop :=
| sp_same : forall e, same_place e e
| sp_xy : forall x y i j, same_place (Xy x y (S i)) (Xy x y (S j))
| sp_coord : forall x y z m t tm i j, same_place (Coord x y z m t tm (S i)) (Coord x y z m t tm (S j)).
(** a processor that does not look at the numbers of positions, except whether they are 0 *)
Definition first_only {S} (p : proc S) : Prop :=
  forall e e', same_place e e' -> forall s, p_step p s e = p_step p s e'.
(** a line announced with one position that has two *)
Definition doubled (l : list event) : Prop :=
  exists before t k x y z m after,
    l = before ++ LineStringBegin t 1 k :: x :: y :: after /\
    (x = Xy (fst z) (snd z) 0 \/ exists a b c d, x = Coord (fst z) (snd z) a b c d 0) /\
    (y = Xy (fst m) (snd m) 1 \/ exists a b c d, y = Coord (fst m) (snd m) a b c d 1).
