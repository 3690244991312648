(** Vocabulary of claim C68 (specification side). *)
From Coq Require Import List NArith.
From Verif Require Import Base Event Claims Geom WkbSpec.
Import ListNotations.

(** a geometry seen through x and y only *)
Definition flat_of (c : coord) : coord := mkC (cx c) (cy c) None None.
Definition flat (g : geom) : geom := map_geom GPoint flat_of g.
