(** Vocabulary of the exact form of claim C68 (specification side). *)
From Coq Require Import List NArith Bool.
From Verif Require Import Base Float Event Claims Geom.
Import ListNotations.

(** the ring with its first position repeated at the end, unless its last position is that one already
    (compared as numbers, so -0 is 0 and NaN differs from NaN) *)
Definition closed_line (l : line) : line :=
  match l with
  | [] => []
  | a :: _ =>
      if f64_eqb (cx a) (cx (last l a)) && f64_eqb (cy a) (cy (last l a)) then l else l ++ [a]
  end.
(** a polygon has an outer ring, if only an empty one *)
Definition closed_rings (r : rings) : rings :=
  match r with [] => [[]] | _ => map closed_line r end.
Fixpoint close_rings (g : geom) : geom :=
  match g with
  | GPolygon r => GPolygon (closed_rings r)
  | GMultiPolygon l => GMultiPolygon (map closed_rings l)
  | GCollection l => GCollection (map close_rings l)
  | _ => g
  end.
