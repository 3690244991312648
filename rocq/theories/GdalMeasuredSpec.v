(** What the GDAL writer makes of a geometry when m is asked for and z is not (C56). *)
From Coq Require Import String Ascii.
From Coq Require Import List NArith ZArith Lia Bool.
From Verif Require Import Base Event Geom GdalModel GdalSpec.
Import ListNotations.

(** x, y and the z that was not asked for (0 if there is none); m is not stored *)
Definition m_pt (c : coord) : pt := (cx c, cy c, opt_default f64_zero (cz c)).
Definition m_point (c : coord) : og := Og OPoint true true [m_pt c] [].
(** z appears with the first position *)
Definition some {A} (l : list A) : bool := match l with [] => false | _ => true end.
Definition m_line (l : line) : og := Og OLineString (some l) true (map m_pt l) [].
(** what holds lines does not get it *)
Definition m_poly (r : rings) : og := Og OPolygon false true [] (map m_line r).
Definition m_value (g : geom) : og :=
  match g with
  | GPoint c => m_point c
  | GMultiPoint l => Og OMultiPoint (some l) true [] (map m_point l)
  | GLineString l => m_line l
  | GMultiLineString l => Og OMultiLineString false true [] (map m_line l)
  | GPolygon r => m_poly r
  | GMultiPolygon l => Og OMultiPolygon false true [] (map m_poly l)
  | _ => Og OCollection false true [] []
  end.
