(** C56, with m and without z. *)
From Coq Require Import String Ascii.
From Coq Require Import List NArith ZArith Lia Bool.
From Verif Require Import Base Event EventLemmas Claims Geom GdalModel GdalSpec GdalTop GdalMore GdalWit GdalMeasuredSpec GdalMeasured.
Import ListNotations.
Local Open Scope N_scope.

(** C56.  Asked for m alone, the writer makes geometries with the m flag but without m values; points
    and lines that have positions get a z value nobody asked for, and what holds lines does not say so. *)
Theorem C56_m_refuted : forall src h g (x : unit), srids h -> simple g = true -> short_geom g ->
  delivers src (fun multi => h ++ gevents multi 0 g)%list (Ok x) ->
  to_gdal_ndim src (mkDims false true false false) = Ok (m_value g).
Proof. exact to_gdal_measured. Qed.
Print Assumptions C56_m_refuted.
Example C56_m_met : simple some_geom = true /\ short_geom some_geom /\
  delivers (said some_geom) (fun multi => [] ++ gevents multi 0 some_geom)%list (Ok tt) /\
  m_value some_geom = Og OMultiPolygon false true []
    [Og OPolygon false true [] [Og OLineString true true [(0, 0, 5); (1, 0, 6); (1, 1, 7); (0, 0, 8)] []; Og OLineString false true [] []];
     Og OPolygon false true [] []].
Proof. split; [reflexivity|]. split; [exact (proj1 (proj2 some_geom_met))|]. split; [exact (proj2 (proj2 (proj2 (proj2 some_geom_met))))|reflexivity]. Qed.
