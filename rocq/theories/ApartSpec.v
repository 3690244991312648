(** What C84 is stated with: geometries and attributes of the features that a writer collects. *)
From Coq Require Import String.
From Coq Require Import List NArith ZArith Bool.
From Verif Require Import Base Event Claims TraceSpec.
From Verif Require CsvModel GeoModel MvtModel.
Import ListNotations.

(** Streams that differ in the values, names, numbers or places of properties only, or in having them at all. *)
Definition same_geometry (l l' : list obs) : Prop :=
  filter (fun o => negb (is_property o)) l = filter (fun o => negb (is_property o)) l'.
(** Streams that differ in geometry callbacks only: the same datasets, features, properties and brackets. *)
Definition same_attributes (l l' : list obs) : Prop := filter is_frame l = filter is_frame l'.

(** Both streams are accepted from the start [s0], and what [look] sees of the outcome is the same. *)
Definition agree {S V} (p : proc S) (s0 : S) (look : S -> V) (same : list obs -> list obs -> Prop) : Prop :=
  forall l l', same l l' -> snd (feed p l s0) = Ok tt -> snd (feed p l' s0) = Ok tt ->
    look (fst (feed p l s0)) = look (fst (feed p l' s0)).

(** ** What is looked at *)
Definition feature_geometries (s : GeoModel.gf) : list GeoModel.gt := map fst (GeoModel.f_features s).
Definition feature_attributes (s : GeoModel.gf) : list GeoModel.props := map snd (GeoModel.f_features s).
(** the first column of a table and the others, header included *)
Definition csv_geometries (s : CsvModel.csvst) : list (option string) := map (@hd_error string) (CsvModel.o_records (CsvModel.cs_csv s)).
Definition csv_attributes (s : CsvModel.csvst) : list (list string) := map (@tl string) (CsvModel.o_records (CsvModel.cs_csv s)).
Definition tile_geometries (s : MvtModel.mw) : list MvtModel.tgeom := map MvtModel.mf_geometry (MvtModel.mw_features s).
Definition tile_attributes (s : MvtModel.mw) : list (list (string * MvtModel.mval)) := map MvtModel.mf_properties (MvtModel.mw_features s).
(** features that end in a stream *)
Definition ended (l : list obs) : nat := length (filter is_feature_end l).
