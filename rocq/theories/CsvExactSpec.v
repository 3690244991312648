(** Specification side of the exact extent of C27: which features CsvWriter takes. *)
From Coq Require Import String Ascii.
From Coq Require Import List NArith ZArith Lia Bool.
From Verif Require Import Base Event Geom FeatureSpec CsvSpec.
Import ListNotations.

(** the names of the properties of a feature, in the order in which they come *)
Definition names_of (f : feature) : list string := map (fun q => snd (fst q)) (the_props f).
(** every property has a number under which the header has its name *)
Definition known (names : list string) (f : feature) : Prop :=
  Forall (fun q => nth_error names (fst (fst q)) = Some (snd (fst q))) (the_props f).
(** ... and there are as many as the header has *)
Definition fitting (names : list string) (f : feature) : Prop :=
  known names f /\ length (the_props f) = length names.
