(** Vocabulary of C60 and C61 (specification side): the answer of a processor to a property, and the
    features of a shapefile. *)
From Coq Require Import String Ascii.
From Coq Require Import List NArith ZArith Lia Bool.
From Verif Require Import Base Event Claims Geom FeatureSpec ShpModel ShpSpec.
Import ListNotations.
Local Open Scope list_scope.

(** ** Stop requests *)
(** a processor that records everything, never fails and asks to stop after a property for which
    [stop] holds *)
Definition asker (d : dims) (stop : nat -> string -> colval -> bool) : proc (list obs) :=
  mkProc d (fun s e => (s ++ [OEv e], Ok tt)) (fun s i n v => (s ++ [OProp i n v], Ok (stop i n v))).
(** the list up to and including the first element for which [f] holds *)
Fixpoint until {A} (f : A -> bool) (l : list A) : list A :=
  match l with
  | [] => []
  | a :: r => a :: (if f a then [] else until f r)
  end.
(** a processor that takes every property *)
Definition takes_all {S} (p : proc S) : Prop := forall s i n v, snd (p_prop p s i n v) <> Ok true.

(** the attributes of a record that are not null, numbered *)
Definition numbered (r : dbf_record) : list (nat * string * colval) :=
  mapi (fun i q => (i, fst q, snd q)) 0 (offered r).
(** what is heard of a file if properties are delivered up to the first stop request *)
Definition heard_feature (stop : nat -> string -> colval -> bool) (i : nat) (f : entry * list event) : list obs :=
  [OEv (FeatureBegin i); OEv PropertiesBegin] ++
  map prop_obs (until (fun q => stop (fst (fst q)) (snd (fst q)) (snd q)) (numbered (en_record (fst f)))) ++
  [OEv PropertiesEnd; OEv GeometryBegin] ++ map OEv (snd f) ++ [OEv GeometryEnd; OEv (FeatureEnd i)].
Definition heard stop (l : list (entry * list event)) : list obs :=
  OEv (DatasetBegin None) :: flat_mapi (heard_feature stop) 0 l ++ [OEv DatasetEnd].

(** ** The features of a file *)
(** [x] is the feature of the record: all attributes that are not null, and the geometry *)
Definition entry_feature (d : dims) (f : entry) (x : feature) : Prop :=
  f_props x = Some (numbered (en_record f)) /\
  exists g, represents d (en_shape f) g /\ f_geom x = Some g.
(** a shape with a geometry *)
Definition has_geometry (f : entry) : Prop :=
  match en_shape f with Null | Patches _ => False | _ => True end.
(** z or m is asked for if any extra dimension is *)
Definition plain_dims (d : dims) : Prop := multi_dim d = orb (dz d) (dm d).

(** the positions of a shape *)
Definition positions (sh : shape) : list coord :=
  match sh with
  | Null | Patches _ => []
  | OnePoint _ c => [c]
  | ManyPoints _ _ _ l => l
  | Lines _ _ _ parts | Areas _ _ _ parts => concat parts
  end.

(** a processor that asks to stop after every property it takes (the default of the trait) *)
Definition stops_first {S} (p : proc S) : Prop := forall s i n v, snd (p_prop p s i n v) <> Ok false.
(** [x] is the feature of the record with no more than the first attribute *)
Definition first_feature (d : dims) (f : entry) (x : feature) : Prop :=
  f_props x = Some (firstn 1 (numbered (en_record f))) /\
  exists g, represents d (en_shape f) g /\ f_geom x = Some g.
(** the geometries and attributes of a feature as the geo-types and tile claims have them *)
Definition ftr_of (x : feature) : list (nat * string * colval) * list geom :=
  (match f_props x with Some l => l | None => [] end, match f_geom x with Some g => [g] | None => [] end).
