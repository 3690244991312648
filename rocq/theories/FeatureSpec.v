(** The feature processor contract (specification side), feature_processor.rs:3-68: a dataset is
    dataset_begin, features numbered 0, 1, ..., dataset_end; a feature is feature_begin, at most one
    properties block, at most one geometry block, feature_end; property callbacks come only inside a
    properties block, geometry callbacks only inside a geometry block. *)
From Coq Require Import String Ascii.
From Coq Require Import List NArith ZArith Lia Bool.
From Verif Require Import Base Event Claims Geom.
Import ListNotations.
Local Open Scope list_scope.

(** [n]: features seen so far; [p], [g]: properties and geometry block of this feature seen *)
Inductive cstate : Type :=
| CStart
| CDataset (n : nat)
| CFeature (n : nat) (p g : bool)
| CProps (n : nat) (g : bool)
| CGeom (n : nat) (p : bool)
| CEnd.

Definition is_feature_event (e : event) : bool :=
  match e with
  | DatasetBegin _ | DatasetEnd | FeatureBegin _ | FeatureEnd _
  | PropertiesBegin | PropertiesEnd | GeometryBegin | GeometryEnd => true
  | _ => false
  end.

Definition contract_step (s : cstate) (o : obs) : option cstate :=
  match s, o with
  | CStart, OEv (DatasetBegin _) => Some (CDataset 0)
  | CDataset n, OEv DatasetEnd => Some CEnd
  | CDataset n, OEv (FeatureBegin i) => if Nat.eqb i n then Some (CFeature n false false) else None
  | CFeature n p g, OEv (FeatureEnd i) => if Nat.eqb i n then Some (CDataset (S n)) else None
  | CFeature n false g, OEv PropertiesBegin => Some (CProps n g)
  | CFeature n p false, OEv GeometryBegin => Some (CGeom n p)
  | CProps n g, OProp _ _ _ => Some (CProps n g)
  | CProps n g, OEv PropertiesEnd => Some (CFeature n true g)
  | CGeom n p, OEv GeometryEnd => Some (CFeature n p true)
  | CGeom n p, OEv e => if is_feature_event e then None else Some (CGeom n p)
  | _, _ => None
  end.
Fixpoint contract_run (s : cstate) (l : list obs) : option cstate :=
  match l with
  | [] => Some s
  | o :: r => match contract_step s o with Some s' => contract_run s' r | None => None end
  end.
(** the callbacks of one complete dataset *)
Definition contract (l : list obs) : Prop := contract_run CStart l = Some CEnd.

(** A feature: properties in order of delivery with their index, and geometry; a block that is
    absent is [None].  [gi]: the index the geometry is delivered with. *)
Record feature := mkFeature {
  f_props : option (list (nat * string * colval));
  f_geom : option geom
}.
Definition prop_obs (q : nat * string * colval) : obs := OProp (fst (fst q)) (snd (fst q)) (snd q).
Definition feature_obs (multi : bool) (i gi : nat) (f : feature) : list obs :=
  OEv (FeatureBegin i) ::
  match f_props f with
  | Some l => OEv PropertiesBegin :: map prop_obs l ++ [OEv PropertiesEnd]
  | None => []
  end ++
  match f_geom f with
  | Some g => OEv GeometryBegin :: map OEv (gevents multi gi g) ++ [OEv GeometryEnd]
  | None => []
  end ++
  [OEv (FeatureEnd i)].
(** a dataset whose geometries have index 0 *)
Definition dataset_obs (multi : bool) (name : option string) (l : list feature) : list obs :=
  OEv (DatasetBegin name) :: flat_mapi (fun i f => feature_obs multi i 0 f) 0 l ++ [OEv DatasetEnd].

(** [src] makes exactly the callbacks [stream multi] against every processor, whatever it answers
    to property callbacks, stops at the first one that fails with that error, and otherwise
    returns [r]. *)
Definition delivers_obs {A} (src : dims -> prog A) (stream : bool -> list obs) (r : res A) : Prop :=
  forall S (p : proc S) (s : S),
    exec p (src (p_dims p)) s =
    match feed p (stream (multi_dim (p_dims p))) s with
    | (s', Ok _) => (s', r)
    | (s', Err x) => (s', Err x)
    end.
