(** Vocabulary of the claims about database columns (specification side). *)
From Coq Require Import List NArith ZArith.
From Verif Require Import Base Event Claims Geom GeoModel DbModel.
Import ListNotations.
Local Open Scope list_scope.

(** the value [v] processes as the geometry [g] (perhaps announcing SRIDs first) *)
Definition said (v : source) (g : geom) : Prop :=
  exists s r, delivers (so_process v) (fun multi => s ++ gevents multi 0 g) (Ok r) /\
              Forall (fun e => exists x, e = Srid x) s.

(** a geo-types value; dims() and srid() are the defaults of api.rs *)
Definition geo_source rect tri (x : gt) : source := mkSource (geo_process rect tri x) xy_dims None.
