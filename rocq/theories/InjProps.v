(** Property C68: what differs is told apart.  Vocabulary: InjSpec.v (flat), WkbSpec.v (std, retained),
    ChainSpec.v (tidy), GeoJsonSpec.v (kept_geom). *)
From Coq Require Import String Ascii.
From Coq Require Import List NArith ZArith Lia Bool.
From Verif Require Import Base Event Claims Geom WkbModel WkbSpec WkbClaims WktModel WktSpec WktTop GeoModel GeoSpec JsonSpec
  GeoJsonModel GeoJsonSpec GeoJsonRead ChainSpec ChainTop InjSpec InjTop.
Import ListNotations.
Local Open Scope list_scope.

(** The callbacks made for a geometry are those of no other geometry, and it is known where they end,
    whatever callbacks follow. *)
Theorem C68_callbacks : forall k g g' r r',
  gevents true k g ++ r = gevents true k g' ++ r' -> g = g' /\ r = r'.
Proof. exact streams. Qed.
Print Assumptions C68_callbacks.
(** A processor that does not ask for extra dimensions can tell apart exactly the geometries that
    differ in x and y, in kind or in structure. *)
Theorem C68_callbacks_xy : forall k g g', gevents false k g = gevents false k g' <-> flat g = flat g'.
Proof. exact streams_xy. Qed.
Print Assumptions C68_callbacks_xy.
(** No source delivers two different geometries. *)
Theorem C68_source : forall A (src : dims -> prog A) l l' k k' g g' r r',
  delivers src (fun multi => map Srid l ++ gevents multi k g) r ->
  delivers src (fun multi => map Srid l' ++ gevents multi k' g') r' -> l = l' /\ k = k' /\ g = g'.
Proof. exact source_one. Qed.
Print Assumptions C68_source.

(** Bytes of a dialect that follow its standard, in whatever byte order and with whatever header, stand
    for one geometry and one SRID. *)
Theorem C68_wkb_bytes : forall dl d d' s s' env env' ed ed' ext ext' emp emp' o o' g g',
  encodable g -> encodable g' -> (levels g <= 128)%nat -> (levels g' <= 128)%nat ->
  srid_ok dl s -> srid_ok dl s' -> env_ok dl ed env -> env_ok dl ed' env' -> order_ok dl o -> order_ok dl o' ->
  std dl d s env ed ext emp o g = std dl d' s' env' ed' ext' emp' o' g' ->
  retained (dz d) (dm d) g = retained (dz d') (dm d') g' /\ reported_srid dl s = reported_srid dl s'.
Proof. exact wkb_bytes_one. Qed.
Print Assumptions C68_wkb_bytes.
(** Two sources whose WKB output is the same had the same geometry, as far as the dimensions asked for
    go, and the same SRID was asked for. *)
Theorem C68_wkb_written_partial : forall src src' l l' dl d d' s s' env env' g g' w,
  delivers src (fun multi => map Srid l ++ gevents multi 0 g) (Ok tt) ->
  delivers src' (fun multi => map Srid l' ++ gevents multi 0 g') (Ok tt) ->
  encodable g -> encodable g' -> no_empty g -> no_empty g' -> (levels g <= 128)%nat -> (levels g' <= 128)%nat ->
  srid_ok dl s -> srid_ok dl s' -> env_ok dl xy_dims env -> env_ok dl xy_dims env' ->
  (dl = SpatiaLite -> spatialite_safe g /\ spatialite_safe g') ->
  to_wkb_dialect src dl d s env = Ok w -> to_wkb_dialect src' dl d' s' env' = Ok w ->
  retained (dz d) (dm d) g = retained (dz d') (dm d') g' /\ reported_srid dl s = reported_srid dl s'.
Proof. exact wkb_one. Qed.
Print Assumptions C68_wkb_written_partial.
(** Missing here: geometries the reader cannot follow (more than 128 levels, SpatiaLite blobs with several
    end marks, see C02) and empty points.  C68_wkb_written (InjExactProps.v) has them all. *)

(** Two sources from which the same GeoJSON text is made had the same geometry, but for M and, if the
    writer did not ask for it, Z. *)
Theorem C68_geojson_partial : forall fmt32 fmt num d d' src src' l l' g g' t,
  json_format GeoJsonSpec.finite fmt num ->
  delivers src (fun multi => map Srid l ++ gevents multi 0 g) (Ok tt) ->
  delivers src' (fun multi => map Srid l' ++ gevents multi 0 g') (Ok tt) ->
  geojson_kind g = true -> geojson_kind g' = true -> finite_geom (multi_dim d) g -> finite_geom (multi_dim d') g' ->
  exec (geojson_writer fmt32 fmt d) (src d) EmptyString = (t, Ok tt) ->
  exec (geojson_writer fmt32 fmt d') (src' d') EmptyString = (t, Ok tt) ->
  kept_geom (multi_dim d) g = kept_geom (multi_dim d') g'.
Proof. exact geojson_one. Qed.
Print Assumptions C68_geojson_partial.
(** Missing because false: *)
Theorem C68_geojson_refuted : exists g g', g <> g' /\ geojson_kind g = true /\ geojson_kind g' = true /\
  (forall z, finite_geom z g /\ finite_geom z g') /\
  forall fmt32 fmt d, exec (geojson_writer fmt32 fmt d) (said g d) EmptyString = exec (geojson_writer fmt32 fmt d) (said g' d) EmptyString.
Proof. exact geojson_alike. Qed.
Print Assumptions C68_geojson_refuted.

(** Two sources from which the same geo-types value is made had the same geometry if their positions
    have no Z or M and their rings are closed. *)
Theorem C68_geo_types_partial : forall dbg src src' l l' g g' v,
  delivers src (fun multi => map Srid l ++ gevents multi 0 g) (Ok tt) ->
  delivers src' (fun multi => map Srid l' ++ gevents multi 0 g') (Ok tt) ->
  plain g = true -> plain g' = true -> small g -> small g' ->
  tidy g -> tidy g' -> exactly false false g -> exactly false false g' ->
  to_geo dbg src = Ok v -> to_geo dbg src' = Ok v -> g = g'.
Proof. exact geo_one. Qed.
Print Assumptions C68_geo_types_partial.
(** Missing because false: *)
Theorem C68_geo_types_refuted : exists g g', g <> g' /\ plain g = true /\ plain g' = true /\ small g /\ small g' /\
  exactly false false g /\ exactly false false g' /\
  forall dbg, to_geo dbg (said g) = to_geo dbg (said g').
Proof. exact geo_alike. Qed.
Print Assumptions C68_geo_types_refuted.

(** the hypotheses are met: a point and the multi point of it are written differently *)
Example C68_met :
  let g := GPoint (mkC 0%N 1%N None None) in let g' := GMultiPoint [mkC 0%N 1%N None None] in
  encodable g /\ encodable g' /\ no_empty g /\ no_empty g' /\
  (forall dl, srid_ok dl (Some 4326%Z)) /\ (forall dl, env_ok dl xy_dims [0; 1; 0; 1]%N) /\
  (forall src src' l l' dl w,
    delivers src (fun multi => map Srid l ++ gevents multi 0 g) (Ok tt) ->
    delivers src' (fun multi => map Srid l' ++ gevents multi 0 g') (Ok tt) ->
    to_wkb_dialect src dl xy_dims (Some 4326%Z) [0; 1; 0; 1]%N = Ok w ->
    to_wkb_dialect src' dl xy_dims (Some 4326%Z) [0; 1; 0; 1]%N <> Ok w).
Proof. exact told_apart. Qed.
