(** C68 in full for WKB, and its exact extent for GeoJSON and geo-types.  Read with: WkbSpec.v and
    WkbClaims.v ([std], [retained], [reported_srid]), GeoJsonSpec.v ([kept_geom]), InjSpec.v ([flat]), InjExactSpec.v ([close_rings]). *)
From Coq Require Import String Ascii.
From Coq Require Import List NArith ZArith Lia Bool.
From Verif Require Import Base Event Claims Geom WkbModel WkbSpec WkbClaims WkbTop WkbInj GeoModel GeoSpec JsonSpec
  GeoJsonModel GeoJsonSpec GeoJsonRead ChainSpec ChainTop InjSpec InjTop InjExactSpec InjExactTop.
Import ListNotations.
Local Open Scope list_scope.

(** Bytes of a dialect that follow its standard stand for one geometry and one SRID, however deep the
    geometry is. *)
Theorem C68_wkb_bytes_any_depth : forall dl d d' s s' env env' ed ed' ext ext' emp emp' o o' g g',
  encodable g -> encodable g' -> srid_ok dl s -> srid_ok dl s' -> env_ok dl ed env -> env_ok dl ed' env' ->
  std dl d s env ed ext emp o g = std dl d' s' env' ed' ext' emp' o' g' ->
  dz d = dz d' /\ dm d = dm d' /\ retained (dz d) (dm d) g = retained (dz d') (dm d') g' /\
  reported_srid dl s = reported_srid dl s'.
Proof. exact std_told. Qed.
Print Assumptions C68_wkb_bytes_any_depth.
(** Two sources whose WKB output is the same had the same geometry, as far as the dimensions asked for go,
    and the same dimensions and SRID were asked for.  In every dialect, the end marks that the SpatiaLite writer
    repeats included. *)
Theorem C68_wkb_written : forall src src' l l' dl d d' s s' env env' g g' w,
  delivers src (fun multi => map Srid l ++ gevents multi 0 g) (Ok tt) ->
  delivers src' (fun multi => map Srid l' ++ gevents multi 0 g') (Ok tt) ->
  encodable g -> encodable g' ->
  srid_ok dl s -> srid_ok dl s' -> env_ok dl xy_dims env -> env_ok dl xy_dims env' ->
  to_wkb_dialect src dl d s env = Ok w -> to_wkb_dialect src' dl d' s' env' = Ok w ->
  dz d = dz d' /\ dm d = dm d' /\ retained (dz d) (dm d) g = retained (dz d') (dm d') g' /\
  reported_srid dl s = reported_srid dl s'.
Proof. exact wkb_written_one. Qed.
Print Assumptions C68_wkb_written.
(** a polygon of two rings (its SpatiaLite blob cannot be read, see C02) and the polygon without its second ring
    are written differently *)
Example C68_wkb_written_met :
  let g := GPolygon [[p2 0%N 0%N]; [p2 one two]] in let g' := GPolygon [[p2 0%N 0%N]] in
  encodable g /\ encodable g' /\ ~ spatialite_safe g /\ delivers (said g) (fun multi => map Srid [] ++ gevents multi 0 g) (Ok tt) /\
  (exists w, to_wkb_dialect (said g) SpatiaLite xy_dims None [] = Ok w) /\
  forall w, to_wkb_dialect (said g) SpatiaLite xy_dims None [] = Ok w -> to_wkb_dialect (said g') SpatiaLite xy_dims None [] <> Ok w.
Proof.
  intros g g'. assert (G : encodable g) by concrete. assert (G' : encodable g') by concrete.
  split; [exact G|]. split; [exact G'|]. split; [intros H; vm_compute in H; tauto|]. split; [apply said_delivers|].
  split; [eexists; vm_compute; reflexivity|]. intros w W W'.
  destruct (C68_wkb_written (said g) (said g') [] [] SpatiaLite xy_dims xy_dims None None [] [] g g' w
    (said_delivers g) (said_delivers g') G G') as (_ & _ & R & _); try assumption; try exact I.
  1,2: split; [now left|constructor].
  discriminate R.
Qed.

(** Two sources give the same GeoJSON text exactly if their geometries are the same but for M and, with a
    writer that did not ask for extra dimensions, Z. *)
Theorem C68_geojson_exact : forall fmt32 fmt num d d' src src' l l' g g' t t',
  json_format GeoJsonSpec.finite fmt num ->
  delivers src (fun multi => map Srid l ++ gevents multi 0 g) (Ok tt) ->
  delivers src' (fun multi => map Srid l' ++ gevents multi 0 g') (Ok tt) ->
  geojson_kind g = true -> geojson_kind g' = true -> finite_geom (multi_dim d) g -> finite_geom (multi_dim d') g' ->
  exec (geojson_writer fmt32 fmt d) (src d) EmptyString = (t, Ok tt) ->
  exec (geojson_writer fmt32 fmt d') (src' d') EmptyString = (t', Ok tt) ->
  (t = t' <-> kept_geom (multi_dim d) g = kept_geom (multi_dim d') g').
Proof. exact geojson_exact. Qed.
Print Assumptions C68_geojson_exact.
(** a 3D point written in two dimensions is the 2D point, and not the 3D point written in three *)
Example C68_geojson_exact_met :
  let g := GPoint (mkC 0%N 0%N (Some 0%N) None) in let g' := GPoint (mkC 0%N 0%N None (Some 0%N)) in
  (forall z, finite_geom z g /\ finite_geom z g') /\ geojson_kind g = true /\ geojson_kind g' = true /\
  kept_geom (multi_dim xy_dims) g = kept_geom (multi_dim xyzm_dims) g' /\
  kept_geom (multi_dim xyz_dims) g <> kept_geom (multi_dim xyzm_dims) g'.
Proof.
  split; [intros [|]; vm_compute; intuition congruence|]. repeat split. discriminate.
Qed.

(** Two sources give the same geo-types value exactly if their geometries are the same in x and y once rings
    are closed and polygons without rings have an empty one. *)
Theorem C68_geo_types_exact : forall dbg src src' l l' g g' v v',
  delivers src (fun multi => map Srid l ++ gevents multi 0 g) (Ok tt) ->
  delivers src' (fun multi => map Srid l' ++ gevents multi 0 g') (Ok tt) ->
  plain g = true -> plain g' = true -> to_geo dbg src = Ok v -> to_geo dbg src' = Ok v' ->
  (v = v' <-> flat (close_rings g) = flat (close_rings g')).
Proof. exact geo_exact. Qed.
Print Assumptions C68_geo_types_exact.
(** an open triangle and the closed one are the same value, the quadrangle is not *)
Example C68_geo_types_exact_met :
  let a := mkC 0%N 0%N None None in let b := mkC 4607182418800017408%N 0%N (Some 0%N) None in
  let c := mkC 4607182418800017408%N 4607182418800017408%N None None in let d := mkC 0%N 4607182418800017408%N None None in
  flat (close_rings (GPolygon [[a; b; c]])) = flat (close_rings (GPolygon [[a; b; c; a]])) /\
  flat (close_rings (GPolygon [[a; b; c]])) <> flat (close_rings (GPolygon [[a; b; c; d]])) /\
  flat (close_rings (GPolygon [])) = flat (close_rings (GPolygon [[]])) /\
  plain (GPolygon [[a; b; c]]) = true /\ small (GPolygon [[a; b; c]]).
Proof.
  repeat split; try (unfold fits; cbn; lia); try (intros H; vm_compute in H; discriminate H).
  repeat constructor; unfold fits; cbn; lia.
Qed.

(** Among the kinds a format does not have there are geometries with the same output: *)
Theorem C68_geojson_kinds_refuted : exists g g', g <> g' /\ finite_geom true g /\ finite_geom true g' /\
  forall fmt32 fmt d, exec (geojson_writer fmt32 fmt d) (said g d) EmptyString = exec (geojson_writer fmt32 fmt d) (said g' d) EmptyString.
Proof. exact kinds_alike. Qed.
Print Assumptions C68_geojson_kinds_refuted.
Theorem C68_geo_types_kinds_refuted : exists g g' v, flat (close_rings g) <> flat (close_rings g') /\ small g /\ small g' /\
  forall dbg, to_geo dbg (said g) = Ok v /\ to_geo dbg (said g') = Ok v.
Proof. exact geo_kinds_alike. Qed.
Print Assumptions C68_geo_types_kinds_refuted.
