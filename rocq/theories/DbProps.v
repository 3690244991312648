(** C52: database columns.  Read with: DbSpec.v, WkbClaims.v ([std]: the standard encodings), GeoSpec.v
    ([value_of], [normal]: geo-types values of geometries). *)
From Coq Require Import String Ascii.
From Coq Require Import List NArith ZArith Lia Bool.
From Coq Require Import Init.Byte.
From Verif Require Import Base Event Claims Geom WkbModel WkbSpec WkbClaims GeoModel GeoSpec DbModel DbSpec DbTop.
Import ListNotations.
Local Open Scope N_scope.
Local Open Scope list_scope.

(** A value is stored as standard EWKB resp. GeoPackage WKB of its geometry, dimensions and SRID. *)
Theorem C52_postgis_column : forall v g, said v g -> srid_ok Ewkb (so_srid v) -> no_empty g ->
  let c := Some (std Ewkb (so_dims v) (so_srid v) [] xy_dims false false little g) in
  pg_sqlx_encode v = Ok c /\ pg_encode v = Ok c.
Proof. exact pg_column. Qed.
Print Assumptions C52_postgis_column.
Theorem C52_gpkg_column : forall v g, said v g -> srid_ok Geopackage (so_srid v) -> no_empty g ->
  gpkg_encode v = Ok (Some (std Geopackage (so_dims v) (so_srid v) [] xy_dims false false little g)).
Proof. exact gpkg_column. Qed.
Print Assumptions C52_gpkg_column.
Example C52_column_met : said (geo_source sample_rect sample_triangle some_polygon)
    (tree sample_rect sample_triangle some_polygon) /\
  no_empty (tree sample_rect sample_triangle some_polygon) /\ srid_ok Ewkb None /\ srid_ok Geopackage (Some 4326%Z).
Proof.
  split; [apply geo_said|]. split; [|split; [exact I|split; [discriminate|reflexivity]]].
  exact (WkbWriteTop.conforming_no_empty _ _ _ (proj1 (proj2 (some_polygon_fine sample_rect sample_triangle)))).
Qed.

(** What is stored is read back into geo-types, through every PostGIS adapter. *)
Theorem C52_postgis_read_back : forall debug v g, said v g -> srid_ok Ewkb (so_srid v) -> no_empty g ->
  encodable g -> (levels g <= 128)%nat ->
  let g' := retained (dz (so_dims v)) (dm (so_dims v)) g in plain g' = true -> small g' ->
  exists c, pg_sqlx_encode v = Ok c /\ pg_encode v = Ok c /\
    pg_sqlx_decode (geo_from_wkb debug) c = Ok (Some (value_of g')) /\
    pg_decode (geo_from_wkb debug) c = Ok (Some (value_of g')) /\
    pg_sqlx_macro_decode (geo_from_wkb debug) c = Ok (value_of g') /\
    pg_macro_decode (geo_from_wkb debug) c = Ok (value_of g').
Proof. exact pg_back. Qed.
Print Assumptions C52_postgis_read_back.
Theorem C52_gpkg_read_back : forall debug v g, said v g -> srid_ok Geopackage (so_srid v) -> no_empty g ->
  encodable g -> (levels g <= 128)%nat ->
  let g' := retained (dz (so_dims v)) (dm (so_dims v)) g in plain g' = true -> small g' ->
  exists c, gpkg_encode v = Ok c /\ gpkg_decode (geo_from_wkb debug) c = Ok (Some (value_of g')).
Proof. exact gpkg_back. Qed.
Print Assumptions C52_gpkg_read_back.
(** A geo-types value comes back.  Partial: no point is all NaN, rings are closed, sizes are within the
    preallocation budget. *)
Theorem C52_geo_types_partial : forall debug rect tri x,
  let g := tree rect tri x in
  encodable g -> conforming false false g -> (levels g <= 128)%nat -> closed rect tri x -> small g ->
  (exists c, pg_sqlx_encode (geo_source rect tri x) = Ok c /\ pg_encode (geo_source rect tri x) = Ok c /\
     pg_sqlx_decode (geo_from_wkb debug) c = Ok (Some (normal rect tri x)) /\
     pg_decode (geo_from_wkb debug) c = Ok (Some (normal rect tri x))) /\
  (exists c, gpkg_encode (geo_source rect tri x) = Ok c /\
     gpkg_decode (geo_from_wkb debug) c = Ok (Some (normal rect tri x))).
Proof. exact geo_columns. Qed.
Print Assumptions C52_geo_types_partial.
Example C52_geo_types_met : forall rect tri, encodable (tree rect tri some_polygon) /\
  conforming false false (tree rect tri some_polygon) /\ (levels (tree rect tri some_polygon) <= 128)%nat /\
  closed rect tri some_polygon /\ small (tree rect tri some_polygon).
Proof. exact some_polygon_fine. Qed.
(** A point of NaNs is stored and cannot be read back. *)
Theorem C52_nan_point_refuted : forall debug rect tri, exists x c,
  pg_sqlx_encode (geo_source rect tri x) = Ok c /\ pg_sqlx_decode (geo_from_wkb debug) c = Err decode_error.
Proof. exact (fun debug rect tri => ex_intro _ nan_point (nan_point_lost debug rect tri)). Qed.
Print Assumptions C52_nan_point_refuted.

(** The macros for GeoPackage do not fit together: what impl_sqlx_gpkg_encode! stores,
    impl_sqlx_gpkg_decode! never reads (it expects EWKB). *)
Theorem C52_gpkg_macros_refuted : forall v g, said v g -> srid_ok Geopackage (so_srid v) -> no_empty g ->
  exists c, gpkg_encode v = Ok c /\
    forall debug, exists e, gpkg_macro_decode (geo_from_wkb debug) c = Err e.
Proof. exact macro_fails. Qed.
Print Assumptions C52_gpkg_macros_refuted.
(** The same for every other target type: the reader fails whatever the processor. *)
Theorem C52_gpkg_as_ewkb_refuted : forall d srid env ed ext emp o g tail S (p : proc S) s, exists s' e,
  exec p (process_wkb_type_geom Ewkb (p_dims p) (std Geopackage d srid env ed ext emp o g ++ tail)) s = (s', Err e).
Proof. exact gpkg_not_ewkb. Qed.
Print Assumptions C52_gpkg_as_ewkb_refuted.

(** NULL: no geometry; the macros report an error; raw bytes are empty. *)
Theorem C52_null : forall T (from_wkb : dialect -> list byte -> res T),
  pg_sqlx_decode from_wkb None = Ok None /\ pg_decode from_wkb None = Ok None /\ gpkg_decode from_wkb None = Ok None /\
  pg_sqlx_macro_decode from_wkb None = Err null_error /\ pg_macro_decode from_wkb None = Err null_error /\
  gpkg_macro_decode from_wkb None = Err null_error.
Proof. intros T from_wkb. repeat split. Qed.
Print Assumptions C52_null.

(** A value that cannot be read is reported, never taken for NULL or for a geometry; a panic stays one. *)
Theorem C52_reported : forall T (from_wkb : dialect -> list byte -> res T) b e,
  (from_wkb Ewkb b = Err e ->
   (exists e1, pg_sqlx_decode from_wkb (Some b) = Err e1 /\ (e1 = EPanic <-> e = EPanic)) /\
   (exists e2, pg_sqlx_macro_decode from_wkb (Some b) = Err e2 /\ (e2 = EPanic <-> e = EPanic)) /\
   pg_decode from_wkb (Some b) = Err e /\ pg_macro_decode from_wkb (Some b) = Err e /\
   (exists e3, gpkg_macro_decode from_wkb (Some b) = Err e3 /\ (e3 = EPanic <-> e = EPanic))) /\
  (from_wkb Geopackage b = Err e ->
   exists e1, gpkg_decode from_wkb (Some b) = Err e1 /\ (e1 = EPanic <-> e = EPanic)).
Proof. exact reported. Qed.
Print Assumptions C52_reported.
Example C52_reported_met : geo_from_wkb true Ewkb [x01; x01] = Err EIo.
Proof. vm_compute. reflexivity. Qed.

(** No column, whatever its bytes, makes reading into geo-types panic. *)
Theorem C52_decode_never_panics : forall debug v,
  pg_sqlx_decode (geo_from_wkb debug) v <> Err EPanic /\ pg_decode (geo_from_wkb debug) v <> Err EPanic /\
  gpkg_decode (geo_from_wkb debug) v <> Err EPanic /\ pg_sqlx_macro_decode (geo_from_wkb debug) v <> Err EPanic /\
  pg_macro_decode (geo_from_wkb debug) v <> Err EPanic /\ gpkg_macro_decode (geo_from_wkb debug) v <> Err EPanic.
Proof. exact decode_calm. Qed.
Print Assumptions C52_decode_never_panics.
(** Writing through SQLx panics where the conversion fails: an empty point, bytes that are no EWKB.
    rust-postgres reports an error. *)
Theorem C52_encode_panics_refuted : exists v w,
  v = empty_source /\ w = wkb_source Ewkb [x01; x01] /\
  pg_sqlx_encode v = Err EPanic /\ gpkg_encode v = Err EPanic /\ pg_encode v = Err EGeometry /\
  pg_sqlx_encode w = Err EPanic /\ gpkg_encode w = Err EPanic /\ pg_encode w = Err EIo.
Proof. eexists _, _. split; [reflexivity|]. split; [reflexivity|]. vm_compute. repeat split. Qed.
Print Assumptions C52_encode_panics_refuted.

(** Raw columns are copied between the databases without loss: same geometry, dimensions and SRID
    (GeoPackage stores 0 for a missing SRID). *)
Theorem C52_copy_to_gpkg : forall d srid g o,
  encodable g -> conforming (dz d) (dm d) g -> (levels g <= 128)%nat -> srid_ok Ewkb srid ->
  gpkg_encode (wkb_source Ewkb (raw_decode (Some (std Ewkb d srid [] xy_dims false false o g)))) =
  Ok (Some (std Geopackage (mkDims (dz d) (dm d) false false) srid [] xy_dims false false little g)).
Proof. exact copy_pg_gpkg. Qed.
Print Assumptions C52_copy_to_gpkg.
Theorem C52_copy_to_postgis : forall d srid g o,
  encodable g -> conforming (dz d) (dm d) g -> (levels g <= 128)%nat -> srid_ok Geopackage srid ->
  let c := Some (std Ewkb (mkDims (dz d) (dm d) false false) (Some (opt_default 0%Z srid)) [] xy_dims false false little g) in
  let v := wkb_source Geopackage (raw_decode (Some (std Geopackage d srid [] xy_dims false false o g))) in
  pg_sqlx_encode v = Ok c /\ pg_encode v = Ok c.
Proof. exact copy_gpkg_pg. Qed.
Print Assumptions C52_copy_to_postgis.
Example C52_copy_met : encodable WkbTop.sample_line /\ conforming false false WkbTop.sample_line /\
  (levels WkbTop.sample_line <= 128)%nat /\ srid_ok Ewkb (Some (-5)%Z).
Proof. exact (conj WkbTop.line_encodable (conj WkbTop.line_conforming (conj WkbTop.line_levels minus_five))). Qed.
(** Bytes stored through Diesel come back as they are, and columns written by the other crates are not
    changed by reading and storing them through Diesel. *)
Theorem C52_diesel : forall b v c,
  raw_decode (diesel_to_sql b) = b /\
  (pg_encode v = Ok c -> diesel_to_sql (raw_decode c) = c) /\ (pg_sqlx_encode v = Ok c -> diesel_to_sql (raw_decode c) = c).
Proof. exact diesel_copies. Qed.
Print Assumptions C52_diesel.
Example C52_diesel_met : forall d srid g o,
  encodable g -> conforming (dz d) (dm d) g -> (levels g <= 128)%nat -> srid_ok Geopackage srid ->
  exists c, pg_encode (wkb_source Geopackage (raw_decode (Some (std Geopackage d srid [] xy_dims false false o g)))) = Ok c.
Proof. intros d srid g o E C L S. eexists. exact (proj2 (copy_gpkg_pg d srid g o E C L S)). Qed.
(** NULL read as raw bytes is an empty value and not NULL: stored again through Diesel it is an empty value,
    and copying it fails, through SQLx with a panic. *)
Theorem C52_raw_null_refuted :
  raw_decode None = raw_decode (Some []) /\ diesel_to_sql (raw_decode None) = Some [] /\
  gpkg_encode (wkb_source Ewkb (raw_decode None)) = Err EPanic /\
  pg_sqlx_encode (wkb_source Geopackage (raw_decode None)) = Err EPanic /\
  pg_encode (wkb_source Geopackage (raw_decode None)) = Err EIo.
Proof. vm_compute. repeat split. Qed.
Print Assumptions C52_raw_null_refuted.
