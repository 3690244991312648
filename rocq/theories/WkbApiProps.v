(** C76. *)
From Coq Require Import String Ascii.
From Coq Require Import List NArith ZArith Lia Bool.
From Coq Require Import Init.Byte.
From Verif Require Import Base Event Claims WkbModel WkbSpec WkbClaims WkbApiModel WkbApiSpec WkbApiTop.
Import ListNotations.
Local Open Scope N_scope.
Local Open Scope list_scope.

(** C76.  EWKB without SRID and without z and m is WKB, whatever the source does. *)
Theorem C76_ewkb : forall src d, dz d = false -> dm d = false -> to_ewkb src d None = to_wkb src d.
Proof. exact ewkb_is_wkb. Qed.
Print Assumptions C76_ewkb.
Example C76_ewkb_example : exists b, to_wkb small_line xy_dims = Ok b /\ length b = 41%nat.
Proof. eexists. split; reflexivity. Qed.

(** C76.  EWKB with an SRID is WKB with the SRID stored behind the first type. *)
Theorem C76_ewkb_srid : forall src d srid, dz d = false -> dm d = false -> opened (heard (src d)) ->
  to_ewkb src d (Some srid) = stamped srid (to_wkb src d).
Proof. exact ewkb_stamp. Qed.
Print Assumptions C76_ewkb_srid.
Example C76_ewkb_srid_example : opened (heard (small_line xy_dims)) /\
  exists b, to_ewkb small_line xy_dims (Some 4326%Z) = Ok b /\ length b = 45%nat.
Proof. split; [exact I|]. eexists. split; reflexivity. Qed.

(** C76.  A GeoPackage geometry is the GeoPackage header and then exactly the WKB of the same
    source; both conversions fail together, and both give no bytes for no geometry. *)
Theorem C76_gpkg : forall src d srid env, opened (heard (src d)) ->
  to_gpkg_wkb src d srid env =
  behind (gpkg_header LE false false false false (opt_default 0%Z srid) env) (to_wkb src d).
Proof. exact gpkg_front. Qed.
Print Assumptions C76_gpkg.
Example C76_gpkg_example : opened (heard (small_line xyz_dims)) /\
  exists b, to_gpkg_wkb small_line xyz_dims (Some 4326%Z) [0; 1; 2; 3] = Ok b /\ length b = (8 + 32 + 57)%nat.
Proof. split; [exact I|]. eexists. split; reflexivity. Qed.

(** C76.  MySQL geometry is the SRID and then exactly the WKB of the same source. *)
Theorem C76_mysql : forall src srid, (0 <= opt_default 0 srid)%Z -> opened (heard (src xy_dims)) ->
  to_mysql_wkb src srid = behind (bytes_of LE 4 (Z.to_N (opt_default 0%Z srid))) (to_wkb src xy_dims).
Proof. exact mysql_front. Qed.
Print Assumptions C76_mysql.
Example C76_mysql_example : (0 <= opt_default 0 (Some 4326%Z))%Z /\ opened (heard (small_line xy_dims)) /\
  exists b, to_mysql_wkb small_line (Some 4326%Z) = Ok b /\ length b = 45%nat.
Proof. repeat split; [discriminate|]. eexists. split; reflexivity. Qed.

(** C76.  A source that gives a position before any geometry begins gets its header in the middle. *)
Theorem C76_gpkg_refuted : exists src, 
  to_gpkg_wkb src xy_dims None [] <> behind (gpkg_header LE false false false false 0%Z []) (to_wkb src xy_dims).
Proof. exact (ex_intro _ stray stray_refutes). Qed.
Print Assumptions C76_gpkg_refuted.

(** C76.  The readers: behind a MySQL SRID, any bytes, valid or not, that are not marked as big
    endian give the same callbacks, result and dimensions as they give as WKB; only the SRID
    announced differs. *)
Theorem C76_mysql_reader : forall d srid body, srid < 2 ^ 31 -> in_order LE body ->
  process_wkb_type_geom MySQL d (bytes_of LE 4 srid ++ body) =
    announcing (Some (Z.of_N srid)) (process_wkb_type_geom Wkb d body) /\
  wrapper_dims MySQL (bytes_of LE 4 srid ++ body) = wrapper_dims Wkb body.
Proof. exact mysql_reader. Qed.
Print Assumptions C76_mysql_reader.
Example C76_mysql_reader_example : 4326 < 2 ^ 31 /\ in_order LE [x01; x01; x00; x00; x00; x07].
Proof. repeat split; discriminate. Qed.

(** C76.  The same behind a GeoPackage header of the byte order of the body. *)
Theorem C76_gpkg_reader : forall d e extended empty ez em srid env body,
  env_ok Geopackage (mkDims ez em false false) env -> is_i32 srid -> in_order e body ->
  process_wkb_type_geom Geopackage d (gpkg_header e extended empty ez em srid env ++ body) =
    announcing (Some srid) (process_wkb_type_geom Wkb d body) /\
  wrapper_dims Geopackage (gpkg_header e extended empty ez em srid env ++ body) = wrapper_dims Wkb body.
Proof. exact gpkg_reader. Qed.
Print Assumptions C76_gpkg_reader.
Example C76_gpkg_reader_example :
  env_ok Geopackage (mkDims true false false false) [1; 2; 3; 4; 5; 6] /\ is_i32 (-1) /\ in_order BE big_point.
Proof. repeat split; try (now right); try lia; repeat constructor. Qed.

(** C76.  What the wrapper of a blob reports agrees with what reading it does, for any bytes: the
    SRID is the one announced first; of a blob that is refused without any callback the wrapper
    reports two dimensions and no SRID. *)
Theorem C76_wrapper : forall dl d b,
  match observe (process_wkb_type_geom dl d b) with
  | ([], r) => (exists x, r = Err x) /\ wrapper_dims dl b = xy_dims /\ wrapper_srid dl b = None
  | (e :: _, _) => e = OEv (Srid (wrapper_srid dl b))
  end.
Proof. exact wrapper_metadata. Qed.
Print Assumptions C76_wrapper.
Example C76_wrapper_example :
  fst (observe (process_wkb_type_geom MySQL xy_dims [xff; xff; xff; xff; x01])) = [] /\
  fst (observe (process_wkb_type_geom MySQL xy_dims [x05; x00; x00; x00; x01; x09; x04; x00; x00])) = [OEv (Srid (Some 5%Z))].
Proof. split; reflexivity. Qed.
