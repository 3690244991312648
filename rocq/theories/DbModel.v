(** Model of the database columns: /repo/geozero/src/postgis/{postgis_sqlx,postgis_postgres,
    postgis_diesel}.rs and /repo/geozero/src/gpkg/geopackage.rs.  The database crates are not
    modelled: a column value is NULL or the bytes the crate hands over. *)
From Coq Require Import String Ascii.
From Coq Require Import List NArith ZArith Lia Bool.
From Coq Require Import Init.Byte.
From Verif Require Import Base Event WkbModel.
Import ListNotations.
Local Open Scope list_scope.

Definition column : Type := option (list byte).
(** A value of a type implementing GeozeroGeometry (api.rs:16-30): process_geom, dims() and srid() *)
Record source := mkSource {
  so_process : dims -> prog unit;
  so_dims : dims;
  so_srid : option Z
}.
(** `sqlx::Error::Decode(..)`, whatever its text.  A panic goes through map_err. *)
Definition decode_error : error := EUser 1.
Definition null_error : error := EUser 2.
Definition sqlx_error (e : error) : error := match e with EPanic => EPanic | _ => decode_error end.

(** ** Writing *)

(** `.process_geom(..).expect(..)`: an error is a panic *)
Definition expect {A} (r : res A) : res A := match r with Ok a => Ok a | Err _ => Err EPanic end.
(** postgis_sqlx.rs:67-85 (Encode<Postgres> for wkb::Encode), 140-168 (impl_sqlx_postgis_encode!) *)
Definition pg_sqlx_encode (v : source) : res column :=
  expect (match to_wkb_dialect (so_process v) Ewkb (so_dims v) (so_srid v) [] with
          | Ok b => Ok (Some b) | Err e => Err e end).
(** postgis_postgres.rs:41-66 (ToSql for wkb::Encode), 98-131 (impl_postgres_postgis_encode!); what a
    failed call leaves in the buffer is not modelled *)
Definition pg_encode (v : source) : res column :=
  match to_wkb_dialect (so_process v) Ewkb (so_dims v) (so_srid v) [] with
  | Ok b => Ok (Some b) | Err e => Err e end.
(** geopackage.rs:52-68 (Encode<Sqlite> for wkb::Encode), 114-142 (impl_sqlx_gpkg_encode!) *)
Definition gpkg_encode (v : source) : res column :=
  expect (match to_wkb_dialect (so_process v) Geopackage (so_dims v) (so_srid v) [] with
          | Ok b => Ok (Some b) | Err e => Err e end).
(** postgis_diesel.rs:23-35 (ToSql for Ewkb) *)
Definition diesel_to_sql (b : list byte) : column := Some b.

(** ** Reading into a type implementing FromWkb *)
Section Read.
  Context {T : Type}.
  Variable from_wkb : dialect -> list byte -> res T.

  (** postgis_sqlx.rs:23-36 *)
  Definition pg_sqlx_decode (v : column) : res (option T) :=
    match v with
    | None => Ok None
    | Some b => match from_wkb Ewkb b with Ok g => Ok (Some g) | Err e => Err (sqlx_error e) end
    end.
  (** postgis_sqlx.rs:114-138 (impl_sqlx_postgis_decode!) *)
  Definition pg_sqlx_macro_decode (v : column) : res T :=
    match v with
    | None => Err null_error
    | Some b => match from_wkb Ewkb b with Ok g => Ok g | Err e => Err (sqlx_error e) end
    end.
  (** postgis_postgres.rs:7-23 *)
  Definition pg_decode (v : column) : res (option T) :=
    match v with
    | None => Ok None
    | Some b => match from_wkb Ewkb b with Ok g => Ok (Some g) | Err e => Err e end
    end.
  (** postgis_postgres.rs:76-94 (impl_postgres_postgis_decode!); from_sql_null is the default of the
      crate postgres-types: an error *)
  Definition pg_macro_decode (v : column) : res T :=
    match v with None => Err null_error | Some b => from_wkb Ewkb b end.
  (** geopackage.rs:17-30 *)
  Definition gpkg_decode (v : column) : res (option T) :=
    match v with
    | None => Ok None
    | Some b => match from_wkb Geopackage b with Ok g => Ok (Some g) | Err e => Err (sqlx_error e) end
    end.
  (** geopackage.rs:89-112 (impl_sqlx_gpkg_decode!): the dialect is Ewkb *)
  Definition gpkg_macro_decode (v : column) : res T :=
    match v with
    | None => Err null_error
    | Some b => match from_wkb Ewkb b with Ok g => Ok g | Err e => Err (sqlx_error e) end
    end.
End Read.

(** ** Reading raw bytes: postgis_sqlx.rs:50-58 and postgis_postgres.rs:25-32 (Ewkb<Vec<u8>>),
    geopackage.rs:38-46 (GpkgWkb<Vec<u8>>); postgis_diesel.rs:37-47 has no NULL *)
Definition raw_decode (v : column) : list byte := match v with None => [] | Some b => b end.

(** ** Raw bytes as a geometry: wkb_reader.rs:21-112 (GeozeroGeometry for Ewkb, GpkgWkb, ...) *)
Definition wkb_source (dl : dialect) (b : list byte) : source :=
  mkSource (fun d => pbind (process_wkb_type_geom dl d b) (fun _ => pret tt)) (wrapper_dims dl b) (wrapper_srid dl b).
