(** C78: a blob of one dialect given to the reader of another. *)
From Coq Require Import List NArith ZArith Bool.
From Coq Require Import Init.Byte.
From Verif Require Import Base Event Claims Geom WkbModel WkbSpec WkbClaims.
Import ListNotations.
Local Open Scope N_scope.

(** the reader refuses the blob before any callback about its geometry *)
Definition refused (to : dialect) (d : dims) (b : list byte) : Prop :=
  exists l e, (l = [] \/ exists s, l = [Srid s]) /\ (e = EGeometryFormat \/ e = EIo) /\
              makes (process_wkb_type_geom to d b) l (Err e).

(** When a blob of [from] cannot pass for one of [to].  [s] is its SRID (0 if it has none), [order] its
    byte order, [z], [m] its dimensions, [flagged] whether it is an EWKB with SRID, [flags] the flag
    byte of a GeoPackage header, [env] whether it has an envelope.  The conditions on the SRID say that
    the bytes found where [to] has its marks, its byte order and its type code are not ones it takes. *)
Definition told_apart (from to : dialect) (order : endian) (z m flagged : bool) (s : Z) (flags : N)
    (env : bool) : Prop :=
  match to, from with
  (* the letters GP at the start *)
  | Geopackage, Wkb | Geopackage, Ewkb | Geopackage, SpatiaLite => True
  | Geopackage, MySQL => (s mod 65536 <> 0x5047)%Z
  (* a zero byte at the start *)
  | SpatiaLite, Geopackage => True
  | SpatiaLite, Wkb | SpatiaLite, Ewkb => order = LE
  | SpatiaLite, MySQL => (s mod 256 <> 0)%Z
  (* the fifth byte is a byte order *)
  | MySQL, Wkb => order = LE
  | MySQL, Ewkb => order = LE /\ z = false /\ m = false /\ flagged = false
  | MySQL, SpatiaLite => order = LE /\ (s < 65536)%Z
  | MySQL, Geopackage => order = LE /\ ((s mod 256 = 0)%Z \/ env = false /\ (s < 200704)%Z)
  (* the low byte of the second to fifth byte is a kind *)
  | Ewkb, Wkb => z = true \/ m = true
  | Ewkb, MySQL => (s mod 256 <> 0)%Z /\ ~ known_code (Z.to_N ((s / 256) mod 256))
  | Ewkb, Geopackage => True
  | Ewkb, SpatiaLite => order = LE /\ (s < 65536)%Z
  (* the second to fifth byte modulo 1000 are a kind *)
  | Wkb, Ewkb => z = true \/ m = true \/ flagged = true
  | Wkb, MySQL => (s mod 256 <> 0)%Z /\ (s < 200704)%Z
  | Wkb, Geopackage => order = LE /\ ~ known_code ((80 + 65536 * flags + 16777216 * Z.to_N (s mod 256)) mod 1000)
  | Wkb, SpatiaLite => order = LE /\ ~ known_code
      ((16777216 + 65536 * Z.to_N (s mod 256) + 256 * Z.to_N ((s / 256) mod 256) + Z.to_N ((s / 65536) mod 256)) mod 1000)
  (* not another dialect *)
  | _, _ => False
  end.
(** the flag byte *)
Definition header_flags (ext emp : bool) (env : list f64) (ed : dims) (order : endian) : N :=
  flag ext 32 + flag emp 16 + 2 * gpkg_env_code env (dz ed) (dm ed) + flag (endian_eqb order LE) 1.
