(** C76 for whole geometries.  Read with: WkbSpec.v ([enc_wkb], [enc_ewkb], [enc_gpkg], [enc_mysql]) and WkbClaims.v
    ([spatialite_blob], [srid_ok], [no_empty], [little]). *)
From Coq Require Import String Ascii.
From Coq Require Import List NArith ZArith Lia Bool.
From Verif Require Import Base Event Claims Geom WkbModel WkbApiModel WkbSpec WkbClaims WkbTop ChainTop WkbNamedTop.
Import ListNotations.
Local Open Scope list_scope.

(** Each conversion writes the dialect of its name, with the dimensions, SRID and envelope it is given; that for
    MySQL writes two dimensions. *)
Theorem C76_named : forall src l g,
  delivers src (fun multi => map Srid l ++ gevents multi 0 g) (Ok tt) -> no_empty g -> forall d srid env,
  to_wkb src d = Ok (enc_wkb (dz d) (dm d) little g) /\
  (srid_ok Ewkb srid -> to_ewkb src d srid = Ok (enc_ewkb (dz d) (dm d) little srid g)) /\
  (srid_ok Geopackage srid ->
   to_gpkg_wkb src d srid env = Ok (enc_gpkg (dz d) (dm d) little LE false false false false (opt_default 0%Z srid) env g)) /\
  to_spatialite_wkb src d srid env = Ok (spatialite_blob (dz d) (dm d) (opt_default 0%Z srid) env g) /\
  (srid_ok MySQL srid -> to_mysql_wkb src srid = Ok (enc_mysql false false little (opt_default 0%Z srid) g)).
Proof. exact named_bytes. Qed.
Print Assumptions C76_named.
Example C76_named_met :
  delivers (said sample) (fun multi => map Srid [] ++ gevents multi 0 sample) (Ok tt) /\ no_empty sample /\
  srid_ok Ewkb (Some (-1)%Z) /\ srid_ok Geopackage None /\ srid_ok MySQL (Some 4326%Z).
Proof.
  split; [apply said_delivers|]. split; [concrete|]. split; [cbn; unfold is_i32; lia|]. split; [exact I|cbn; lia].
Qed.
