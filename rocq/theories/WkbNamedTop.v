(** The conversions of ToWkb by name, for whole geometries (helper lemmas for C76). *)
From Coq Require Import String Ascii.
From Coq Require Import List NArith ZArith Lia Bool.
From Coq Require Import Init.Byte.
From Verif Require Import Base Event Claims Geom WkbModel WkbApiModel WkbSpec WkbClaims WkbTop ChainTop InjExactTop.
Import ListNotations.
Local Open Scope list_scope.

Lemma named_bytes : forall src l g, comes src l g -> no_empty g -> forall d srid env,
  to_wkb src d = Ok (enc_wkb (dz d) (dm d) little g) /\
  (srid_ok Ewkb srid -> to_ewkb src d srid = Ok (enc_ewkb (dz d) (dm d) little srid g)) /\
  (srid_ok Geopackage srid ->
   to_gpkg_wkb src d srid env = Ok (enc_gpkg (dz d) (dm d) little LE false false false false (opt_default 0%Z srid) env g)) /\
  to_spatialite_wkb src d srid env = Ok (spatialite_blob (dz d) (dm d) (opt_default 0%Z srid) env g) /\
  (srid_ok MySQL srid -> to_mysql_wkb src srid = Ok (enc_mysql false false little (opt_default 0%Z srid) g)).
Proof.
  intros src l g C N d srid env.
  assert (SR : Forall (fun e => exists x, e = Srid x) (map Srid l)).
  { apply Forall_forall. intros e I. apply in_map_iff in I. destruct I as (x & <- & _). now exists x. }
  assert (K : forall dl d srid env, dl <> SpatiaLite -> srid_ok dl srid ->
    to_wkb_dialect src dl d srid env = Ok (std dl d srid env xy_dims false false little g)).
  { intros dl d0 s0 e0 D S. apply (to_wkb_std src (map Srid l) dl d0 s0 e0 g tt C); try assumption. intros E. now elim D. }
  refine (conj _ (conj _ (conj _ (conj _ _)))).
  - apply (K Wkb d None []); [discriminate|exact I].
  - intros S. apply (K Ewkb d srid []); [discriminate|exact S].
  - intros S. apply (K Geopackage d srid env); [discriminate|exact S].
  - exact (to_wkb_blob src l d srid env g C N).
  - intros S. apply (K MySQL xy_dims srid []); [discriminate|exact S].
Qed.
