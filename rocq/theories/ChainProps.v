(** Property C62: conversions by way of other forms.  Vocabulary: ChainSpec.v. *)
From Coq Require Import String Ascii.
From Coq Require Import List NArith ZArith Lia Bool.
From Verif Require Import Base Event Claims Geom WkbModel WkbSpec WkbClaims WktModel WktSpec WktTop GeoModel GeoSpec
  GeoJsonModel GeoJsonSpec GeoJsonRead ChainSpec ChainTop.
Import ListNotations.
Local Open Scope list_scope.

(** Whatever forms a geometry passes through, in whatever order and however often, it arrives
    unchanged, provided it fits into each of them. *)
Theorem C62_chain : forall c wnum jnum,
  formats (c_wkt_format c) wnum -> wkt_crate c wnum -> json_format GeoJsonSpec.finite (c_format c) jnum -> geojson_crate c jnum ->
  forall fs src l g, Forall (suits c g) fs ->
  delivers src (fun multi => map Srid l ++ gevents multi 0 g) (Ok tt) ->
  exists src', chain c fs src = Ok src' /\
    delivers src' (fun multi => map Srid (finally l fs) ++ gevents multi 0 g) (Ok tt).
Proof. exact chained. Qed.
Print Assumptions C62_chain.
(** A processor that does not look at SRIDs ends in the same state, with the same result, as if it had
    read the source itself. *)
Theorem C62_same_result : forall c wnum jnum,
  formats (c_wkt_format c) wnum -> wkt_crate c wnum -> json_format GeoJsonSpec.finite (c_format c) jnum -> geojson_crate c jnum ->
  forall fs src l g, Forall (suits c g) fs ->
  delivers src (fun multi => map Srid l ++ gevents multi 0 g) (Ok tt) ->
  exists src', chain c fs src = Ok src' /\
    forall S (p : proc S) s, (forall s x, p_step p s (Srid x) = (s, Ok tt)) ->
      exec p (src' (p_dims p)) s = exec p (src (p_dims p)) s.
Proof. exact chained_same. Qed.
Print Assumptions C62_same_result.
Example C62_met : forall debug,
  let c := some_crates debug xy_dims in
  formats (c_wkt_format c) read_bits /\ wkt_crate c read_bits /\ json_format GeoJsonSpec.finite (c_format c) read_num /\
  geojson_crate c read_num /\ Forall (suits c some_shape) some_forms /\
  delivers (said some_shape) (fun multi => map Srid [] ++ gevents multi 0 some_shape) (Ok tt).
Proof. exact some_chain. Qed.
