(** Property C70: WKB read into the types of other formats.  Vocabulary: FromSpec.v, ReencSpec.v. *)
From Coq Require Import String Ascii.
From Coq Require Import List NArith ZArith Lia Bool.
From Coq Require Import Init.Byte.
From Verif Require Import Base Event Claims Geom WkbModel WkbSpec WkbClaims WktModel WktSpec WktTop JsonSpec GeoJsonModel GeoJsonSpec GeoJsonRead DbModel
  ReencSpec ReencWit FromModel FromSpec FromTop.
From Verif Require GeoSpec.
Import ListNotations.
Local Open Scope list_scope.

(** Reading WKB into any of the eight types is the same as converting the bytes, and the same as
    converting any other source of the geometry, errors included (EWKT and GEOS show the SRID, so there
    the source has to tell the same one). *)
Theorem C70_as_bytes : forall w t dl b, from_wkb w t dl b = to_value w t (bytes_source dl b).
Proof. exact from_is_to. Qed.
Print Assumptions C70_as_bytes.
Theorem C70_as_any_source : forall w dl b srid g src l, says (bytes_source dl b) srid g ->
  delivers src (fun multi => map Srid l ++ gevents multi 0 g) (Ok tt) ->
  forall t, (t <> AsEwkt /\ t <> AsGeos) \/ l = [srid] -> from_wkb w t dl b = to_value w t src.
Proof. exact decoded_as_converted. Qed.
Print Assumptions C70_as_any_source.
(** No type is made of bytes that the reader does not accept. *)
Theorem C70_accepted_only : forall w t dl b x, from_wkb w t dl b = Ok x -> accepted dl b.
Proof. exact accepted_only. Qed.
Print Assumptions C70_accepted_only.
(** Whatever bytes are accepted, the WKT, EWKT, geo-types value and GeoJSON read from them show one and
    the same geometry. *)
Theorem C70_one_geometry : forall w num, json_format GeoJsonSpec.finite (w_format w) num -> forall dl b, dl <> SpatiaLite -> accepted dl b ->
  exists srid g, sound g /\ says (bytes_source dl b) srid g /\
    from_wkb w AsWkt dl b = Ok (wkt_text (w_format w) false false g) /\
    from_wkb w AsEwkt dl b = Ok (srid_prefix None [srid] ++ wkt_text (w_format w) true true g)%string /\
    (GeoSpec.plain g = true -> GeoSpec.small g -> from_wkb w AsGeo dl b = Ok (GeoSpec.value_of g)) /\
    (geojson_kind g = true -> finite_geom false g ->
     exists text j, from_wkb w AsGeoJson dl b = Ok text /\ parse_json text = Some j /\
       geometry_of num j = Some (kept_geom false g)).
Proof. exact meaning. Qed.
Print Assumptions C70_one_geometry.
(** The Debug text of a value to be stored: its WKT in two dimensions, or a fixed text if it cannot be
    read. *)
Theorem C70_debug : forall fmt v,
  (forall l g, delivers (so_process v) (fun multi => map Srid l ++ gevents multi 0 g) (Ok tt) ->
     encode_debug fmt v = wkt_text fmt false false g) /\
  (forall st e, delivers (so_process v) st (Err e) -> encode_debug fmt v = "<unknown geometry>"%string) /\
  (forall dl b, v = wkb_source dl b -> ~ accepted dl b -> encode_debug fmt v = "<unknown geometry>"%string).
Proof.
  exact (fun fmt v => conj (debug_text fmt v) (conj (debug_unknown fmt v) (fun dl b E N =>
    eq_trans (f_equal (encode_debug fmt) E) (refused_source dl b N fmt)))).
Qed.
Print Assumptions C70_debug.
Example C70_met : forall debug f32 gsize b64 lib,
  let w := mkOutside debug f32 show_num gsize b64 lib in
  let b := std Ewkb xyz_dims (Some 4326%Z) [] xy_dims false false little (GLineString [mkC 0%N 4%N (Some 5%N) None; mkC 8%N 8%N (Some 8%N) None]) in
  json_format GeoJsonSpec.finite (w_format w) read_num /\ accepted Ewkb b /\
  from_wkb w AsWkt Ewkb b = Ok "LINESTRING(0 4,8 8)"%string /\
  from_wkb w AsEwkt Ewkb b = Ok "SRID=4326;LINESTRING(0 4 5,8 8 8)"%string /\
  from_wkb w AsGeoJson Ewkb b = Ok (from_geojson_text) /\
  encode_debug show_num (wkb_source Ewkb b) = "LINESTRING(0 4,8 8)"%string /\
  encode_debug show_num (wkb_source Ewkb (tl b)) = "<unknown geometry>"%string.
Proof. exact from_met. Qed.
