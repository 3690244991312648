(** Properties C53, C54 (GEOS conversions).  Specification vocabulary: Claims.v, Geom.v, GeosSpec.v.
    Model: GeosModel.v. *)
From Coq Require Import String Ascii.
From Coq Require Import List NArith ZArith Lia Bool.
From Coq Require Import Init.Byte.
From Verif Require Import Base Event Claims Geom GeosModel GeosSpec GeosTop GeosMore GeosWit.
From Verif Require WkbModel WkbSpec WkbClaims WkbSizes GeoModel GeoSpec DbModel.
Import ListNotations.
Local Open Scope N_scope.
Local Open Scope list_scope.

(** ** C53 *)
(** the documented callbacks, for every processor; a processor gets full coordinates if it asks for
    z.  What is missing for the full property: empty points and processors that ask for m, t or tm but
    not for z (refutations below). *)
Theorem C53_reader_partial : forall g, filled g -> forall S (p : proc S) s,
  exec p (geos_process g (p_dims p)) s = run p (gevents (dz (p_dims p)) 0 (gtree g)) s.
Proof. exact geos_reads. Qed.
Print Assumptions C53_reader_partial.
Theorem C53_wkb_partial : forall g dl d srid env, filled g -> multi_dim d = dz d ->
  WkbClaims.srid_ok dl srid -> (dl = WkbModel.SpatiaLite -> WkbClaims.spatialite_safe (gtree g)) ->
  WkbModel.to_wkb_dialect (geos_process g) dl d srid env =
  Ok (WkbClaims.std dl d srid env xy_dims false false WkbClaims.little (gtree g)).
Proof. exact geos_to_wkb. Qed.
Print Assumptions C53_wkb_partial.
(** the dimensions a GEOS value reports are such *)
Theorem C53_dims : forall has_z, multi_dim (geos_dims has_z) = dz (geos_dims has_z).
Proof. exact geos_multi. Qed.
Print Assumptions C53_dims.
(** written to a PostGIS column with the dimensions and the SRID the value reports *)
Theorem C53_column_partial : forall g has_z get_srid, filled g -> (forall v, get_srid = Ok v -> is_i32 v) ->
  let d := mkDims (match has_z with Ok true => true | _ => false end) false false false in
  DbModel.pg_encode (DbModel.mkSource (geos_process g) (geos_dims has_z) (geos_srid get_srid)) =
  Ok (Some (WkbClaims.std WkbModel.Ewkb d (match get_srid with Ok v => Some v | Err _ => None end) [] xy_dims
              false false WkbClaims.little (gtree g))).
Proof. exact geos_column. Qed.
Print Assumptions C53_column_partial.
Theorem C53_geo_partial : forall debug g, filled g -> GeoSpec.small (gtree g) ->
  GeoModel.to_geo debug (geos_process g) = Ok (GeoSpec.value_of (gtree g)).
Proof. exact geos_to_geo. Qed.
Print Assumptions C53_geo_partial.
Example C53_met : filled some_value /\ GeoSpec.small (gtree some_value) /\
  gtree some_value = GCollection [GPoint (mkC 1 2 (Some 3) None); GMultiPoint [mkC 4 5 None None; mkC 6 7 None None];
    GPolygon [[mkC 0 0 None None; mkC 1 0 None None; mkC 1 1 None None; mkC 0 0 None None]; []]; GCollection []].
Proof. exact some_value_met. Qed.
(** an empty point is a point_begin and a point_end with nothing in between, and not the callback
    empty_point; its WKB ends after the type *)
Theorem C53_empty_point_refuted : forall S (p : proc S) s,
  exec p (geos_process empty_point (p_dims p)) s = run p [PointBegin 0; PointEnd 0] s.
Proof. exact empty_calls. Qed.
Print Assumptions C53_empty_point_refuted.
Theorem C53_empty_wkb_refuted : exists b,
  WkbModel.to_wkb_dialect (geos_process empty_point) WkbModel.Wkb xy_dims None [] = Ok b /\ length b = 5%nat /\
  forall d, observe (WkbModel.process_wkb_type_geom WkbModel.Wkb d b) = ([OEv (Srid None)], Err EIo).
Proof. exact empty_unreadable. Qed.
Print Assumptions C53_empty_wkb_refuted.
(** a processor that asks for m alone does not get the coordinate callback *)
Theorem C53_measured_refuted :
  ~ delivers (geos_process measured) (fun multi => gevents multi 0 (gtree measured)) (Ok tt).
Proof. exact measured_plain. Qed.
Print Assumptions C53_measured_refuted.

(** ** C54 *)
(** What the library accepts is an argument.  What is missing for the full property: collections,
    curves and surfaces (refutations below), z. *)
Theorem C54_writer_partial : forall lib, sane lib -> forall g i s, simple g = true -> short_geom g ->
  exists s' e, run (geos_writer lib) (gevents false i g) s = (s', if accepted lib g then Ok tt else Err e) /\
    (e = EGeometry \/ e = geos_error) /\
    (accepted lib g = true ->
     s_geom s' = mkVal (gvalue g) (opt_default 0%Z (s_srid s)) /\ s_srid s' = s_srid s).
Proof. exact geos_writes. Qed.
Print Assumptions C54_writer_partial.
Theorem C54_to_geos_partial : forall lib, sane lib -> forall src l g r, simple g = true -> short_geom g ->
  delivers src (fun multi => l ++ gevents multi 0 g) (Ok r) -> srids l ->
  (accepted lib g = true -> to_geos lib src = Ok (mkVal (gvalue g) (opt_default 0%Z (last_srid None l)))) /\
  (accepted lib g = false -> to_geos lib src = Err EGeometry \/ to_geos lib src = Err geos_error).
Proof. exact geos_value. Qed.
Print Assumptions C54_to_geos_partial.
Theorem C54_from_wkb_partial : forall lib, sane lib -> forall dl d srid env ed ext emp o g tail,
  WkbSpec.encodable g -> (WkbSpec.levels g <= 128)%nat -> WkbClaims.srid_ok dl srid ->
  WkbClaims.env_ok dl ed env -> WkbClaims.order_ok dl o ->
  let g' := WkbSpec.retained (dz d) (dm d) g in
  simple g' = true -> short_geom g' -> accepted lib g' = true ->
  geos_from_wkb lib dl (WkbClaims.std dl d srid env ed ext emp o g ++ tail) =
  Ok (mkVal (gvalue g') (opt_default 0%Z (WkbClaims.reported_srid dl srid))).
Proof. exact geos_wkb_value. Qed.
Print Assumptions C54_from_wkb_partial.
(** the SRID of a GEOS value is not passed on *)
Theorem C54_round_trip_partial : forall lib g, sane lib -> two_dim g -> filled g ->
  short_geom (gtree g) -> accepted lib (gtree g) = true ->
  to_geos lib (geos_process g) = Ok (mkVal g 0%Z).
Proof. exact geos_round. Qed.
Print Assumptions C54_round_trip_partial.
Example C54_met : sane sample_lib /\ simple some_polygon = true /\ short_geom some_polygon /\
  accepted sample_lib some_polygon = true /\
  gvalue some_polygon = KPolygon (Flat [(0, 0); (1, 0); (1, 1); (0, 0)]) [Flat []] /\
  two_dim (gvalue some_polygon) /\ filled (gvalue some_polygon).
Proof. exact some_polygon_met. Qed.
(** of a collection the last member is left, of an empty one an empty point *)
Theorem C54_collection_refuted : forall lib, sane lib -> forall src l r, l <> [] ->
  Forall (fun g => simple g = true /\ short_geom g /\ accepted lib g = true) l ->
  delivers src (fun multi => gevents multi 0 (GCollection l)) (Ok r) ->
  to_geos lib src = Ok (mkVal (gvalue (last l GEmptyPoint)) 0%Z).
Proof. exact collection_last. Qed.
Print Assumptions C54_collection_refuted.
Theorem C54_empty_collection_refuted : forall lib src r,
  delivers src (fun multi => gevents multi 0 (GCollection [])) (Ok r) ->
  to_geos lib src = Ok (mkVal empty_point 0%Z).
Proof. exact collection_none. Qed.
Print Assumptions C54_empty_collection_refuted.
(** curves of straight lines, surfaces and TINs become an empty point without an error *)
Theorem C54_compound_refuted : forall lib src l r, Forall short l ->
  delivers src (fun multi => gevents multi 0 (GCompoundCurve (map SegLine l))) (Ok r) ->
  to_geos lib src = Ok (mkVal empty_point 0%Z).
Proof. exact lost_compound. Qed.
Print Assumptions C54_compound_refuted.
Theorem C54_surface_refuted : forall lib, sane lib -> forall src l r,
  Forall short_rings l -> forallb (rings_ok lib) l = true ->
  delivers src (fun multi => gevents multi 0 (GMultiSurface (map SfPolygon l))) (Ok r) \/
  delivers src (fun multi => gevents multi 0 (GPolyhedralSurface l)) (Ok r) ->
  to_geos lib src = Ok (mkVal empty_point 0%Z).
Proof. exact lost_polygons. Qed.
Print Assumptions C54_surface_refuted.
Theorem C54_tin_refuted : forall lib src l r, Forall (Forall short) l ->
  delivers src (fun multi => gevents multi 0 (GTin l)) (Ok r) ->
  to_geos lib src = Ok (mkVal empty_point 0%Z).
Proof. exact lost_tin. Qed.
Print Assumptions C54_tin_refuted.
(** arcs and empty points are refused *)
Theorem C54_arc : forall lib src c l r,
  delivers src (fun multi => gevents multi 0 (GCircularString (c :: l))) (Ok r) -> to_geos lib src = Err EGeometry.
Proof. exact arc_refused. Qed.
Print Assumptions C54_arc.
Theorem C54_empty_point : forall lib src r,
  delivers src (fun multi => gevents multi 0 GEmptyPoint) (Ok r) -> to_geos lib src = Err EGeometry.
Proof. exact empty_refused. Qed.
Print Assumptions C54_empty_point.
(** no bytes make reading panic, provided the crate geos reports a position out of range as an error *)
Theorem C54_no_panic_partial : forall lib, sane lib -> forall dl b, out_of_range lib <> EPanic ->
  geos_from_wkb lib dl b <> Err EPanic.
Proof. exact geos_wkb_calm. Qed.
Print Assumptions C54_no_panic_partial.
(** the WKB reader delivers the last position of a compressed line out of range *)
Theorem C54_compressed_refuted : forall lib z m srid env e first ds last tail,
  is_i32 srid -> length env = 4%nat -> Forall f64_ok env ->
  WkbSpec.coord64 first -> WkbSpec.coord64 last -> Forall WkbClaims.delta_ok ds -> N.of_nat (2 + length ds) < 2 ^ 32 ->
  geos_from_wkb lib WkbModel.SpatiaLite
    (WkbClaims.compressed_header z m srid env e 2 ++ WkbClaims.compressed_bytes z m e first ds last ++ tail) =
  Err (out_of_range lib).
Proof. exact compressed_refused. Qed.
Print Assumptions C54_compressed_refuted.
(** a multi line string announced with too many members panics *)
Theorem C54_capacity_refuted : forall lib n i s, 2 ^ 63 <= N.of_nat n * seq_bytes lib ->
  geos_step lib s (MultiLineStringBegin n i) = (s, Err EPanic).
Proof. exact capacity_panics. Qed.
Print Assumptions C54_capacity_refuted.
