(** C87: writers do not look at the values of coordinates.  Read with FormSpec.v: [alike] streams differ in the values of
    coordinates only; [fill] fills the gaps of a form; [filled]: the output of an accepted stream is a form filled in
    with the coordinates, in order, and the form does not depend on their values; [steady]: the result does not. *)
From Coq Require Import String Ascii.
From Coq Require Import List NArith ZArith Lia Bool.
From Verif Require Import Base Float Event Claims StaysSpec FormSpec FormTop FormSteady.
From Verif Require SvgModel GeoJsonModel WktModel WkbModel CsvModel GeoModel GdalModel MvtModel.
Import ListNotations.

(** SVG: x and y (turned over if asked for). *)
Theorem C87_svg : forall fmt c,
  filled alike (svg_numbers (SvgModel.sv_invert c)) (fun x => chars (fmt x)) chars (SvgModel.svg_writer fmt c) ""%string.
Proof. exact svg_filled. Qed.
Print Assumptions C87_svg.
(** GeoJSON: x, y and z if given. *)
Theorem C87_geojson : forall fmt32 fmt d,
  filled alike json_numbers (fun x => chars (fmt x)) chars (GeoJsonModel.geojson_writer fmt32 fmt d) ""%string.
Proof. exact json_filled. Qed.
Print Assumptions C87_geojson.
(** GeoJSON text sequences. *)
Theorem C87_geojson_lines : forall fmt32 fmt,
  filled alike json_numbers (fun x => chars (fmt x)) (fun s => chars (snd s)) (GeoJsonModel.geojson_line_writer fmt32 fmt) (0, ""%string).
Proof. exact lines_filled. Qed.
Print Assumptions C87_geojson_lines.
(** WKT and EWKT: every ordinate given; a position of NaNs is EMPTY, which is all they look at ... *)
Theorem C87_wkt : forall fmt c srid,
  filled alike_nan wkt_numbers (fun x => chars (fmt x)) (fun s => chars (WktModel.k_out s)) (WktModel.wkt_writer fmt c) (WktModel.wkt_init srid).
Proof. exact wkt_filled. Qed.
Print Assumptions C87_wkt.
(** a stream of either kind that is accepted, and one of other numbers that is like it *)
Example C87_wkt_met : forall fmt c srid x y, f64_is_nan x = false ->
  let l v := [OEv (LineStringBegin true 2 0); OEv (Xy v v 0); OEv (Coord v y (Some v) None None None 1); OEv (LineStringEnd true 0)] in
  snd (feed (WktModel.wkt_writer fmt c) (l x) (WktModel.wkt_init srid)) = Ok tt /\ Forall2 alike_nan (l x) (l f64_zero).
Proof.
  intros fmt c srid x y E l. split.
  - unfold l. cbn [feed p_step WktModel.wkt_writer WktModel.wkt_step]. cbv zeta. rewrite !E. destruct c as [d []], srid as [[]|]; reflexivity.
  - unfold l. repeat (apply Forall2_cons; [split; [reflexivity|cbn; rewrite ?E; reflexivity]|]). apply Forall2_nil.
Qed.
(** ... and the result does not even depend on that. *)
Theorem C87_wkt_result : forall fmt c srid, steady (WktModel.wkt_writer fmt c) (WktModel.wkt_init srid).
Proof. exact wkt_steady. Qed.
Print Assumptions C87_wkt_result.
(** WKB of every dialect: x, y, and z and m as configured. *)
Theorem C87_wkb : forall c,
  filled alike (wkb_numbers (WkbModel.w_dims c)) (WkbModel.w_f64 (WkbModel.w_endian c)) WkbModel.w_out (WkbModel.wkb_writer c) WkbModel.wst_init.
Proof. exact wkb_filled. Qed.
Print Assumptions C87_wkb.
(** CSV, geo-types, features of geo-types and GDAL: what is accepted does not depend on the values; nor do the
    attributes of the features, nor kinds, members and numbers of positions of a GDAL geometry. *)
Theorem C87_csv : forall fmt32 fmt debug d, steady (CsvModel.csv_writer fmt32 fmt debug d) CsvModel.csv_init.
Proof. exact csv_steady. Qed.
Print Assumptions C87_csv.
Theorem C87_geo : forall debug, steady (GeoModel.geo_writer debug) GeoModel.gw_init.
Proof. exact geo_steady. Qed.
Print Assumptions C87_geo.
Theorem C87_geo_features : forall debug, steady (GeoModel.feature_writer debug) GeoModel.gf_init /\
  forall l l', Forall2 alike l l' ->
    map snd (GeoModel.f_features (fst (feed (GeoModel.feature_writer debug) l' GeoModel.gf_init))) =
    map snd (GeoModel.f_features (fst (feed (GeoModel.feature_writer debug) l GeoModel.gf_init))).
Proof. exact features_steady. Qed.
Print Assumptions C87_geo_features.
Theorem C87_gdal : forall d, steady (GdalModel.gdal_writer d) (GdalModel.gw_with d) /\
  forall l l', Forall2 alike l l' ->
    bare (GdalModel.g_geom (fst (feed (GdalModel.gdal_writer d) l' (GdalModel.gw_with d)))) =
    bare (GdalModel.g_geom (fst (feed (GdalModel.gdal_writer d) l (GdalModel.gw_with d)))).
Proof. exact gdal_steady. Qed.
Print Assumptions C87_gdal.
(** Vector tiles do look: three positions are a ring unless the last is the first. *)
Theorem C87_mvt_refuted : forall gsize base64 debug c, MvtModel.mvt_unscaled 4096 = Ok c ->
  ~ steady (MvtModel.mvt_writer gsize base64 debug c) MvtModel.mw_init.
Proof. exact mvt_not_steady. Qed.
Print Assumptions C87_mvt_refuted.
Example C87_mvt_refuted_met : exists c, MvtModel.mvt_unscaled 4096 = Ok c.
Proof. eexists. reflexivity. Qed.
(** forms at work *)
Example C87_fill_met : fill [Some 1; None; Some 2; None]%nat [[7; 8]; []]%nat = [1; 7; 8; 2]%nat.
Proof. reflexivity. Qed.
