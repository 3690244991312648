(** No reader drops an error of the processor, except the shapefile feature iterator (helper lemmas
    for C59). *)
From Coq Require Import String Ascii.
From Coq Require Import List NArith ZArith Lia Bool.
From Verif Require Import Base BaseLemmas Event Geom ProcModel WkbModel WktModel GeoJsonModel SvgModel
  CsvModel GeoModel GeosModel GdalModel GpxModel MvtModel ShpModel SinkModel SinkSpec SinkTop.
Import ListNotations.
Local Open Scope list_scope.

Lemma heeds_pbind : forall A B (g : prog A) (f : A -> prog B), heeds g -> (forall a, heeds (f a)) -> heeds (pbind g f).
Proof.
  induction g as [[a|x]|e k IH|e k IH|i n v k IH]; intros f H Hf; cbn in *; auto.
Qed.
Lemma heeds_pthen : forall A (g : prog unit) (f : prog A), heeds g -> heeds f -> heeds (pthen g f).
Proof. intros. now apply heeds_pbind. Qed.
Lemma heeds_pfor : forall A (f : nat -> A -> prog unit) l i, (forall k a, heeds (f k a)) -> heeds (pfor f i l).
Proof. induction l as [|a l IH]; intros i H; cbn [pfor]; [exact I|]. apply heeds_pthen; auto. Qed.
Lemma heeds_done : forall A (r : res A), heeds (Done r).
Proof. intros. exact I. Qed.

Ltac heed := repeat match goal with
  | |- heeds (pcall _) => exact I
  | |- heeds (pret _) => exact I
  | |- heeds (pfail _) => exact I
  | |- heeds (Done _) => exact I
  | |- heeds (plift _) => exact I
  | |- heeds (Call _ _) => cbn [heeds]
  | |- heeds (pthen _ _) => apply heeds_pthen
  | |- heeds (pbind _ _) => apply heeds_pbind; [|intros ?]
  | |- heeds (pfor _ _ _) => apply heeds_pfor; intros ? ?
  | |- heeds (CallProp _ _ _ _) => intros ?
  | |- heeds (match ?x with _ => _ end) => destruct x
  end.

(** ** WKB *)
Definition rheeds {A} (f : rd A) : Prop := forall b, heeds (f b).
Lemma rheeds_rbind : forall A B (f : rd A) (g : A -> rd B), rheeds f -> (forall a, rheeds (g a)) -> rheeds (rbind f g).
Proof. intros A B f g Hf Hg b. apply heeds_pbind; [apply Hf|]. intros a. apply Hg. Qed.
Lemma rheeds_rret : forall A (a : A), rheeds (rret a).
Proof. intros A a b. exact I. Qed.
Lemma rheeds_rfail : forall A e, rheeds (@rfail A e).
Proof. intros A e b. exact I. Qed.
Lemma rheeds_rcall : forall e, rheeds (rcall e).
Proof. intros e b. exact I. Qed.
Lemma rheeds_rtake : forall n, rheeds (rtake n).
Proof. intros n b. unfold rtake. now destruct (Nat.ltb _ _). Qed.
Lemma rheeds_rmap : forall A B (f : A -> B) g, rheeds g -> rheeds (rmap f g).
Proof. intros. apply rheeds_rbind; [assumption|]. intros. apply rheeds_rret. Qed.
Lemma rheeds_rfor : forall f n i, (forall k, rheeds (f k)) -> rheeds (rfor f n i).
Proof.
  induction n as [|n IH]; intros i H; cbn [rfor]; [apply rheeds_rret|]. apply rheeds_rbind; [apply H|].
  intros. now apply IH.
Qed.
Lemma rheeds_rlift : forall A (r : res A), rheeds (rlift r).
Proof. intros A r b. unfold rlift. now destruct r. Qed.
Lemma rheeds_rprog : forall A (g : prog A), heeds g -> rheeds (rprog g).
Proof. intros A g H b. apply heeds_pbind; [assumption|]. intros. exact I. Qed.
Lemma rheeds_r_list : forall A (f : rd A) n, rheeds f -> rheeds (r_list f n).
Proof.
  induction n as [|n IH]; intros H; cbn [r_list]; [apply rheeds_rret|].
  apply rheeds_rbind; [assumption|]. intros. apply rheeds_rbind; [now apply IH|]. intros. apply rheeds_rret.
Qed.
Lemma rheeds_r_f64s : forall e n, rheeds (r_f64s e n).
Proof.
  induction n as [|n IH]; cbn [r_f64s]; [apply rheeds_rret|].
  apply rheeds_rbind; [apply rheeds_rmap, rheeds_rtake|]. intros.
  apply rheeds_rbind; [exact IH|]. intros. apply rheeds_rret.
Qed.
Ltac rheed := repeat match goal with
  | |- rheeds (rret _) => apply rheeds_rret
  | |- rheeds (rfail _) => apply rheeds_rfail
  | |- rheeds (rcall _) => apply rheeds_rcall
  | |- rheeds (rtake _) => apply rheeds_rtake
  | |- rheeds (rlift _) => apply rheeds_rlift
  | |- rheeds (rprog _) => apply rheeds_rprog
  | |- rheeds (rthen _ _) => apply rheeds_rbind; [apply rheeds_rlift|intros ?]
  | |- rheeds (r_u8) => apply rheeds_rmap
  | |- rheeds (r_u32 _) => apply rheeds_rmap
  | |- rheeds (r_i32 _) => apply rheeds_rmap
  | |- rheeds (r_f64 _) => apply rheeds_rmap
  | |- rheeds (r_f32 _) => apply rheeds_rmap
  | |- rheeds (rmap _ _) => apply rheeds_rmap
  | |- rheeds (r_list _ _) => apply rheeds_r_list
  | |- rheeds (r_f64s _ _) => apply rheeds_r_f64s
  | |- rheeds (rbind _ _) => apply rheeds_rbind; [|intros ?]
  | |- rheeds (rfor _ _ _) => apply rheeds_rfor; intros ?
  | |- rheeds (match ?x with _ => _ end) => destruct x
  | |- rheeds (let x := _ in _) => cbv zeta
  end.

Lemma rheeds_wkb_header : rheeds read_wkb_header.
Proof. unfold read_wkb_header. rheed. Qed.
Lemma rheeds_header : forall dl, rheeds (WkbModel.read_header dl).
Proof.
  destruct dl; cbn [WkbModel.read_header].
  - apply rheeds_wkb_header.
  - unfold read_ewkb_header. rheed.
  - unfold read_gpkg_header. rheed; try apply rheeds_wkb_header.
  - unfold read_mysql_header. rheed; try apply rheeds_wkb_header.
  - unfold read_spatialite_header. rheed.
Qed.
Lemma rheeds_nested : forall dl i, rheeds (nested_header dl i).
Proof.
  destruct dl; cbn [nested_header]; intros i; unfold read_wkb_nested_header; try apply rheeds_wkb_header.
  - unfold read_ewkb_nested_header, read_ewkb_header. rheed.
  - unfold read_spatialite_nested_header. rheed.
Qed.
Lemma rheeds_coord_as : forall b i, rheeds (read_coord_as b i).
Proof. intros. unfold read_coord_as. rheed. Qed.
Lemma rheeds_emit : forall m k c, rheeds (emit_coord m k c).
Proof. intros m k c. unfold emit_coord. rheed. Qed.
Lemma rheeds_coord : forall m i k, rheeds (process_coord m i k).
Proof. intros. unfold process_coord. rheed; [apply rheeds_coord_as|apply rheeds_emit]. Qed.
Lemma rheeds_compressed : forall m i n k c, rheeds (compressed_loop m i n k c).
Proof.
  induction n as [|n IH]; intros k c; cbn [compressed_loop]; rheed; [|apply IH].
  unfold process_compressed_coord. rheed. apply rheeds_coord_as.
Qed.
Lemma rheeds_coords : forall m i n, rheeds (process_coords m i n).
Proof. intros. unfold process_coords. rheed. apply rheeds_coord. Qed.
Lemma rheeds_line : forall m i t k, rheeds (process_linestring m i t k).
Proof. intros. unfold process_linestring. rheed; auto using rheeds_coord, rheeds_compressed, rheeds_coords. Qed.
Lemma rheeds_arc : forall m i k, rheeds (process_circularstring m i k).
Proof. intros. unfold process_circularstring. rheed. apply rheeds_coords. Qed.
Lemma rheeds_polygon : forall m i t k, rheeds (process_polygon m i t k).
Proof. intros. unfold process_polygon. rheed. apply rheeds_line. Qed.
Lemma rheeds_triangle : forall m i t k, rheeds (process_triangle m i t k).
Proof. intros. unfold process_triangle. rheed. apply rheeds_line. Qed.
Section Nested.
  Variable rh : info -> rd info.
  Hypothesis Hrh : forall i, rheeds (rh i).
  Lemma rheeds_compound : forall m i k n, rheeds (process_compoundcurve m rh i k n).
  Proof. intros. unfold process_compoundcurve. rheed; auto using rheeds_arc, rheeds_line. Qed.
  Lemma rheeds_curve : forall m i k n, rheeds (process_curve m rh i k n).
  Proof. intros. unfold process_curve. rheed; auto using rheeds_arc, rheeds_line, rheeds_compound. Qed.
  Lemma rheeds_curvepolygon : forall m i k n, rheeds (process_curvepolygon m rh i k n).
  Proof. intros. unfold process_curvepolygon. rheed; auto using rheeds_curve. Qed.
  Lemma rheeds_geom : forall fuel m i k n, rheeds (process_geom_n fuel m rh i k n).
  Proof.
    induction fuel as [|fuel IH]; intros m i k n; cbn [process_geom_n]; rheed;
      auto using rheeds_coord_as, rheeds_emit, rheeds_coord, rheeds_line, rheeds_arc, rheeds_polygon, rheeds_triangle,
        rheeds_compound, rheeds_curve, rheeds_curvepolygon.
  Qed.
End Nested.
Lemma wkb_heeds : forall dl b d, heeds (process_wkb_type_geom dl d b).
Proof.
  intros dl b d. revert b. change (rheeds (process_wkb_type_geom dl d)). unfold process_wkb_type_geom. rheed.
  - apply rheeds_header.
  - apply rheeds_geom, rheeds_nested.
Qed.

(** ** WKT *)
Lemma wkt_coord_heeds : forall multi i c, heeds (wkt_coord multi i c).
Proof. intros. unfold wkt_coord. heed. Qed.
Lemma wkt_heeds : forall multi g i, heeds (process_wkt_geom_n multi i g).
Proof.
  intros multi. fix IH 1. intros [[c|]|l|l|l|r|l|l] i; cbn [process_wkt_geom_n];
    unfold wkt_polygon, wkt_linestring; heed; try apply wkt_coord_heeds.
  generalize 0. induction l as [|a l IHl]; intros k; heed; [apply IH|apply IHl].
Qed.
(** ** GeoJSON *)
Lemma gj_coord_heeds : forall multi i p, heeds (gj_coord multi i p).
Proof. intros multi i [|x [|y r]]; unfold gj_coord; heed. Qed.
Lemma gj_geom_heeds : forall multi g i, heeds (gj_geom_n multi i g).
Proof.
  intros multi. fix IH 1. intros [p|l|l|l|l|l|l] i; cbn [gj_geom_n];
    unfold gj_polygon, gj_line; heed; try apply gj_coord_heeds.
  generalize 0. induction l as [|a l IHl]; intros k; heed; [apply IH|apply IHl].
Qed.
Lemma gj_property_heeds : forall ser i e, heeds (gj_property ser i e).
Proof. intros ser i [k v]. unfold gj_property, offer_prop. heed. Qed.
Lemma gj_feature_heeds : forall ser multi i j f, heeds (gj_feature ser multi i j f).
Proof.
  intros. unfold gj_feature, when_some, gj_properties. heed; [apply gj_property_heeds|apply gj_geom_heeds].
Qed.
Lemma gj_doc_feature_heeds : forall ser multi i f, heeds (process_geojson_feature ser multi i f).
Proof. intros. unfold process_geojson_feature. heed; apply gj_feature_heeds. Qed.
Lemma read_geojson_heeds : forall ser multi doc, heeds (read_geojson ser multi doc).
Proof.
  intros. unfold read_geojson, process_geojson. heed; auto using gj_feature_heeds, gj_doc_feature_heeds, gj_geom_heeds.
Qed.
Lemma read_geojson_geom_heeds : forall multi doc, heeds (read_geojson_geom multi doc).
Proof. intros. unfold read_geojson_geom, process_geojson_geom, when_some. heed; apply gj_geom_heeds. Qed.
Lemma read_geojson_fc_heeds : forall ser multi l, heeds (read_geojson_fc ser multi l).
Proof. intros. unfold read_geojson_fc. heed. apply gj_doc_feature_heeds. Qed.
Lemma read_geojson_lines_heeds : forall ser multi l, heeds (read_geojson_lines ser multi l).
Proof. intros. unfold read_geojson_lines. heed; auto using gj_feature_heeds, gj_geom_heeds. Qed.
Lemma gj_lines_heeds : forall multi l b i, heeds (gj_lines_geom multi b i l).
Proof. induction l as [|x l IH]; intros b i; cbn [gj_lines_geom]; heed; auto using gj_geom_heeds. Qed.
Lemma read_geojson_line_geometries_heeds : forall multi l, heeds (read_geojson_line_geometries multi l).
Proof. intros. unfold read_geojson_line_geometries. heed. apply gj_lines_heeds. Qed.
(** ** CSV *)
Lemma csv_features_heeds : forall parse multi c h l, heeds (process_csv_features parse multi c h l).
Proof.
  intros. unfold process_csv_features. heed. unfold csv_feature, read_wkt. heed; apply wkt_heeds.
Qed.
Lemma csv_geoms_heeds : forall parse multi gi l b i, heeds (csv_geoms parse multi gi b i l).
Proof. induction l as [|x l IH]; intros b i; cbn [csv_geoms]; heed; auto using wkt_heeds. Qed.
Lemma csv_geom_heeds : forall parse multi c h l, heeds (process_csv_geom parse multi c h l).
Proof. intros. unfold process_csv_geom. heed; apply csv_geoms_heeds. Qed.
(** ** geo-types *)
Lemma geo_heeds : forall rect tri multi g i, heeds (t_geom rect tri multi i g).
Proof.
  intros rect tri multi. fix IH 1. intros g i. destruct g; cbn [t_geom];
    unfold t_polygon, t_linestring, t_coord; heed.
  generalize 0. induction l as [|a l IHl]; intros k; heed; [apply IH|apply IHl].
Qed.
(** ** GEOS *)
Lemma geos_heeds : forall z g i, heeds (GeosModel.r_geom_n z g i).
Proof.
  intros z. fix IH 1. intros g i. destruct g; cbn [GeosModel.r_geom_n];
    unfold GeosModel.r_polygon, GeosModel.r_linestring, r_coord_seq; heed.
  generalize 0. induction l as [|a l IHl]; intros k; heed; [apply IH|apply IHl].
Qed.
(** ** GDAL *)
Lemma r_coord_heeds : forall z p i, heeds (r_coord z p i).
Proof. intros z [[x y] v] i. exact I. Qed.
Lemma r_curve_heeds : forall z g i, heeds (r_curve z g i).
Proof.
  intros. unfold r_curve, r_compoundcurve, r_circularstring, GdalModel.r_linestring. heed; apply r_coord_heeds.
Qed.
Lemma gdal_heeds : forall z missing g i, heeds (GdalModel.r_geom_n z missing g i).
Proof.
  intros z missing. fix IH 1. intros [k f n l kids] i.
  destruct k; cbn [GdalModel.r_geom_n];
    unfold r_curvepolygon, r_compoundcurve, r_circularstring, r_triangle, GdalModel.r_polygon, r_linestring_seq,
      GdalModel.r_linestring, r_point; heed; try apply r_coord_heeds; try apply r_curve_heeds.
  generalize 0. induction kids as [|a kids IHl]; intros j; heed; [apply IH|apply IHl].
Qed.
(** ** GPX *)
Lemma gpx_heeds : forall doc, heeds (read_gpx doc).
Proof.
  intros. unfold read_gpx, gpx_top_waypoints, gpx_wrapped, gpx_routes_at, gpx_track, gpx_line, gpx_points. heed.
Qed.
(** ** MVT *)
Lemma mvt_geom_heeds : forall multi g i, heeds (m_geometry multi i g).
Proof.
  intros multi. fix IH 1. intros g i. destruct g; cbn [m_geometry];
    unfold m_polygon, m_linestring, m_coord; heed.
  generalize 0. induction l as [|a l IHl]; intros k; heed; [apply IH|apply IHl].
Qed.
Lemma mvt_layer_heeds : forall multi l, heeds (m_layer multi l).
Proof. intros. unfold m_layer, m_feature, m_property. heed. apply mvt_geom_heeds. Qed.
(** ** Shapefile records *)
Lemma emit_point_heeds : forall a b c d e f g i, heeds (emit_point a b c d e f g i).
Proof. intros. unfold emit_point. heed. Qed.
Lemma emit_points_heeds : forall a b c d e f g n i, heeds (emit_points a b c d e f g n i).
Proof. induction n as [|n IH]; intros i; cbn [emit_points]; heed; [apply emit_point_heeds|apply IH]. Qed.
Lemma multipart_heeds : forall ck d b mp, heeds (process_multipart ck d b mp).
Proof.
  intros. unfold process_multipart, process_geom_part, process_part. heed; apply emit_points_heeds.
Qed.
Lemma rheeds_dim_values : forall n, rheeds (read_dim_values n).
Proof. intros. unfold read_dim_values, read_bbox. rheed. Qed.
Lemma rheeds_xy : forall n, rheeds (read_xy n).
Proof. intros. unfold read_xy. rheed. Qed.
Lemma shape_heeds : forall ck d b, heeds (read_shape ck d b).
Proof.
  intros ck d b. revert b. change (rheeds (read_shape ck d)).
  unfold read_shape, read_shape_rec, read_shape_type, read_point, read_multipoint, read_parts, read_multipart, read_multipatch, read_bbox.
  rheed; auto using rheeds_dim_values, rheeds_xy, multipart_heeds; heed; apply emit_points_heeds.
Qed.
Lemma properties_heeds : forall r i, heeds (process_properties i r).
Proof. induction r as [|[n v] r IH]; intros i; cbn [process_properties]; heed; apply IH. Qed.
