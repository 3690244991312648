(** In which form each reader gives positions (helper lemmas for C65). *)
From Coq Require Import String Ascii.
From Coq Require Import List NArith ZArith Lia Bool.
From Verif Require Import Base BaseLemmas Event Geom ProcModel WkbModel WktModel GeoJsonModel SvgModel
  CsvModel GeoModel GeosModel GdalModel GpxModel MvtModel ShpModel OrdSpec.
Import ListNotations.
Local Open Scope list_scope.

Fixpoint only {A} (P : event -> Prop) (g : prog A) : Prop :=
  match g with
  | Done _ => True
  | Call e k | CallIgn e k => P e /\ only P k
  | CallProp _ _ _ k => forall b, only P (k b)
  end.
Lemma exec_logged : forall S A (p : proc S) P (g : prog A) s l, only P g -> Forall P l ->
  Forall P (snd (fst (exec (logged p) g (s, l)))).
Proof.
  intros S A p P g. induction g as [r|e k IH|e k IH|i n v k IH]; intros s l H Hl; cbn in *.
  - assumption.
  - destruct H as [He H]. destruct (p_step p s e) as [s' [u|x]]; cbn.
    + apply IH; [assumption|]. apply Forall_app. split; [assumption|now constructor].
    + apply Forall_app. split; [assumption|now constructor].
  - destruct H as [He H]. destruct (p_step p s e) as [s' r]; cbn.
    apply IH; [assumption|]. apply Forall_app. split; [assumption|now constructor].
  - destruct (p_prop p s i n v) as [s' [b|x]]; cbn; [now apply IH|assumption].
Qed.
Lemma received_only : forall S A (p : proc S) P (g : prog A) s, only P g -> Forall P (received p g s).
Proof. intros. apply exec_logged; [assumption|constructor]. Qed.
Lemma gives_only : forall A f (src : dims -> prog A), (forall d, only (form (f d)) (src d)) -> gives f src.
Proof. intros A f src H S p s. apply received_only, H. Qed.

Lemma form_other : forall full e, is_xy e = false -> is_coord e = false -> form full e.
Proof. intros [] [] H H'; try discriminate; now repeat split. Qed.
Lemma form_xy : forall x y i, form false (Xy x y i).
Proof. now repeat split. Qed.
Lemma form_coord : forall x y z m i, form true (Coord x y z m None None i).
Proof. now repeat split. Qed.
Lemma form_pos : forall full x y z m i, form full (if full then Coord x y z m None None i else Xy x y i).
Proof. intros [] x y z m i; [apply form_coord|apply form_xy]. Qed.
Ltac placed := first [apply form_other; reflexivity | apply form_pos | apply form_coord | apply form_xy].

Lemma only_pbind : forall (P : event -> Prop) A B (g : prog A) (f : A -> prog B), only P g -> (forall a, only P (f a)) -> only P (pbind g f).
Proof.
  intros P. intros A B g f. revert f. induction g as [[a|x]|e k IH|e k IH|i n v k IH]; intros f H Hf; cbn in *; intuition auto.
Qed.
Lemma only_pthen : forall (P : event -> Prop) A (g : prog unit) (f : prog A), only P g -> only P f -> only P (pthen g f).
Proof. intros. now apply only_pbind. Qed.
Lemma only_pfor : forall (P : event -> Prop) A (f : nat -> A -> prog unit) l i, (forall k a, only P (f k a)) -> only P (pfor f i l).
Proof. induction l as [|a l IH]; intros i H; cbn [pfor]; [exact I|]. apply only_pthen; auto. Qed.
Lemma only_done : forall (P : event -> Prop) A (r : res A), only P (Done r).
Proof. intros. exact I. Qed.

Ltac onl := repeat match goal with
  | |- only _ (pcall _) => split; [|exact I]
  | |- only _ (pret _) => exact I
  | |- only _ (pfail _) => exact I
  | |- only _ (Done _) => exact I
  | |- only _ (plift _) => exact I
  | |- only _ (Call _ _) => split
  | |- only _ (pthen _ _) => apply only_pthen
  | |- only _ (pbind _ _) => apply only_pbind; [|intros ?]
  | |- only _ (pfor _ _ _) => apply only_pfor; intros ? ?
  | |- only _ (CallProp _ _ _ _) => intros ?
  | |- form _ _ => placed
  | |- only _ (match ?x with _ => _ end) => destruct x
  end.

(** ** WKB *)
Definition ronly {A} (P : event -> Prop) (f : rd A) : Prop := forall b, only P (f b).
Lemma ronly_rbind : forall (P : event -> Prop) A B (f : rd A) (g : A -> rd B), ronly P f -> (forall a, ronly P (g a)) -> ronly P (rbind f g).
Proof. intros P A B f g Hf Hg b. apply only_pbind; [apply Hf|]. intros a. apply Hg. Qed.
Lemma ronly_rret : forall (P : event -> Prop) A (a : A), ronly P (rret a).
Proof. intros P A a b. exact I. Qed.
Lemma ronly_rfail : forall (P : event -> Prop) A e, ronly P (@rfail A e).
Proof. intros P A e b. exact I. Qed.
Lemma ronly_rcall : forall (P : event -> Prop) e, P e -> ronly P (rcall e).
Proof. intros P e H b. now split. Qed.
Lemma ronly_rtake : forall (P : event -> Prop) n, ronly P (rtake n).
Proof. intros P n b. unfold rtake. now destruct (Nat.ltb _ _). Qed.
Lemma ronly_rmap : forall (P : event -> Prop) A B (f : A -> B) g, ronly P g -> ronly P (rmap f g).
Proof. intros. apply ronly_rbind; [assumption|]. intros. apply ronly_rret. Qed.
Lemma ronly_rfor : forall (P : event -> Prop) f n i, (forall k, ronly P (f k)) -> ronly P (rfor f n i).
Proof.
  intros P. induction n as [|n IH]; intros i H; cbn [rfor]; [apply ronly_rret|]. apply ronly_rbind; [apply H|].
  intros. now apply IH.
Qed.
Lemma ronly_rlift : forall (P : event -> Prop) A (r : res A), ronly P (rlift r).
Proof. intros P A r b. unfold rlift. now destruct r. Qed.
Lemma ronly_rprog : forall (P : event -> Prop) A (g : prog A), only P g -> ronly P (rprog g).
Proof. intros P A g H b. apply only_pbind; [assumption|]. intros. exact I. Qed.
Lemma ronly_r_list : forall (P : event -> Prop) A (f : rd A) n, ronly P f -> ronly P (r_list f n).
Proof.
  intros P. induction n as [|n IH]; intros H; cbn [r_list]; [apply ronly_rret|].
  apply ronly_rbind; [assumption|]. intros. apply ronly_rbind; [now apply IH|]. intros. apply ronly_rret.
Qed.
Lemma ronly_r_f64s : forall (P : event -> Prop) e n, ronly P (r_f64s e n).
Proof.
  intros P. induction n as [|n IH]; cbn [r_f64s]; [apply ronly_rret|].
  apply ronly_rbind; [apply ronly_rmap, ronly_rtake|]. intros.
  apply ronly_rbind; [exact IH|]. intros. apply ronly_rret.
Qed.
Ltac ronl := repeat match goal with
  | |- ronly _ (rret _) => apply ronly_rret
  | |- ronly _ (rfail _) => apply ronly_rfail
  | |- ronly _ (rcall _) => apply ronly_rcall; try placed
  | |- ronly _ (rtake _) => apply ronly_rtake
  | |- ronly _ (rlift _) => apply ronly_rlift
  | |- ronly _ (rprog _) => apply ronly_rprog
  | |- ronly _ (rthen _ _) => apply ronly_rbind; [apply ronly_rlift|intros ?]
  | |- ronly _ (r_u8) => apply ronly_rmap
  | |- ronly _ (r_u32 _) => apply ronly_rmap
  | |- ronly _ (r_i32 _) => apply ronly_rmap
  | |- ronly _ (r_f64 _) => apply ronly_rmap
  | |- ronly _ (r_f32 _) => apply ronly_rmap
  | |- ronly _ (rmap _ _) => apply ronly_rmap
  | |- ronly _ (r_list _ _) => apply ronly_r_list
  | |- ronly _ (r_f64s _ _) => apply ronly_r_f64s
  | |- ronly _ (rbind _ _) => apply ronly_rbind; [|intros ?]
  | |- ronly _ (rfor _ _ _) => apply ronly_rfor; intros ?
  | |- ronly _ (match ?x with _ => _ end) => destruct x
  | |- ronly _ (let x := _ in _) => cbv zeta
  end.

Lemma ronly_wkb_header : forall full, ronly (form full) read_wkb_header.
Proof. intros. unfold read_wkb_header. ronl. Qed.
Lemma ronly_header : forall full dl, ronly (form full) (WkbModel.read_header dl).
Proof.
  intros full dl. destruct dl; cbn [WkbModel.read_header].
  - apply ronly_wkb_header.
  - unfold read_ewkb_header. ronl.
  - unfold read_gpkg_header. ronl; try apply ronly_wkb_header.
  - unfold read_mysql_header. ronl; try apply ronly_wkb_header.
  - unfold read_spatialite_header. ronl.
Qed.
Lemma ronly_nested : forall full dl i, ronly (form full) (nested_header dl i).
Proof.
  intros full dl. destruct dl; cbn [nested_header]; intros; unfold read_wkb_nested_header; try apply ronly_wkb_header.
  - unfold read_ewkb_nested_header, read_ewkb_header. ronl.
  - unfold read_spatialite_nested_header. ronl.
Qed.
Lemma ronly_coord_as : forall full b i, ronly (form full) (read_coord_as b i).
Proof. intros. unfold read_coord_as. ronl. Qed.
Lemma ronly_emit : forall full k c, ronly (form full) (emit_coord full k c).
Proof. intros full k c. unfold emit_coord. ronl. Qed.
Lemma ronly_coord : forall full i k, ronly (form full) (process_coord full i k).
Proof. intros. unfold process_coord. ronl; [apply ronly_coord_as|apply ronly_emit]. Qed.
Lemma ronly_compressed : forall full i n k c, ronly (form full) (compressed_loop full i n k c).
Proof.
  induction n as [|n IH]; intros k c; cbn [compressed_loop]; ronl; [|apply IH].
  unfold process_compressed_coord. ronl. apply ronly_coord_as.
Qed.
Lemma ronly_coords : forall full i n, ronly (form full) (process_coords full i n).
Proof. intros. unfold process_coords. ronl. apply ronly_coord. Qed.
Lemma ronly_line : forall full i t k, ronly (form full) (process_linestring full i t k).
Proof. intros. unfold process_linestring. ronl; auto using ronly_coord, ronly_compressed, ronly_coords. Qed.
Lemma ronly_arc : forall full i k, ronly (form full) (process_circularstring full i k).
Proof. intros. unfold process_circularstring. ronl. apply ronly_coords. Qed.
Lemma ronly_polygon : forall full i t k, ronly (form full) (process_polygon full i t k).
Proof. intros. unfold process_polygon. ronl. apply ronly_line. Qed.
Lemma ronly_triangle : forall full i t k, ronly (form full) (process_triangle full i t k).
Proof. intros. unfold process_triangle. ronl. apply ronly_line. Qed.
Section Nested.
  Variable full : bool.
  Variable rh : info -> rd info.
  Hypothesis Hrh : forall i, ronly (form full) (rh i).
  Lemma ronly_compound : forall i k n, ronly (form full) (process_compoundcurve full rh i k n).
  Proof. intros. unfold process_compoundcurve. ronl; auto using ronly_arc, ronly_line. Qed.
  Lemma ronly_curve : forall i k n, ronly (form full) (process_curve full rh i k n).
  Proof. intros. unfold process_curve. ronl; auto using ronly_arc, ronly_line, ronly_compound. Qed.
  Lemma ronly_curvepolygon : forall i k n, ronly (form full) (process_curvepolygon full rh i k n).
  Proof. intros. unfold process_curvepolygon. ronl; auto using ronly_curve. Qed.
  Lemma ronly_geom : forall fuel i k n, ronly (form full) (process_geom_n fuel full rh i k n).
  Proof.
    induction fuel as [|fuel IH]; intros i k n; cbn [process_geom_n]; ronl;
      auto using ronly_coord_as, ronly_emit, ronly_coord, ronly_line, ronly_arc, ronly_polygon, ronly_triangle,
        ronly_compound, ronly_curve, ronly_curvepolygon.
  Qed.
End Nested.
Lemma wkb_only : forall dl b d, only (form (multi_dim d)) (process_wkb_type_geom dl d b).
Proof.
  intros dl b d. revert b. change (ronly (form (multi_dim d)) (process_wkb_type_geom dl d)). unfold process_wkb_type_geom. ronl.
  - apply ronly_header.
  - apply ronly_geom, ronly_nested.
Qed.

(** ** WKT *)
Lemma wkt_coord_only : forall full i c, only (form full) (wkt_coord full i c).
Proof. intros. unfold wkt_coord. onl. Qed.
Lemma wkt_only : forall full g i, only (form full) (process_wkt_geom_n full i g).
Proof.
  intros full. fix IH 1. intros [[c|]|l|l|l|r|l|l] i; cbn [process_wkt_geom_n];
    unfold wkt_polygon, wkt_linestring; onl; try apply wkt_coord_only.
  generalize 0. induction l as [|a l IHl]; intros k; onl; [apply IH|apply IHl].
Qed.
(** ** GeoJSON *)
Lemma gj_coord_only : forall full i p, only (form full) (gj_coord full i p).
Proof. intros full i [|x [|y r]]; unfold gj_coord; onl. Qed.
Lemma gj_geom_only : forall full g i, only (form full) (gj_geom_n full i g).
Proof.
  intros full. fix IH 1. intros [p|l|l|l|l|l|l] i; cbn [gj_geom_n];
    unfold gj_polygon, gj_line; onl; try apply gj_coord_only.
  generalize 0. induction l as [|a l IHl]; intros k; onl; [apply IH|apply IHl].
Qed.
Lemma gj_property_only : forall full ser i e, only (form full) (gj_property ser i e).
Proof. intros full ser i [k v]. unfold gj_property, offer_prop. onl. Qed.
Lemma gj_feature_only : forall full ser i j f, only (form full) (gj_feature ser full i j f).
Proof.
  intros. unfold gj_feature, when_some, gj_properties. onl; [apply gj_property_only|apply gj_geom_only].
Qed.
Lemma gj_doc_feature_only : forall full ser i f, only (form full) (process_geojson_feature ser full i f).
Proof. intros. unfold process_geojson_feature. onl; apply gj_feature_only. Qed.
Lemma read_geojson_only : forall full ser doc, only (form full) (read_geojson ser full doc).
Proof.
  intros. unfold read_geojson, process_geojson. onl; auto using gj_feature_only, gj_doc_feature_only, gj_geom_only.
Qed.
Lemma read_geojson_geom_only : forall full doc, only (form full) (read_geojson_geom full doc).
Proof. intros. unfold read_geojson_geom, process_geojson_geom, when_some. onl; apply gj_geom_only. Qed.
Lemma read_geojson_fc_only : forall full ser l, only (form full) (read_geojson_fc ser full l).
Proof. intros. unfold read_geojson_fc. onl. apply gj_doc_feature_only. Qed.
Lemma read_geojson_lines_only : forall full ser l, only (form full) (read_geojson_lines ser full l).
Proof. intros. unfold read_geojson_lines. onl; auto using gj_feature_only, gj_geom_only. Qed.
Lemma gj_lines_only : forall full l b i, only (form full) (gj_lines_geom full b i l).
Proof. induction l as [|x l IH]; intros b i; cbn [gj_lines_geom]; onl; auto using gj_geom_only. Qed.
Lemma read_geojson_line_geometries_only : forall full l, only (form full) (read_geojson_line_geometries full l).
Proof. intros. unfold read_geojson_line_geometries. onl. apply gj_lines_only. Qed.
(** ** CSV *)
Lemma csv_features_only : forall full parse c h l, only (form full) (process_csv_features parse full c h l).
Proof.
  intros. unfold process_csv_features. onl. unfold csv_feature, read_wkt. onl; apply wkt_only.
Qed.
Lemma csv_geoms_only : forall full parse gi l b i, only (form full) (csv_geoms parse full gi b i l).
Proof. induction l as [|x l IH]; intros b i; cbn [csv_geoms]; onl; auto using wkt_only. Qed.
Lemma csv_geom_only : forall full parse c h l, only (form full) (process_csv_geom parse full c h l).
Proof. intros. unfold process_csv_geom. onl; apply csv_geoms_only. Qed.
(** ** geo-types *)
Lemma geo_only : forall full rect tri g i, only (form full) (t_geom rect tri full i g).
Proof.
  intros full rect tri. fix IH 1. intros g i. destruct g; cbn [t_geom];
    unfold t_polygon, t_linestring, t_coord; onl.
  generalize 0. induction l as [|a l IHl]; intros k; onl; [apply IH|apply IHl].
Qed.
(** ** GEOS *)
Lemma geos_only : forall full g i, only (form full) (GeosModel.r_geom_n full g i).
Proof.
  intros z. fix IH 1. intros g i. destruct g; cbn [GeosModel.r_geom_n];
    unfold GeosModel.r_polygon, GeosModel.r_linestring, r_coord_seq; onl.
  generalize 0. induction l as [|a l IHl]; intros k; onl; [apply IH|apply IHl].
Qed.
(** ** GDAL *)
Lemma r_coord_only : forall full p i, only (form full) (r_coord full p i).
Proof. intros z [[x y] v] i. unfold r_coord. onl. Qed.
Lemma r_curve_only : forall full g i, only (form full) (r_curve full g i).
Proof.
  intros. unfold r_curve, r_compoundcurve, r_circularstring, GdalModel.r_linestring. onl; apply r_coord_only.
Qed.
Lemma gdal_only : forall full missing g i, only (form full) (GdalModel.r_geom_n full missing g i).
Proof.
  intros z missing. fix IH 1. intros [k f n l kids] i.
  destruct k; cbn [GdalModel.r_geom_n];
    unfold r_curvepolygon, r_compoundcurve, r_circularstring, r_triangle, GdalModel.r_polygon, r_linestring_seq,
      GdalModel.r_linestring, r_point; onl; try apply r_coord_only; try apply r_curve_only.
  generalize 0. induction kids as [|a kids IHl]; intros j; onl; [apply IH|apply IHl].
Qed.
(** ** GPX *)
Lemma gpx_only : forall doc, only (form false) (read_gpx doc).
Proof.
  intros. unfold read_gpx, gpx_top_waypoints, gpx_wrapped, gpx_routes_at, gpx_track, gpx_line, gpx_points. onl.
Qed.
(** ** MVT *)
Lemma mvt_geom_only : forall full g i, only (form full) (m_geometry full i g).
Proof.
  intros full. fix IH 1. intros g i. destruct g; cbn [m_geometry];
    unfold m_polygon, m_linestring, m_coord; onl.
  generalize 0. induction l as [|a l IHl]; intros k; onl; [apply IH|apply IHl].
Qed.
Lemma mvt_layer_only : forall full l, only (form full) (m_layer full l).
Proof. intros. unfold m_layer, m_feature, m_property. onl. apply mvt_geom_only. Qed.
(** ** Shapefile records *)
Definition shp_form (d : dims) (e : event) : Prop :=
  modest d e /\ timeless e /\ (multi_dim d = dz d || dm d -> form (multi_dim d) e).
Lemma shp_other : forall d e, is_xy e = false -> is_coord e = false -> shp_form d e.
Proof.
  intros d e H H'. repeat split; [| | |]; try (apply form_other; assumption); destruct e; try discriminate; try exact I.
  all: now destruct (multi_dim d).
Qed.
Ltac shped := repeat (first [apply shp_other; reflexivity | progress onl | progress ronl]).
Definition pos_of (d : dims) (multi : bool) : Prop := multi = multi_dim d \/ multi = dz d || dm d.
Lemma emit_point_only : forall d multi gz gm cs zs ms o i, pos_of d multi ->
  only (shp_form d) (emit_point multi (dz d && gz) (dm d && gm) cs zs ms o i).
Proof.
  intros [z m t tm] multi gz gm cs zs ms o i H. unfold emit_point, plift. unfold pos_of, multi_dim in H. cbn in H.
  destruct (at_index cs o) as [c|]; [|exact I]. cbn [pbind].
  destruct z, gz, m, gm; cbn in *; destruct multi;
    try (destruct (at_index zs o)); try (destruct (at_index ms o)); cbn; try exact I;
    (split; [|exact I]); unfold shp_form, modest, form, timeless, multi_dim; cbn in *;
    repeat split; intros; try discriminate; try tauto; destruct t, tm; cbn in *; intuition congruence.
Qed.
Lemma emit_points_only : forall d multi gz gm cs zs ms o n i, pos_of d multi ->
  only (shp_form d) (emit_points multi (dz d && gz) (dm d && gm) cs zs ms o n i).
Proof.
  intros d multi gz gm cs zs ms o n. induction n as [|n IH]; intros i H; cbn [emit_points]; [exact I|].
  apply only_pthen; [now apply emit_point_only|now apply IH].
Qed.
Lemma multipart_only : forall ck d b mp, only (shp_form d) (process_multipart ck d b mp).
Proof.
  intros. unfold process_multipart, process_geom_part, process_part.
  onl; try (apply shp_other; reflexivity); apply emit_points_only; now right.
Qed.
Lemma ronly_dim_values : forall P n, ronly P (read_dim_values n).
Proof. intros. unfold read_dim_values, read_bbox. ronl. Qed.
Lemma ronly_xy : forall P n, ronly P (read_xy n).
Proof. intros. unfold read_xy. ronl. Qed.
Lemma point_pos : forall d x y z m i, multi_dim d = true ->
  shp_form d (Coord x y (if dz d then z else None) (if dm d then m else None) None None i).
Proof.
  intros d x y z m i H. unfold shp_form, modest, form, timeless. rewrite H.
  repeat split; intros E; try rewrite E; reflexivity.
Qed.
Lemma point_xy : forall d x y i, multi_dim d = false -> shp_form d (Xy x y i).
Proof. intros d x y i H. unfold shp_form, modest, form, timeless. rewrite H. now repeat split. Qed.
Lemma shape_only : forall ck d b, only (shp_form d) (read_shape ck d b).
Proof.
  intros ck d b. revert b. change (ronly (shp_form d) (read_shape ck d)).
  unfold read_shape, read_shape_rec, read_shape_type, read_multipoint, read_parts, read_multipart, read_multipatch, read_bbox.
  ronl; auto using ronly_dim_values, ronly_xy, multipart_only; try (onl; try (apply shp_other; reflexivity); apply emit_points_only; now left).
  all: unfold read_point; repeat (apply ronly_rbind; [|intros ?]); try (ronl; fail);
    try (apply ronly_rcall, shp_other; reflexivity).
  all: destruct (multi_dim d) eqn:E; apply ronly_rcall; [now apply point_pos|now apply point_xy].
Qed.
Section Files.
  Context {S : Type}.
  Variable ck : bool.
  Variable leftover : list Byte.byte -> list Byte.byte.
  Variable p : proc S.
  Variable P : event -> Prop.
  Hypothesis Hshape : forall b, only P (read_shape ck (p_dims p) b).
  Hypothesis Hother : forall e, is_xy e = false -> is_coord e = false -> P e.
  Notation good s := (Forall P (snd (s : S * list event))).
  Lemma good_exec : forall A (g : prog A) s, only P g -> good s -> good (fst (exec (logged p) g s)).
  Proof. intros A g [s l] H Hl. now apply exec_logged. Qed.
  Lemma good_told : forall e s, is_xy e = false -> is_coord e = false -> good s -> good (fst (told (logged p) s e)).
  Proof.
    intros e [s l] H H' Hl. unfold told. cbn. destruct (p_step p s e) as [s' r]; cbn in *.
    assert (Forall P (l ++ [e])) by (apply Forall_app; split; [assumption|constructor; [now apply Hother|constructor]]).
    destruct r as [u|[]]; assumption.
  Qed.
  Lemma good_tell : forall l s, forallb (fun e => negb (is_xy e) && negb (is_coord e)) l = true -> good s ->
    good (fst (tell (logged p) l s)).
  Proof.
    induction l as [|e l IH]; intros s H Hl; [assumption|]. cbn in H. apply andb_prop in H as [H H1].
    apply andb_prop in H as [H H0]. apply negb_true_iff in H, H0.
    unfold tell in *. cbn [run p_step]. pose proof (good_told e s H H0 Hl) as Hg.
    destruct (told (logged p) s e) as [s' [u|x]]; cbn [fst] in *; [now apply IH|assumption].
  Qed.
  Lemma good_shape_next : forall it s, good s -> good (snd (fst (shape_next ck leftover (logged p) it s))).
  Proof.
    intros it s H. unfold shape_next. destruct (N.leb _ _); [assumption|].
    pose proof (good_exec _ (read_shape ck (p_dims p) (it_source it)) s (Hshape _) H) as G. cbn [p_dims logged].
    destruct (exec (logged p) _ s) as [s' [[hdr rest]|x]]; cbn [fst] in *; [|assumption].
    destruct (advance _ _ _); assumption.
  Qed.
  Lemma good_shapes : forall n it s, good s -> good (snd (fst (shapes ck leftover (logged p) n it s))).
  Proof.
    induction n as [|n IH]; intros it s H; cbn [shapes]; [assumption|].
    pose proof (good_shape_next it s H) as G. destruct (shape_next _ _ _ it s) as [[it' s'] x]. cbn [fst snd] in G.
    specialize (IH it' s' G). destruct (shapes _ _ _ n it' s') as [[it2 s2] l]. exact IH.
  Qed.
  Lemma properties_only : forall r i, only P (process_properties i r).
  Proof. induction r as [|[n v] r IH]; intros i; cbn [process_properties]; onl; apply IH. Qed.
  Ltac tells := match goal with
    | |- context [tell (logged p) ?l ?s] =>
        let G := fresh in pose proof (good_tell l s) as G; cbn [forallb is_xy is_coord negb andb] in G;
        destruct (tell (logged p) l s) as [? [?|?]]; cbn [fst] in G; specialize (G eq_refl)
    end.
  Lemma good_feature_next : forall it s, good s -> good (snd (fst (feature_next ck leftover (logged p) it s))).
  Proof.
    intros it s H. unfold feature_next.
    assert (F : forall l s, forallb (fun e => negb (is_xy e) && negb (is_coord e)) l = true -> good s ->
      good (fst (tell (logged p) l s))) by exact good_tell.
    assert (E : forall (it : feature_iter) s, good s -> good (snd (fst match tell (logged p) [DatasetEnd] s with
      | (s, Ok _) => (it, s, None) | (s, Err e) => (it, s, Some (@Err dbf_record e)) end))).
    { intros it' s' H'. specialize (F [DatasetEnd] s' eq_refl H'). destruct (tell _ _ s') as [s2 [u|x]]; exact F. }
    pose proof (F (if Nat.eqb (fi_no it) 0 then [DatasetBegin None] else []) s) as F0.
    destruct (tell _ _ s) as [s0 [u|x]]; cbn [fst] in F0;
      (specialize (F0 ltac:(destruct (Nat.eqb (fi_no it) 0); reflexivity) H)); [|assumption].
    cbv zeta. destruct (N.leb _ _); [now apply E|].
    destruct (dbf_next it) as [[record|x]|]; [|assumption|now apply E].
    pose proof (F [FeatureBegin (fi_no it); PropertiesBegin] s0 eq_refl F0) as F1.
    destruct (tell _ _ s0) as [s1 [u1|x]]; cbn [fst] in F1; [|assumption].
    pose proof (good_exec _ (process_properties 0 record) s1 (properties_only _ _) F1) as F2.
    destruct (exec _ _ s1) as [s2 [b|x]]; cbn [fst] in F2; [|assumption].
    pose proof (F [PropertiesEnd; GeometryBegin] s2 eq_refl F2) as F3.
    destruct (tell _ _ s2) as [s3 [u3|x]]; cbn [fst] in F3; [|assumption].
    pose proof (good_shape_next (fi_shapes it) s3 F3) as F4.
    destruct (shape_next _ _ _ _ s3) as [[shapes s4] [[u4|x]|]]; cbn [fst snd] in F4; [|assumption|assumption].
    pose proof (F [GeometryEnd; FeatureEnd (fi_no it)] s4 eq_refl F4) as F5.
    destruct (tell _ _ s4) as [s5 [u5|x]]; cbn [fst] in F5; assumption.
  Qed.
  Lemma good_features : forall n it s, good s -> good (snd (fst (features ck leftover (logged p) n it s))).
  Proof.
    induction n as [|n IH]; intros it s H; cbn [features]; [assumption|].
    pose proof (good_feature_next it s H) as G. destruct (feature_next _ _ _ it s) as [[it' s'] x]. cbn [fst snd] in G.
    specialize (IH it' s' G). destruct (features _ _ _ n it' s') as [[it2 s2] l]. exact IH.
  Qed.
End Files.
