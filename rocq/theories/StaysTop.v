(** Lemmas behind C83: output that is only added to. *)
From Coq Require Import String Ascii.
From Coq Require Import List NArith ZArith Lia Bool.
From Verif Require Import Base BaseLemmas Float Event ProcModel Claims TraceTop StaysSpec.
From Verif Require WkbModel WktModel GeoJsonModel CsvModel SvgModel GeoModel MvtModel GeosModel GdalModel
  TessModel.
Import ListNotations.
Local Open Scope list_scope.

Definition frames {S A} (after : list A -> S -> S) (p : proc S) : Prop :=
  forall o s x, one p o (after x s) = (after x (fst (one p o s)), snd (one p o s)).
Lemma frames_all : forall S A (after : list A -> S -> S) p, frames after p ->
  forall l s x, feed p l (after x s) = (after x (fst (feed p l s)), snd (feed p l s)).
Proof.
  intros S A after p H. induction l as [|o l IH]; intros s x; [reflexivity|].
  rewrite !feed_cons, H. destruct (one p o s) as [s' [y|y]]; [apply IH|reflexivity].
Qed.
Lemma unread_by : forall S A (out : S -> list A) after p,
  (forall x s, out (after x s) = x ++ out s) -> frames after p -> unread out after p.
Proof.
  intros S A out after p H F l s x. rewrite (frames_all S A after p F). cbn [fst snd]. split; [apply H|reflexivity].
Qed.
Lemma stays_by : forall S A (out : S -> list A) after p,
  (forall x s, out (after x s) = x ++ out s) -> frames after p ->
  (forall s, exists s0, s = after (out s) s0 /\ out s0 = []) -> stays out p.
Proof.
  intros S A out after p H F D l1 l2 s. rewrite feed_app. destruct (feed p l1 s) as [s1 [x|x]].
  - destruct (D s1) as (s0 & E & _). cbn [fst]. remember (out s1) as w. rewrite E, (frames_all S A after p F). cbn [fst]. rewrite H.
    eexists. reflexivity.
  - exists []. cbn. rewrite app_nil_r. reflexivity.
Qed.
Lemma sapp_assoc : forall a b c : string, ((a ++ b) ++ c = a ++ b ++ c)%string.
Proof. induction a as [|x a IH]; intros b c; cbn; [reflexivity|rewrite IH; reflexivity]. Qed.
Lemma chars_app : forall a b : string, chars (a ++ b)%string = chars a ++ chars b.
Proof. induction a as [|x a IH]; intros b; cbn; [reflexivity|unfold chars in IH; rewrite IH; reflexivity]. Qed.
Lemma chars_after : forall x s, chars (text_after x s) = x ++ chars s.
Proof. intros x s. unfold text_after. rewrite chars_app. unfold chars. rewrite list_ascii_of_string_of_list_ascii. reflexivity. Qed.
Lemma text_split : forall s, s = text_after (chars s) ""%string.
Proof. intros s. unfold text_after, chars. rewrite string_of_list_ascii_of_string, app_nil. reflexivity. Qed.

Lemma svg_frames : forall fmt c, frames text_after (SvgModel.svg_writer fmt c).
Proof.
  intros fmt c [[]|i n v] st w; unfold text_after; cbn; rewrite ?app_nil, ?sapp_assoc; reflexivity.
Qed.
Lemma json_frames : forall fmt32 fmt d, frames text_after (GeoJsonModel.geojson_writer fmt32 fmt d).
Proof.
  intros fmt32 fmt d o st w. destruct o as [[]|i n v]; unfold text_after; cbn;
    unfold GeoJsonModel.gj_comma; try destruct idx; try destruct i;
    cbn; rewrite ?app_nil, ?sapp_assoc; try reflexivity.
  all: destruct v; cbn; rewrite ?app_nil, ?sapp_assoc; reflexivity.
Qed.
Lemma lines_frames : forall fmt32 fmt, frames lines_after (GeoJsonModel.geojson_line_writer fmt32 fmt).
Proof.
  intros fmt32 fmt o [k st] w. destruct k as [|[|k]], o as [[]|i n v]; unfold lines_after, text_after; cbn;
    unfold GeoJsonModel.gj_comma; try destruct idx; try destruct i;
    cbn; rewrite ?app_nil, ?sapp_assoc; try reflexivity.
  all: destruct v; cbn; rewrite ?app_nil, ?sapp_assoc; reflexivity.
Qed.

Lemma header_after : forall c w s, WktModel.wkt_header c (wkt_after w s) = wkt_after w (WktModel.wkt_header c s).
Proof.
  intros c w [sr f sz ou]. unfold WktModel.wkt_header, wkt_after, text_after. cbn. destruct f, (WktModel.k_dialect c); try reflexivity.
  destruct sr as [[]|]; unfold WktModel.put; cbn; rewrite ?sapp_assoc; reflexivity.
Qed.
Lemma put_after : forall w s t, WktModel.put (wkt_after w s) t = wkt_after w (WktModel.put s t).
Proof. intros w s t. unfold WktModel.put, wkt_after, text_after. cbn. rewrite sapp_assoc. reflexivity. Qed.
Lemma comma_after : forall w s i, WktModel.wkt_comma (wkt_after w s) i = wkt_after w (WktModel.wkt_comma s i).
Proof. intros w s i. unfold WktModel.wkt_comma. destruct (Nat.ltb 0 i); [apply put_after|reflexivity]. Qed.
Lemma begin_after : forall c w s tag tagged n i,
  WktModel.geom_begin c (wkt_after w s) tag tagged n i = wkt_after w (WktModel.geom_begin c s tag tagged n i).
Proof.
  intros c w s tag tagged n i. unfold WktModel.geom_begin. rewrite header_after, comma_after.
  destruct tagged, (Nat.eqb n 0); cbv zeta; rewrite ?put_after; unfold WktModel.put, wkt_after, text_after; cbn; rewrite ?sapp_assoc; reflexivity.
Qed.
Lemma end_after : forall w s, WktModel.geom_end (wkt_after w s) =
  (wkt_after w (fst (WktModel.geom_end s)), snd (WktModel.geom_end s)).
Proof.
  intros w [sr f sz ou]. unfold WktModel.geom_end, WktModel.put, wkt_after, text_after. cbn. destruct sz as [|[|n] r]; cbn; rewrite ?sapp_assoc; reflexivity.
Qed.
Lemma wkt_step_after : forall fmt c w s e, WktModel.wkt_step fmt c (wkt_after w s) e =
  (wkt_after w (fst (WktModel.wkt_step fmt c s e)), snd (WktModel.wkt_step fmt c s e)).
Proof.
  intros fmt c w s e. destruct e; cbn [WktModel.wkt_step default_step fst snd]; rewrite ?begin_after, ?end_after; try reflexivity.
  - rewrite comma_after. destruct (f64_is_nan x && f64_is_nan y); rewrite put_after; reflexivity.
  - rewrite comma_after. destruct (_ && _ && _ && _); [rewrite put_after; reflexivity|].
    destruct z, m; rewrite !put_after; reflexivity.
Qed.
Lemma wkt_frames : forall fmt c, frames wkt_after (WktModel.wkt_writer fmt c).
Proof.
  intros fmt c [e|i n v] s w; unfold one; cbn [feed p_step p_prop WktModel.wkt_writer]; [|reflexivity].
  rewrite wkt_step_after. destruct (WktModel.wkt_step fmt c s e) as [s' [[]|x]]; reflexivity.
Qed.

Lemma out_after : forall w s b, WkbModel.out_app (wkb_after w s) b = wkb_after w (WkbModel.out_app s b).
Proof. intros w s b. unfold WkbModel.out_app, wkb_after. cbn. rewrite app_assoc. reflexivity. Qed.
Lemma wkb_header_after : forall c w s t, WkbModel.write_header c (wkb_after w s) t =
  (wkb_after w (fst (WkbModel.write_header c s t)), snd (WkbModel.write_header c s t)).
Proof.
  intros c w s t. unfold WkbModel.write_header.
  assert (W : forall s, WkbModel.write_wkb_header c (wkb_after w s) t = wkb_after w (WkbModel.write_wkb_header c s t)).
  { intros s0. unfold WkbModel.write_wkb_header. rewrite !out_after. reflexivity. }
  assert (F : forall s, WkbModel.set_first (wkb_after w s) false = wkb_after w (WkbModel.set_first s false)) by reflexivity.
  destruct (WkbModel.w_dialect c).
  - rewrite W. reflexivity.
  - unfold WkbModel.write_ewkb_header. rewrite !out_after. destruct s as [[] g n o]; [|reflexivity].
    cbn [WkbModel.w_first WkbModel.out_app wkb_after]. destruct (WkbModel.w_srid c); [|reflexivity].
    unfold wkb_after, WkbModel.out_app, WkbModel.set_first. cbn. rewrite !app_assoc. reflexivity.
  - cbn [wkb_after WkbModel.w_first]. destruct (WkbModel.w_first s); [|rewrite W; reflexivity].
    unfold WkbModel.write_gpkg_header. cbv zeta. rewrite !out_after, F, W. reflexivity.
  - cbn [wkb_after WkbModel.w_first]. destruct (WkbModel.w_first s); [|rewrite W; reflexivity].
    unfold WkbModel.write_mysql_header. destruct (WkbModel.w_srid c) as [v|].
    + destruct (v <? 0)%Z; [reflexivity|]. rewrite out_after, F, W. reflexivity.
    + rewrite out_after, F, W. reflexivity.
  - unfold WkbModel.write_spatialite_header. cbn [wkb_after WkbModel.w_first]. destruct (WkbModel.w_first s).
    + cbv zeta. rewrite !out_after, F, out_after. reflexivity.
    + cbv zeta. rewrite !out_after. reflexivity.
Qed.
Lemma size_after : forall c w s t n, WkbModel.header_size c (wkb_after w s) t n =
  (wkb_after w (fst (WkbModel.header_size c s t n)), snd (WkbModel.header_size c s t n)).
Proof.
  intros c w s t n. unfold WkbModel.header_size. rewrite wkb_header_after.
  destruct (WkbModel.write_header c s t) as [s' [x|x]]; cbn [fst snd]; [rewrite out_after|]; reflexivity.
Qed.
Lemma footer_after : forall c w s, WkbModel.write_footer c (wkb_after w s) =
  (wkb_after w (fst (WkbModel.write_footer c s)), snd (WkbModel.write_footer c s)).
Proof.
  intros c w s. unfold WkbModel.write_footer. destruct (WkbModel.w_dialect c); try reflexivity.
  cbn [wkb_after WkbModel.w_nest]. destruct (Nat.eqb (WkbModel.w_nest s) 0); [rewrite out_after|]; reflexivity.
Qed.
Lemma coordinate_after : forall c w s x y z m, WkbModel.write_coordinate c (wkb_after w s) x y z m =
  (wkb_after w (fst (WkbModel.write_coordinate c s x y z m)), snd (WkbModel.write_coordinate c s x y z m)).
Proof.
  intros c w s x y z m. unfold WkbModel.write_coordinate. cbv zeta. rewrite wkb_header_after, !out_after. cbn [wkb_after WkbModel.w_state].
  destruct (WkbModel.w_state s).
  - destruct (dz (WkbModel.w_dims c)), (dm (WkbModel.w_dims c)); rewrite ?out_after; reflexivity.
  - destruct (dz (WkbModel.w_dims c)), (dm (WkbModel.w_dims c)); rewrite ?out_after; reflexivity.
  - destruct (WkbModel.write_header c s WkbModel.TPoint) as [s' [u|u]]; cbn [fst snd]; [|reflexivity].
    destruct (dz (WkbModel.w_dims c)), (dm (WkbModel.w_dims c)); rewrite ?out_after; reflexivity.
Qed.
Lemma wkb_step_after : forall c w s e, WkbModel.wkb_step c (wkb_after w s) e =
  (wkb_after w (fst (WkbModel.wkb_step c s e)), snd (WkbModel.wkb_step c s e)).
Proof.
  intros c w s e.
  assert (N : forall k, (forall s, k (wkb_after w s) = (wkb_after w (fst (k s)), snd (k s))) ->
    WkbModel.nest_decr (wkb_after w s) k = (wkb_after w (fst (WkbModel.nest_decr s k)), snd (WkbModel.nest_decr s k))).
  { intros k H. unfold WkbModel.nest_decr. cbn [wkb_after WkbModel.w_nest]. destruct (WkbModel.w_nest s) as [|n]; [reflexivity|].
    apply (H (WkbModel.mkWst (WkbModel.w_first s) (WkbModel.w_state s) n (WkbModel.w_out s))). }
  assert (TS : forall g s t n, WkbModel.then_state g (WkbModel.header_size c (wkb_after w s) t n) =
    (wkb_after w (fst (WkbModel.then_state g (WkbModel.header_size c s t n))), snd (WkbModel.then_state g (WkbModel.header_size c s t n)))).
  { intros g s0 t n. rewrite size_after. destruct (WkbModel.header_size c s0 t n) as [s' [u|u]]; reflexivity. }
  assert (I : WkbModel.nest_incr (wkb_after w s) = wkb_after w (WkbModel.nest_incr s)) by reflexivity.
  assert (NS : WkbModel.set_state (wkb_after w s) WkbModel.Normal = wkb_after w (WkbModel.set_state s WkbModel.Normal)) by reflexivity.
  destruct e; cbn [WkbModel.wkb_step default_step]; rewrite ?I, ?NS.
  all: try apply coordinate_after.
  all: try apply TS.
  all: try apply size_after.
  all: try apply footer_after.
  all: try apply wkb_header_after.
  all: try (apply N; intros s0; apply footer_after).
  all: try reflexivity.
  - apply N. intros s0. apply (footer_after c w (WkbModel.set_state s0 WkbModel.Normal)).
  - cbn [wkb_after WkbModel.w_state]. destruct (WkbModel.w_state s); try apply (size_after c w s). exact (f_equal (fun q => (q, Ok tt)) (out_after w s _)).
Qed.
Lemma wkb_frames : forall c, frames wkb_after (WkbModel.wkb_writer c).
Proof.
  intros c [e|i n v] s w; unfold one; cbn [feed p_step p_prop WkbModel.wkb_writer]; [|reflexivity].
  rewrite wkb_step_after. destruct (WkbModel.wkb_step c s e) as [s' [[]|x]]; reflexivity.
Qed.

Definition co_after (w : list (list string)) (o : CsvModel.csvout) : CsvModel.csvout :=
  CsvModel.mkCsvOut (CsvModel.o_fields o) (w ++ CsvModel.o_records o) (CsvModel.o_count o).
Lemma fields_after : forall w l o, fold_left CsvModel.csv_write_field l (co_after w o) = co_after w (fold_left CsvModel.csv_write_field l o).
Proof. intros w. induction l as [|f l IH]; intros o; [reflexivity|]. apply (IH (CsvModel.csv_write_field o f)). Qed.
Lemma record_after : forall w o l, CsvModel.csv_write_record (co_after w o) l =
  (co_after w (fst (CsvModel.csv_write_record o l)), snd (CsvModel.csv_write_record o l)).
Proof.
  intros w o l. unfold CsvModel.csv_write_record. rewrite fields_after. set (o' := fold_left CsvModel.csv_write_field l o). cbv zeta.
  cbn [co_after CsvModel.o_count CsvModel.o_fields CsvModel.o_records].
  destruct (CsvModel.o_count o') as [k|]; [destruct (Nat.eqb k (length (CsvModel.o_fields o')))|]; try reflexivity;
    unfold co_after; cbn; rewrite app_assoc; reflexivity.
Qed.
Lemma csv_frames : forall fmt32 fmt debug d, frames csv_after (CsvModel.csv_writer fmt32 fmt debug d).
Proof.
  intros fmt32 fmt debug d o s w.
  assert (K : forall e, CsvModel.csv_wkt fmt d (csv_after w s) e =
    (csv_after w (fst (CsvModel.csv_wkt fmt d s e)), snd (CsvModel.csv_wkt fmt d s e))).
  { intros e. unfold CsvModel.csv_wkt. cbn [csv_after CsvModel.cs_wkt].
    destruct (WktModel.wkt_step fmt (WktModel.mkWktCfg d WktModel.PlainWkt) (CsvModel.cs_wkt s) e) as [a b]. reflexivity. }
  assert (Q : forall b, CsvModel.csv_assert debug b (csv_after w s) =
    (csv_after w (fst (CsvModel.csv_assert debug b s)), snd (CsvModel.csv_assert debug b s))).
  { intros b. unfold CsvModel.csv_assert. destruct (debug && negb b); reflexivity. }
  assert (P : forall e, CsvModel.csv_step fmt debug d (csv_after w s) e =
    (csv_after w (fst (CsvModel.csv_step fmt debug d s e)), snd (CsvModel.csv_step fmt debug d s e))).
  { intros e. destruct e; cbn [CsvModel.csv_step]; try apply K; try apply Q; try reflexivity.
    unfold CsvModel.csv_feature_end. cbn [csv_after CsvModel.cs_written CsvModel.cs_csv CsvModel.cs_headers CsvModel.cs_wkt CsvModel.cs_row].
    fold (co_after w (CsvModel.cs_csv s)). rewrite record_after.
    assert (B : (if CsvModel.cs_written s then (co_after w (CsvModel.cs_csv s), Ok tt)
                 else (co_after w (fst (CsvModel.csv_write_record (CsvModel.cs_csv s) (CsvModel.cs_headers s))),
                       snd (CsvModel.csv_write_record (CsvModel.cs_csv s) (CsvModel.cs_headers s)))) =
      (let r := if CsvModel.cs_written s then (CsvModel.cs_csv s, Ok tt) else CsvModel.csv_write_record (CsvModel.cs_csv s) (CsvModel.cs_headers s) in
       (co_after w (fst r), snd r))) by (destruct (CsvModel.cs_written s); reflexivity).
    rewrite B. cbv zeta. clear B.
    destruct (if CsvModel.cs_written s then (CsvModel.cs_csv s, Ok tt) else CsvModel.csv_write_record (CsvModel.cs_csv s) (CsvModel.cs_headers s)) as [r [u|u]];
      cbn [fst snd]; [|reflexivity].
    change (CsvModel.csv_write_field (co_after w r) ?f) with (co_after w (CsvModel.csv_write_field r f)).
    rewrite fields_after, record_after.
    destruct (CsvModel.csv_write_record _ []) as [r2 [u2|u2]]; reflexivity. }
  destruct o as [e|i n v]; unfold one; cbn [feed p_step p_prop CsvModel.csv_writer].
  - rewrite P. destruct (CsvModel.csv_step fmt debug d s e) as [s' [[]|x]]; reflexivity.
  - unfold CsvModel.csv_prop. cbn [csv_after CsvModel.cs_written CsvModel.cs_csv CsvModel.cs_headers CsvModel.cs_wkt CsvModel.cs_row].
    destruct (CsvModel.cs_written s); [|reflexivity]. destruct (nth_error (CsvModel.cs_headers s) (i + 1)) as [h|]; [|reflexivity].
    destruct (String.eqb n h); reflexivity.
Qed.
Lemma features_frames : forall debug, frames features_after (GeoModel.feature_writer debug).
Proof.
  intros debug o s w. destruct o as [e|i n v]; unfold one; cbn [feed p_step p_prop GeoModel.feature_writer].
  - assert (P : GeoModel.feature_step debug (features_after w s) e =
      (features_after w (fst (GeoModel.feature_step debug s e)), snd (GeoModel.feature_step debug s e))).
    { assert (A : forall b s k k', k' = (features_after w (fst k), snd k) ->
        GeoModel.f_assert debug b (features_after w s) k' = (features_after w (fst (GeoModel.f_assert debug b s k)), snd (GeoModel.f_assert debug b s k))).
      { intros b s0 k k' ->. unfold GeoModel.f_assert. destruct (debug && negb b); reflexivity. }
      destruct e; cbn [GeoModel.feature_step];
        try (cbn [features_after GeoModel.f_writer]; destruct (GeoModel.geo_step debug (GeoModel.f_writer s) _) as [a b]; reflexivity);
        try reflexivity.
      - refine (A (GeoModel.no_geoms s) s _ _ _). refine (A (GeoModel.is_none (GeoModel.f_props s)) s _ _ _). reflexivity.
      - cbn [features_after GeoModel.f_writer GeoModel.f_props GeoModel.f_features].
        destruct (GeoModel.take_geometry (GeoModel.f_writer s)) as [a [g|]]; [|reflexivity].
        destruct (GeoModel.f_props s); [|reflexivity]. unfold features_after. cbn. rewrite app_assoc. reflexivity.
      - refine (A (GeoModel.no_geoms s) s _ _ _). reflexivity. }
    rewrite P. destruct (GeoModel.feature_step debug s e) as [s' [[]|x]]; reflexivity.
  - unfold GeoModel.feature_prop. cbn [features_after GeoModel.f_props]. destruct (GeoModel.f_props s); reflexivity.
Qed.
Lemma mvt_frames : forall gsize base64 debug c, frames tile_after (MvtModel.mvt_writer gsize base64 debug c).
Proof.
  intros gsize base64 debug c o s w. destruct o as [e|i n v]; unfold one; cbn [feed p_step p_prop MvtModel.mvt_writer]; [|reflexivity].
  assert (P : MvtModel.mvt_step gsize debug c (tile_after w s) e =
    (tile_after w (fst (MvtModel.mvt_step gsize debug c s e)), snd (MvtModel.mvt_step gsize debug c s e))).
  { destruct s as [f p g co po li cs]. destruct e; cbn [MvtModel.mvt_step];
      try (destruct g as [|g0 [|g1 g]]; unfold tile_after; cbn; rewrite ?app_assoc; reflexivity);
      unfold MvtModel.m_xy, MvtModel.massert, MvtModel.mreserve, MvtModel.mfinish, MvtModel.mtake, tile_after;
      cbn [MvtModel.mw_features MvtModel.mw_props MvtModel.mw_geoms MvtModel.mw_coll MvtModel.mw_polys MvtModel.mw_lines MvtModel.mw_coords
           MvtModel.mset_polys MvtModel.mset_lines MvtModel.mset_coords MvtModel.mset_coll MvtModel.mset_geoms MvtModel.mset_props];
      repeat (match goal with
              | |- context[match ?k with _ => _ end] => destruct k eqn:?
              end; cbn [fst snd]; try reflexivity);
      try reflexivity; try (cbn; rewrite app_assoc; reflexivity). }
  rewrite P. destruct (MvtModel.mvt_step gsize debug c s e) as [s' [[]|x]]; reflexivity.
Qed.
Lemma tess_frames : forall narrow ly, frames triangles_after (TessModel.tessellator narrow ly).
Proof.
  intros narrow ly o s w. destruct o as [e|i n v]; unfold one; cbn [feed p_step p_prop TessModel.tessellator]; [|reflexivity].
  assert (P : TessModel.tess_step narrow ly (triangles_after w s) e =
    (triangles_after w (fst (TessModel.tess_step narrow ly s e)), snd (TessModel.tess_step narrow ly s e))).
  { destruct s as [st pa op ou]. destruct e; cbn [TessModel.tess_step]; try reflexivity;
      unfold triangles_after, TessModel.andthen, TessModel.close_started, TessModel.b_begin, TessModel.b_line, TessModel.b_close, TessModel.tessellate_line, TessModel.tessellate_poly, TessModel.set_started;
      cbn [TessModel.ts_started TessModel.ts_path TessModel.ts_open TessModel.ts_out].
    - destruct (Nat.eqb idx 0); [destruct (TessModel.checks ly && _)|destruct (TessModel.checks ly && _)]; reflexivity.
    - destruct st, (TessModel.checks ly), op, tagged; cbn; try reflexivity; destruct (TessModel.stroke ly _); reflexivity.
    - destruct st, (TessModel.checks ly), op; cbn; try reflexivity; destruct (TessModel.fill ly _) as [[vs ix]|]; try reflexivity;
        destruct (TessModel.threes ix); try reflexivity; cbn; rewrite !app_assoc; reflexivity. }
  rewrite P. destruct (TessModel.tess_step narrow ly s e) as [s' [[]|x]]; reflexivity.
Qed.

(** ** The theorems *)
Lemma text_stays : forall (p : proc string), frames text_after p -> stays chars p /\ unread chars text_after p.
Proof.
  intros p F. split.
  - apply (stays_by _ _ chars text_after p chars_after F). intros s. exists ""%string. split; [apply text_split|reflexivity].
  - apply (unread_by _ _ chars text_after p chars_after F).
Qed.
Theorem svg_stays : forall fmt c, stays chars (SvgModel.svg_writer fmt c) /\ unread chars text_after (SvgModel.svg_writer fmt c).
Proof. intros fmt c. apply text_stays, svg_frames. Qed.
Theorem json_stays : forall fmt32 fmt d,
  stays chars (GeoJsonModel.geojson_writer fmt32 fmt d) /\ unread chars text_after (GeoJsonModel.geojson_writer fmt32 fmt d).
Proof. intros fmt32 fmt d. apply text_stays, json_frames. Qed.
Theorem lines_stay : forall fmt32 fmt, let out s := chars (snd s) in
  stays out (GeoJsonModel.geojson_line_writer fmt32 fmt) /\ unread out lines_after (GeoJsonModel.geojson_line_writer fmt32 fmt).
Proof.
  intros fmt32 fmt out.
  assert (H : forall x s, out (lines_after x s) = x ++ out s) by (intros x s; apply chars_after).
  split; [|apply unread_by; [exact H|apply lines_frames]].
  apply (stays_by _ _ out lines_after _ H (lines_frames fmt32 fmt)). intros [n s]. exists (n, ""%string).
  split; [|reflexivity]. exact (f_equal (pair n) (text_split s)).
Qed.
Theorem wkt_stays : forall fmt c, let out s := chars (WktModel.k_out s) in
  stays out (WktModel.wkt_writer fmt c) /\ unread out wkt_after (WktModel.wkt_writer fmt c).
Proof.
  intros fmt c out.
  assert (H : forall x s, out (wkt_after x s) = x ++ out s) by (intros x s; apply chars_after).
  split; [|apply unread_by; [exact H|apply wkt_frames]].
  apply (stays_by _ _ out wkt_after _ H (wkt_frames fmt c)). intros [sr f sz o]. exists (WktModel.mkWktSt sr f sz ""%string).
  split; [|reflexivity]. exact (f_equal (WktModel.mkWktSt sr f sz) (text_split o)).
Qed.
Theorem wkb_stays : forall c, stays WkbModel.w_out (WkbModel.wkb_writer c) /\ unread WkbModel.w_out wkb_after (WkbModel.wkb_writer c).
Proof.
  intros c.
  assert (H : forall x s, WkbModel.w_out (wkb_after x s) = x ++ WkbModel.w_out s) by reflexivity.
  split; [|apply unread_by; [exact H|apply wkb_frames]].
  apply (stays_by _ _ _ wkb_after _ H (wkb_frames c)). intros [f g n o]. exists (WkbModel.mkWst f g n []).
  split; [|reflexivity]. unfold wkb_after. cbn. rewrite app_nil_r. reflexivity.
Qed.
Theorem csv_stays : forall fmt32 fmt debug d,
  stays csv_records (CsvModel.csv_writer fmt32 fmt debug d) /\ unread csv_records csv_after (CsvModel.csv_writer fmt32 fmt debug d).
Proof.
  intros fmt32 fmt debug d.
  assert (H : forall x s, csv_records (csv_after x s) = x ++ csv_records s) by reflexivity.
  split; [|apply unread_by; [exact H|apply csv_frames]].
  apply (stays_by _ _ _ csv_after _ H (csv_frames fmt32 fmt debug d)). intros [[a b k] h wr r q].
  exists (CsvModel.mkCsv (CsvModel.mkCsvOut a [] k) h wr r q). split; [|reflexivity]. unfold csv_after, csv_records. cbn. rewrite app_nil_r. reflexivity.
Qed.
Theorem features_stay : forall debug,
  stays GeoModel.f_features (GeoModel.feature_writer debug) /\ unread GeoModel.f_features features_after (GeoModel.feature_writer debug).
Proof.
  intros debug.
  assert (H : forall x s, GeoModel.f_features (features_after x s) = x ++ GeoModel.f_features s) by reflexivity.
  split; [|apply unread_by; [exact H|apply features_frames]].
  apply (stays_by _ _ _ features_after _ H (features_frames debug)). intros [a b k]. exists (GeoModel.mkGf a b []).
  split; [|reflexivity]. unfold features_after. cbn. rewrite app_nil_r. reflexivity.
Qed.
Theorem mvt_stays : forall gsize base64 debug c,
  stays MvtModel.mw_features (MvtModel.mvt_writer gsize base64 debug c) /\
  unread MvtModel.mw_features tile_after (MvtModel.mvt_writer gsize base64 debug c).
Proof.
  intros gsize base64 debug c.
  assert (H : forall x s, MvtModel.mw_features (tile_after x s) = x ++ MvtModel.mw_features s) by reflexivity.
  split; [|apply unread_by; [exact H|apply mvt_frames]].
  apply (stays_by _ _ _ tile_after _ H (mvt_frames gsize base64 debug c)). intros [a b d e f g h]. exists (MvtModel.mkMw [] b d e f g h).
  split; [|reflexivity]. unfold tile_after. cbn. rewrite app_nil_r. reflexivity.
Qed.
Theorem tess_stays : forall narrow ly,
  stays TessModel.ts_out (TessModel.tessellator narrow ly) /\ unread TessModel.ts_out triangles_after (TessModel.tessellator narrow ly).
Proof.
  intros narrow ly.
  assert (H : forall x s, TessModel.ts_out (triangles_after x s) = x ++ TessModel.ts_out s) by reflexivity.
  split; [|apply unread_by; [exact H|apply tess_frames]].
  apply (stays_by _ _ _ triangles_after _ H (tess_frames narrow ly)). intros [a b d e]. exists (TessModel.mkTs a b d []).
  split; [|reflexivity]. unfold triangles_after. cbn. rewrite app_nil_r. reflexivity.
Qed.
Lemma pieces_by : forall S A (out : S -> list A) after p s0 (cut : S -> Prop),
  (forall x s, out (after x s) = x ++ out s) -> frames after p ->
  (forall s, cut s -> s = after (out s) s0) -> pieces out p s0 cut.
Proof.
  intros S A out after p s0 cut H F D l1 l2 E C. rewrite feed_app. destruct (feed p l1 s0) as [s [x|x]]; [|discriminate E].
  cbn [fst snd] in *. pose proof (D s C) as Es. remember (out s) as w. rewrite Es, (frames_all S A after p F). cbn [fst snd]. rewrite H.
  split; reflexivity.
Qed.
Theorem svg_pieces : forall fmt c, pieces chars (SvgModel.svg_writer fmt c) ""%string (fun _ => True).
Proof.
  intros fmt c. apply (pieces_by _ _ chars text_after); [exact chars_after|apply svg_frames|]. intros s _. apply text_split.
Qed.
Theorem json_pieces : forall fmt32 fmt d, pieces chars (GeoJsonModel.geojson_writer fmt32 fmt d) ""%string (fun _ => True).
Proof.
  intros fmt32 fmt d. apply (pieces_by _ _ chars text_after); [exact chars_after|apply json_frames|]. intros s _. apply text_split.
Qed.
Theorem lines_pieces : forall fmt32 fmt,
  pieces (fun s => chars (snd s)) (GeoJsonModel.geojson_line_writer fmt32 fmt) (0, ""%string) (fun s => fst s = 0).
Proof.
  intros fmt32 fmt. apply (pieces_by _ _ (fun s => chars (snd s)) lines_after); [intros x s; apply chars_after|apply lines_frames|].
  intros [n s] E. cbn in E. subst n. exact (f_equal (pair 0) (text_split s)).
Qed.
(** ** Values are replaced, not added to *)
Definition two_points : list obs * list obs :=
  ([OEv (PointBegin 0); OEv (Xy 1%N 2%N 0); OEv (PointEnd 0)], [OEv (PointBegin 1); OEv (Xy 3%N 4%N 0); OEv (PointEnd 1)]).
Theorem geo_replaced : forall debug, let out s := match snd (GeoModel.take_geometry s) with Some g => [g] | None => [] end in
  ~ stays out (GeoModel.geo_writer debug).
Proof.
  intros debug out H. destruct (H (fst two_points) (snd two_points) GeoModel.gw_init) as [m E]. destruct debug; vm_compute in E; discriminate E.
Qed.
Theorem gdal_replaced : let out s := [GdalModel.g_geom s] in
  ~ stays out (GdalModel.gdal_writer xy_dims).
Proof. intros out H. destruct (H (fst two_points) (snd two_points) (GdalModel.gw_with xy_dims)) as [m E]. vm_compute in E. discriminate E. Qed.
Theorem geos_replaced : forall lib, let out s := [GeosModel.s_geom s] in ~ stays out (GeosModel.geos_writer lib).
Proof. intros lib out H. destruct (H (fst two_points) (snd two_points) GeosModel.gs_init) as [m E]. vm_compute in E. discriminate E. Qed.
