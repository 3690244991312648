(** C81: what a writer makes of the numbers (`idx`) and announced sizes (`size`) in the callbacks.  Read with:
    NumbersSpec.v ([same_stream], [heeds_only] and what each writer heeds: [use_wkb], [use_wkt], ...).
    The streams are any lists of callbacks, also unbalanced ones, and the writer may be in any state. *)
From Coq Require Import String Ascii.
From Coq Require Import List NArith ZArith Lia Bool.
From Verif Require Import Base Float Event ProcModel Claims NumbersSpec NumbersTop.
From Verif Require WkbModel WktModel GeoJsonModel CsvModel SvgModel GeoModel MvtModel GeosModel GdalModel
  TessModel.
Import ListNotations.
Local Open Scope list_scope.

(** SVG text depends on no number and no size. *)
Theorem C81_svg : forall fmt c, heeds_only use_none (SvgModel.svg_writer fmt c).
Proof. exact svg_heeds. Qed.
Print Assumptions C81_svg.
Example C81_svg_met : same_stream use_none
  [OEv (LineStringBegin true 2 0); OEv (Xy 1%N 2%N 0); OEv (Xy 3%N 4%N 1); OEv (LineStringEnd true 0)]
  [OEv (LineStringBegin true 7 3); OEv (Xy 1%N 2%N 9); OEv (Xy 3%N 4%N 0); OEv (LineStringEnd true 5)].
Proof. repeat constructor. Qed.

(** Nor do bounds. *)
Theorem C81_bounds : heeds_only use_none bounds_proc.
Proof. exact bounds_heeds. Qed.
Print Assumptions C81_bounds.

(** WKB of every dialect has the low 32 bits of the announced sizes and no number. *)
Theorem C81_wkb : forall c, heeds_only use_wkb (WkbModel.wkb_writer c).
Proof. exact wkb_heeds. Qed.
Print Assumptions C81_wkb.
Example C81_wkb_met : same_stream use_wkb
  [OEv (LineStringBegin true 2 0); OEv (Xy 1%N 2%N 0); OEv (Xy 3%N 4%N 1); OEv (LineStringEnd true 0)]
  [OEv (LineStringBegin true 2 3); OEv (Xy 1%N 2%N 9); OEv (Xy 3%N 4%N 0); OEv (LineStringEnd true 5)].
Proof. repeat constructor. Qed.

(** Those 32 bits are in the output. *)
Theorem C81_wkb_exact : forall c s a b i,
  snd (WkbModel.wkb_step c s (CollectionBegin a i)) = Ok tt ->
  (WkbModel.w_out (fst (WkbModel.wkb_step c s (CollectionBegin a i))) =
   WkbModel.w_out (fst (WkbModel.wkb_step c s (CollectionBegin b i))) <-> u32_alike a b).
Proof. exact wkb_size_exact. Qed.
Print Assumptions C81_wkb_exact.
Example C81_wkb_exact_met :
  let c := WkbModel.mkWcfg xy_dims xy_dims None [] xy_dims false false LE WkbModel.Wkb in
  snd (WkbModel.wkb_step c (WkbModel.mkWst true WkbModel.Normal 0 []) (CollectionBegin 3 0)) = Ok tt.
Proof. reflexivity. Qed.

(** WKT and EWKT depend on whether a number is 0 and whether an announced size is 0. *)
Theorem C81_wkt : forall fmt c l l' s, same_stream use_wkt l l' ->
  WktModel.k_out (fst (feed (WktModel.wkt_writer fmt c) l s)) =
  WktModel.k_out (fst (feed (WktModel.wkt_writer fmt c) l' s)) /\
  snd (feed (WktModel.wkt_writer fmt c) l s) = snd (feed (WktModel.wkt_writer fmt c) l' s).
Proof. exact wkt_heeds. Qed.
Print Assumptions C81_wkt.
Example C81_wkt_met : same_stream use_wkt
  [OEv (LineStringBegin true 2 0); OEv (Xy 1%N 2%N 0); OEv (Xy 3%N 4%N 1); OEv (LineStringEnd true 0)]
  [OEv (LineStringBegin true 7 0); OEv (Xy 1%N 2%N 0); OEv (Xy 3%N 4%N 5); OEv (LineStringEnd true 5)].
Proof. repeat constructor; discriminate. Qed.

(** Both show in the text. *)
Theorem C81_wkt_exact : forall fmt c s,
  (forall x y i j,
     WktModel.k_out (fst (WktModel.wkt_step fmt c s (Xy x y i))) =
     WktModel.k_out (fst (WktModel.wkt_step fmt c s (Xy x y j))) <-> zero_alike i j) /\
  (forall t a b i,
     WktModel.k_out (fst (WktModel.wkt_step fmt c s (LineStringBegin t a i))) =
     WktModel.k_out (fst (WktModel.wkt_step fmt c s (LineStringBegin t b i))) <-> zero_alike a b).
Proof. exact (fun fmt c s => conj (wkt_position_exact fmt c s) (wkt_size_exact fmt c s)). Qed.
Print Assumptions C81_wkt_exact.

(** CSV as WKT, and on the numbers of properties. *)
Theorem C81_csv : forall fmt32 fmt debug d l l' s, same_stream use_csv l l' ->
  CsvModel.cs_csv (fst (feed (CsvModel.csv_writer fmt32 fmt debug d) l s)) =
  CsvModel.cs_csv (fst (feed (CsvModel.csv_writer fmt32 fmt debug d) l' s)) /\
  snd (feed (CsvModel.csv_writer fmt32 fmt debug d) l s) = snd (feed (CsvModel.csv_writer fmt32 fmt debug d) l' s).
Proof. exact csv_heeds. Qed.
Print Assumptions C81_csv.
Example C81_csv_met : same_stream use_csv
  [OEv (FeatureBegin 0); OProp 0 "a"%string (CBool true); OEv (PointBegin 0); OEv (Xy 1%N 2%N 0); OEv (PointEnd 0); OEv (FeatureEnd 0)]
  [OEv (FeatureBegin 8); OProp 0 "a"%string (CBool true); OEv (PointBegin 0); OEv (Xy 1%N 2%N 0); OEv (PointEnd 3); OEv (FeatureEnd 1)].
Proof. repeat constructor. Qed.

(** A property under another number can make the CSV writer fail. *)
Theorem C81_csv_refuted : forall fmt32 fmt debug d, exists l l' s,
  same_stream (mkUse same same same any same same) l l' /\
  snd (feed (CsvModel.csv_writer fmt32 fmt debug d) l s) <> snd (feed (CsvModel.csv_writer fmt32 fmt debug d) l' s).
Proof. exact csv_numbers_matter. Qed.
Print Assumptions C81_csv_refuted.

(** GeoJSON depends on whether a number is 0, and on no size. *)
Theorem C81_geojson : forall fmt32 fmt d,
  heeds_only use_json (GeoJsonModel.geojson_writer fmt32 fmt d).
Proof. exact json_heeds. Qed.
Print Assumptions C81_geojson.
Example C81_geojson_met : same_stream use_json
  [OEv (FeatureBegin 1); OProp 1 "a"%string (CBool true); OEv (MultiPointBegin 1 0); OEv (Xy 1%N 2%N 0); OEv (FeatureEnd 0)]
  [OEv (FeatureBegin 8); OProp 2 "a"%string (CBool true); OEv (MultiPointBegin 0 0); OEv (Xy 1%N 2%N 0); OEv (FeatureEnd 1)].
Proof. repeat constructor; discriminate. Qed.

(** Which shows in the text. *)
Theorem C81_geojson_exact : forall fmt s,
  (forall x y i j,
     fst (GeoJsonModel.gj_step fmt s (Xy x y i)) = fst (GeoJsonModel.gj_step fmt s (Xy x y j)) <-> zero_alike i j) /\
  (forall i j,
     fst (GeoJsonModel.gj_step fmt s (FeatureBegin i)) = fst (GeoJsonModel.gj_step fmt s (FeatureBegin j)) <-> zero_alike i j).
Proof. exact (fun fmt s => conj (json_position_exact fmt s) (json_feature_exact fmt s)). Qed.
Print Assumptions C81_geojson_exact.

(** In GeoJSON text sequences the numbers of features do not matter either. *)
Theorem C81_geojson_lines : forall fmt32 fmt,
  heeds_only use_lines (GeoJsonModel.geojson_line_writer fmt32 fmt).
Proof. exact lines_heeds. Qed.
Print Assumptions C81_geojson_lines.

(** geo-types values depend on no number, and on announced sizes only through the allocation budget. *)
Theorem C81_geo : forall debug,
  heeds_only use_geo (GeoModel.geo_writer debug).
Proof. exact geo_heeds. Qed.
Print Assumptions C81_geo.
Example C81_geo_met : same_stream use_geo
  [OEv (LineStringBegin true 2 0); OEv (Xy 1%N 2%N 0); OEv (Xy 3%N 4%N 1); OEv (LineStringEnd true 0)]
  [OEv (LineStringBegin true 999 3); OEv (Xy 1%N 2%N 9); OEv (Xy 3%N 4%N 0); OEv (LineStringEnd true 5)].
Proof. repeat (constructor; try exact I; try (intros _; vm_compute; discriminate)). Qed.

(** So do features of geo-types values. *)
Theorem C81_features : forall debug, heeds_only use_geo (GeoModel.feature_writer debug).
Proof. exact feature_heeds. Qed.
Print Assumptions C81_features.

(** Over the budget, the writer refuses. *)
Theorem C81_geo_exact : forall debug s t a b i, GeoModel.g_coords s = None ->
  (GeoModel.geo_step debug s (LineStringBegin t a i) = GeoModel.geo_step debug s (LineStringBegin t b i) <->
   budget_alike [16]%N a b).
Proof. exact geo_size_exact. Qed.
Print Assumptions C81_geo_exact.
Example C81_geo_exact_met : GeoModel.g_coords GeoModel.gw_init = None.
Proof. reflexivity. Qed.

(** Vector tiles as geo-types values. *)
Theorem C81_mvt : forall gsize base64 debug c,
  heeds_only (use_mvt gsize) (MvtModel.mvt_writer gsize base64 debug c).
Proof. exact mvt_heeds. Qed.
Print Assumptions C81_mvt.

(** GEOS geometries depend on the numbers of positions and on announced sizes. *)
Theorem C81_geos : forall lib,
  heeds_only (use_geos (GeosModel.seq_bytes lib) (GeosModel.geom_bytes lib)) (GeosModel.geos_writer lib).
Proof. exact geos_heeds. Qed.
Print Assumptions C81_geos.

(** A line has as many positions as announced, modulo 2^32. *)
Theorem C81_geos_exact : forall lib s t a b i,
  GeosModel.geos_step lib s (LineStringBegin t a i) = GeosModel.geos_step lib s (LineStringBegin t b i) <-> u32_alike a b.
Proof. exact geos_size_exact. Qed.
Print Assumptions C81_geos_exact.

(** GDAL geometries depend on the numbers of positions only. *)
Theorem C81_gdal : forall d, heeds_only use_gdal (GdalModel.gdal_writer d).
Proof. exact gdal_heeds. Qed.
Print Assumptions C81_gdal.
Example C81_gdal_met : same_stream use_gdal
  [OEv (LineStringBegin true 2 0); OEv (Xy 1%N 2%N 0); OEv (Xy 3%N 4%N 1); OEv (LineStringEnd true 0)]
  [OEv (LineStringBegin true 0 3); OEv (Xy 1%N 2%N 0); OEv (Xy 3%N 4%N 1); OEv (LineStringEnd true 5)].
Proof. repeat constructor. Qed.

(** On those they do depend. *)
Theorem C81_gdal_refuted : ~ heeds_only use_none (GdalModel.gdal_writer xy_dims).
Proof. exact gdal_numbers_matter. Qed.
Print Assumptions C81_gdal_refuted.

(** The tessellator heeds only whether a position is the first. *)
Theorem C81_tessellator : forall narrow ly,
  heeds_only use_tess (TessModel.tessellator narrow ly).
Proof. exact tess_heeds. Qed.
Print Assumptions C81_tessellator.

(** That it does heed. *)
Theorem C81_tessellator_refuted : forall narrow ly, ~ heeds_only use_none (TessModel.tessellator narrow ly).
Proof. exact tess_numbers_matter. Qed.
Print Assumptions C81_tessellator_refuted.

(** A processor that passes callbacks on heeds no more than those it passes them to. *)
Theorem C81_through : forall u S (p : proc S) S2 (p2 : proc S2) f,
  heeds_only u p -> heeds_only u p2 ->
  heeds_only u (wrapped_xy f p) /\ heeds_only u (datasource_geom p) /\ heeds_only u (multiplexer p p2).
Proof. exact (fun u S p S2 p2 f A B =>
  conj (wrapped_heeds S p f u A) (conj (datasource_heeds S p u A) (mux_heeds S S2 p p2 u A B))). Qed.
Print Assumptions C81_through.
Example C81_through_met : heeds_only use_none bounds_proc /\ heeds_only use_none (SvgModel.svg_writer (fun _ => EmptyString) (SvgModel.svg_new false)).
Proof. split; [exact bounds_heeds|apply svg_heeds]. Qed.
