(** C89: text that is written grows by a fixed share per callback, and text converted from WKB is linear in
    the bytes. *)
From Coq Require Import String Ascii.
From Coq Require Import List NArith ZArith Lia Bool.
From Coq Require Import Init.Byte.
From Verif Require Import Base Float Event Claims ProcModel GeoJsonModel SvgModel WktModel WkbModel AmpSpec.
From Verif Require ShpModel CsvModel AmpTop AmpShp AmpCsv.
Import ListNotations.
Local Open Scope nat_scope.

(** Every sequence of callbacks, well formed or not, also if the writer refuses one. *)
Theorem C89_wkt : forall fmt c srid l s r, feed (wkt_writer fmt c) l (wkt_init srid) = (s, r) ->
  String.length (k_out s) <=
  match k_dialect c with Ewkt => srid_chars show_int srid | PlainWkt => 0 end +
  total (wkt_share (fun v => match k_dialect c with Ewkt => srid_chars show_int v | PlainWkt => 0 end) fmt) l.
Proof. intros fmt [d []]; [exact (AmpTop.wkt_grows (mkWktCfg d PlainWkt) fmt)|exact (AmpTop.wkt_grows (mkWktCfg d Ewkt) fmt)]. Qed.
Print Assumptions C89_wkt.
(** An SRID that the caller gave settles the prefix. *)
Theorem C89_wkt_srid : forall fmt c v l s r, feed (wkt_writer fmt c) l (wkt_init (Some v)) = (s, r) ->
  String.length (k_out s) <=
  match k_dialect c with Ewkt => srid_chars show_int (Some v) | PlainWkt => 0 end + total (wkt_share (fun _ => 0) fmt) l.
Proof. intros fmt [d []]; [exact (AmpTop.wkt_known_grows (mkWktCfg d PlainWkt) fmt)|exact (AmpTop.wkt_known_grows (mkWktCfg d Ewkt) fmt)]. Qed.
Print Assumptions C89_wkt_srid.
Theorem C89_json : forall fmt32 fmt d l out r, feed (geojson_writer fmt32 fmt d) l ""%string = (out, r) ->
  String.length out <= total (json_share (show_colval fmt32 fmt) fmt) l.
Proof. exact AmpTop.json_grows. Qed.
Print Assumptions C89_json.
Theorem C89_json_lines : forall fmt32 fmt l s r, feed (geojson_line_writer fmt32 fmt) l (0, ""%string) = (s, r) ->
  String.length (snd s) <= total (json_share (show_colval fmt32 fmt) fmt) l.
Proof. exact AmpTop.lines_grow. Qed.
Print Assumptions C89_json_lines.
Theorem C89_svg : forall fmt c l out r, feed (svg_writer fmt c) l ""%string = (out, r) ->
  String.length out <=
  total (svg_share (String.length (svg_header fmt c None)) (if sv_invert c then f64_neg else fun y => y) fmt) l.
Proof. exact AmpTop.svg_grows. Qed.
Print Assumptions C89_svg.
Theorem C89_wkb : forall c l s r, feed (wkb_writer c) l wst_init = (s, r) ->
  length (w_out s) <= wkb_prefix (w_dialect c) (w_envelope c) + total (wkb_share (w_dims c)) l.
Proof. exact AmpTop.wkb_grows. Qed.
Print Assumptions C89_wkb.
(** CSV: the table that was written, a separator counted with each field. *)
Theorem C89_csv : forall fmt32 fmt debug d l s r,
  feed (CsvModel.csv_writer fmt32 fmt debug d) l CsvModel.csv_init = (s, r) ->
  table_chars (CsvModel.o_records (CsvModel.cs_csv s)) <=
  field_chars "geometry" + total (csv_share (show_colval fmt32 fmt) fmt) l.
Proof. exact AmpCsv.csv_grows. Qed.
Print Assumptions C89_csv.

(** The shares are reached: these callbacks add all they may. *)
Theorem C89_reached : forall fmt fmt32,
  (forall d i, String.length (k_out (fst (feed (wkt_writer fmt (mkWktCfg d PlainWkt)) [OEv (CollectionBegin 0 (Datatypes.S i))] (wkt_init None)))) =
     total (wkt_share (fun _ => 0) fmt) [OEv (CollectionBegin 0 (Datatypes.S i))]) /\
  (forall d i, String.length (fst (feed (geojson_writer fmt32 fmt d) [OEv (FeatureBegin (Datatypes.S i)); OEv PropertiesBegin] ""%string)) =
     total (json_share (show_colval fmt32 fmt) fmt) [OEv (FeatureBegin (Datatypes.S i)); OEv PropertiesBegin]) /\
  (forall d x y i, String.length (fst (feed (geojson_writer fmt32 fmt d) [OEv (Xy x y (Datatypes.S i))] ""%string)) =
     total (json_share (show_colval fmt32 fmt) fmt) [OEv (Xy x y (Datatypes.S i))]) /\
  (forall c x y i, String.length (fst (feed (svg_writer fmt c) [OEv (DatasetBegin None); OEv (PointBegin i); OEv (Xy x y i); OEv (PointEnd i); OEv DatasetEnd] ""%string)) =
     total (svg_share (String.length (svg_header fmt c None)) (if sv_invert c then f64_neg else fun y => y) fmt)
       [OEv (DatasetBegin None); OEv (PointBegin i); OEv (Xy x y i); OEv (PointEnd i); OEv DatasetEnd]).
Proof. exact AmpTop.reached. Qed.
Print Assumptions C89_reached.

(** WKB in any dialect: whatever counts the bytes claim, the text is linear in their number. *)
Theorem C89_wkb_to_wkb : forall dl dl' b d srid env o,
  to_wkb_dialect (fun d => pbind (process_wkb_type_geom dl d b) (fun _ => pret tt)) dl' d srid env = Ok o ->
  length o <= wkb_prefix dl' env + 37 * length b.
Proof. exact AmpTop.wkb_bytes. Qed.
Print Assumptions C89_wkb_to_wkb.
Theorem C89_wkb_to_wkt : forall fmt B, (forall x, String.length (fmt x) <= B) -> forall dl b d srid t,
  to_wkt_with_opts fmt (fun d => process_wkb_type_geom dl d b) PlainWkt d srid = Ok t ->
  String.length t <= (25 + 4 * B) * length b.
Proof. exact AmpTop.wkb_plain_text. Qed.
Print Assumptions C89_wkb_to_wkt.
Theorem C89_wkb_to_ewkt : forall fmt B, (forall x, String.length (fmt x) <= B) -> forall dl b d v t,
  to_wkt_with_opts fmt (fun d => process_wkb_type_geom dl d b) Ewkt d (Some v) = Ok t ->
  String.length t <= srid_chars show_int (Some v) + (25 + 4 * B) * length b.
Proof. exact AmpTop.wkb_ewkt_text. Qed.
Print Assumptions C89_wkb_to_ewkt.
Theorem C89_wkb_to_json : forall fmt B, (forall x, String.length (fmt x) <= B) -> forall fmt32 dl b t,
  to_json fmt32 fmt (fun d => process_wkb_type_geom dl d b) = Ok t ->
  String.length t <= (48 + 3 * B) * length b.
Proof. exact AmpTop.wkb_json_text. Qed.
Print Assumptions C89_wkb_to_json.
Theorem C89_wkb_to_svg : forall fmt B, (forall x, String.length (fmt x) <= B) -> forall dl b t,
  to_svg fmt (fun d => process_wkb_type_geom dl d b) = Ok t ->
  String.length t <= (11 + 2 * B) * length b.
Proof. exact AmpTop.wkb_svg_text. Qed.
Print Assumptions C89_wkb_to_svg.
(** a formatter with short texts, and 21 bytes that are a point *)
Example C89_wkb_met : let fmt (x : f64) := if N.eqb x 0 then "0"%string else "12.5"%string in
  let b := [x01; x01; x00; x00; x00] ++ repeat x00 16 in
  (forall x, String.length (fmt x) <= 4) /\
  to_wkt fmt (fun d => process_wkb_type_geom Wkb d b) = Ok "POINT(0 0)"%string /\
  to_json (fun _ => ""%string) fmt (fun d => process_wkb_type_geom Wkb d b) = Ok "{""type"": ""Point"", ""coordinates"": [0,0]}"%string /\
  to_svg fmt (fun d => process_wkb_type_geom Wkb d b) = Ok "<path d=""M 0 0 Z""/>"%string /\
  to_wkb_dialect (fun d => pbind (process_wkb_type_geom Wkb d b) (fun _ => pret tt)) Wkb xy_dims None [] = Ok b.
Proof.
  split; [|split; [|split; [|split]]; reflexivity]. intros x. cbv beta zeta. destruct (N.eqb x 0); cbn; lia.
Qed.

(** The shapes of a shapefile, whatever it holds, with overflow checks; the loop may end with an error or be left
    early. *)
Theorem C89_shp_to_wkt : forall fmt B, (forall x, String.length (fmt x) <= B) -> forall c srid leftover n it,
  String.length (k_out (fst (ShpModel.consume_shapes true leftover (wkt_writer fmt c) n it (wkt_init srid)))) <=
  match k_dialect c with Ewkt => srid_chars show_int srid | PlainWkt => 0 end +
  (25 + 4 * B) * length (ShpModel.it_source it).
Proof.
  intros fmt B H [d []]; [exact (AmpShp.shp_wkt_text fmt B H (mkWktCfg d PlainWkt))|exact (AmpShp.shp_wkt_text fmt B H (mkWktCfg d Ewkt))].
Qed.
Print Assumptions C89_shp_to_wkt.
Theorem C89_shp_to_json : forall fmt B, (forall x, String.length (fmt x) <= B) -> forall fmt32 d leftover n it,
  String.length (fst (ShpModel.consume_shapes true leftover (geojson_writer fmt32 fmt d) n it ""%string)) <=
  (48 + 3 * B) * length (ShpModel.it_source it).
Proof. exact AmpShp.shp_json_text. Qed.
Print Assumptions C89_shp_to_json.
Theorem C89_shp_to_svg : forall fmt B, (forall x, String.length (fmt x) <= B) -> forall c leftover n it,
  String.length (fst (ShpModel.consume_shapes true leftover (svg_writer fmt c) n it ""%string)) <=
  (11 + 2 * B) * length (ShpModel.it_source it).
Proof. exact AmpShp.shp_svg_text. Qed.
Print Assumptions C89_shp_to_svg.
Theorem C89_shp_to_wkb : forall c leftover n it,
  length (w_out (fst (ShpModel.consume_shapes true leftover (wkb_writer c) n it wst_init))) <=
  wkb_prefix (w_dialect c) (w_envelope c) + 37 * length (ShpModel.it_source it).
Proof. exact AmpShp.shp_wkb_bytes. Qed.
Print Assumptions C89_shp_to_wkb.
(** Without overflow checks there are records of 52 + 24 k bytes that are converted, with success, to more than k * k
    characters. *)
Theorem C89_shp_unchecked_refuted : forall fmt fmt32 k, (N.of_nat k < 2 ^ 26)%N -> exists b t h,
  length b = 52 + 24 * k /\
  exec (geojson_writer fmt32 fmt xy_dims) (ShpModel.read_shape false xy_dims b) ""%string = (t, Ok (h, [])) /\
  k * k <= String.length t.
Proof. exact AmpShp.shp_quadratic. Qed.
Print Assumptions C89_shp_unchecked_refuted.
