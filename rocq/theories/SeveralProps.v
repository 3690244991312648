(** Property C79: sources that deliver several geometries, converted at once.
    Specification vocabulary: SeveralSpec.v, WkbSizeSpec.v ([gathered_blob]), Claims.v and the Spec files of the formats.
    Models: WktModel.v, GeoJsonModel.v, GeoModel.v, SvgModel.v, MvtModel.v, GeosModel.v, GdalModel.v, WkbModel.v,
    CsvModel.v. *)
From Coq Require Import String Ascii.
From Coq Require Import List NArith ZArith Lia Bool.
From Verif Require Import Base Event Claims Geom SeveralSpec SeveralText SeveralJson SeveralBin SeveralTop.
From Verif Require Import WktModel WktSpec.
From Verif Require EventLemmas WkbModel WkbSpec WkbClaims GeoModel GeoSpec GeoJsonRead GeoJsonModel GeoJsonSpec JsonSpec CsvModel CsvSpec SvgModel SvgSpec XmlSpec WkbSizeSpec SeveralBlob
  MvtModel MvtSpec GeosModel GeosSpec GeosWit GeosExactSpec GdalModel GdalSpec GdalExactSpec.
Import ListNotations.
Local Open Scope list_scope.

Definition two : list (nat * geom) := [(0%nat, GPoint (mkC 1%N 2%N None None)); (1%nat, GPoint (mkC 3%N 4%N None None))].
Definition two_source (d : dims) : prog unit := EventLemmas.ok_calls (parts (multi_dim d) two).
Definition two_gathered (d : dims) : prog unit := EventLemmas.ok_calls (gathered (multi_dim d) two).

(** ** WKT *)
(** One after the other: their texts, each with a comma before it unless its number is 0. *)
Theorem C79_wkt_bare : forall A (src : dims -> prog A) fmt d ps r z m, ps <> [] ->
  (multi_dim d = false -> z = false /\ m = false) ->
  (multi_dim d = true -> Forall (fun p => carries z m (snd p)) ps) ->
  delivers src (fun multi => parts multi ps) (Ok r) ->
  to_wkt_ndim fmt src d = Ok (cat (map (fun p => lead (fst p) ++ wkt_text fmt z m (snd p))%string ps)).
Proof. exact wkt_bare. Qed.
Print Assumptions C79_wkt_bare.
(** Of two or more that is not the text of a geometry. *)
Theorem C79_wkt_bare_refuted : forall A (src : dims -> prog A) fmt num d ps r z m, formats fmt num ->
  in_order ps -> (2 <= length ps)%nat -> Forall (fun p => exactly z m (snd p)) ps ->
  (multi_dim d = false -> z = false /\ m = false) ->
  (multi_dim d = true -> Forall (fun p => carries z m (snd p)) ps) ->
  delivers src (fun multi => parts multi ps) (Ok r) ->
  exists t, to_wkt_ndim fmt src d = Ok t /\ parse_wkt num z m t = None.
Proof. exact wkt_bare_lost. Qed.
Print Assumptions C79_wkt_bare_refuted.
(** Gathered: the text of the collection of all of them, exactly if the first has the number 0 and the
    others have not. *)
Theorem C79_wkt_exact : forall A (src : dims -> prog A) fmt d ps r z m,
  (multi_dim d = false -> z = false /\ m = false) ->
  (multi_dim d = true -> Forall (fun p => carries z m (snd p)) ps) ->
  delivers src (fun multi => gathered multi ps) (Ok r) ->
  (to_wkt_ndim fmt src d = Ok (wkt_text fmt z m (GCollection (map snd ps))) <-> in_order ps).
Proof. exact wkt_gathered_iff. Qed.
Print Assumptions C79_wkt_exact.

(** ** GeoJSON *)
Theorem C79_json_gathered : forall fmt32 fmt d num, GeoJsonSpec.json_format GeoJsonSpec.finite fmt num -> forall ps,
  Forall (fun p => GeoJsonSpec.geojson_kind (snd p) = true /\ GeoJsonSpec.finite_geom (multi_dim d) (snd p)) ps ->
  in_order ps ->
  exists out j, run (GeoJsonModel.geojson_writer fmt32 fmt d) (gathered (multi_dim d) ps) ""%string = (out, Ok tt) /\
    JsonSpec.parse_json out = Some j /\
    GeoJsonSpec.geometry_of num j = Some (GeoJsonSpec.kept_geom (multi_dim d) (GCollection (map snd ps))).
Proof. exact json_gathered. Qed.
Print Assumptions C79_json_gathered.
Theorem C79_json_unordered_refuted : forall fmt32 fmt d num, GeoJsonSpec.json_format GeoJsonSpec.finite fmt num -> forall ps,
  Forall (fun p => GeoJsonSpec.geojson_kind (snd p) = true /\ GeoJsonSpec.finite_geom (multi_dim d) (snd p)) ps ->
  ~ in_order ps ->
  exists out, run (GeoJsonModel.geojson_writer fmt32 fmt d) (gathered (multi_dim d) ps) ""%string = (out, Ok tt) /\
    JsonSpec.parse_json out = None.
Proof. exact json_gathered_bad. Qed.
Print Assumptions C79_json_unordered_refuted.
Theorem C79_json_bare_refuted : forall fmt32 fmt d num, GeoJsonSpec.json_format GeoJsonSpec.finite fmt num -> forall p q ps,
  Forall (fun p => GeoJsonSpec.geojson_kind (snd p) = true /\ GeoJsonSpec.finite_geom (multi_dim d) (snd p)) (p :: q :: ps) ->
  exists out, run (GeoJsonModel.geojson_writer fmt32 fmt d) (parts (multi_dim d) (p :: q :: ps)) ""%string = (out, Ok tt) /\
    JsonSpec.parse_json out = None.
Proof. exact json_parts_bad. Qed.
Print Assumptions C79_json_bare_refuted.
(** ... but it is the text between the brackets of an array of all of them. *)
Theorem C79_json_array : forall fmt32 fmt d num, GeoJsonSpec.json_format GeoJsonSpec.finite fmt num -> forall ps,
  Forall (fun p => GeoJsonSpec.geojson_kind (snd p) = true /\ GeoJsonSpec.finite_geom (multi_dim d) (snd p)) ps ->
  in_order ps ->
  exists out js, run (GeoJsonModel.geojson_writer fmt32 fmt d) (parts (multi_dim d) ps) ""%string = (out, Ok tt) /\
    JsonSpec.parse_json ("[" ++ out ++ "]")%string = Some (JsonSpec.JArr js) /\
    map (GeoJsonSpec.geometry_of num) js = map (fun p => Some (GeoJsonSpec.kept_geom (multi_dim d) (snd p))) ps.
Proof. exact json_parts. Qed.
Print Assumptions C79_json_array.
Example C79_two_met : in_order two /\ ~ in_order (tl two) /\
  Forall (fun p => carries false false (snd p)) two /\ Forall (fun p => exactly false false (snd p)) two /\
  Forall (fun p => GeoJsonSpec.geojson_kind (snd p) = true /\ GeoJsonSpec.finite_geom false (snd p)) two /\
  delivers two_source (fun multi => parts multi two) (Ok tt) /\ delivers two_gathered (fun multi => gathered multi two) (Ok tt).
Proof.
  refine (conj _ (conj _ (conj _ (conj _ (conj _ (conj _ _)))))).
  - split; [reflexivity|repeat constructor].
  - intros [H _]. discriminate H.
  - repeat constructor.
  - repeat constructor.
  - repeat constructor.
  - apply GeoJsonRead.delivers_calls. reflexivity.
  - apply GeoJsonRead.delivers_calls. reflexivity.
Qed.

(** ** geo-types, SVG, MVT: all of them *)
Theorem C79_geo : forall debug src ps u,
  Forall (fun p => GeoSpec.plain (snd p) = true /\ GeoSpec.small (snd p)) ps ->
  delivers src (fun multi => gathered multi ps) (Ok u) ->
  GeoModel.to_geo debug src = Ok (GeoModel.TCollection (map (fun p => GeoSpec.value_of (snd p)) ps)).
Proof. exact to_geo_gathered. Qed.
Print Assumptions C79_geo.
Theorem C79_svg : forall A (src : dims -> prog A) fmt ps r, (forall x, XmlSpec.xml_plain (fmt x) = true) ->
  Forall (fun p => SvgSpec.no_empty_point (snd p) = true) ps ->
  delivers src (fun multi => parts multi ps) (Ok r) \/ delivers src (fun multi => gathered multi ps) (Ok r) ->
  exists t, SvgModel.to_svg fmt src = Ok t /\
    XmlSpec.parse_xml t = Some (flat_map (fun p => SvgSpec.drawing fmt false (snd p)) ps).
Proof. exact to_svg_several. Qed.
Print Assumptions C79_svg.
Theorem C79_mvt : forall gsize base64 debug extent l b r t (src : dims -> prog unit) c ps u,
  MvtModel.mvt_new extent l b r t = Ok c -> (gsize = 48 \/ gsize = 56)%N ->
  Forall (fun p => GeoSpec.plain (snd p) = true /\ MvtSpec.tile_small gsize (snd p) /\
                   MvtSpec.drawable (MvtModel.transform c) (snd p) = true) ps ->
  let tiles := map (fun p => MvtSpec.tile_of (MvtModel.transform c) (snd p)) ps in
  (delivers src (fun multi => gathered multi ps) (Ok u) ->
   MvtModel.to_mvt gsize base64 debug extent l b r t src = Ok (MvtModel.mkMFeature None (MvtModel.MCollection tiles) [])) /\
  (ps <> [] -> delivers src (fun multi => parts multi ps) (Ok u) ->
   MvtModel.to_mvt gsize base64 debug extent l b r t src =
   Ok (MvtModel.mkMFeature None (match tiles with [one] => one | _ => MvtModel.MCollection tiles end) [])).
Proof. exact mvt_both. Qed.
Print Assumptions C79_mvt.
Example C79_values_met :
  Forall (fun p => GeoSpec.plain (snd p) = true /\ GeoSpec.small (snd p)) two /\
  Forall (fun p => SvgSpec.no_empty_point (snd p) = true) two /\
  Forall (fun p => MvtSpec.tile_small 56 (snd p)) two.
Proof. repeat constructor. Qed.

(** ** GEOS and GDAL: the last one *)
Theorem C79_geos_last_refuted : forall lib, GeosSpec.sane lib -> forall src ps p r,
  Forall (fun p => GeosSpec.simple (snd p) = true /\ GeosSpec.short_geom (snd p) /\ GeosSpec.accepted lib (snd p) = true) (ps ++ [p]) ->
  delivers src (fun multi => parts multi (ps ++ [p])) (Ok r) \/ delivers src (fun multi => gathered multi (ps ++ [p])) (Ok r) ->
  GeosModel.to_geos lib src = Ok (GeosModel.mkVal (GeosSpec.gvalue (snd p)) 0%Z).
Proof. exact geos_last. Qed.
Print Assumptions C79_geos_last_refuted.
Theorem C79_gdal_last_refuted : forall src ps p (r : unit),
  Forall (fun p => GdalSpec.simple (snd p) = true /\ GdalSpec.short_geom (snd p)) (ps ++ [p]) ->
  delivers src (fun multi => parts multi (ps ++ [p])) (Ok r) \/ delivers src (fun multi => gathered multi (ps ++ [p])) (Ok r) ->
  GdalModel.to_gdal src = Ok (GdalSpec.gvalue false (snd p)).
Proof. exact gdal_last. Qed.
Print Assumptions C79_gdal_last_refuted.
(** ... and of geometries of any kind: what their pieces, taken in one row, leave (the exact description of
    C21 and C77). *)
Theorem C79_geos : forall lib, GeosSpec.sane lib -> forall src ps r,
  let all := flat_map (fun p => GeosExactSpec.pieces (snd p)) ps in
  Forall GeosExactSpec.short_piece all ->
  delivers src (fun multi => parts multi ps) (Ok r) \/ delivers src (fun multi => gathered multi ps) (Ok r) ->
  (GeosExactSpec.pass lib None all = true -> GeosModel.to_geos lib src = Ok (GeosExactSpec.left_of all None)) /\
  (GeosExactSpec.pass lib None all = false -> exists e, GeosModel.to_geos lib src = Err e).
Proof. exact geos_several. Qed.
Print Assumptions C79_geos.
Theorem C79_gdal : forall src ps (r : unit),
  let all := flat_map (fun p => GeosExactSpec.pieces (snd p)) ps in
  Forall GdalExactSpec.short_piece all ->
  delivers src (fun multi => parts multi ps) (Ok r) \/ delivers src (fun multi => gathered multi ps) (Ok r) ->
  GdalModel.to_gdal src =
  match GdalExactSpec.takes all GdalExactSpec.start with Ok h => Ok (GdalExactSpec.held_value h) | Err e => Err e end.
Proof. exact gdal_several. Qed.
Print Assumptions C79_gdal.
Example C79_last_met :
  GeosSpec.sane GeosSpec.sample_lib /\
  Forall (fun p => GeosSpec.simple (snd p) = true /\ GeosSpec.short_geom (snd p) /\
                   GeosSpec.accepted GeosSpec.sample_lib (snd p) = true) two /\
  Forall (fun p => GdalSpec.simple (snd p) = true /\ GdalSpec.short_geom (snd p)) two /\
  Forall GeosExactSpec.short_piece (flat_map (fun p => GeosExactSpec.pieces (snd p)) two) /\
  Forall GdalExactSpec.short_piece (flat_map (fun p => GeosExactSpec.pieces (snd p)) two).
Proof.
  refine (conj _ (conj _ (conj _ (conj _ _)))); [|repeat constructor..]. exact (proj1 GeosWit.some_polygon_met).
Qed.

(** ** WKB: the first one *)
(** The bytes are those of a collection of one member, followed by the others. *)
Theorem C79_wkb_bytes : forall src dl d srid env p ps u, dl <> WkbModel.SpatiaLite -> WkbClaims.srid_ok dl srid ->
  Forall (fun p => WkbSpec.no_empty (snd p)) (p :: ps) -> delivers src (fun multi => gathered multi (p :: ps)) (Ok u) ->
  WkbModel.to_wkb_dialect src dl d srid env =
  Ok (WkbClaims.std dl d srid env xy_dims false false WkbClaims.little (GCollection [snd p]) ++
      flat_map (WkbClaims.later dl d) (map snd ps)).
Proof. exact to_wkb_gathered. Qed.
Print Assumptions C79_wkb_bytes.
(** So the reader, which takes a collection of one member, leaves the others unread. *)
Theorem C79_wkb_refuted : forall src dl d srid env p ps u, dl <> WkbModel.SpatiaLite -> WkbClaims.srid_ok dl srid ->
  WkbClaims.env_ok dl xy_dims env -> Forall (fun p => WkbSpec.conforming (dz d) (dm d) (snd p)) (p :: ps) ->
  WkbSpec.encodable (snd p) -> (WkbSpec.levels (snd p) <= 127)%nat ->
  delivers src (fun multi => gathered multi (p :: ps)) (Ok u) ->
  exists b, WkbModel.to_wkb_dialect src dl d srid env = Ok b /\
    delivers (fun dr => WkbModel.process_wkb_type_geom dl dr b)
      (fun multi => Srid (WkbClaims.reported_srid dl srid) :: gevents multi 0 (GCollection [snd p]))
      (Ok (tt, flat_map (WkbClaims.later dl d) (map snd ps))).
Proof. exact gathered_lost. Qed.
Print Assumptions C79_wkb_refuted.
(** SpatiaLite: the others stand before the end mark, and are left unread too. *)
Theorem C79_spatialite_bytes : forall src d srid env p ps u,
  Forall (fun p => WkbSpec.no_empty (snd p)) (p :: ps) -> delivers src (fun multi => gathered multi (p :: ps)) (Ok u) ->
  WkbModel.to_wkb_dialect src WkbModel.SpatiaLite d srid env = Ok (WkbSizeSpec.gathered_blob d srid env (map snd (p :: ps))).
Proof. exact SeveralBlob.to_blob_gathered. Qed.
Print Assumptions C79_spatialite_bytes.
Theorem C79_spatialite_refuted : forall src d srid env p ps u,
  WkbClaims.srid_ok WkbModel.SpatiaLite srid -> WkbClaims.env_ok WkbModel.SpatiaLite xy_dims env ->
  Forall (fun p => WkbSpec.conforming (dz d) (dm d) (snd p)) (p :: ps) ->
  WkbSpec.encodable (snd p) -> (WkbSpec.levels (snd p) <= 127)%nat ->
  delivers src (fun multi => gathered multi (p :: ps)) (Ok u) ->
  exists b, WkbModel.to_wkb_dialect src WkbModel.SpatiaLite d srid env = Ok b /\
    delivers (fun dr => WkbModel.process_wkb_type_geom WkbModel.SpatiaLite dr b)
      (fun multi => Srid (WkbClaims.reported_srid WkbModel.SpatiaLite srid) :: gevents multi 0 (GCollection [snd p]))
      (Ok (tt, flat_map (WkbSizeSpec.blob_member (dz d) (dm d)) (map snd ps) ++ [Init.Byte.xfe])).
Proof. exact SeveralBlob.blob_lost. Qed.
Print Assumptions C79_spatialite_refuted.
Example C79_wkb_met : WkbClaims.srid_ok WkbModel.Wkb None /\ WkbClaims.srid_ok WkbModel.SpatiaLite None /\
  WkbClaims.env_ok WkbModel.SpatiaLite xy_dims [] /\ WkbClaims.env_ok WkbModel.Wkb xy_dims [] /\
  Forall (fun p => WkbSpec.no_empty (snd p)) two /\ Forall (fun p => WkbSpec.conforming false false (snd p)) two /\
  Forall (fun p => WkbSpec.encodable (snd p)) two.
Proof. repeat constructor. Qed.

(** ** The readers that deliver several *)
(** A CSV table becomes the collection of its geometries in WKT, geo-types and GeoJSON. *)
Theorem C79_csv_wkt : forall parse column headers gi rs gs, CsvSpec.first_at column headers gi ->
  Forall2 (CsvSpec.is_member parse gi) rs gs -> forall fmt,
  to_wkt fmt (fun d => CsvModel.process_csv_geom parse (multi_dim d) column (Ok headers) (map Ok rs)) =
  Ok (wkt_text fmt false false (GCollection gs)).
Proof. exact csv_wkt. Qed.
Print Assumptions C79_csv_wkt.
Theorem C79_csv_geo : forall parse column headers gi rs gs, CsvSpec.first_at column headers gi ->
  Forall2 (CsvSpec.is_member parse gi) rs gs -> forall debug,
  Forall (fun g => GeoSpec.plain g = true /\ GeoSpec.small g) gs ->
  GeoModel.to_geo debug (fun d => CsvModel.process_csv_geom parse (multi_dim d) column (Ok headers) (map Ok rs)) =
  Ok (GeoModel.TCollection (map GeoSpec.value_of gs)).
Proof. exact csv_geo. Qed.
Print Assumptions C79_csv_geo.
Theorem C79_csv_json : forall parse column headers gi rs gs, CsvSpec.first_at column headers gi ->
  Forall2 (CsvSpec.is_member parse gi) rs gs -> forall fmt32 fmt num, GeoJsonSpec.json_format GeoJsonSpec.finite fmt num ->
  Forall (fun g => GeoJsonSpec.geojson_kind g = true /\ GeoJsonSpec.finite_geom false g) gs ->
  exists t j,
    GeoJsonModel.to_json fmt32 fmt (fun d => CsvModel.process_csv_geom parse (multi_dim d) column (Ok headers) (map Ok rs)) = Ok t /\
    JsonSpec.parse_json t = Some j /\
    GeoJsonSpec.geometry_of num j = Some (GeoJsonSpec.kept_geom false (GCollection gs)).
Proof. exact csv_json. Qed.
Print Assumptions C79_csv_json.
(** Lines of GeoJSON likewise, if no line without a geometry stands before the first one with a geometry. *)
Theorem C79_lines_wkt : forall l ts, Forall GeoJsonSpec.no_collection l ->
  Forall2 GeoJsonSpec.member_of (GeoJsonSpec.line_members 0 l) ts -> forall fmt,
  to_wkt fmt (fun d => GeoJsonModel.read_geojson_line_geometries (multi_dim d) (map Ok l)) =
  Ok (wkt_text fmt false false (GCollection (map snd ts))) <-> in_order ts.
Proof. exact lines_wkt. Qed.
Print Assumptions C79_lines_wkt.
Theorem C79_lines_json : forall l ts, Forall GeoJsonSpec.no_collection l ->
  Forall2 GeoJsonSpec.member_of (GeoJsonSpec.line_members 0 l) ts -> forall fmt32 fmt num,
  GeoJsonSpec.json_format GeoJsonSpec.finite fmt num ->
  Forall (fun p => GeoJsonSpec.geojson_kind (snd p) = true /\ GeoJsonSpec.finite_geom false (snd p)) ts ->
  exists t,
    GeoJsonModel.to_json fmt32 fmt (fun d => GeoJsonModel.read_geojson_line_geometries (multi_dim d) (map Ok l)) = Ok t /\
    (in_order ts -> exists j, JsonSpec.parse_json t = Some j /\
       GeoJsonSpec.geometry_of num j = Some (GeoJsonSpec.kept_geom false (GCollection (map snd ts)))) /\
    (~ in_order ts -> JsonSpec.parse_json t = None).
Proof. exact lines_json. Qed.
Print Assumptions C79_lines_json.
Theorem C79_lines_geo : forall l ts, Forall GeoJsonSpec.no_collection l ->
  Forall2 GeoJsonSpec.member_of (GeoJsonSpec.line_members 0 l) ts -> forall debug,
  Forall (fun p => GeoSpec.plain (snd p) = true /\ GeoSpec.small (snd p)) ts ->
  GeoModel.to_geo debug (fun d => GeoJsonModel.read_geojson_line_geometries (multi_dim d) (map Ok l)) =
  Ok (GeoModel.TCollection (map GeoSpec.value_of (map snd ts))).
Proof. exact lines_geo. Qed.
Print Assumptions C79_lines_geo.
(** Two lines with points, and the second of them after a line without a geometry. *)
Definition feature_line (x : N) : GeoJsonModel.gj :=
  GeoJsonModel.GjFeature (GeoJsonModel.mkGjFeature (Some (GeoJsonModel.GjPoint [x; x])) None).
Definition blank_line : GeoJsonModel.gj := GeoJsonModel.GjFeature (GeoJsonModel.mkGjFeature None None).
Example C79_lines_met :
  Forall2 GeoJsonSpec.member_of (GeoJsonSpec.line_members 0 [feature_line 1; blank_line; feature_line 3])
    [(0%nat, GPoint (mkC 1%N 1%N None None)); (2%nat, GPoint (mkC 3%N 3%N None None))] /\
  Forall2 GeoJsonSpec.member_of (GeoJsonSpec.line_members 0 [blank_line; feature_line 3])
    [(1%nat, GPoint (mkC 3%N 3%N None None))] /\
  in_order [(0%nat, GPoint (mkC 1%N 1%N None None)); (2%nat, GPoint (mkC 3%N 3%N None None))] /\
  ~ in_order [(1%nat, GPoint (mkC 3%N 3%N None None))].
Proof.
  refine (conj _ (conj _ (conj _ _))); [repeat constructor|repeat constructor|split; [reflexivity|repeat constructor]|].
  intros [H _]. discriminate H.
Qed.
(** A GeoJSON document with two or more geometries: WKT and GeoJSON are not the texts of a geometry, geo-types
    joins them, GEOS and GDAL keep the last one. *)
Theorem C79_document_wkt_refuted : forall g ts, Forall2 (fun g t => GeoJsonSpec.tree_of g = Some t) (GeoJsonSpec.doc_members g) ts ->
  forall fmt num, formats fmt num -> (2 <= length ts)%nat -> Forall (exactly false false) ts ->
  exists t, to_wkt fmt (fun d => GeoJsonModel.read_geojson_geom (multi_dim d) (Ok g)) = Ok t /\
    parse_wkt num false false t = None.
Proof. exact doc_unreadable. Qed.
Print Assumptions C79_document_wkt_refuted.
Theorem C79_document_wkt_bytes : forall g ts, Forall2 (fun g t => GeoJsonSpec.tree_of g = Some t) (GeoJsonSpec.doc_members g) ts ->
  forall fmt, ts <> [] ->
  to_wkt fmt (fun d => GeoJsonModel.read_geojson_geom (multi_dim d) (Ok g)) =
  Ok (String.concat "," (map (wkt_text fmt false false) ts)).
Proof. exact doc_wkt. Qed.
Print Assumptions C79_document_wkt_bytes.
Theorem C79_document_json_refuted : forall g ts, Forall2 (fun g t => GeoJsonSpec.tree_of g = Some t) (GeoJsonSpec.doc_members g) ts ->
  forall fmt32 fmt num, GeoJsonSpec.json_format GeoJsonSpec.finite fmt num -> (2 <= length ts)%nat ->
  Forall (fun t => GeoJsonSpec.geojson_kind t = true /\ GeoJsonSpec.finite_geom false t) ts ->
  exists t js, GeoJsonModel.to_json fmt32 fmt (fun d => GeoJsonModel.read_geojson_geom (multi_dim d) (Ok g)) = Ok t /\
    JsonSpec.parse_json t = None /\
    JsonSpec.parse_json ("[" ++ t ++ "]")%string = Some (JsonSpec.JArr js) /\
    map (GeoJsonSpec.geometry_of num) js = map (fun t => Some (GeoJsonSpec.kept_geom false t)) ts.
Proof. exact doc_json. Qed.
Print Assumptions C79_document_json_refuted.
Theorem C79_document_geo : forall g ts, Forall2 (fun g t => GeoJsonSpec.tree_of g = Some t) (GeoJsonSpec.doc_members g) ts ->
  forall debug, ts <> [] -> forallb GeoSpec.plain ts = true -> Forall GeoSpec.small ts ->
  GeoModel.to_geo debug (fun d => GeoJsonModel.read_geojson_geom (multi_dim d) (Ok g)) = Ok (GeoSpec.joined ts).
Proof. exact doc_geo. Qed.
Print Assumptions C79_document_geo.
Theorem C79_document_geos_refuted : forall g ts, Forall2 (fun g t => GeoJsonSpec.tree_of g = Some t) (GeoJsonSpec.doc_members g) ts ->
  forall lib t l, GeosSpec.sane lib -> ts = l ++ [t] ->
  Forall (fun t => GeosSpec.simple t = true /\ GeosSpec.short_geom t /\ GeosSpec.accepted lib t = true) ts ->
  GeosModel.to_geos lib (fun d => GeoJsonModel.read_geojson_geom (multi_dim d) (Ok g)) =
  Ok (GeosModel.mkVal (GeosSpec.gvalue t) 0%Z).
Proof. exact doc_geos. Qed.
Print Assumptions C79_document_geos_refuted.
Theorem C79_document_gdal_refuted : forall g ts, Forall2 (fun g t => GeoJsonSpec.tree_of g = Some t) (GeoJsonSpec.doc_members g) ts ->
  forall t l, ts = l ++ [t] -> Forall (fun t => GdalSpec.simple t = true /\ GdalSpec.short_geom t) ts ->
  GdalModel.to_gdal (fun d => GeoJsonModel.read_geojson_geom (multi_dim d) (Ok g)) = Ok (GdalSpec.gvalue false t).
Proof. exact doc_gdal. Qed.
Print Assumptions C79_document_gdal_refuted.
Example C79_document_met :
  let doc := GeoJsonModel.GjFeatures [GeoJsonModel.mkGjFeature (Some (GeoJsonModel.GjPoint [1; 2]%N)) None;
                                        GeoJsonModel.mkGjFeature (Some (GeoJsonModel.GjPoint [3; 4]%N)) None] in
  Forall2 (fun g t => GeoJsonSpec.tree_of g = Some t) (GeoJsonSpec.doc_members doc) (map snd two) /\
  Forall (exactly false false) (map snd two) /\ (2 <= length (map snd two))%nat.
Proof. cbv zeta. refine (conj _ (conj _ _)); [repeat constructor|repeat constructor|cbn; lia]. Qed.
