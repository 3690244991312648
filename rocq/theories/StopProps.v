(** C60 and C61: stop requests, and shapefiles into the writers. *)
From Coq Require Import String Ascii.
From Coq Require Import List NArith ZArith Lia Bool.
From Verif Require Import Base Event Claims Geom FeatureSpec ProcModel JsonSpec GeoJsonModel GeoJsonSpec GeoJsonProps GeoJsonRead
  XmlSpec CsvModel CsvSpec CsvTop CsvProps SvgModel SvgSpec SvgTop GeoModel GeoSpec MvtModel MvtSpec MvtWit MvtProps MvtRead
  ShpModel ShpSpec ShpMore StopSpec StopTop StopConv StopWit.
Import ListNotations.
Local Open Scope list_scope.

(** C60.  A processor that answers `property` with `true` asks for no more properties of this
    feature.  The shapefile reader delivers the attributes that are not null up to and including the
    first for which that happens; everything else is delivered all the same. *)
Theorem C60_shp_stops : forall ck leftover d stop h l rest more after,
  Forall entry_ok l -> announces h l ->
  exists it evs, iter_features ck h (shp_body l ++ rest)
                   (Some (map (fun f => Ok (en_record f)) l ++ more, after)) = Ok it /\
    events_of d l evs /\
    consume ck leftover (asker d stop) (S (length l)) it [] = (heard stop (combine l evs), Some (Ok tt)).
Proof. exact shp_stops. Qed.
Print Assumptions C60_shp_stops.
Example C60_shp_stops_met : Forall entry_ok places /\ announces places_header places.
Proof. split; [exact places_ok|exact places_announced]. Qed.
Example C60_stop_at_note :
  heard_feature (fun _ n _ => String.eqb n "name") 0 (place "a" Null, []) <>
  heard_feature (fun _ n _ => false) 0 (place "a" Null, []).
Proof. discriminate. Qed.
(** The other readers do not look at the answer: GeoJSON, newline delimited GeoJSON, CSV and vector
    tiles deliver every property whatever the processor asks for. *)
Theorem C60_geojson_refuted : forall ser l fs d stop, Forall2 (is_feature_of ser) l fs ->
  exec (asker d stop) (read_geojson ser (multi_dim d) (Ok (GjFeatures l))) [] =
  (OEv (DatasetBegin None) ::
   flat_mapi (fun i f => FeatureSpec.feature_obs (multi_dim d) i i f) 0 fs ++ [OEv DatasetEnd], Ok tt).
Proof.
  intros ser l fs d stop H.
  exact (never_asked _ (fun d => read_geojson ser (multi_dim d) (Ok (GjFeatures l)))
    (fun multi => OEv (DatasetBegin None) ::
                  flat_mapi (fun i f => FeatureSpec.feature_obs multi i i f) 0 fs ++ [OEv DatasetEnd]) tt d stop
    (proj1 (C23_collection ser l fs H))).
Qed.
Print Assumptions C60_geojson_refuted.
Theorem C60_lines_refuted : forall ser l fs d stop, Forall2 (is_feature_of ser) l fs ->
  exec (asker d stop) (read_geojson_lines ser (multi_dim d) (map (fun f => Ok (GjFeature f)) l)) [] =
  (FeatureSpec.dataset_obs (multi_dim d) None fs, Ok tt).
Proof.
  intros ser l fs d stop H.
  exact (never_asked _ (fun d => read_geojson_lines ser (multi_dim d) (map (fun f => Ok (GjFeature f)) l))
    (fun multi => FeatureSpec.dataset_obs multi None fs) tt d stop (proj1 (C23_lines ser l fs H))).
Qed.
Print Assumptions C60_lines_refuted.
Theorem C60_csv_refuted : forall parse column headers gi rs l d stop, first_at column headers gi ->
  Forall2 (is_record parse headers gi) rs l ->
  exec (asker d stop) (process_csv_features parse (multi_dim d) column (Ok headers) (map Ok rs)) [] =
  (FeatureSpec.dataset_obs (multi_dim d) None l, Ok tt).
Proof.
  intros parse column headers gi rs l d stop H1 H2.
  exact (never_asked _ (fun d => process_csv_features parse (multi_dim d) column (Ok headers) (map Ok rs))
    (fun multi => FeatureSpec.dataset_obs multi None l) tt d stop (C28_features parse column headers gi rs l H1 H2)).
Qed.
Print Assumptions C60_csv_refuted.
Theorem C60_mvt_refuted : forall l d stop, forallb (fun f => decoded (mf_geometry f)) (ml_features l) = true ->
  exec (asker d stop) (process_layer l d) [] =
  (FeatureSpec.dataset_obs (multi_dim d) (Some (ml_name l)) (map layer_feature (ml_features l)), Ok tt).
Proof.
  intros l d stop H.
  exact (never_asked _ (process_layer l)
    (fun multi => FeatureSpec.dataset_obs multi (Some (ml_name l)) (map layer_feature (ml_features l))) tt d stop (C38_layer l H)).
Qed.
Print Assumptions C60_mvt_refuted.
(** (the hypotheses are those of C23, C28 and C38, met there) *)
(** The writers of GeoJSON, newline delimited GeoJSON, CSV and vector tiles and the property map never
    ask to stop; coordinate pre-processing passes the answer on; a multiplexer gives the answer of its
    second processor. *)
Theorem C60_writers : forall fmt32 fmt debug gsize base64 c d,
  takes_all (geojson_writer fmt32 fmt d) /\ takes_all (geojson_line_writer fmt32 fmt) /\
  takes_all (csv_writer fmt32 fmt debug d) /\ takes_all (mvt_writer gsize base64 debug c) /\
  takes_all (property_map fmt32 fmt).
Proof.
  intros fmt32 fmt debug gsize base64 c d.
  exact (conj (takes_geojson fmt32 fmt d) (conj (takes_lines fmt32 fmt) (conj (takes_csv fmt32 fmt debug d)
    (conj (takes_mvt gsize base64 debug c) (takes_map fmt32 fmt))))).
Qed.
Print Assumptions C60_writers.
Theorem C60_combined : forall S1 S2 (p1 : proc S1) (p2 : proc S2) f,
  (takes_all p2 -> takes_all (multiplexer p1 p2)) /\ (stops_first p2 -> stops_first (multiplexer p1 p2)) /\
  (takes_all p1 -> takes_all (wrapped_xy f p1)).
Proof.
  intros S1 S2 p1 p2 f.
  exact (conj (takes_mux S1 S2 p1 p2) (conj (stops_mux S1 S2 p1 p2) (takes_wrapped S1 f p1))).
Qed.
Print Assumptions C60_combined.
(** So a second processor that does not care for properties ([bounds_proc] answers every property with
    `true`) takes all attributes but the first away from the first processor. *)
Theorem C60_multiplex_refuted : forall ck leftover S1 S2 (p1 : proc S1) (p2 : proc S2) h l rest more after,
  Forall entry_ok l -> announces h l -> Forall has_geometry l -> stops_first p2 ->
  exists it xs, iter_features ck h (shp_body l ++ rest)
                  (Some (map (fun f => Ok (en_record f)) l ++ more, after)) = Ok it /\
    Forall2 (first_feature xy_dims) l xs /\
    forall s1 s2 t1 t2,
      feed p1 (FeatureSpec.dataset_obs false None xs) s1 = (t1, Ok tt) ->
      feed p2 (FeatureSpec.dataset_obs false None xs) s2 = (t2, Ok tt) ->
      consume ck leftover (multiplexer p1 p2) (S (length l)) it (s1, s2) = ((t1, t2), Some (Ok tt)).
Proof. exact mux_first. Qed.
Print Assumptions C60_multiplex_refuted.
Example C60_multiplex_met : stops_first bounds_proc /\ Forall entry_ok (firstn 2 places) /\
  Forall has_geometry (firstn 2 places) /\
  announces (mkHeader 352 (repeat f0 8) PolygonZ 1000) (firstn 2 places) /\
  length (offered (en_record (place "a" island))) = 2%nat.
Proof. split; [apply stops_default|]. destruct island_met as (A & B & C). repeat split; auto; apply C. Qed.
(** The other way round nothing is lost. *)
Theorem C60_multiplex_partial : forall ck leftover S1 S2 (p1 : proc S1) (p2 : proc S2) h l rest more after,
  Forall entry_ok l -> announces h l -> Forall has_geometry l -> takes_all p2 ->
  exists it xs, iter_features ck h (shp_body l ++ rest)
                  (Some (map (fun f => Ok (en_record f)) l ++ more, after)) = Ok it /\
    Forall2 (entry_feature xy_dims) l xs /\
    forall s1 s2 t1 t2,
      feed p1 (FeatureSpec.dataset_obs false None xs) s1 = (t1, Ok tt) ->
      feed p2 (FeatureSpec.dataset_obs false None xs) s2 = (t2, Ok tt) ->
      consume ck leftover (multiplexer p1 p2) (S (length l)) it (s1, s2) = ((t1, t2), Some (Ok tt)).
Proof. exact mux_all. Qed.
Print Assumptions C60_multiplex_partial.

(** C61.  A shapefile of geometries converted with a writer that takes all properties: the writer gets
    the dataset of the records, each with all its non-null attributes and its geometry. *)
Theorem C61_dataset : forall ck leftover S (p : proc S) h l rest more after,
  Forall entry_ok l -> announces h l -> Forall has_geometry l -> plain_dims (p_dims p) -> takes_all p ->
  exists it xs, iter_features ck h (shp_body l ++ rest)
                  (Some (map (fun f => Ok (en_record f)) l ++ more, after)) = Ok it /\
    Forall2 (entry_feature (p_dims p)) l xs /\
    forall s s', feed p (FeatureSpec.dataset_obs (multi_dim (p_dims p)) None xs) s = (s', Ok tt) ->
      consume ck leftover p (Datatypes.S (length l)) it s = (s', Some (Ok tt)).
Proof. exact shp_dataset. Qed.
Print Assumptions C61_dataset.
(** GeoJSON: one valid document with all features, attributes and coordinates. *)
Theorem C61_geojson_partial : forall ck leftover fmt32 fmt num32 num d h l rest more after,
  Forall entry_ok l -> announces h l -> Forall has_geometry l -> plain_dims d ->
  json_format GeoJsonSpec.finite32 fmt32 num32 -> json_format GeoJsonSpec.finite fmt num ->
  Forall (fun f => Forall (fun c => finite_coord (multi_dim d) (visible d c)) (positions (en_shape f)) /\
                   Forall (fun q => plain_text (fst q) = true /\ safe_value (snd q)) (offered (en_record f))) l ->
  exists it xs out j, iter_features ck h (shp_body l ++ rest)
                  (Some (map (fun f => Ok (en_record f)) l ++ more, after)) = Ok it /\
    Forall2 (entry_feature d) l xs /\
    consume ck leftover (geojson_writer fmt32 fmt d) (S (length l)) it ""%string = (out, Some (Ok tt)) /\
    parse_json out = Some j /\ dataset_json num32 num (multi_dim d) None xs j.
Proof. exact shp_to_geojson. Qed.
Print Assumptions C61_geojson_partial.
(** CSV: a table with a row for every record, if the same attributes are null in all records. *)
Theorem C61_csv_partial : forall ck leftover fmt32 fmt debug d ns h l rest more after,
  Forall entry_ok l -> announces h l -> Forall has_geometry l -> plain_dims d ->
  Forall (fun f => map fst (offered (en_record f)) = ns) l ->
  exists it xs s, iter_features ck h (shp_body l ++ rest)
                  (Some (map (fun f => Ok (en_record f)) l ++ more, after)) = Ok it /\
    Forall2 (entry_feature d) l xs /\
    consume ck leftover (csv_writer fmt32 fmt debug d) (S (length l)) it csv_init = (s, Some (Ok tt)) /\
    is_table fmt32 fmt (multi_dim d) ns xs (o_records (cs_csv s)).
Proof. exact shp_to_csv. Qed.
Print Assumptions C61_csv_partial.
(** SVG: the drawing of all geometries. *)
Theorem C61_svg : forall ck leftover fmt c h l rest more after,
  Forall entry_ok l -> announces h l -> Forall has_geometry l ->
  (forall x, xml_plain (fmt x) = true) -> plain_style (sv_style c) ->
  exists it xs t, iter_features ck h (shp_body l ++ rest)
                  (Some (map (fun f => Ok (en_record f)) l ++ more, after)) = Ok it /\
    Forall2 (fun f x => exists g, represents xy_dims (en_shape f) g /\ f_geom x = Some g) l xs /\
    consume ck leftover (svg_writer fmt c) (S (length l)) it ""%string = (t, Some (Ok tt)) /\
    parse_xml t = Some (document fmt c None xs).
Proof. exact shp_to_svg. Qed.
Print Assumptions C61_svg.
(** Vector tile: a feature for every record with all its attributes. *)
Theorem C61_mvt_partial : forall ck leftover gsize base64 debug c h l rest more after,
  Forall entry_ok l -> announces h l -> Forall has_geometry l ->
  (forall f g, In f l -> represents xy_dims (en_shape f) g ->
     tile_small gsize g /\ MvtSpec.drawable (transform c) g = true) ->
  exists it s, iter_features ck h (shp_body l ++ rest)
                  (Some (map (fun f => Ok (en_record f)) l ++ more, after)) = Ok it /\
    consume ck leftover (mvt_writer gsize base64 debug c) (S (length l)) it mw_init = (s, Some (Ok tt)) /\
    Forall2 (fun f m => mf_id m = None /\
               (exists g, represents xy_dims (en_shape f) g /\ mf_geometry m = tile_of (transform c) g) /\
               Forall2 (fun q p => fst p = fst q /\ stored base64 (snd q) (snd p)) (offered (en_record f)) (mf_properties m))
      l (mw_features s).
Proof. exact shp_to_mvt. Qed.
Print Assumptions C61_mvt_partial.
(** one file meets the hypotheses of all of them *)
Example C61_met : Forall entry_ok two_dots /\ announces two_dots_header two_dots /\ Forall has_geometry two_dots /\
  Forall (fun f => map fst (offered (en_record f)) = ["name"; "note"]%string) two_dots /\
  Forall (fun f => Forall (fun c => finite_coord false (visible xy_dims c)) (positions (en_shape f)) /\
                   Forall (fun q => plain_text (fst q) = true /\ safe_value (snd q)) (offered (en_record f))) two_dots /\
  (forall gsize f g, In f two_dots -> represents xy_dims (en_shape f) g ->
     small g /\ tile_small gsize g /\ MvtSpec.drawable (transform plain_cfg) g = true).
Proof. exact dots_met. Qed.
Example C61_dims_met : plain_dims xy_dims /\ plain_dims xyzm_dims /\
  json_format GeoJsonSpec.finite32 show_num read_num /\ json_format GeoJsonSpec.finite show_num read_num /\
  (forall x, xml_plain (hex_fmt x) = true).
Proof. split; [reflexivity|]. split; [reflexivity|]. split; [apply show_num_ok|]. split; [apply show_num_ok|exact hex_plain]. Qed.
(** geo_types features: of the attributes only the first survives (the feature writer answers every
    property with `true`). *)
Theorem C61_geo_refuted : forall ck leftover debug h l rest more after,
  Forall entry_ok l -> announces h l -> Forall has_geometry l ->
  (forall f g, In f l -> represents xy_dims (en_shape f) g -> small g) ->
  exists it s, iter_features ck h (shp_body l ++ rest)
                  (Some (map (fun f => Ok (en_record f)) l ++ more, after)) = Ok it /\
    consume ck leftover (feature_writer debug) (S (length l)) it gf_init = (s, Some (Ok tt)) /\
    Forall2 (fun f (r : gt * props) =>
               (exists g, represents xy_dims (en_shape f) g /\ fst r = value_of g) /\
               snd r = firstn 1 (offered (en_record f)))
      l (f_features s).
Proof. exact shp_to_geo. Qed.
Print Assumptions C61_geo_refuted.
(** A record without a shape makes the GeoJSON text invalid, and nothing is reported. *)
Theorem C61_null_shape_refuted : forall ck leftover fmt32 fmt d after, exists it out,
  iter_features ck nowhere_header (shp_body nowhere) (Some (map (fun f => Ok (en_record f)) nowhere, after)) = Ok it /\
  consume ck leftover (geojson_writer fmt32 fmt d) 2 it ""%string = (out, Some (Ok tt)) /\ parse_json out = None.
Proof. exact nowhere_text. Qed.
Print Assumptions C61_null_shape_refuted.
Example C61_null_shape_met : Forall entry_ok nowhere /\ announces nowhere_header nowhere.
Proof. exact nowhere_ok. Qed.
(** A null attribute that is not null in the first record: if it is the last, the
    record of a release build is left incomplete (two fields instead of three and no line end) and nothing is reported; if others follow, the writer panics. *)
Theorem C61_null_last_refuted : forall ck leftover fmt32 fmt after, exists it s row,
  iter_features ck two_dots_header (shp_body last_null) (Some (map (fun f => Ok (en_record f)) last_null, after)) = Ok it /\
  consume ck leftover (csv_writer fmt32 fmt false xy_dims) 3 it csv_init = (s, Some (Ok tt)) /\
  o_records (cs_csv s) = [["geometry"; "a"; "b"]; [row; "1"; "2"]]%string /\ o_fields (cs_csv s) = [row; "3"]%string.
Proof. exact row_lost. Qed.
Print Assumptions C61_null_last_refuted.
Theorem C61_null_first_refuted : forall ck leftover fmt32 fmt debug after, exists it s,
  iter_features ck two_dots_header (shp_body first_null) (Some (map (fun f => Ok (en_record f)) first_null, after)) = Ok it /\
  consume ck leftover (csv_writer fmt32 fmt debug xy_dims) 3 it csv_init = (s, Some (Err EPanic)).
Proof. exact row_panic. Qed.
Print Assumptions C61_null_first_refuted.
Example C61_nulls_met :
  (Forall entry_ok last_null /\ announces two_dots_header last_null /\ Forall has_geometry last_null) /\
  (Forall entry_ok first_null /\ announces two_dots_header first_null /\ Forall has_geometry first_null).
Proof. exact nulls_ok. Qed.
