(** C88: moving the coordinates of an input and reading it is the same as reading the input through a coordinate
    pre-processor.  Read with: MoveSpec.v ([reads_moved], the moved inputs). *)
From Coq Require Import String Ascii.
From Coq Require Import List NArith ZArith Lia Bool.
From Verif Require Import Base Float Event Geom ProcModel Claims WkbModel WkbSpec WkbClaims MoveSpec MoveTop MoveBytes MoveStd.
From Verif Require WktModel GeoModel GeosModel GdalModel GpxModel GeoJsonModel MvtModel CsvModel ShpModel ShpSpec ShpMore MoveShpSpec MoveShp.
Import ListNotations.
Local Open Scope list_scope.

Theorem C88_wkt : forall f g, reads_moved f (WktModel.process_wkt_geom g) (WktModel.process_wkt_geom (mv_wkt f g)).
Proof. exact (fun f g => fol_src f _ _ _ (fun d => wkt_fol f (multi_dim d) g 0)). Qed.
Print Assumptions C88_wkt.
(** CSV: the geometry column is moved, that is, the texts are parsed to moved geometries. *)
Theorem C88_csv : forall f parse column headers records,
  reads_moved f (fun d => CsvModel.process_csv_features parse (multi_dim d) column headers records)
    (fun d => CsvModel.process_csv_features (fun t => option_map (mv_wkt f) (parse t)) (multi_dim d) column headers records) /\
  reads_moved f (fun d => CsvModel.process_csv_geom parse (multi_dim d) column headers records)
    (fun d => CsvModel.process_csv_geom (fun t => option_map (mv_wkt f) (parse t)) (multi_dim d) column headers records).
Proof.
  exact (fun f parse c h r => conj (fol_src f _ _ _ (fun d => csv_features_fol f parse (multi_dim d) c h r))
                                   (fol_src f _ _ _ (fun d => csv_geom_fol f parse (multi_dim d) c h r))).
Qed.
Print Assumptions C88_csv.
Theorem C88_geo : forall f rect tri g, reads_moved f (GeoModel.geo_process rect tri g) (GeoModel.geo_process rect tri (mv_geo f rect tri g)).
Proof. exact (fun f rect tri g => fol_src f _ _ _ (fun d => geo_fol f rect tri (multi_dim d) g 0)). Qed.
Print Assumptions C88_geo.
Theorem C88_geos : forall f g, reads_moved f (GeosModel.geos_process g) (GeosModel.geos_process (mv_geos f g)).
Proof. exact (fun f g => fol_src f _ _ _ (fun d => geos_fol f (dz d) g 0)). Qed.
Print Assumptions C88_geos.
(** GDAL: what the library returns for a point without position is moved, too. *)
Theorem C88_gdal : forall f missing g,
  reads_moved f (GdalModel.gdal_process missing g) (GdalModel.gdal_process (mv3 f missing) (mv_gdal f g)).
Proof. exact (fun f missing g => fol_src f _ _ _ (fun d => gdal_fol f (dz d) missing g 0)). Qed.
Print Assumptions C88_gdal.
Theorem C88_gpx : forall f doc, reads_moved f (fun _ => GpxModel.read_gpx doc) (fun _ => GpxModel.read_gpx (option_map (mv_gpx f) doc)).
Proof. exact (fun f doc => fol_src f _ _ _ (fun _ => gpx_fol f doc)). Qed.
Print Assumptions C88_gpx.
Theorem C88_geojson : forall f ser doc,
  reads_moved f (fun d => GeoJsonModel.read_geojson ser (multi_dim d) doc)
                (fun d => GeoJsonModel.read_geojson ser (multi_dim d) (res_map (mv_doc f) doc)) /\
  reads_moved f (fun d => GeoJsonModel.read_geojson_geom (multi_dim d) doc)
                (fun d => GeoJsonModel.read_geojson_geom (multi_dim d) (res_map (mv_doc f) doc)).
Proof.
  exact (fun f ser doc => conj (fol_src f _ _ _ (fun d => read_json_fol f ser (multi_dim d) doc))
                               (fol_src f _ _ _ (fun d => read_json_geom_fol f (multi_dim d) doc))).
Qed.
Print Assumptions C88_geojson.
Theorem C88_geojson_collection : forall f ser l,
  reads_moved f (fun d => GeoJsonModel.read_geojson_fc ser (multi_dim d) l)
                (fun d => GeoJsonModel.read_geojson_fc ser (multi_dim d) (map (res_map (mv_feature f)) l)).
Proof. exact (fun f ser l => fol_src f _ _ _ (fun d => read_json_fc_fol f ser (multi_dim d) l)). Qed.
Print Assumptions C88_geojson_collection.
Theorem C88_geojson_lines : forall f ser l,
  reads_moved f (fun d => GeoJsonModel.read_geojson_lines ser (multi_dim d) l)
                (fun d => GeoJsonModel.read_geojson_lines ser (multi_dim d) (map (res_map (mv_doc f)) l)) /\
  reads_moved f (fun d => GeoJsonModel.read_geojson_line_geometries (multi_dim d) l)
                (fun d => GeoJsonModel.read_geojson_line_geometries (multi_dim d) (map (res_map (mv_doc f)) l)).
Proof.
  exact (fun f ser l => conj (fol_src f _ _ _ (fun d => read_json_lines_fol f ser (multi_dim d) l))
                             (fol_src f _ _ _ (fun d => read_json_line_geoms_fol f (multi_dim d) l))).
Qed.
Print Assumptions C88_geojson_lines.
(** Tiles: for functions that map grid points to grid points. *)
Theorem C88_mvt : forall f h,
  (forall p, f (MvtModel.f64_of_int (fst p)) (MvtModel.f64_of_int (snd p)) =
             (MvtModel.f64_of_int (fst (h p)), MvtModel.f64_of_int (snd (h p)))) ->
  (forall l, reads_moved f (MvtModel.process_layer l) (MvtModel.process_layer (mv_layer h l))) /\
  (forall x, reads_moved f (MvtModel.process_mvt_geom x) (MvtModel.process_mvt_geom (mv_tfeature h x))).
Proof.
  exact (fun f h H => conj (fun l => fol_src f _ _ _ (fun d => layer_fol f h H (multi_dim d) l))
                           (fun x => fol_src f _ _ _ (fun d => tile_fol f h H (multi_dim d) (MvtModel.mf_geometry x) 0))).
Qed.
Print Assumptions C88_mvt.
Example C88_mvt_met : forall p : MvtModel.tpos,
  mirror (MvtModel.f64_of_int (fst p)) (MvtModel.f64_of_int (snd p)) =
  (MvtModel.f64_of_int (fst (snd p, fst p)), MvtModel.f64_of_int (snd (snd p, fst p))).
Proof. intros p. reflexivity. Qed.
(** WKB: the bytes are those of a geometry and of the moved geometry. *)
Theorem C88_wkb : forall f dl d rd srid env ed ext emp g bytes bytes',
  dl <> SpatiaLite ->
  encodable g -> conforming (dz d) (dm d) g -> (levels g <= 128)%nat ->
  encodable (mv_geom f g) -> conforming (dz d) (dm d) (mv_geom f g) -> (levels (mv_geom f g) <= 128)%nat ->
  srid_ok dl srid -> env_ok dl ed env -> asks_for_all d rd ->
  write_all (with_extended_opts dl d rd srid env ed ext emp) (gevents (multi_dim rd) 0 g) = Ok bytes ->
  write_all (with_extended_opts dl d rd srid env ed ext emp) (gevents (multi_dim rd) 0 (mv_geom f g)) = Ok bytes' ->
  reads_moved f (fun dr => process_wkb_type_geom dl dr bytes) (fun dr => process_wkb_type_geom dl dr bytes').
Proof. exact wkb_moved. Qed.
Print Assumptions C88_wkb.
Example C88_wkb_met : exists g bytes bytes',
  mv_geom mirror g <> g /\ encodable g /\ conforming false false g /\ (levels g <= 128)%nat /\
  encodable (mv_geom mirror g) /\ conforming false false (mv_geom mirror g) /\ (levels (mv_geom mirror g) <= 128)%nat /\
  write_all (with_extended_opts Ewkb xy_dims xy_dims (Some 4326%Z) [] xy_dims false false) (gevents false 0 g) = Ok bytes /\
  write_all (with_extended_opts Ewkb xy_dims xy_dims (Some 4326%Z) [] xy_dims false false) (gevents false 0 (mv_geom mirror g)) = Ok bytes'.
Proof. exact wkb_met. Qed.
(** Every dialect and byte order, bytes written by anyone and followed by anything; the stored box may be another. *)
Theorem C88_wkb_standard : forall f dl d srid env env' ed ext emp o g tail,
  keeps_bits f -> keeps_nan f ->
  encodable g -> (levels g <= 128)%nat -> srid_ok dl srid -> env_ok dl ed env -> env_ok dl ed env' -> order_ok dl o ->
  reads_moved f (fun dr => process_wkb_type_geom dl dr (std dl d srid env ed ext emp o g ++ tail))
                (fun dr => process_wkb_type_geom dl dr (std dl d srid env' ed ext emp o (mv_geom f g) ++ tail)).
Proof. exact std_moved. Qed.
Print Assumptions C88_wkb_standard.
Example C88_wkb_standard_met : keeps_bits mirror /\ keeps_nan mirror.
Proof. exact mirror_keeps. Qed.
(** The condition on NaN cannot be left out: a point of NaNs is read as the empty point, which no function moves. *)
Theorem C88_wkb_nan_refuted :
  fst (observe (process_wkb_type_geom Wkb xy_dims (std Wkb xy_dims None [] xy_dims false false little
    (mv_geom to_zero (GPoint (mkC not_a_number not_a_number None None)))))) =
  [OEv (Srid None); OEv (PointBegin 0); OEv (Xy f64_zero f64_zero 0); OEv (PointEnd 0)] /\
  fst (observe (process_wkb_type_geom Wkb xy_dims (std Wkb xy_dims None [] xy_dims false false little
    (GPoint (mkC not_a_number not_a_number None None))))) =
  [OEv (Srid None); OEv (EmptyPoint 0)].
Proof. exact nan_differs. Qed.
Print Assumptions C88_wkb_nan_refuted.
(** Shapefiles: one record; the features of a file; its shapes alone.  Areas: if the rings after the first keep their
    orientation (see [MoveShpSpec.moved_shape]). *)
Theorem C88_shp : forall f ck n a b rest, is_i32 n -> ShpSpec.well_formed a -> ShpSpec.well_formed b ->
  MoveShpSpec.moved_shape f a b ->
  reads_moved f (fun d => ShpModel.read_shape ck d (ShpSpec.record_bytes n a ++ rest))
                (fun d => ShpModel.read_shape ck d (ShpSpec.record_bytes n b ++ rest)).
Proof. exact MoveShp.record_moved. Qed.
Print Assumptions C88_shp.
Theorem C88_shp_features : forall f ck leftover h l l' rest more after,
  Forall ShpSpec.entry_ok l -> Forall ShpSpec.entry_ok l' -> Forall2 (MoveShpSpec.moved_entry f) l l' -> ShpSpec.announces h l ->
  exists it it',
    ShpModel.iter_features ck h (ShpSpec.shp_body l ++ rest) (Some (map (fun x => Ok (ShpSpec.en_record x)) l ++ more, after)) = Ok it /\
    ShpModel.iter_features ck h (ShpSpec.shp_body l' ++ rest) (Some (map (fun x => Ok (ShpSpec.en_record x)) l' ++ more, after)) = Ok it' /\
    forall S (p : proc S) s,
      ShpModel.consume ck leftover p (Datatypes.S (length l')) it' s =
      ShpModel.consume ck leftover (wrapped_xy f p) (Datatypes.S (length l)) it s.
Proof. exact MoveShp.file_moved. Qed.
Print Assumptions C88_shp_features.
Theorem C88_shp_geometries : forall f ck leftover h l l' rest,
  Forall ShpSpec.entry_ok l -> Forall ShpSpec.entry_ok l' -> Forall2 (MoveShpSpec.moved_entry f) l l' -> ShpSpec.announces h l ->
  exists it it', ShpModel.iter_geometries ck h (ShpSpec.shp_body l ++ rest) = Ok it /\
    ShpModel.iter_geometries ck h (ShpSpec.shp_body l' ++ rest) = Ok it' /\
    forall S (p : proc S) s,
      ShpModel.consume_shapes ck leftover p (Datatypes.S (length l')) it' s =
      ShpModel.consume_shapes ck leftover (wrapped_xy f p) (Datatypes.S (length l)) it s.
Proof. exact MoveShp.shapes_moved. Qed.
Print Assumptions C88_shp_geometries.
(** a file with an area of two polygons and a hole, a point and a null shape, turned by 90 degrees *)
Example C88_shp_met : Forall ShpSpec.entry_ok ShpMore.places /\ Forall ShpSpec.entry_ok MoveShp.turned /\
  Forall2 (MoveShpSpec.moved_entry MoveShp.turn) ShpMore.places MoveShp.turned /\
  ShpSpec.announces ShpMore.places_header ShpMore.places /\ ShpSpec.shp_body MoveShp.turned <> ShpSpec.shp_body ShpMore.places.
Proof. exact MoveShp.turned_met. Qed.
(** The orientation cannot be left out: a mirror image has other polygons. *)
Theorem C88_shp_refuted : exists b b',
  length b = length b' /\
  positions (fst (observe (ShpModel.read_shape true xy_dims b'))) =
    map (mv mirror) (positions (fst (observe (ShpModel.read_shape true xy_dims b)))) /\
  positions (fst (observe (ShpModel.read_shape true xy_dims b))) <> [] /\
  In (OEv (MultiPolygonBegin 1 0)) (fst (observe (ShpModel.read_shape true xy_dims b))) /\
  In (OEv (MultiPolygonBegin 2 0)) (fst (observe (ShpModel.read_shape true xy_dims b'))).
Proof. exact shp_differs. Qed.
Print Assumptions C88_shp_refuted.
(** Geometries move: a line with z through a processor that swaps. *)
Example C88_example :
  fst (observe (WktModel.process_wkt_geom (mv_wkt mirror (WktModel.WLineString [mkC 1%N 2%N None None])) xy_dims)) =
  [OEv (LineStringBegin true 1 0); OEv (Xy 2%N 1%N 0); OEv (LineStringEnd true 0)].
Proof. reflexivity. Qed.
