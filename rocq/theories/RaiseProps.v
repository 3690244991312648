(** C86: every way a reader can fail is known.  Read with: RaiseSpec.v ([adds]: an error is one of the reader's own or
    the writer's refusal of a callback; [raises], [comes_to]: runs with a processor that takes everything; the tables) and
    FaultSpec.v ([fails_only], the tables of C85). *)
From Coq Require Import String Ascii.
From Coq Require Import List NArith ZArith Lia Bool.
From Verif Require Import Base Event ProcModel Claims WkbModel WktModel GeoJsonModel CsvModel GeoModel GeosModel GdalModel GpxModel
  MvtModel ShpModel FaultSpec FaultTop RaiseSpec RaiseTop RaiseText ShpKindSpec ShpKindTop.
Import ListNotations.
Local Open Scope list_scope.

(** WKB in every dialect: input that breaks off, a format error, or too much nesting; all of them occur. *)
Theorem C86_wkb : forall dl b, adds (fun d => process_wkb_type_geom dl d b) wkb_own.
Proof. intros dl b. exact (fin_adds _ _ _ (wkb_fin dl b)). Qed.
Print Assumptions C86_wkb.
Theorem C86_wkb_each : forall dl x, In x wkb_own -> exists b, raises (fun d => process_wkb_type_geom dl d b) x.
Proof. exact wkb_each. Qed.
Print Assumptions C86_wkb_each.
(** Parsed WKT, geo-types, GEOS geometries and decoded tiles never fail of their own. *)
Theorem C86_none :
  (forall g, adds (process_wkt_geom g) []) /\
  (forall rect tri g, adds (geo_process rect tri g) []) /\
  (forall g, adds (geos_process g) []) /\
  (forall l, adds (process_layer l) []) /\
  (forall f, adds (process_mvt_geom f) []).
Proof.
  exact (conj (fun g => fin_adds _ _ _ (fun d => wkt_fin [] (multi_dim d) g 0))
        (conj (fun r t g => fin_adds _ _ _ (fun d => geo_fin [] r t (multi_dim d) g 0))
        (conj (fun g => fin_adds _ _ _ (fun d => geos_fin [] (dz d) g 0))
        (conj (fun l => fin_adds _ _ _ (fun d => mvt_layer_fin [] (multi_dim d) l))
              (fun f => fin_adds _ _ _ (fun d => mvt_geom_fin [] (multi_dim d) (mf_geometry f) 0)))))).
Qed.
Print Assumptions C86_none.
(** GDAL geometries: a format error only.  GPX: a geometry error if the document was not read. *)
Theorem C86_gdal : forall missing g, adds (gdal_process missing g) [EGeometryFormat].
Proof. intros missing g. exact (fin_adds _ _ _ (fun d => gdal_fin (dz d) missing g 0)). Qed.
Print Assumptions C86_gdal.
Theorem C86_gpx : forall doc, adds (fun _ => read_gpx doc) (match doc with None => [EGeometry] | Some _ => [] end).
Proof. intros doc. exact (fin_adds _ _ _ (fun _ => gpx_fin doc)). Qed.
Print Assumptions C86_gpx.
Example C86_gdal_met : forall missing, raises (gdal_process missing (Og (OOther 99) false false [] [])) EGeometryFormat /\ raises (fun _ => read_gpx None) EGeometry.
Proof. intros missing. split; intros d; reflexivity. Qed.
(** GeoJSON: the errors of the parser, a panic exactly if there is a position with fewer than two numbers, and in
    lines a dataset error exactly for a feature collection. *)
Theorem C86_geojson : forall ser doc,
  adds (fun d => read_geojson ser (multi_dim d) doc) (given (holds short_doc doc) EPanic ++ unread doc) /\
  adds (fun d => read_geojson_geom (multi_dim d) doc) (given (holds short_doc doc) EPanic ++ unread doc).
Proof.
  intros ser doc. exact (conj (fin_adds _ _ _ (fun d => read_geojson_fin ser (multi_dim d) doc))
                              (fin_adds _ _ _ (fun d => read_geojson_geom_fin (multi_dim d) doc))).
Qed.
Print Assumptions C86_geojson.
Theorem C86_geojson_collection : forall ser l,
  adds (fun d => read_geojson_fc ser (multi_dim d) l) (given (existsb (holds short_feature) l) EPanic ++ flat_map unread l).
Proof. intros ser l. exact (fin_adds _ _ _ (fun d => read_geojson_fc_fin ser (multi_dim d) l)). Qed.
Print Assumptions C86_geojson_collection.
Theorem C86_geojson_lines : forall ser l,
  adds (fun d => read_geojson_lines ser (multi_dim d) l) (lines_own l) /\
  adds (fun d => read_geojson_line_geometries (multi_dim d) l) (lines_own l).
Proof.
  intros ser l. exact (conj (fin_adds _ _ _ (fun d => read_geojson_lines_fin ser (multi_dim d) l))
                            (fin_adds _ _ _ (fun d => read_geojson_line_geometries_fin (multi_dim d) l))).
Qed.
Print Assumptions C86_geojson_lines.
Theorem C86_geojson_outcome : forall ser doc,
  comes_to (fun d => read_geojson ser (multi_dim d) doc) (first_of [of_doc doc]) /\
  comes_to (fun d => read_geojson_geom (multi_dim d) doc) (first_of [of_doc doc]).
Proof. exact (fun ser doc => conj (geojson_comes ser doc) (geojson_geom_comes doc)). Qed.
Print Assumptions C86_geojson_outcome.
Theorem C86_geojson_collection_outcome : forall ser l,
  comes_to (fun d => read_geojson_fc ser (multi_dim d) l) (first_of (map of_feature l)).
Proof. exact geojson_fc_comes. Qed.
Print Assumptions C86_geojson_collection_outcome.
Theorem C86_geojson_lines_outcome : forall ser l,
  comes_to (fun d => read_geojson_lines ser (multi_dim d) l) (first_of (map of_line l)) /\
  comes_to (fun d => read_geojson_line_geometries (multi_dim d) l) (first_of (map of_line l)).
Proof. exact (fun ser l => conj (geojson_lines_come ser l) (geojson_line_geometries_come l)). Qed.
Print Assumptions C86_geojson_lines_outcome.
Example C86_geojson_met : forall f,
  first_of (map of_line [Ok (GjGeometry (GjPoint [1; 2]%N)); Ok (GjFeature (mkGjFeature None None))]) = Ok tt /\
  first_of (map of_line [Ok (GjGeometry (GjPoint [1; 2]%N)); Ok (GjFeatures f); Err EIo]) = Err EDataset /\
  first_of (map of_line [Ok (GjGeometry (GjCollection [GjLineString [[1; 2]; [3]]%N]))]) = Err EPanic.
Proof. intros f. repeat split. Qed.
(** CSV: errors of the parser, a column that is not there, text that is no WKT: the first in the order of the records. *)
Theorem C86_csv : forall parse column headers records,
  adds (fun d => process_csv_features parse (multi_dim d) column headers records)
       (ECsv 0 :: EGeometry :: unread headers ++ flat_map unread records) /\
  adds (fun d => process_csv_geom parse (multi_dim d) column headers records)
       (ECsv 0 :: ECsv 1 :: unread headers ++ flat_map unread records).
Proof.
  intros parse column headers records.
  exact (conj (fin_adds _ _ _ (fun d => csv_features_fin parse (multi_dim d) column headers records))
              (fin_adds _ _ _ (fun d => csv_geom_fin parse (multi_dim d) column headers records))).
Qed.
Print Assumptions C86_csv.
Theorem C86_csv_outcome : forall parse column headers records gi, is_column column headers gi ->
  comes_to (fun d => process_csv_features parse (multi_dim d) column (Ok headers) records)
           (first_of (map (of_record parse gi true) records)) /\
  comes_to (fun d => process_csv_geom parse (multi_dim d) column (Ok headers) records)
           (first_of (map (of_record parse gi false) records)).
Proof. exact (fun parse c h r gi H => conj (csv_comes parse c h r gi H) (csv_geometries_come parse c h r gi H)). Qed.
Print Assumptions C86_csv_outcome.
Example C86_csv_outcome_met : forall x : nat, let parse t := if String.eqb t "p"%string then Some x else None in
  is_column "b" ["a"; "b"; "b"]%string 1 /\
  first_of (map (of_record parse 1 true) [Ok ["1"; "p"]; Ok ["2"; ""]; Ok ["3"; "q"]; Err EIo])%string = Err EGeometry /\
  first_of (map (of_record parse 1 false) [Ok ["1"; "p"]; Ok ["2"; ""]; Ok ["3"; "q"]; Err EIo])%string = Err (ECsv 1) /\
  first_of (map (of_record parse 1 true) [Ok ["1"; "p"]; Ok ["2"]])%string = Err (ECsv 0).
Proof.
  intros x. split; [|repeat split]. split; [reflexivity|]. intros [|k] K; [discriminate|lia].
Qed.
Theorem C86_csv_headers : forall parse column headers records, (forall h, headers = Ok h -> ~ In column h) ->
  let x := match headers with Err x => x | Ok _ => ECsv 0 end in
  comes_to (fun d => process_csv_features parse (multi_dim d) column headers records) (Err x) /\
  comes_to (fun d => process_csv_geom parse (multi_dim d) column headers records) (Err x).
Proof. exact csv_headers_come. Qed.
Print Assumptions C86_csv_headers.
Example C86_csv_headers_met : forall h, Ok ["a"; "b"]%string = Ok h -> ~ In "c"%string h.
Proof. intros h E. injection E as <-. intros [Q|[Q|[]]]; discriminate Q. Qed.
(** Shapefiles: records, headers and index files. *)
Theorem C86_shape : forall ck b, adds (fun d => read_shape ck d b) shape_own.
Proof. intros ck b. exact (fin_adds _ _ _ (fun d => shape_fin ck d b)). Qed.
Print Assumptions C86_shape.
Theorem C86_shape_each : forall ck x, In x shape_own -> exists b, raises (fun d => read_shape ck d b) x.
Proof. exact shape_each. Qed.
Print Assumptions C86_shape_each.
(** A record is refused for its type exactly if the type is unknown, and for its length exactly if it does not fit the
    type and the numbers of parts and points (ShpKindSpec.v); panics: C40. *)
Theorem C86_shape_type : forall ck d b,
  snd (exec (recorder d false) (read_shape ck d b) []) = Err (EShp 2) <-> unknown_type ck b.
Proof. exact type_exact. Qed.
Print Assumptions C86_shape_type.
Theorem C86_shape_size : forall ck d b,
  snd (exec (recorder d false) (read_shape ck d b) []) = Err (EShp 5) <-> wrong_size ck b.
Proof. exact size_exact. Qed.
Print Assumptions C86_shape_size.
Example C86_shape_type_met : forall ck, unknown_type ck (blank_shape Byte.x02 Byte.x16).
Proof. exact type_met. Qed.
Example C86_shape_size_met : forall ck,
  wrong_size ck (blank_shape Byte.x03 Byte.x18) /\ ~ wrong_size ck (blank_shape Byte.x03 Byte.x16).
Proof. exact size_met. Qed.
Theorem C86_shp_header : forall b, adds (fun _ => ShpModel.read_header b) [EIo; EShp 1; EShp 2].
Proof. intros b. exact (fin_adds _ _ _ (fun _ => shp_header_fin b)). Qed.
Print Assumptions C86_shp_header.
Theorem C86_shp_header_each : forall x, In x [EIo; EShp 1; EShp 2] -> exists b, raises (fun _ => ShpModel.read_header b) x.
Proof. exact shp_header_each. Qed.
Print Assumptions C86_shp_header_each.
Theorem C86_shx : forall ck b, adds (fun _ => read_index_file ck b) [EIo; EShp 1; EShp 2; EPanic].
Proof. intros ck b. exact (fin_adds _ _ _ (fun _ => shx_fin ck b)). Qed.
Print Assumptions C86_shx.
Theorem C86_shx_each : forall ck x, In x [EIo; EShp 1; EShp 2; EPanic] -> exists b, raises (fun _ => read_index_file ck b) x.
Proof. exact shx_each. Qed.
Print Assumptions C86_shx_each.
Theorem C86_properties : forall r, adds (fun _ => process_properties 0 r) [].
Proof. intros r. exact (fin_adds _ _ _ (fun _ => properties_fin [] r 0)). Qed.
Print Assumptions C86_properties.
(** A reader and a writer together fail in the ways of the one or of the other. *)
Theorem C86_conversion : forall A (src : dims -> prog A) own S (p : proc S) s0 ways, adds src own -> fails_only p s0 ways ->
  forall s' x, exec p (src (p_dims p)) s0 = (s', Err x) -> In x own \/ exists o, In x (ways o).
Proof. exact conversion_fails. Qed.
Print Assumptions C86_conversion.
(** for instance WKB, whatever the bytes, into GeoJSON *)
Example C86_conversion_met : forall dl b fmt32 fmt d s' x,
  exec (geojson_writer fmt32 fmt d) (process_wkb_type_geom dl d b) ""%string = (s', Err x) ->
  x = EIo \/ x = EGeometryFormat \/ x = EMaxNesting 128.
Proof.
  intros dl b fmt32 fmt d s' x E.
  destruct (C86_conversion _ _ _ _ _ _ _ (C86_wkb dl b) (proj1 (json_fails fmt32 fmt d)) _ _ E) as [I|[o []]].
  destruct I as [<-|[<-|[<-|[]]]]; auto.
Qed.
