(** Property C69: datasets by way of files.  Vocabulary: FilesSpec.v. *)
From Coq Require Import String Ascii.
From Coq Require Import List NArith ZArith Lia Bool.
From Verif Require Import Base Event Claims Geom WktModel WktSpec WktTop FeatureSpec JsonSpec GeoJsonModel GeoJsonSpec GeoJsonRead CsvSpec
  FilesSpec FilesTop FilesWit.
Import ListNotations.
Local Open Scope list_scope.

(** Whatever files a dataset passes through, in whatever order and however often, every feature arrives
    with its properties and its geometry unchanged, provided it fits into each of them.  Missing because
    false: GeoJSON or GeoJSON lines directly after a GeoJSON collection of two features. *)
Theorem C69_files_partial : forall t num32 num wnum,
  json_format finite32 (t_format32 t) num32 -> json_format GeoJsonSpec.finite (t_format t) num -> formats (t_wkt_format t) wnum ->
  geojson_tool t num32 num -> wkt_tool t wnum -> one_line t ->
  forall fs src gi name l, passes l gi name fs ->
  delivers_obs src (fun multi => dataset_at multi gi name l) (Ok tt) ->
  exists src', all_through t fs src = Ok src' /\
    delivers_obs src' (fun multi => dataset_at multi (finally_numbered gi fs) (finally_named name fs) l) (Ok tt).
Proof. exact files_chain. Qed.
Print Assumptions C69_files_partial.
(** GeoJSON lines and CSV files in any order. *)
Theorem C69_lines_and_csv : forall t num32 num wnum,
  json_format finite32 (t_format32 t) num32 -> json_format GeoJsonSpec.finite (t_format t) num -> formats (t_wkt_format t) wnum ->
  geojson_tool t num32 num -> wkt_tool t wnum -> one_line t ->
  forall fs src name l, l <> [] -> Forall json_feature l -> Forall csv_feature l ->
  (exists names, Forall (has_columns names) l) -> Forall (fun f => f = LinesFile \/ f = CsvFile) fs -> fs <> [] ->
  delivers_obs src (fun multi => dataset_obs multi name l) (Ok tt) ->
  exists src', all_through t fs src = Ok src' /\ delivers_obs src' (fun multi => dataset_obs multi None l) (Ok tt).
Proof. exact lines_csv_chain. Qed.
Print Assumptions C69_lines_and_csv.
(** A GeoJSON file made from a GeoJSON file with two features is no JSON, although success is reported. *)
Theorem C69_geojson_twice_refuted : exists l, Forall json_feature l /\
  (forall z, Forall (fun x => option_map (kept_geom z) (f_geom x) = f_geom x) l) /\
  forall fmt32 fmt d src,
    delivers_obs src (fun multi => dataset_at multi (finally_numbered (fun _ => 0) [GeoJsonFile d]) None l) (Ok tt) ->
    exists out, exec (geojson_writer fmt32 fmt d) (src d) EmptyString = (out, Ok tt) /\ parse_json out = None.
Proof. exact (ex_intro _ [nowhere; nowhere] geojson_twice). Qed.
Print Assumptions C69_geojson_twice_refuted.
(** the hypotheses are met *)
Example C69_met : forall debug, let t := some_tools debug in
  json_format finite32 (t_format32 t) read_num /\ json_format GeoJsonSpec.finite (t_format t) read_num /\
  formats (t_wkt_format t) read_bits /\ geojson_tool t read_num read_num /\ wkt_tool t read_bits /\ one_line t /\
  passes villages (fun _ => 0) (Some "towns"%string) some_files /\ Forall json_feature villages /\ Forall csv_feature villages.
Proof. exact some_tools_met. Qed.
