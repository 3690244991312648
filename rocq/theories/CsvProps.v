(** C27, C28 and C49: CSV.  Read with: CsvSpec.v (the vocabulary), FeatureSpec.v (features,
    [dataset_obs], [delivers_obs]), WktSpec.v ([wkt_text]), ProcSpec.v ([text_of]). *)
From Coq Require Import String Ascii.
From Coq Require Import List NArith ZArith Lia Bool.
From Verif Require Import Base Event Claims Geom ProcModel ProcSpec WktModel WktSpec WktTop FeatureSpec
  GeoJsonModel CsvModel CsvSpec CsvTop.
Import ListNotations.
Local Open Scope string_scope.
Local Open Scope list_scope.

(** C27.  For features with a common property list, whatever the source, the dimensions and the
    build: one header record, then one record per feature, nothing unfinished, and no panic. *)
Theorem C27_table_partial : forall fmt32 fmt debug d A (src : dims -> prog A) gi name ns l r,
  delivers_obs src (fun multi => dataset_at multi gi name l) (Ok r) -> Forall (has_columns ns) l ->
  exists s, exec (csv_writer fmt32 fmt debug d) (src d) csv_init = (s, Ok r) /\
    is_table fmt32 fmt (multi_dim d) ns l (o_records (cs_csv s)) /\ o_fields (cs_csv s) = [].
Proof. exact csv_table. Qed.
Print Assumptions C27_table_partial.
Theorem C27_to_csv_partial : forall fmt32 fmt debug A (src : dims -> prog A) gi name ns l r,
  delivers_obs src (fun multi => dataset_at multi gi name l) (Ok r) -> Forall (has_columns ns) l ->
  exists records, to_csv fmt32 fmt debug src = Ok records /\ is_table fmt32 fmt false ns l records.
Proof. exact to_csv_table. Qed.
Print Assumptions C27_to_csv_partial.
Example C27_met :
  Forall (has_columns ["name"; "pop"]) towns /\ Forall numbered_props towns /\
  delivers_obs (fun d => replay (dataset_at (multi_dim d) (fun i => i) (Some "t") towns))
    (fun multi => dataset_at multi (fun i => i) (Some "t") towns) (Ok tt).
Proof.
  exact (conj towns_columns (conj towns_numbered (replay_delivers (fun m => dataset_at m (fun i => i) (Some "t") towns)))).
Qed.

(** Whatever a source does, also one that fails or breaks the contract: all records written have the
    same number of fields. *)
Theorem C27_equal_lengths : forall fmt32 fmt debug d A (g : prog A) r1 r2,
  let records := o_records (cs_csv (fst (exec (csv_writer fmt32 fmt debug d) g csv_init))) in
  In r1 records -> In r2 records -> length r1 = length r2.
Proof. exact csv_even. Qed.
Print Assumptions C27_equal_lengths.
Example C27_equal_lengths_met :
  let records := o_records (cs_csv (fst (exec (csv_writer show_bits show_bits true xy_dims)
                   (replay (dataset_at false (fun i => i) None towns)) csv_init))) in
  In [""; "B"; "-3"] records /\ In ["geometry"; "name"; "pop"] records.
Proof. vm_compute. tauto. Qed.

(** A dataset that is written without error has a common property list. *)
Theorem C27_no_misalignment : forall fmt32 fmt debug d A (src : dims -> prog A) gi name l r s a,
  delivers_obs src (fun multi => dataset_at multi gi name l) r -> Forall numbered_props l ->
  exec (csv_writer fmt32 fmt debug d) (src d) csv_init = (s, Ok a) ->
  exists ns, Forall (has_columns ns) l.
Proof. exact csv_aligned. Qed.
Print Assumptions C27_no_misalignment.

(** Missing for the full statement: properties that are not numbered consecutively.  A GeoJSON
    collection of two features with the same members, the first member null, panics, in debug and in
    release builds. *)
Theorem C27_null_refuted : forall fmt32 fmt debug ser,
  to_csv fmt32 fmt debug (fun d => read_geojson ser (multi_dim d) (Ok (GjFeatures [null_feature; null_feature])))
  = Err EPanic.
Proof. exact null_panics. Qed.
Print Assumptions C27_null_refuted.
(** Two datasets with the same columns panic. *)
Theorem C27_second_dataset_refuted : forall fmt32 fmt debug d,
  snd (feed (csv_writer fmt32 fmt debug d)
    (dataset_obs (multi_dim d) None [one_prop "a" 1] ++ dataset_obs (multi_dim d) None [one_prop "a" 1]) csv_init)
  = Err EPanic.
Proof. exact second_dataset_panics. Qed.
Print Assumptions C27_second_dataset_refuted.
(** The same properties offered in another order are written under each other's header. *)
Theorem C27_order_refuted : forall fmt32 fmt debug d, exists s,
  feed (csv_writer fmt32 fmt debug d) (dataset_obs (multi_dim d) None misordered) csv_init = (s, Ok tt) /\
  o_records (cs_csv s) = [["geometry"; "a"; "b"]; [""; "1"; "2"]; [""; "2"; "1"]].
Proof. exact misordered_written. Qed.
Print Assumptions C27_order_refuted.

(** Values left over from a feature that was not ended stop a debug build; others go on silently. *)
Theorem C27_interrupted : forall fmt32 fmt d s i, cs_row s <> [] ->
  p_step (csv_writer fmt32 fmt true d) s (FeatureBegin i) = (s, Err EPanic) /\
  p_step (csv_writer fmt32 fmt false d) s (FeatureBegin i) = (s, Ok tt).
Proof. exact interrupted_row. Qed.
Print Assumptions C27_interrupted.
Example C27_interrupted_met : exists s,
  feed (csv_writer (fun _ => "") (fun _ => "") true xy_dims) [OProp 0 "a" (CString "x")] csv_init = (s, Ok tt) /\ cs_row s <> [].
Proof. eexists. split; [reflexivity|discriminate]. Qed.

(** C28.  The feature view. *)
Theorem C28_features : forall parse column headers gi rs l, first_at column headers gi ->
  Forall2 (is_record parse headers gi) rs l ->
  delivers_obs (fun d => process_csv_features parse (multi_dim d) column (Ok headers) (map Ok rs))
    (fun multi => dataset_obs multi None l) (Ok tt).
Proof. exact read_features. Qed.
Print Assumptions C28_features.
Example C28_features_met :
  first_at "geom" ["name"; "geom"; "geom"] 1 /\
  Forall2 (is_record origin_parse ["name"; "geom"; "geom"] 1)
    [["A"; "POINT(0 0)"; "x"]; ["B"; ""; ""]]
    [mkFeature (Some [(0%nat, "name", CString "A"); (1%nat, "geom", CString "x")])
       (Some (GPoint (mkC 0%N 0%N None None)));
     mkFeature (Some [(0%nat, "name", CString "B"); (1%nat, "geom", CString "")]) None].
Proof.
  split; [split; [reflexivity|intros [H|[]]; discriminate H]|].
  constructor; [|constructor; [|constructor]];
    (split; [reflexivity|]); (split; [reflexivity|]); eexists; (split; [reflexivity|]); [|reflexivity].
  split; [discriminate|]. eexists. split; reflexivity.
Qed.
(** Errors: what is delivered before, and the error. *)
Theorem C28_no_column : forall parse column headers records, ~ In column headers ->
  delivers_obs (fun d => process_csv_features parse (multi_dim d) column (Ok headers) records)
    (fun _ => [OEv (DatasetBegin None)]) (Err (ECsv 0)).
Proof. exact read_no_column. Qed.
Print Assumptions C28_no_column.
Theorem C28_bad_record : forall parse column headers gi rs l e rest, first_at column headers gi ->
  Forall2 (is_record parse headers gi) rs l ->
  delivers_obs (fun d => process_csv_features parse (multi_dim d) column (Ok headers) (map Ok rs ++ Err e :: rest))
    (fun multi => OEv (DatasetBegin None) :: flat_mapi (fun i f => feature_obs multi i 0 f) 0 l) (Err e).
Proof. exact read_bad_record. Qed.
Print Assumptions C28_bad_record.
Theorem C28_bad_geometry : forall parse column headers gi rs l r t rest, first_at column headers gi ->
  Forall2 (is_record parse headers gi) rs l ->
  length r = length headers -> nth_error r gi = Some t -> t <> "" -> parse t = None ->
  delivers_obs (fun d => process_csv_features parse (multi_dim d) column (Ok headers) (map Ok rs ++ Ok r :: rest))
    (fun multi => OEv (DatasetBegin None) :: flat_mapi (fun i f => feature_obs multi i 0 f) 0 l ++
       OEv (FeatureBegin (length rs)) :: OEv PropertiesBegin :: map prop_obs (columns gi headers r) ++
       [OEv PropertiesEnd; OEv GeometryBegin]) (Err EGeometry).
Proof. exact read_bad_geometry. Qed.
Print Assumptions C28_bad_geometry.
Example C28_bad_geometry_met :
  nth_error ["A"; "POINT("] 1 = Some "POINT(" /\ "POINT(" <> "" /\ origin_parse "POINT(" = None.
Proof. repeat split; discriminate. Qed.
(** The geometry view: the callbacks, and when they form a geometry.  Missing: two or more records;
    then the announced size is wrong. *)
Theorem C28_geometry_stream : forall parse column headers gi rs gs, first_at column headers gi ->
  Forall2 (is_member parse gi) rs gs ->
  delivers (fun d => process_csv_geom parse (multi_dim d) column (Ok headers) (map Ok rs))
    (fun multi => CollectionBegin (match gs with [] => 0 | _ => 1 end) 0 ::
                  flat_mapi (gevents multi) 0 gs ++ [CollectionEnd 0]) (Ok tt).
Proof. exact read_geom. Qed.
Print Assumptions C28_geometry_stream.
Theorem C28_geometry_partial : forall parse column headers gi rs gs, first_at column headers gi ->
  Forall2 (is_member parse gi) rs gs -> (length gs <= 1)%nat ->
  delivers (fun d => process_csv_geom parse (multi_dim d) column (Ok headers) (map Ok rs))
    (fun multi => gevents multi 0 (GCollection gs)) (Ok tt).
Proof. exact read_geom_one. Qed.
Print Assumptions C28_geometry_partial.
Example C28_geometry_met : Forall2 (is_member origin_parse 1) [["A"; "POINT(0 0)"]] [GPoint (mkC 0%N 0%N None None)].
Proof. repeat constructor. eexists. split; [reflexivity|]. eexists. split; reflexivity. Qed.
(** ... and what it delivers before a record it cannot use. *)
Theorem C28_geometry_unreadable : forall parse column headers gi rs gs bad e rest, first_at column headers gi ->
  Forall2 (is_member parse gi) rs gs -> bad_member parse gi bad e ->
  delivers (fun d => process_csv_geom parse (multi_dim d) column (Ok headers) (map Ok rs ++ bad :: rest))
    (fun multi => match gs with [] => [] | _ => [CollectionBegin 1 0] end ++ flat_mapi (gevents multi) 0 gs) (Err e).
Proof. exact read_geom_bad. Qed.
Print Assumptions C28_geometry_unreadable.
Theorem C28_geometry_no_column : forall parse column headers records,
  (forall e, headers = Err e -> delivers (fun d => process_csv_geom parse (multi_dim d) column headers records) (fun _ => []) (Err e)) /\
  (forall hs, headers = Ok hs -> ~ In column hs ->
     delivers (fun d => process_csv_geom parse (multi_dim d) column headers records) (fun _ => []) (Err (ECsv 0))).
Proof. exact read_geom_no_column. Qed.
Print Assumptions C28_geometry_no_column.
Example C28_geometry_unreadable_met :
  bad_member origin_parse 1 (Ok ["B"; "POINT("]) (ECsv 1) /\ bad_member origin_parse 1 (Ok ["B"]) (ECsv 0) /\
  bad_member origin_parse 1 (Err EIo) EIo /\ ~ In "geom" ["name"; "wkt"].
Proof. repeat split. intros [H|[H|[]]]; discriminate H. Qed.
Theorem C28_no_headers : forall parse column e records,
  delivers_obs (fun d => process_csv_features parse (multi_dim d) column (Err e) records) (fun _ => []) (Err e).
Proof. exact no_headers. Qed.
Print Assumptions C28_no_headers.
Theorem C28_two_records_refuted : ~ exists t, delivers
  (fun d => process_csv_geom origin_parse (multi_dim d) "geom" (Ok ["geom"]) [Ok ["POINT(0 0)"]; Ok ["POINT(0 0)"]])
  (fun multi => gevents multi 0 t) (Ok tt).
Proof. exact read_geom_two. Qed.
Print Assumptions C28_two_records_refuted.

(** C49.  What CsvWriter writes, read with the column "geometry", is the dataset with its values as
    texts and its geometries in two dimensions, if the WKT parser reads the WKT texts back. *)
Theorem C49_round_trip : forall fmt32 fmt debug parse A (src : dims -> prog A) gi name ns l r, l <> [] ->
  delivers_obs src (fun multi => dataset_at multi gi name l) (Ok r) -> Forall (has_columns ns) l ->
  (forall f g, In f l -> f_geom f = Some g ->
     parses parse (wkt_text fmt false false g) (WkbSpec.retained false false g)) ->
  exists header rows l', to_csv fmt32 fmt debug src = Ok (header :: rows) /\
    Forall2 (as_text fmt32 fmt) l l' /\
    delivers_obs (fun d => process_csv_features parse (multi_dim d) "geometry" (Ok header) (map Ok rows))
      (fun multi => dataset_obs multi None l') (Ok tt).
Proof. exact csv_round. Qed.
Print Assumptions C49_round_trip.
Example C49_met : forall f g, In f towns -> f_geom f = Some g ->
  parses (towns_wkt show_bits) (wkt_text show_bits false false g) (WkbSpec.retained false false g).
Proof. exact towns_parse. Qed.
