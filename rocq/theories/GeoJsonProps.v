(** Theorems about GeoJsonWriter, GeoJsonLineWriter and the GeoJSON readers. *)
From Coq Require Import String Ascii.
From Coq Require Import List NArith ZArith Lia Bool.
From Verif Require Import Base Event Claims Geom WkbSpec ProcModel ProcSpec
  JsonSpec FeatureSpec GeoJsonModel GeoJsonSpec GeoJsonWrite GeoJsonTop GeoJsonLines GeoJsonRead GeoJsonMore.
From Verif Require WkbModel.
Import ListNotations.
Local Open Scope string_scope.
Local Open Scope list_scope.

(** C21 *)
Theorem C21_geometry : forall fmt32 fmt num d g,
  json_format finite fmt num -> geojson_kind g = true -> finite_geom (multi_dim d) g ->
  exists out j,
    run (geojson_writer fmt32 fmt d) (gevents (multi_dim d) 0 g) "" = (out, Ok tt) /\
    parse_json out = Some j /\ geometry_of num j = Some (kept_geom (multi_dim d) g).
Proof. intros fmt32 fmt num d g F. exact (geometry_written fmt32 fmt d num F g). Qed.
Print Assumptions C21_geometry.
Example C21_geometry_met : forall z,
  json_format finite show_num read_num /\ geojson_kind some_geom = true /\ finite_geom z some_geom.
Proof. exact (fun z => conj (show_num_ok finite) (conj eq_refl (some_finite z))). Qed.

(** NaN and infinite ordinates are written as they are formatted *)
Theorem C21_not_finite_refuted : forall fmt32 fmt d, fmt nan_bits = "NaN" ->
  exists g, geojson_kind g = true /\
    parse_json (fst (run (geojson_writer fmt32 fmt d) (gevents (multi_dim d) 0 g) "")) = None.
Proof. exact nan_text. Qed.
Print Assumptions C21_not_finite_refuted.
Example C21_not_finite_refuted_met :
  (fun x => if N.eqb x nan_bits then "NaN" else show_num x) nan_bits = "NaN" /\ finite nan_bits = false.
Proof. exact (conj eq_refl eq_refl). Qed.

(** geometry types GeoJSON does not have are accepted without an error *)
Theorem C21_unsupported_accepted : forall fmt32 fmt d,
  run (geojson_writer fmt32 fmt d) (gevents (multi_dim d) 0 (GCircularString [])) "" = ("", Ok tt).
Proof. exact curve_text. Qed.
Print Assumptions C21_unsupported_accepted.

(** C22.  Missing for the full statement: texts with backslashes or control characters, binary
    values, dataset names with quotes, and property lists that do not start with index 0; see the
    refutations below. *)
Theorem C22_dataset_partial : forall fmt32 fmt num32 num d name l,
  json_format finite32 fmt32 num32 -> json_format finite fmt num ->
  safe_name name -> Forall (safe_feature (multi_dim d)) l ->
  exists out j,
    feed (geojson_writer fmt32 fmt d) (dataset_obs (multi_dim d) name l) "" = (out, Ok tt) /\
    parse_json out = Some j /\ dataset_json num32 num (multi_dim d) name l j.
Proof.
  intros fmt32 fmt num32 num d name l F32 F. exact (dataset_written fmt32 fmt d num32 num F32 F name l).
Qed.
Print Assumptions C22_dataset_partial.
Example C22_dataset_met : forall z,
  json_format finite32 show_num read_num /\ json_format finite show_num read_num /\
  safe_name (Some "roads") /\ Forall (safe_feature z) [some_feature; mkFeature None None; some_feature].
Proof.
  intros z. split; [apply show_num_ok|]. split; [apply show_num_ok|]. split; [split; reflexivity|].
  constructor; [apply some_safe|]. constructor; [split; exact I|]. constructor; [apply some_safe|constructor].
Qed.

Theorem C22_backslash_refuted : forall fmt32 fmt d,
  parse_json (fst (feed (geojson_writer fmt32 fmt d)
    (dataset_obs (multi_dim d) None [one_prop 0 "a" (CString "C:\dir")]) "")) = None.
Proof. exact backslash_text. Qed.
Print Assumptions C22_backslash_refuted.
(** or the text is valid JSON with another value: C:\new is read back with a newline in it *)
Theorem C22_backslash_value_refuted : forall fmt32 fmt d,
  exists j, parse_json (fst (feed (geojson_writer fmt32 fmt d)
    (dataset_obs (multi_dim d) None [one_prop 0 "a" (CString "C:\new")]) "")) = Some j /\
  j = JObj [("type", JStr "FeatureCollection");
            ("features", JArr [JObj [("type", JStr "Feature");
               ("properties", JObj [("a", JStr ("C:" ++ nl ++ "ew")%string)])]])].
Proof. exact backslash_value. Qed.
Print Assumptions C22_backslash_value_refuted.
Theorem C22_control_refuted : forall fmt32 fmt d,
  parse_json (fst (feed (geojson_writer fmt32 fmt d)
    (dataset_obs (multi_dim d) None [one_prop 0 "a" (CString nl)]) "")) = None.
Proof. exact control_text. Qed.
Print Assumptions C22_control_refuted.
Theorem C22_binary_refuted : forall fmt32 fmt d,
  parse_json (fst (feed (geojson_writer fmt32 fmt d)
    (dataset_obs (multi_dim d) None [mkFeature (Some [(0, "a", CBool true); (1, "b", CBinary [])])%nat None]) "")) = None.
Proof. exact binary_text. Qed.
Print Assumptions C22_binary_refuted.
Theorem C22_name_refuted : forall fmt32 fmt d,
  parse_json (fst (feed (geojson_writer fmt32 fmt d) (dataset_obs (multi_dim d) (Some "a""b") []) "")) = None.
Proof. exact name_text_bad. Qed.
Print Assumptions C22_name_refuted.
(** a feature whose first property is null, read by the crate's own reader *)
Theorem C22_null_first_refuted : forall ser fmt32 fmt d,
  exists out, exec (geojson_writer fmt32 fmt d) (process_geojson ser (multi_dim d)
    (GjFeature (mkGjFeature None (Some [("a", JvNull); ("b", JvBool true)])))) "" = (out, Ok tt) /\
  parse_json out = None.
Proof. exact null_text. Qed.
Print Assumptions C22_null_first_refuted.

(** C23.  Feature collections, single features and GeoJSON lines.  Missing for the full statement:
    bare geometries, features with neither geometry nor properties, and the streaming reader
    read_geojson_fc; see the refutations below. *)
Theorem C23_collection : forall ser l fs, Forall2 (is_feature_of ser) l fs ->
  delivers_obs (fun d => read_geojson ser (multi_dim d) (Ok (GjFeatures l)))
    (fun multi => OEv (DatasetBegin None) ::
                  flat_mapi (fun i f => feature_obs multi i i f) 0 fs ++ [OEv DatasetEnd]) (Ok tt) /\
  forall multi, contract (OEv (DatasetBegin None) ::
                  flat_mapi (fun i f => feature_obs multi i i f) 0 fs ++ [OEv DatasetEnd]).
Proof.
  intros ser l fs H.
  exact (conj (plays_delivers _ _ (fun d => collection_play ser (multi_dim d) l fs H))
              (fun multi => contract_dataset multi None (fun i => i) fs)).
Qed.
Print Assumptions C23_collection.
Theorem C23_feature : forall ser pf f, is_feature_of ser pf f ->
  (gf_geometry pf <> None \/ gf_properties pf <> None) ->
  delivers_obs (fun d => read_geojson ser (multi_dim d) (Ok (GjFeature pf)))
    (fun multi => OEv (DatasetBegin None) :: feature_obs multi 0 0 f ++ [OEv DatasetEnd]) (Ok tt) /\
  forall multi, contract (OEv (DatasetBegin None) :: feature_obs multi 0 0 f ++ [OEv DatasetEnd]).
Proof.
  intros ser pf f H N.
  split; [exact (plays_delivers _ _ (fun d => single_play ser (multi_dim d) 0 pf f H N))|].
  intros multi. pose proof (contract_dataset multi None (fun i => i) [f]) as C.
  cbn [flat_mapi] in C. rewrite app_nil_r in C. exact C.
Qed.
Print Assumptions C23_feature.
Theorem C23_lines : forall ser l fs, Forall2 (is_feature_of ser) l fs ->
  delivers_obs (fun d => read_geojson_lines ser (multi_dim d) (map (fun f => Ok (GjFeature f)) l))
    (fun multi => dataset_obs multi None fs) (Ok tt) /\
  forall multi, contract (dataset_obs multi None fs).
Proof.
  intros ser l fs H.
  exact (conj (plays_delivers _ _ (fun d => lines_play ser (multi_dim d) l fs H))
              (fun multi => contract_dataset multi None (fun _ => 0%nat) fs)).
Qed.
Print Assumptions C23_lines.
(** the hypothesis of the three theorems is met by every parsed feature whose positions have at
    least two numbers *)
Theorem C23_every_feature : forall ser pf,
  (forall g, gf_geometry pf = Some g -> tree_of g <> None) -> exists f, is_feature_of ser pf f.
Proof. exact feature_exists. Qed.
Print Assumptions C23_every_feature.
Example C23_met : exists f, is_feature_of (fun _ => "[]")
  (mkGjFeature (Some (GjCollection [GjPoint [1%N; 2%N; 3%N]]))
     (Some [("a", JvNull); ("b", JvNumber (NPosInt (2 ^ 63))); ("c", JvArray [])])) f.
Proof. apply feature_exists. intros g [= <-]. discriminate. Qed.

(** a bare geometry is not announced as a dataset *)
Theorem C23_geometry_refuted : forall ser g t, tree_of g = Some t ->
  delivers_obs (fun d => read_geojson ser (multi_dim d) (Ok (GjGeometry g)))
    (fun multi => map OEv (gevents multi 0 t)) (Ok tt) /\
  forall multi, ~ contract (map OEv (gevents multi 0 t)).
Proof.
  intros ser g t E.
  exact (conj (plays_delivers _ (fun multi => map OEv (gevents multi 0 t))
                 (fun d => proj1 (bare_geometry ser (multi_dim d) g t E)))
              (fun multi => proj2 (bare_geometry ser multi g t E))).
Qed.
Print Assumptions C23_geometry_refuted.
Example C23_geometry_met : tree_of (GjPoint [1%N; 2%N]) = Some (GPoint (mkC 1%N 2%N None None)).
Proof. reflexivity. Qed.
(** a feature without geometry and properties vanishes *)
Theorem C23_empty_feature_refuted : forall ser,
  delivers_obs (fun d => read_geojson ser (multi_dim d) (Ok (GjFeature (mkGjFeature None None))))
    (fun _ => [OEv (DatasetBegin None); OEv DatasetEnd]) (Ok tt).
Proof. intros ser. exact (plays_delivers _ _ (fun d => empty_play ser (multi_dim d) 0)). Qed.
Print Assumptions C23_empty_feature_refuted.
(** the streaming reader announces a dataset per feature, and none for an empty collection *)
Theorem C23_streaming_refuted : forall ser multi,
  (exists l, ~ contract l /\
     forall S (p : proc S) s,
       exec p (read_geojson_fc ser multi [Ok empty_multipoint; Ok empty_multipoint]) s = feed p l s) /\
  (forall S (p : proc S) s, exec p (read_geojson_fc ser multi []) s = (s, Ok tt)).
Proof. intros ser multi. exact (conj (fc_bad ser multi) (fc_none ser multi)). Qed.
Print Assumptions C23_streaming_refuted.

(** C24 *)
Theorem C24_geometry : forall ser fmt32 fmt num d g t,
  json_format finite fmt num -> tree_of g = Some t -> finite_geom (multi_dim d) t ->
  exists out j,
    exec (geojson_writer fmt32 fmt d) (read_geojson ser (multi_dim d) (Ok (GjGeometry g))) "" = (out, Ok tt) /\
    parse_json out = Some j /\ geometry_of num j = Some (kept_geom (multi_dim d) t).
Proof. intros ser fmt32 fmt num d g t F. exact (geometry_copied fmt32 fmt num F d ser g t). Qed.
Print Assumptions C24_geometry.
Example C24_geometry_met : exists t,
  tree_of (GjCollection [GjPoint [1%N; 2%N; 3%N]; GjMultiPolygon [[[[0%N; 0%N]; [1%N; 0%N]; [0%N; 0%N]]]]]) = Some t /\
  finite_geom true t.
Proof. eexists. split; [reflexivity|]. vm_compute. repeat constructor; intros; discriminate. Qed.
(** a feature, and lines of features *)
Theorem C24_feature : forall ser fmt32 fmt num32 num d pf f,
  json_format finite32 fmt32 num32 -> json_format finite fmt num ->
  is_feature_of ser pf f -> (gf_geometry pf <> None \/ gf_properties pf <> None) ->
  safe_feature (multi_dim d) f ->
  exists out j,
    exec (geojson_writer fmt32 fmt d) (read_geojson ser (multi_dim d) (Ok (GjFeature pf))) "" = (out, Ok tt) /\
    parse_json out = Some j /\ dataset_json num32 num (multi_dim d) None [f] j.
Proof.
  intros ser fmt32 fmt num32 num d pf f F32 F. exact (feature_copied fmt32 fmt num32 num F32 F d ser pf f).
Qed.
Print Assumptions C24_feature.
Theorem C24_lines : forall ser fmt32 fmt num32 num d l fs,
  json_format finite32 fmt32 num32 -> json_format finite fmt num ->
  Forall2 (is_feature_of ser) l fs -> Forall (safe_feature (multi_dim d)) fs ->
  exists out j,
    exec (geojson_writer fmt32 fmt d)
      (read_geojson_lines ser (multi_dim d) (map (fun f => Ok (GjFeature f)) l)) "" = (out, Ok tt) /\
    parse_json out = Some j /\ dataset_json num32 num (multi_dim d) None fs j.
Proof.
  intros ser fmt32 fmt num32 num d l fs F32 F. exact (lines_copied fmt32 fmt num32 num F32 F d ser l fs).
Qed.
Print Assumptions C24_lines.
Example C24_feature_met :
  let pf := mkGjFeature (Some (GjPoint [1%N; 2%N])) (Some [("a", JvString "x")]) in
  let f := mkFeature (Some [(0%nat, "a", CString "x")]) (Some (GPoint (mkC 1%N 2%N None None))) in
  is_feature_of (fun _ => "") pf f /\ gf_geometry pf <> None /\ safe_feature false f.
Proof.
  cbn zeta. split; [|split; [discriminate|]].
  - split; [|reflexivity]. cbn. apply delivered_value; [constructor|constructor].
  - split; [|split; [reflexivity|]].
    + split; [reflexivity|]. repeat constructor.
    + vm_compute. repeat constructor; intros; discriminate.
Qed.
(** a collection with a geometry in its second feature does not survive: the reader numbers the
    geometry with the number of the feature and the writer starts it with a comma *)
Theorem C24_second_feature_refuted : forall ser fmt32 fmt d,
  exists out,
    exec (geojson_writer fmt32 fmt d)
      (read_geojson ser (multi_dim d) (Ok (GjFeatures [empty_multipoint; empty_multipoint]))) "" = (out, Ok tt) /\
    parse_json out = None.
Proof. exact second_feature_text. Qed.
Print Assumptions C24_second_feature_refuted.

(** C25 *)
Theorem C25_lines : forall fmt32 fmt d multi name l out, forallb item_kind l = true ->
  exists texts,
    Forall2 (fun it t => feed (geojson_writer fmt32 fmt d) (item_obs multi (alone it)) "" = (t, Ok tt)) l texts /\
    feed (geojson_line_writer fmt32 fmt) (flat_map (item_obs multi) l) (0%nat, out) =
      ((0%nat, (out ++ String.concat "" (map (fun t => t ++ nl) texts))%string), Ok tt) /\
    feed (geojson_line_writer fmt32 fmt)
      (OEv (DatasetBegin name) :: flat_map (item_obs multi) l ++ [OEv DatasetEnd]) (0%nat, out) =
      ((0%nat, (out ++ String.concat "" (map (fun t => t ++ nl) texts))%string), Ok tt) /\
    ((forall x, has_newline (fmt32 x) = false) -> (forall x, has_newline (fmt x) = false) ->
     Forall single_line l -> Forall (fun t => has_newline t = false) texts).
Proof. exact line_text. Qed.
Print Assumptions C25_lines.
Example C25_lines_met :
  forallb item_kind [IFeature 3 some_feature; IGeometry 7 some_geom] = true /\
  Forall single_line [IFeature 3 some_feature; IGeometry 7 some_geom] /\
  (forall x, has_newline (show_num x) = false).
Proof.
  split; [reflexivity|split; [|exact show_num_line]].
  constructor; [|constructor; [exact I|constructor]]. cbn. repeat constructor.
Qed.

(** C26: the callbacks, and when they form a geometry.  Missing: two or more geometries, or lines
    without geometry before; then the announced size or the indices are wrong. *)
Theorem C26_stream : forall l ts, Forall no_collection l -> Forall2 member_of (line_members 0 l) ts ->
  delivers (fun d => read_geojson_line_geometries (multi_dim d) (map Ok l))
    (fun multi => CollectionBegin (match ts with [] => 0 | _ => 1 end) 0 ::
                  flat_map (fun t => gevents multi (fst t) (snd t)) ts ++ [CollectionEnd 0]) (Ok tt).
Proof. exact lines_stream. Qed.
Print Assumptions C26_stream.
Theorem C26_geometry_partial : forall l ts, Forall no_collection l ->
  Forall2 member_of (line_members 0 l) ts -> (ts = [] \/ exists t, ts = [(0%nat, t)]) ->
  delivers (fun d => read_geojson_line_geometries (multi_dim d) (map Ok l))
    (fun multi => gevents multi 0 (GCollection (map snd ts))) (Ok tt).
Proof. exact one_line. Qed.
Print Assumptions C26_geometry_partial.
Example C26_met :
  let l := [point_line; GjFeature (mkGjFeature None None)] in
  Forall no_collection l /\ Forall2 member_of (line_members 0 l) [(0%nat, GPoint (mkC 0%N 0%N None None))].
Proof. repeat constructor. Qed.
Theorem C26_two_lines_refuted :
  ~ exists t, delivers (fun d => read_geojson_line_geometries (multi_dim d) [Ok point_line; Ok point_line])
      (fun multi => gevents multi 0 t) (Ok tt).
Proof. exact two_lines. Qed.
Print Assumptions C26_two_lines_refuted.
Theorem C26_gap_refuted :
  ~ exists t, delivers (fun d => read_geojson_line_geometries (multi_dim d)
      [Ok (GjFeature (mkGjFeature None None)); Ok point_line])
      (fun multi => gevents multi 0 t) (Ok tt).
Proof. exact gap_lines. Qed.
Print Assumptions C26_gap_refuted.

(** C51.  The geometry view of a document: the geometries of its features in order, numbered
    consecutively (features without geometry are not counted).  They form a geometry exactly if
    there is one. *)
Theorem C51_stream : forall g ts, Forall2 (fun g t => tree_of g = Some t) (doc_members g) ts ->
  delivers (fun d => read_geojson_geom (multi_dim d) (Ok g)) (fun multi => flat_mapi (gevents multi) 0 ts) (Ok tt).
Proof. exact view_stream. Qed.
Print Assumptions C51_stream.
Theorem C51_geometry_partial : forall g ts, Forall2 (fun g t => tree_of g = Some t) (doc_members g) ts ->
  ((exists t, delivers (fun d => read_geojson_geom (multi_dim d) (Ok g)) (fun multi => gevents multi 0 t) (Ok tt))
   <-> length ts = 1%nat).
Proof. exact view_single. Qed.
Print Assumptions C51_geometry_partial.
Example C51_met : Forall2 (fun g t => tree_of g = Some t) (doc_members two_points)
  [GPoint (mkC 1%N 2%N None None); GPoint (mkC 3%N 4%N None None)].
Proof. repeat constructor. Qed.
(** Converted to WKB the second geometry is lost without an error: what is written is read back as
    the first one. *)
Theorem C51_two_refuted : exists b,
  WkbModel.to_wkb_dialect (fun d => read_geojson_geom (multi_dim d) (Ok two_points)) WkbModel.Wkb xy_dims None [] = Ok b /\
  fst (observe (WkbModel.process_wkb_type_geom WkbModel.Wkb xy_dims b)) =
    map OEv (Srid None :: gevents false 0 (GPoint (mkC 1%N 2%N None None))).
Proof. exact two_points_wkb. Qed.
Print Assumptions C51_two_refuted.
