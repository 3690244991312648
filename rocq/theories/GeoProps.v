(** Properties C19, C20, C44, C45, C46 (geo-types conversions).  Specification vocabulary: Claims.v,
    GeoSpec.v.  Model: GeoModel.v. *)
From Coq Require Import String Ascii.
From Coq Require Import List NArith ZArith Lia Bool.
From Verif Require Import Base Float Event Claims Geom GeoModel GeoSpec GeoTop GeoExact GeoSafe GeoWkb.
From Verif Require WkbModel WkbSpec WkbClaims FeatureSpec ProcSpec CsvTop.
Import ListNotations.
Local Open Scope N_scope.
Local Open Scope string_scope.
Local Open Scope list_scope.

Ltac small_goal :=
  repeat match goal with
  | |- True => exact I
  | |- _ = _ -> False => discriminate
  | |- _ <> [] => discriminate
  | |- _ = true => reflexivity
  | |- fits _ _ => unfold fits; vm_compute; discriminate
  | |- small _ => hnf
  | |- small_rings _ => split
  | |- _ /\ _ => split
  | |- closed _ _ _ => hnf
  | |- closed_poly _ => split
  | |- closed_ring _ => vm_compute; reflexivity
  | |- Forall _ [] => constructor
  | |- Forall _ (map _ []) => constructor
  | |- Forall _ _ => constructor
  | |- _ => progress cbn
  end.

(** ** C19 *)
(** [rect] and [tri] are geo_types' Rect::to_polygon and Triangle::to_polygon; [debug] tells whether
    debug assertions are compiled in. *)
Theorem C19_reader : forall rect tri g,
  delivers (geo_process rect tri g) (fun multi => gevents multi 0 (tree rect tri g)) (Ok tt).
Proof. exact geo_delivers. Qed.
Print Assumptions C19_reader.
(** What is missing for the full property: rings that geo_types cannot close because their first
    position is NaN, and geometries above the preallocation budget (refutations below). *)
Theorem C19_round_trip_partial : forall rect tri debug g,
  closed rect tri g -> small (tree rect tri g) ->
  to_geo debug (geo_process rect tri g) = Ok (normal rect tri g).
Proof. exact geo_round_trip. Qed.
Print Assumptions C19_round_trip_partial.
Example C19_round_trip_partial_example :
  let g := TCollection [TPoint (1, 2); TLine (3, 4) (5, 6); TRect (0, 0) (1, 1);
             TPolygon ([(1, 1); (2, 1); (2, 2); (1, 1)], [[]]); TCollection [TMultiPoint []]] in
  closed sample_rect sample_triangle g /\ small (tree sample_rect sample_triangle g) /\
  to_geo true (geo_process sample_rect sample_triangle g) =
  Ok (TCollection [TPoint (1, 2); TLineString [(3, 4); (5, 6)];
        TPolygon ([(1, 0); (1, 1); (0, 1); (0, 0); (1, 0)], []);
        TPolygon ([(1, 1); (2, 1); (2, 2); (1, 1)], [[]]); TCollection [TMultiPoint []]]).
Proof.
  split; [small_goal|]. split; [|vm_compute; reflexivity].
  small_goal.
Qed.
(** these two restrictions are exactly what is missing *)
Theorem C19_exact : forall rect tri debug g,
  to_geo debug (geo_process rect tri g) = Ok (normal rect tri g) <->
  closed rect tri g /\ small (tree rect tri g).
Proof. exact geo_round_trip_iff. Qed.
Print Assumptions C19_exact.
(** a polygon built by Polygon::new comes back with one position more *)
Theorem C19_nan_ring_refuted : forall rect tri debug, exists p, exists p',
  p = polygon_new [(f64_nan, 0); (1, 1)] [] /\
  to_geo debug (geo_process rect tri (TPolygon p)) = Ok (TPolygon p') /\
  length (fst p') = S (length (fst p)).
Proof.
  intros rect tri debug. eexists. eexists. split; [reflexivity|].
  destruct debug; split; vm_compute; reflexivity.
Qed.
Print Assumptions C19_nan_ring_refuted.
Theorem C19_over_budget_refuted : forall rect tri debug l, 1048576 < N.of_nat (length l) ->
  to_geo debug (geo_process rect tri (TLineString l)) = Err EGeometry.
Proof. exact over_budget. Qed.
Print Assumptions C19_over_budget_refuted.

(** ** C20 *)
(** What is missing for the full property: declared sizes above the preallocation budget
    (C19_over_budget_refuted).  Positions come by [xy]: a GeoWriter does not ask for z and m. *)
Theorem C20_any_stream_partial : forall debug l,
  forallb plain l = true -> Forall small l -> l <> [] ->
  exists s, run (geo_writer debug) (flat_mapi (gevents false) 0 l) gw_init = (s, Ok tt) /\
            take_geometry s = (gw_init, Some (joined l)).
Proof. exact collected_geo. Qed.
Print Assumptions C20_any_stream_partial.
(** A position given by [coordinate] is ignored: a point panics, a line string comes out empty.
    C65 says that no reader gives a GeoWriter one. *)
Theorem C20_coordinate_refuted : forall debug,
  (forall x y z m, snd (run (geo_writer debug) (gevents true 0 (GPoint (mkC x y z m))) gw_init) = Err EPanic) /\
  (forall l, small (GLineString l) ->
     exists s, run (geo_writer debug) (gevents true 0 (GLineString l)) gw_init = (s, Ok tt) /\
               snd (take_geometry s) = Some (TLineString [])).
Proof. exact (fun debug => conj (coordinate_point debug) (coordinate_line debug)). Qed.
Print Assumptions C20_coordinate_refuted.
Theorem C20_any_source_partial : forall debug src g r,
  plain g = true -> small g -> delivers src (fun multi => gevents multi 0 g) (Ok r) ->
  to_geo debug src = Ok (value_of g).
Proof. exact to_geo_delivers. Qed.
Print Assumptions C20_any_source_partial.
(** the answer for every geometry of the seven types: its value, or the error of a refused
    reservation exactly if some declared size is above the budget *)
Theorem C20_exact : forall debug src g r,
  plain g = true -> delivers src (fun multi => gevents multi 0 g) (Ok r) ->
  (small g /\ to_geo debug src = Ok (value_of g)) \/ (~ small g /\ to_geo debug src = Err EGeometry).
Proof. exact to_geo_all. Qed.
Print Assumptions C20_exact.
(** a source that delivers several geometries *)
Theorem C20_several_partial : forall debug src l r,
  forallb plain l = true -> Forall small l -> l <> [] ->
  delivers src (fun multi => flat_mapi (gevents multi) 0 l) (Ok r) ->
  to_geo debug src = Ok (joined l).
Proof. exact to_geo_several. Qed.
Print Assumptions C20_several_partial.
Theorem C20_from_wkb_partial : forall debug dl d srid env ed ext emp o g tail,
  WkbSpec.encodable g -> (WkbSpec.levels g <= 128)%nat -> WkbClaims.srid_ok dl srid ->
  WkbClaims.env_ok dl ed env -> WkbClaims.order_ok dl o ->
  let g' := WkbSpec.retained (dz d) (dm d) g in
  plain g' = true -> small g' ->
  geo_from_wkb debug dl (WkbClaims.std dl d srid env ed ext emp o g ++ tail) = Ok (value_of g').
Proof. exact from_wkb_value. Qed.
Print Assumptions C20_from_wkb_partial.
Example C20_example :
  let g := GCollection [GPoint (mkC 1 2 (Some 3) None); GCollection []; GPolygon [[mkC 0 0 None None]; []]] in
  forallb plain [g; GMultiPoint []] = true /\ Forall small [g; GMultiPoint []] /\
  joined [g; GMultiPoint []] =
    TCollection [TCollection [TPoint (1, 2); TCollection []; TPolygon ([(0, 0)], [[]])]; TMultiPoint []].
Proof.
  split; [reflexivity|]. split; [|reflexivity].
  small_goal.
Qed.

(** ** C44 *)
Theorem C44_validate : forall elt n, n < 2 ^ 64 ->
  (validate_capacity elt n = Ok tt <-> n * elt <= 16777216) /\
  (validate_capacity elt n = Err EGeometry <-> 16777216 < n * elt).
Proof. exact validate_spec. Qed.
Print Assumptions C44_validate.
Theorem C44_reserve : forall elt n r, bounded_vec elt n = Ok r -> r = n /\ r * elt <= 16777216.
Proof. exact bounded_spec. Qed.
Print Assumptions C44_reserve.
Example C44_example : validate_capacity 16 1048576 = Ok tt /\ validate_capacity 16 1048577 = Err EGeometry /\
  validate_capacity 0 (2 ^ 64 - 1) = Ok tt /\ validate_capacity (2 ^ 63) 2 = Err EGeometry.
Proof. repeat split. Qed.

(** ** C45 *)
(** What is missing for the full property: sources that stop delivering properties when the
    processor says so lose all but the first property (refutation below); features without geometry
    are an error. *)
Theorem C45_features_partial : forall debug name l,
  Forall (fun f : ftr => forallb plain (snd f) = true /\ Forall small (snd f) /\ snd f <> []) l ->
  exists s, feed (feature_writer debug) (dataset_obs false name l) gf_init = (s, Ok tt) /\
    Forall2 (fun (f : ftr) (r : gt * props) =>
      fst r = joined (snd f) /\ NoDup (map fst (snd r)) /\
      forall n, get (snd r) n = last_value (fst f) n) l (f_features s).
Proof. exact features_spec. Qed.
Print Assumptions C45_features_partial.
(** the same through ToGeoFeatures::to_geo_features, for every source that delivers a dataset *)
Theorem C45_to_features_partial : forall debug src name l,
  FeatureSpec.delivers_obs src (fun multi => dataset_obs multi name l) (Ok tt) ->
  Forall (fun f : ftr => forallb plain (snd f) = true /\ Forall small (snd f) /\ snd f <> []) l ->
  exists fs, to_geo_features debug src = Ok fs /\
    Forall2 (fun (f : ftr) (r : gt * props) =>
      fst r = joined (snd f) /\ NoDup (map fst (snd r)) /\
      forall n, get (snd r) n = last_value (fst f) n) l fs.
Proof. exact to_features_spec. Qed.
Print Assumptions C45_to_features_partial.
(** errors of the source and of the features are returned, with no features *)
Theorem C45_to_features_error : forall debug src name l e,
  FeatureSpec.delivers_obs src (fun multi => dataset_obs multi name l) (Err e) ->
  Forall (fun f : ftr => forallb plain (snd f) = true /\ Forall small (snd f) /\ snd f <> []) l ->
  to_geo_features debug src = Err e.
Proof. exact to_features_error. Qed.
Print Assumptions C45_to_features_error.
(** GeoFeature::property on the features: the last property of that name, converted as C33 says *)
Theorem C45_property_partial : forall fmt32 fmt debug src name l,
  FeatureSpec.delivers_obs src (fun multi => dataset_obs multi name l) (Ok tt) ->
  Forall (fun f : ftr => forallb plain (snd f) = true /\ Forall small (snd f) /\ snd f <> []) l ->
  exists fs, to_geo_features debug src = Ok fs /\ length fs = length l /\
  forall k f x, nth_error l k = Some f -> nth_error fs k = Some x ->
  forall t n, let r := geo_feature_property fmt32 fmt x t n in
  (last_value (fst f) n = None -> r = Err EColumnNotFound) /\
  (forall v, last_value (fst f) n = Some v ->
     (forall w, ProcSpec.reads_as fmt32 fmt t v w -> r = Ok w) /\
     ((forall w, ~ ProcSpec.reads_as fmt32 fmt t v w) -> r = Err EColumnType)).
Proof. exact feature_property_spec. Qed.
Print Assumptions C45_property_partial.
Example C45_example :
  let l := [([(0%nat, "a", CInt 1); (1%nat, "b", CBool true); (2%nat, "a", CInt 2)], [GPoint (mkC 1 2 None None)]);
            ([], [GMultiPoint []; GMultiPoint []])] in
  Forall (fun f : ftr => forallb plain (snd f) = true /\ Forall small (snd f) /\ snd f <> []) l /\
  f_features (fst (feed (feature_writer true) (dataset_obs false None l) gf_init)) =
    [(TPoint (1, 2), [("a", CInt 2); ("b", CBool true)]); (TCollection [TMultiPoint []; TMultiPoint []], [])] /\
  exists src, FeatureSpec.delivers_obs src (fun multi => dataset_obs multi None l) (Ok tt).
Proof.
  split; [|split; [reflexivity|eexists; apply CsvTop.replay_delivers]]. small_goal.
Qed.
(** reading a feature through FeatureAccess::process keeps its first property only *)
Theorem C45_abort_refuted : forall debug,
  to_geo_features debug (fun _ => ProcModel.feature_process 0
    (ProcTop.offering [(0%nat, "a", CInt 1); (1%nat, "b", CInt 2)])
    (pthen (pcall (PointBegin 0)) (pthen (pcall (Xy 1 2 0)) (pcall (PointEnd 0))))) =
  Ok [(TPoint (1, 2), [("a", CInt 1)])].
Proof. intros [|]; reflexivity. Qed.
Print Assumptions C45_abort_refuted.
Theorem C45_missing_geometry : forall debug multi i ps,
  snd (feed (feature_writer debug) (feature_obs multi i (ps, [])) gf_init) = Err EFeatureGeometry.
Proof. exact missing_geometry. Qed.
Print Assumptions C45_missing_geometry.

(** ** C46 *)
Theorem C46_no_panic : forall debug dl b,
  geo_from_wkb debug dl b <> Err EPanic /\ geo_from_wkb debug dl b <> Err EFuel.
Proof. exact from_wkb_no_panic. Qed.
Print Assumptions C46_no_panic.
