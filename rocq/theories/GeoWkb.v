(** geo-types from WKB, and facts completing the geo-types claims. *)
From Coq Require Import String Ascii.
From Coq Require Import List NArith ZArith Lia Bool.
From Verif Require Import Base BaseLemmas Float Event EventLemmas Claims Geom ProcTop GeoModel GeoSpec GeoTop.
From Verif Require FeatureSpec ProcSpec.
From Verif Require WkbModel WkbSpec WkbClaims WkbTop.
Import ListNotations.
Local Open Scope N_scope.
Local Open Scope list_scope.

Lemma from_wkb_value : forall debug dl d srid env ed ext emp o g tail,
  WkbSpec.encodable g -> (WkbSpec.levels g <= 128)%nat -> WkbClaims.srid_ok dl srid ->
  WkbClaims.env_ok dl ed env -> WkbClaims.order_ok dl o ->
  let g' := WkbSpec.retained (dz d) (dm d) g in
  plain g' = true -> small g' ->
  geo_from_wkb debug dl (WkbClaims.std dl d srid env ed ext emp o g ++ tail) = Ok (value_of g').
Proof.
  intros debug dl d srid env ed ext emp o g tail E L R V O g' P S. unfold geo_from_wkb.
  pose proof (WkbTop.delivers_std dl d srid env ed ext emp o g tail E L R V O) as D.
  specialize (D _ (geo_writer debug) gw_init). change (p_dims (geo_writer debug)) with xy_dims in D.
  rewrite D. clear D. fold g'. change (multi_dim xy_dims) with false.
  change (run (geo_writer debug) (Srid (WkbClaims.reported_srid dl srid) :: gevents false 0 g') gw_init)
    with (run (geo_writer debug) (gevents false 0 g') (mkGw [] [] None None None)).
  rewrite written by assumption. reflexivity.
Qed.

Lemma over_budget : forall rect tri debug l, 1048576 < N.of_nat (length l) ->
  to_geo debug (geo_process rect tri (TLineString l)) = Err EGeometry.
Proof.
  intros rect tri debug l H. unfold to_geo, geo_process. cbn [t_geom]. rewrite line_calls.
  unfold ok_calls. rewrite exec_calls. unfold ev_line. cbn [run app]. cbn [p_step geo_writer geo_step gw_init g_coords is_none].
  rewrite assert_none. unfold reserve, bounded_vec, validate_capacity, saturating_mul, max_prealloc_bytes, coord_size.
  unfold tree_line. rewrite map_length. change (16 * 1024 * 1024) with 16777216.
  destruct (N.ltb_spec 16777216 (N.min (N.of_nat (length l) * 16) (2 ^ 64 - 1))) as [L|L]; [reflexivity|].
  exfalso. lia.
Qed.

Lemma features_spec : forall debug name l,
  Forall (fun f : ftr => forallb plain (snd f) = true /\ Forall small (snd f) /\ snd f <> []) l ->
  exists s, feed (feature_writer debug) (dataset_obs false name l) gf_init = (s, Ok tt) /\
    Forall2 (fun (f : ftr) (r : gt * props) =>
      fst r = joined (snd f) /\ NoDup (map fst (snd r)) /\
      forall n, get (snd r) n = last_value (fst f) n) l (f_features s).
Proof.
  intros debug name l H. eexists. split; [apply feed_dataset; exact H|]. cbn [f_features].
  clear H. induction l as [|f l IH]; cbn [map]; constructor; [|exact IH].
  unfold made. cbn [fst snd]. split; [reflexivity|]. split; [apply put_all_nodup; constructor|].
  intros n. rewrite put_all_get. destruct (last_value (fst f) n); reflexivity.
Qed.

Lemma missing_geometry : forall debug multi i ps,
  snd (feed (feature_writer debug) (feature_obs multi i (ps, [])) gf_init) = Err EFeatureGeometry.
Proof.
  intros debug multi i ps. unfold feature_obs, gf_init. cbn [fst snd flat_mapi map app].
  cbn [feed]. cbn [p_step feature_writer feature_step no_geoms f_writer gw_init g_geoms f_props is_none].
  unfold f_assert. rewrite !andb_false_r. cbn [feed f_writer f_features]. cbn [p_step feature_writer feature_step].
  change (mkGw [] [] None None None) with gw_init. change (mkProc xy_dims (feature_step debug) feature_prop) with (feature_writer debug).
  rewrite feed_app, feed_props. cbn [feed]. cbn [p_step feature_writer feature_step no_geoms f_writer gw_init g_geoms f_props].
  unfold f_assert. rewrite andb_false_r. reflexivity.
Qed.

(** ** Positions given by [coordinate] *)
Lemma ignored_coords : forall debug l i s, run (geo_writer debug) (mapi (ev_coord true) i l) s = (s, Ok tt).
Proof. induction l as [|c l IH]; intros i s; [reflexivity|]. cbn [mapi run]. exact (IH (S i) s). Qed.
Lemma coordinate_point : forall debug x y z m,
  snd (run (geo_writer debug) (gevents true 0 (GPoint (mkC x y z m))) gw_init) = Err EPanic.
Proof. intros [] x y z m; reflexivity. Qed.
Lemma coordinate_line : forall debug l, small (GLineString l) ->
  exists s, run (geo_writer debug) (gevents true 0 (GLineString l)) gw_init = (s, Ok tt) /\
            snd (take_geometry s) = Some (TLineString []).
Proof.
  intros debug l H. cbn [gevents]. unfold ev_line, ev_coords, gw_init. cbn [app run].
  rewrite step_line by exact H. rewrite run_app, ignored_coords. eexists. split; reflexivity.
Qed.

(** ** ToGeoFeatures *)
Lemma to_features_spec : forall debug src name l,
  FeatureSpec.delivers_obs src (fun multi => dataset_obs multi name l) (Ok tt) ->
  Forall (fun f : ftr => forallb plain (snd f) = true /\ Forall small (snd f) /\ snd f <> []) l ->
  exists fs, to_geo_features debug src = Ok fs /\
    Forall2 (fun (f : ftr) (r : gt * props) =>
      fst r = joined (snd f) /\ NoDup (map fst (snd r)) /\
      forall n, get (snd r) n = last_value (fst f) n) l fs.
Proof.
  intros debug src name l D H. destruct (features_spec debug name l H) as (s & E & F).
  exists (f_features s). split; [|exact F]. unfold to_geo_features.
  pose proof (D gf (feature_writer debug) gf_init) as X. cbn [p_dims feature_writer] in X.
  change (mkProc xy_dims (feature_step debug) feature_prop) with (feature_writer debug) in X.
  rewrite X. change (multi_dim xy_dims) with false. rewrite E. reflexivity.
Qed.
Lemma to_features_error : forall debug src name l e,
  FeatureSpec.delivers_obs src (fun multi => dataset_obs multi name l) (Err e) ->
  Forall (fun f : ftr => forallb plain (snd f) = true /\ Forall small (snd f) /\ snd f <> []) l ->
  to_geo_features debug src = Err e.
Proof.
  intros debug src name l e D H. destruct (features_spec debug name l H) as (s & E & F).
  unfold to_geo_features.
  pose proof (D gf (feature_writer debug) gf_init) as X. cbn [p_dims feature_writer] in X.
  change (mkProc xy_dims (feature_step debug) feature_prop) with (feature_writer debug) in X.
  rewrite X. change (multi_dim xy_dims) with false. rewrite E. reflexivity.
Qed.
Lemma feature_property_spec : forall fmt32 fmt debug src name l,
  FeatureSpec.delivers_obs src (fun multi => dataset_obs multi name l) (Ok tt) ->
  Forall (fun f : ftr => forallb plain (snd f) = true /\ Forall small (snd f) /\ snd f <> []) l ->
  exists fs, to_geo_features debug src = Ok fs /\ length fs = length l /\
  forall k f x, nth_error l k = Some f -> nth_error fs k = Some x ->
  forall t n, let r := geo_feature_property fmt32 fmt x t n in
  (last_value (fst f) n = None -> r = Err EColumnNotFound) /\
  (forall v, last_value (fst f) n = Some v ->
     (forall w, ProcSpec.reads_as fmt32 fmt t v w -> r = Ok w) /\
     ((forall w, ~ ProcSpec.reads_as fmt32 fmt t v w) -> r = Err EColumnType)).
Proof.
  intros fmt32 fmt debug src name l D H. destruct (to_features_spec debug src name l D H) as (fs & E & F).
  exists fs. split; [exact E|]. split; [clear -F; induction F; cbn; congruence|].
  clear -F. induction F as [|f x l fs (_ & _ & G) _ IH]; intros k f' x' A B; [destruct k; discriminate|].
  destruct k as [|k]; [|exact (IH k f' x' A B)]. cbn in A, B. injection A as <-. injection B as <-.
  intros t n r. unfold r, geo_feature_property. rewrite G. split; [now intros ->|]. intros v ->. apply get_value_spec.
Qed.
