(** Proofs about the reader of decoded layers, and the round trip. *)
From Coq Require Import String Ascii.
From Coq Require Import List NArith ZArith Lia Bool Reals.
From Flocq Require Import Core.Core.
From Verif Require Import Base BaseLemmas Float Event EventLemmas Claims Geom ProcModel ProcSpec ProcTop GeoModel GeoSpec GeoTop.
From Verif Require Import FloatReal MvtModel MvtSpec MvtFloat MvtTop.
From Verif Require FeatureSpec GeoJsonRead.
Import ListNotations.
Local Open Scope N_scope.
Local Open Scope list_scope.

Section TgInd.
  Variable P : tgeom -> Prop.
  Hypothesis HPoint : forall p, P (MPoint p).
  Hypothesis HLine : forall a b, P (MLine a b).
  Hypothesis HLineString : forall l, P (MLineString l).
  Hypothesis HPolygon : forall p, P (MPolygon p).
  Hypothesis HMultiPoint : forall l, P (MMultiPoint l).
  Hypothesis HMultiLineString : forall l, P (MMultiLineString l).
  Hypothesis HMultiPolygon : forall l, P (MMultiPolygon l).
  Hypothesis HCollection : forall l, Forall P l -> P (MCollection l).
  Hypothesis HRect : forall a b, P (MRect a b).
  Hypothesis HTriangle : forall a b c, P (MTriangle a b c).
  Fixpoint tg_ind' (g : tgeom) : P g :=
    match g with
    | MPoint p => HPoint p
    | MLine a b => HLine a b
    | MLineString l => HLineString l
    | MPolygon p => HPolygon p
    | MMultiPoint l => HMultiPoint l
    | MMultiLineString l => HMultiLineString l
    | MMultiPolygon l => HMultiPolygon l
    | MCollection l =>
        HCollection l ((fix go (l : list tgeom) : Forall P l :=
          match l with [] => Forall_nil P | a :: r => Forall_cons a (tg_ind' a) (go r) end) l)
    | MRect a b => HRect a b
    | MTriangle a b c => HTriangle a b c
    end.
End TgInd.

Section Read.
  Variable multi : bool.
  Lemma m_coord_calls : forall idx p, m_coord multi idx p = ok_calls [ev_coord multi idx (at_tile p)].
  Proof. intros idx p. unfold m_coord, ev_coord. destruct multi; reflexivity. Qed.
  Lemma m_coords_calls : forall l i, pfor (m_coord multi) i l = ok_calls (mapi (ev_coord multi) i (map at_tile l)).
  Proof.
    intros l i. rewrite mapi_map.
    apply (pfor_mapi _ (m_coord multi) (fun i p => ev_coord multi i (at_tile p))). intros. apply m_coord_calls.
  Qed.
  Lemma m_line_calls : forall tagged idx l, m_linestring multi tagged idx l = ok_calls (ev_line multi tagged idx (untile_line l)).
  Proof.
    intros tagged idx l. unfold m_linestring, ev_line, ev_coords, untile_line. rewrite m_coords_calls, !pcall_calls, !pthen_calls.
    rewrite map_length. reflexivity.
  Qed.
  Lemma m_shift_lines : forall l i,
    flat_mapi (fun i l => ev_line multi false (i + 1) (untile_line l)) i l =
    flat_mapi (ev_line multi false) (S i) (map untile_line l).
  Proof. induction l as [|a l IH]; intros i; cbn; [reflexivity|]. rewrite IH, Nat.add_1_r. reflexivity. Qed.
  Lemma m_poly_calls : forall tagged idx p, m_polygon multi tagged idx p = ok_calls (ev_polygon multi tagged idx (untile_poly p)).
  Proof.
    intros tagged idx [e l]. unfold m_polygon, ev_polygon, untile_poly. cbn [fst snd length flat_mapi].
    rewrite m_line_calls.
    rewrite (pfor_calls _ _ (fun i l => ev_line multi false (i + 1) (untile_line l))) by (intros; apply m_line_calls).
    rewrite !pcall_calls, !pthen_calls, m_shift_lines, map_length, Nat.add_1_r, <- app_assoc. reflexivity.
  Qed.
  Lemma m_geom_calls : forall g idx, decoded g = true -> m_geometry multi idx g = ok_calls (gevents multi idx (untile g)).
  Proof.
    induction g as [p|a b|l|p|l|l|l|l IH|a b|a b c] using tg_ind'; intros idx D; try discriminate D; cbn [m_geometry untile gevents].
    - rewrite m_coord_calls, !pcall_calls, !pthen_calls. reflexivity.
    - apply m_line_calls.
    - apply m_poly_calls.
    - rewrite m_coords_calls, !pcall_calls, !pthen_calls, map_length. reflexivity.
    - rewrite (pfor_calls _ _ (fun i l => ev_line multi false i (untile_line l))) by (intros; apply m_line_calls).
      rewrite !pcall_calls, !pthen_calls, flat_mapi_map, map_length. reflexivity.
    - rewrite (pfor_calls _ _ (fun i l => ev_polygon multi false i (untile_poly l))) by (intros; apply m_poly_calls).
      rewrite !pcall_calls, !pthen_calls, flat_mapi_map, map_length. reflexivity.
    - match goal with |- pthen _ (pthen (?f 0%nat l) _) = _ => set (F := f) end.
      match goal with |- context [(?f 0%nat (map _ l)) ++ _] => set (E := f) end.
      assert (M : forall i, F i l = ok_calls (E i (map untile l))).
      { cbn [decoded] in D. induction l as [|a r IHr]; intros i; [reflexivity|]. inversion IH; subst.
        cbn [forallb] in D. apply andb_prop in D. destruct D as [D1 D2].
        change (F i (a :: r)) with (pthen (m_geometry multi i a) (F (S i) r)).
        rewrite H1, IHr by assumption. rewrite pthen_calls. reflexivity. }
      rewrite M, !pcall_calls, !pthen_calls, map_length. reflexivity.
  Qed.

  Lemma m_prop_play : forall i p, GeoJsonRead.plays (m_property i p) (map FeatureSpec.prop_obs (read_prop i p)).
  Proof.
    intros i [n v] S p s. destruct v; try reflexivity; cbn; match goal with |- context [p_prop p s ?a ?b ?d] =>
      destruct (p_prop p s a b d) as [s' [x|x]]; reflexivity end.
  Qed.
  Lemma flat_mapi_concat : forall A B C (f : nat -> A -> list B) (g : B -> C) l i,
    flat_mapi (fun i a => map g (f i a)) i l = map g (flat_mapi f i l).
  Proof. induction l as [|a l IH]; intros i; cbn; [reflexivity|]. rewrite IH, map_app. reflexivity. Qed.
  Lemma m_feature_play : forall i f, decoded (mf_geometry f) = true ->
    GeoJsonRead.plays (m_feature multi i f) (FeatureSpec.feature_obs multi i 0 (layer_feature f)).
  Proof.
    intros i f D. unfold m_feature, FeatureSpec.feature_obs, layer_feature. cbn [FeatureSpec.f_props FeatureSpec.f_geom].
    apply (GeoJsonRead.plays_then _ _ [_] _); [apply GeoJsonRead.plays_call|].
    match goal with |- GeoJsonRead.plays _ ((?x :: ?c ++ [?y]) ++ (?u :: ?d ++ [?w]) ++ [?z]) =>
      replace ((x :: c ++ [y]) ++ (u :: d ++ [w]) ++ [z]) with ([x] ++ c ++ [y] ++ [u] ++ d ++ [w] ++ [z])
        by (cbn [app]; rewrite <- !app_assoc; reflexivity) end.
    apply GeoJsonRead.plays_then; [apply GeoJsonRead.plays_call|].
    apply GeoJsonRead.plays_then.
    { rewrite <- flat_mapi_concat. apply GeoJsonRead.plays_for. intros. apply m_prop_play. }
    apply GeoJsonRead.plays_then; [apply GeoJsonRead.plays_call|].
    apply GeoJsonRead.plays_then; [apply GeoJsonRead.plays_call|].
    apply GeoJsonRead.plays_then. { rewrite m_geom_calls by exact D. apply GeoJsonRead.plays_calls. }
    apply GeoJsonRead.plays_then; [apply GeoJsonRead.plays_call|apply GeoJsonRead.plays_call].
  Qed.
  Lemma m_layer_play : forall l, forallb (fun f => decoded (mf_geometry f)) (ml_features l) = true ->
    GeoJsonRead.plays (m_layer multi l) (FeatureSpec.dataset_obs multi (Some (ml_name l)) (map layer_feature (ml_features l))).
  Proof.
    intros l D. unfold m_layer, FeatureSpec.dataset_obs.
    apply (GeoJsonRead.plays_then _ _ [_] _); [apply GeoJsonRead.plays_call|].
    apply GeoJsonRead.plays_then; [|apply GeoJsonRead.plays_call].
    rewrite flat_mapi_map. apply GeoJsonRead.plays_for. intros k a Ha. apply m_feature_play.
    rewrite forallb_forall in D. exact (D a Ha).
  Qed.
End Read.

Lemma layer_delivers : forall l, forallb (fun f => decoded (mf_geometry f)) (ml_features l) = true ->
  FeatureSpec.delivers_obs (process_layer l)
    (fun multi => FeatureSpec.dataset_obs multi (Some (ml_name l)) (map layer_feature (ml_features l))) (Ok tt).
Proof.
  intros l D. apply GeoJsonRead.plays_delivers. intros d. exact (m_layer_play (multi_dim d) l D).
Qed.
Lemma feature_geom_delivers : forall f, decoded (mf_geometry f) = true ->
  delivers (process_mvt_geom f) (fun multi => gevents multi 0 (untile (mf_geometry f))) (Ok tt).
Proof.
  intros f D S p s. unfold process_mvt_geom. rewrite m_geom_calls by exact D. unfold ok_calls. rewrite exec_calls.
  destruct (run p _ s) as [s' [[]|x]]; reflexivity.
Qed.

(** ** Round trip *)
Lemma int_back : forall z, (- 2 ^ 31 <= z < 2 ^ 31)%Z -> f64_as_i32 (f64_of_int z) = z.
Proof.
  intros z H. change (2 ^ 31)%Z with 2147483648%Z in H.
  destruct (of_int_spec z) as [F V]. { change (2 ^ 53)%Z with 9007199254740992%Z. lia. }
  rewrite as_i32_fin by exact F. rewrite V, Ztrunc_IZR. unfold clamp_i32, i32_min, i32_max. lia.
Qed.
Section Back.
  Variable c : mcfg.
  Hypothesis Unscaled : mc_scale c = false.
  Notation T := (transform c).

  Lemma pos_back : forall p, i32_pos p -> tile_pos T (at_tile p) = p.
  Proof.
    intros [x y] [Hx Hy]. cbn [fst snd] in *. unfold tile_pos, at_tile, transform. rewrite Unscaled. cbn [cx cy fst snd].
    now rewrite !int_back.
  Qed.
  Lemma tline_back : forall l, Forall i32_pos l -> tile_line T (untile_line l) = l.
  Proof.
    intros l H. unfold tile_line, untile_line. rewrite map_map. induction H; [reflexivity|]. cbn. now rewrite pos_back, IHForall.
  Qed.
  Lemma tlines_back : forall l, Forall (Forall i32_pos) l -> map (tile_line T) (map untile_line l) = l.
  Proof. intros l H. rewrite map_map. induction H; [reflexivity|]. cbn. now rewrite tline_back, IHForall. Qed.
  Lemma valid_comes_back : forall l, valid_ring l -> comes_back l = true.
  Proof.
    intros l (L & a & m & ->). destruct m as [|b m]; [cbn in L; lia|]. cbn [app comes_back].
    change (b :: m ++ [a]) with ((b :: m) ++ [a]). rewrite last_last. destruct (tpos_dec a a); congruence.
  Qed.
  Lemma tring_back : forall l, Forall i32_pos l -> valid_ring l -> tile_ring T (untile_line l) = l.
  Proof. intros l H V. unfold tile_ring. rewrite tline_back by exact H. rewrite valid_comes_back by exact V. reflexivity. Qed.
  Lemma trings_back : forall l, Forall (Forall i32_pos) l -> Forall valid_ring l -> map (tile_ring T) (map untile_line l) = l.
  Proof.
    intros l H. rewrite map_map. induction H; intros V; [reflexivity|]. inversion V; subst. cbn. now rewrite tring_back, IHForall.
  Qed.
  Lemma tpoly_back : forall p, i32_poly p -> valid_poly p -> tile_poly T (untile_poly p) = p.
  Proof.
    intros [e i] [H1 H2] [V1 V2]. unfold tile_poly, untile_poly. cbn [fst snd] in *. now rewrite tring_back, trings_back.
  Qed.
  Lemma tpoly_good : forall p, i32_poly p -> valid_poly p -> good_rings T (untile_poly p) = true.
  Proof.
    intros [e i] [H1 H2] [V1 V2]. cbn [fst snd] in *. unfold good_rings, untile_poly. cbn [fst snd].
    change (untile_line e :: map untile_line i) with (map untile_line (e :: i)).
    assert (H : Forall (Forall i32_pos) (e :: i)) by now constructor.
    assert (V : Forall valid_ring (e :: i)) by now constructor.
    clear - H V Unscaled. induction H; [reflexivity|]. inversion V; subst. cbn [map forallb].
    rewrite IHForall by assumption. rewrite tline_back by assumption. unfold vertices. rewrite valid_comes_back by assumption.
    destruct H3 as [L _]. rewrite andb_true_r. apply Nat.leb_le. lia.
  Qed.
  Lemma tgeom_back : forall g, i32_geom g -> valid_tile g ->
    tile_of T (untile g) = g /\ drawable T (untile g) = true /\ plain (untile g) = true /\ decoded g = true.
  Proof.
    induction g as [p|a b|l|p|l|l|l|l IH|a b|a b cc] using tg_ind'; intros H V; try contradiction; cbn [untile tile_of drawable plain decoded].
    - rewrite pos_back by exact H. auto.
    - rewrite tline_back by exact H. repeat split. unfold long_line, untile_line. rewrite map_length. apply Nat.leb_le. exact V.
    - rewrite tpoly_back, tpoly_good by assumption. auto.
    - rewrite map_map. repeat split. f_equal. cbn [i32_geom] in H. clear V. induction H as [|x r Hx Hr IHr]; [reflexivity|]. cbn [map]. now rewrite pos_back, IHr.
    - rewrite tlines_back by exact H. repeat split. apply forallb_forall. intros y Hy. apply in_map_iff in Hy.
      destruct Hy as (z & <- & Hz). unfold long_line, untile_line. rewrite map_length. apply Nat.leb_le.
      cbn [valid_tile] in V. rewrite Forall_forall in V. exact (V z Hz).
    - cbn [i32_geom valid_tile] in H, V.
      assert (X : map (tile_poly T) (map untile_poly l) = l /\ forallb (good_rings T) (map untile_poly l) = true).
      { induction H as [|y r Hy Hr IHr]; [split; reflexivity|]. inversion V; subst. destruct (IHr H2) as [A B].
        cbn [map forallb]. rewrite tpoly_back, tpoly_good, A, B by assumption. auto. }
      destruct X as [-> ->]. auto.
    - cbn [i32_geom valid_tile] in H, V.
      assert (X : map (tile_of T) (map untile l) = l /\ forallb (drawable T) (map untile l) = true /\
                  forallb plain (map untile l) = true /\ forallb decoded l = true).
      { induction l as [|a r IHr]; [repeat split; reflexivity|]. inversion IH; subst. destruct H as [Ha Hr], V as [Va Vr].
        destruct (H2 Ha Va) as (E1 & E2 & E3 & E4). destruct (IHr H3 Hr Vr) as (F1 & F2 & F3 & F4).
        cbn [map forallb]. rewrite E1, E2, E3, E4, F1, F2, F3, F4. auto. }
      destruct X as (-> & -> & -> & ->). auto.
  Qed.
End Back.

Lemma geometry_round_trip : forall gsize base64 debug f, i32_geom (mf_geometry f) -> valid_tile (mf_geometry f) ->
  tile_small gsize (untile (mf_geometry f)) ->
  to_mvt_unscaled gsize base64 debug (process_mvt_geom f) = Ok (mkMFeature None (mf_geometry f) []).
Proof.
  intros gsize base64 debug f H V S. set (cf := mkMCfg 4096 false 0 0 0x3FF0000000000000 0x3FF0000000000000).
  destruct (tgeom_back cf eq_refl _ H V) as (E1 & E2 & E3 & E4).
  rewrite (to_mvt_unscaled_delivers unit gsize base64 debug (process_mvt_geom f) [] (untile (mf_geometry f)) cf tt eq_refl E3 S
             (or_introl eq_refl) (feature_geom_delivers f E4)).
  rewrite E1, E2. reflexivity.
Qed.

(** the two ways of writing down a feature with one geometry *)
Lemma feature_obs_one : forall multi i ps g,
  FeatureSpec.feature_obs multi i 0 (FeatureSpec.mkFeature (Some ps) (Some g)) = feature_obs multi i (ps, [g]).
Proof.
  intros multi i ps g. unfold FeatureSpec.feature_obs, feature_obs. cbn [FeatureSpec.f_props FeatureSpec.f_geom fst snd flat_mapi].
  rewrite app_nil_r. cbn [app]. f_equal. f_equal. rewrite <- app_assoc. f_equal. cbn [app]. f_equal. f_equal. rewrite <- app_assoc. reflexivity.
Qed.
Definition one_ftr (f : mfeature) : ftr := (flat_mapi read_prop 0 (mf_properties f), [untile (mf_geometry f)]).
Lemma dataset_obs_one : forall multi name l,
  FeatureSpec.dataset_obs multi name (map layer_feature l) = dataset_obs multi name (map one_ftr l).
Proof.
  intros multi name l. unfold FeatureSpec.dataset_obs, dataset_obs. f_equal. f_equal.
  match goal with |- flat_mapi ?f _ _ = flat_mapi ?g _ _ => enough (X : forall i, flat_mapi f i (map layer_feature l) = flat_mapi g i (map one_ftr l)) by apply X end.
  induction l as [|f l IH]; intros i; [reflexivity|]. cbn [map flat_mapi]. rewrite IH. unfold layer_feature. rewrite feature_obs_one. reflexivity.
Qed.
Lemma kept_read : forall base64 l i, kept base64 (flat_mapi read_prop i l) = rewritten_props l.
Proof.
  intros base64. unfold kept, rewritten_props. induction l as [|[n v] l IH]; intros i; [reflexivity|].
  cbn [flat_mapi flat_map]. rewrite map_app, IH. f_equal. destruct v; reflexivity.
Qed.
Lemma layer_round_trip : forall gsize base64 debug c l name, mc_scale c = false -> mc_extent c <> 0 ->
  Forall (fun f => i32_geom (mf_geometry f) /\ valid_tile (mf_geometry f) /\ tile_small gsize (untile (mf_geometry f))) (ml_features l) ->
  exists s, exec (mvt_writer gsize base64 debug c) (process_layer l xy_dims) mw_init = (s, Ok tt) /\
    mvt_layer c s name =
    mkLayer name (mc_extent c) (map (fun f => mkMFeature None (mf_geometry f) (rewritten_props (mf_properties f))) (ml_features l)).
Proof.
  intros gsize base64 debug c l name U E H.
  assert (D : forallb (fun f => decoded (mf_geometry f)) (ml_features l) = true).
  { apply forallb_forall. intros f Hf. rewrite Forall_forall in H. destruct (H f Hf) as (A & B & _). apply (tgeom_back c U _ A B). }
  pose proof (layer_delivers l D mw (mvt_writer gsize base64 debug c) mw_init) as X. cbn [p_dims mvt_writer] in X.
  change (mkProc xy_dims (mvt_step gsize debug c) (mvt_prop base64)) with (mvt_writer gsize base64 debug c) in X.
  rewrite dataset_obs_one in X.
  assert (G : Forall (tile_good gsize c) (map one_ftr (ml_features l))).
  { apply Forall_map. eapply Forall_impl; [|exact H]. intros f (A & B & S). destruct (tgeom_back c U _ A B) as (E1 & E2 & E3 & E4).
    unfold tile_good, one_ftr. cbn [snd forallb]. rewrite E2, E3. repeat split. constructor; [exact S|constructor]. }
  destruct (m_feed_dataset gsize base64 debug c (map one_ftr (ml_features l)) (Some (ml_name l)) G) as (s & F1 & F2).
  change (multi_dim xy_dims) with false in X. rewrite F1 in X. exists s. split; [exact X|]. unfold mvt_layer. rewrite F2.
  destruct (mc_extent c =? 0) eqn:Z; [apply N.eqb_eq in Z; contradiction|]. f_equal.
  clear - H U. induction H as [|f r (A & B & S) Hr IH]; [reflexivity|]. cbn [map flat_map]. rewrite IH.
  destruct (tgeom_back c U _ A B) as (E1 & _). unfold tile_feature, one_ftr. cbn [fst snd tile_joined app]. rewrite E1, kept_read. reflexivity.
Qed.
