(** Concrete cases for the MVT claims. *)
From Coq Require Import String Ascii.
From Coq Require Import List NArith ZArith Lia Bool Reals Lra.
From Flocq Require Import Core.Core.
From Verif Require Import Base BaseLemmas Float Event EventLemmas Claims Geom GeoModel GeoSpec.
From Verif Require Import FloatReal MvtModel MvtSpec MvtFloat MvtTop MvtRead MvtPlace MvtMore.
Import ListNotations.
Local Open Scope N_scope.
Local Open Scope list_scope.

(** 0, 1, the smallest positive number, the largest number and its negation *)
Definition w0 : f64 := 0.
Definition w1 : f64 := 0x3FF0000000000000.
Definition whalf : f64 := 0x3FE0000000000000.
Definition wtiny : f64 := 1.
Definition wmax : f64 := 0x7FEFFFFFFFFFFFFF.
Definition wmin : f64 := 0xFFEFFFFFFFFFFFFF.
Definition winf : f64 := 0x7FF0000000000000.
Definition wnan : f64 := 0x7FF8000000000000.

Lemma w0_value : value w0 = 0%R.
Proof. unfold value, magnitude. change (exponent w0 =? 0) with true. change (negative w0) with false. cbn. apply Rmult_0_l. Qed.
Lemma w1_value : value w1 = 1%R.
Proof.
  unfold value, magnitude. change (exponent w1 =? 0) with false. change (negative w1) with false.
  change (Z.of_N (exponent w1) - 1075)%Z with (-52)%Z. change (Z.of_N (2 ^ 52 + fraction w1)) with 4503599627370496%Z.
  cbv iota. rewrite <- two_power. change (bpow radix2 (-52)) with (/ 4503599627370496)%R. lra.
Qed.
Lemma whalf_value : value whalf = (1 / 2)%R.
Proof.
  unfold value, magnitude. change (exponent whalf =? 0) with false. change (negative whalf) with false.
  change (Z.of_N (exponent whalf) - 1075)%Z with (-53)%Z. change (Z.of_N (2 ^ 52 + fraction whalf)) with 4503599627370496%Z.
  cbv iota. rewrite <- two_power. change (bpow radix2 (-53)) with (/ 9007199254740992)%R. lra.
Qed.
Lemma wtiny_value : (0 < value wtiny)%R.
Proof.
  unfold value, magnitude. change (exponent wtiny =? 0) with true. change (negative wtiny) with false.
  change (Z.of_N (fraction wtiny)) with 1%Z. cbv iota. rewrite <- two_power. pose proof (bpow_gt_0 radix2 (-1074)). lra.
Qed.
Lemma unit_width : (powerRZ 2 (-990) <= value w1 - value w0 <= powerRZ 2 1023)%R.
Proof.
  rewrite w0_value, w1_value, <- !two_power. split.
  - apply Rle_trans with (bpow radix2 0); [now apply bpow_le|]. cbn. lra.
  - apply Rle_trans with (bpow radix2 0); [cbn; lra|now apply bpow_le].
Qed.

(** an extent of 2^31 and more turns negative *)
Lemma big_extent : position 3000000000 w0 w0 w1 w1 w0 w0 = Ok (0%Z, (-1294967296)%Z).
Proof. vm_compute. reflexivity. Qed.
(** a box narrower than 2^-1000: the right edge is thrown to the end of the range *)
Lemma tiny_box : position 4096 w0 w0 wtiny w1 wtiny w0 = Ok (2147483647%Z, 4096%Z).
Proof. vm_compute. reflexivity. Qed.
(** the right edge of the box of width 49 is one short, that of the unit box is not *)
Definition w49 : f64 := 0x4048800000000000.
Lemma right_edge_exact : position 4096 w0 w0 w1 w1 w1 w1 = Ok (4096%Z, 0%Z).
Proof. vm_compute. reflexivity. Qed.

Lemma right_edge_short : position 4096 w0 w0 w49 w1 w49 w1 = Ok (4095%Z, 0%Z).
Proof. vm_compute. reflexivity. Qed.

(** boxes wider than the largest number collapse *)
Lemma collapse : forall E l r x, (0 < E < 2 ^ 32) -> finite l -> finite r -> finite x ->
  (powerRZ 2 1024 <= value r - value l)%R -> axis E l r x = 0%Z.
Proof.
  intros E l r x HE Fl Fr Fx W. destruct (finite_val l Fl) as [Fl1 Fl2], (finite_val r Fr) as [Fr1 Fr2], (finite_val x Fx) as [Fx1 Fx2].
  rewrite <- Fl2, <- Fr2, <- two_power in W. pose proof (bpow_gt_0 radix2 1024) as P.
  pose proof (sub_val r l Fr1 Fl1) as S.
  assert (X : (bpow radix2 1024 <= RN (val r - val l))%R).
  { assert (Y : RN (bpow radix2 1024) = bpow radix2 1024).
    { apply round_generic; [apply valid_rnd_N|]. apply generic_format_bpow. discriminate. }
    rewrite <- Y. apply RN_le, W. }
  rewrite Rlt_bool_false in S by (eapply Rle_trans; [exact X|apply Rle_abs]).
  destruct (ER_val E l r HE) as [F1 F2]. destruct (div_inf _ _ _ F1 S) as [V1 V2].
  exact (axis_zero_multiplier E l r Fl1 x Fx1 V1 V2).
Qed.
Lemma wide_box : (powerRZ 2 1024 <= value wmax - value wmin)%R.
Proof.
  unfold value, magnitude. change (exponent wmax =? 0) with false. change (exponent wmin =? 0) with false.
  change (negative wmax) with false. change (negative wmin) with true.
  change (Z.of_N (exponent wmax) - 1075)%Z with 971%Z. change (Z.of_N (exponent wmin) - 1075)%Z with 971%Z.
  change (Z.of_N (2 ^ 52 + fraction wmax)) with 9007199254740991%Z. change (Z.of_N (2 ^ 52 + fraction wmin)) with 9007199254740991%Z.
  cbv iota. rewrite <- !two_power. change 1024%Z with (53 + 971)%Z. rewrite bpow_plus. change (bpow radix2 53) with 9007199254740992%R.
  pose proof (bpow_gt_0 radix2 971). lra.
Qed.

(** ** Histories *)
Definition no64 (_ : list Byte.byte) : string := ""%string.
Definition plain_cfg : mcfg := mkMCfg 4096 false 0 0 0x3FF0000000000000 0x3FF0000000000000.
Definition tw (debug : bool) := mvt_writer 48 no64 debug plain_cfg.
Definition ipt (x y : Z) : coord := mkC (f64_of_int x) (f64_of_int y) None None.
(** a ring of four equal positions is accepted *)
Definition one_spot : geom := GPolygon [[ipt 3 4; ipt 3 4; ipt 3 4; ipt 3 4]].
Lemma one_spot_kept : drawable (transform plain_cfg) one_spot = true /\
  tile_of (transform plain_cfg) one_spot = MPolygon ([(3, 4); (3, 4); (3, 4); (3, 4)], [])%Z.
Proof. split; vm_compute; reflexivity. Qed.

Definition ev (l : list event) : list obs := map OEv l.
Definition point_events (i : nat) (x y : Z) : list event := gevents false i (GPoint (ipt x y)).
(** the geometry of feature 0 fails at its second part: a line of one position *)
Definition broken_feature : list obs :=
  ev ([FeatureBegin 0; GeometryBegin] ++ point_events 0 1 1 ++ gevents false 1 (GLineString [ipt 5 5])).
Definition next_feature : list obs :=
  ev ([FeatureBegin 1; GeometryBegin] ++ point_events 0 2 2 ++ [GeometryEnd; FeatureEnd 1]).
Lemma mixed_up : mw_features (after (tw false) (broken_feature ++ next_feature) mw_init) =
  [mkMFeature None (MCollection [MPoint (1, 1)%Z; MPoint (2, 2)%Z]) []].
Proof. vm_compute. reflexivity. Qed.
(** the failing part sits in a collection: the geometry of the next feature disappears in it *)
Definition broken_collection : list obs :=
  ev ([FeatureBegin 0; GeometryBegin; CollectionBegin 1 0] ++ gevents false 0 (GLineString [ipt 5 5])).
Lemma swallowed : mw_features (after (tw false) (broken_collection ++ next_feature) mw_init) = [].
Proof. vm_compute. reflexivity. Qed.
(** a debug build panics at the polygon following a polygon that was given up *)
Definition broken_polygon : list event := [PolygonBegin true 1 0; LineStringBegin false (1000 * 3000) 0].
Lemma debug_panic : snd (run (tw true) broken_polygon mw_init) = Err EGeometry /\
  snd (p_step (tw true) (fst (run (tw true) broken_polygon mw_init)) (PolygonBegin true 1 0)) = Err EPanic.
Proof. split; vm_compute; reflexivity. Qed.

(** ** Examples *)
Definition square : geom := GPolygon [[ipt 0 0; ipt 4 0; ipt 4 4; ipt 0 4; ipt 0 0]; [ipt 1 1; ipt 2 1; ipt 2 2]].
Definition mixed : geom := GCollection [GPoint (ipt 1 2); GLineString [ipt 1 2; ipt 3 4]; square].
Definition two_features : list ftr :=
  [([(0%nat, "name"%string, CString "a"); (1%nat, "n"%string, CInt (-3))], [square]);
   ([(0%nat, "name"%string, CString "b")], []);
   ([], [GPoint (ipt 1 2); mixed])].
Lemma two_features_good : Forall (tile_good 48 plain_cfg) two_features.
Proof.
  assert (S : tile_small 48 square) by (cbn; unfold tile_small_rings, fits; repeat (split || constructor); cbn; lia).
  assert (M : tile_small 48 mixed) by (cbn; unfold tile_small_rings, fits; repeat (split || constructor); cbn; lia).
  constructor; [|constructor; [|constructor; [|constructor]]];
    (split; [reflexivity|]; split; [repeat (constructor; try assumption)|vm_compute; reflexivity]).
Qed.
Definition sample_layer : mlayer := mkLayer "roads" 4096
  [mkMFeature (Some 7) (MPolygon ([(0, 0); (4, 0); (4, 4); (0, 0)], [])%Z)
     [("a"%string, VInt 3); ("b"%string, VNull); ("c"%string, VString "x")];
   mkMFeature None (MCollection [MPoint (1, 2)%Z; MMultiLineString [[(1, 2); (3, 4)]%Z]]) []].
Lemma sample_layer_decoded : forallb (fun f => decoded (mf_geometry f)) (ml_features sample_layer) = true.
Proof. reflexivity. Qed.
Lemma sample_layer_fine :
  Forall (fun f => i32_geom (mf_geometry f) /\ valid_tile (mf_geometry f) /\ tile_small 48 (untile (mf_geometry f))) (ml_features sample_layer).
Proof.
  assert (V : valid_ring [(0, 0); (4, 0); (4, 4); (0, 0)]%Z).
  { split; [cbn; lia|]. exists (0, 0)%Z, [(4, 0); (4, 4)]%Z. reflexivity. }
  assert (P : forall x y, (- 1000 <= x <= 1000)%Z -> (- 1000 <= y <= 1000)%Z -> i32_pos (x, y)).
  { intros x y Hx Hy. unfold i32_pos. cbn [fst snd]. change (2 ^ 31)%Z with 2147483648%Z. lia. }
  constructor; [|constructor; [|constructor]]; cbn [mf_geometry].
  - split; [|split].
    + split; cbn [fst snd]; repeat constructor; apply P; lia.
    + split; [exact V|constructor].
    + split; [|repeat constructor]; unfold fits; cbn; lia.
  - split; [|split].
    + cbn [i32_geom]. split; [apply P; lia|]. split; [repeat constructor; apply P; lia|exact I].
    + cbn [valid_tile]. split; [exact I|]. split; [repeat constructor|exact I].
    + cbn [untile tile_small map]. split; [unfold fits; cbn; lia|]. split; [exact I|]. split; [|exact I].
      split; [unfold fits; cbn; lia|]. repeat constructor; unfold fits; cbn; lia.
Qed.
(** a line, which a tile cannot encode, in a collection: announced but not delivered *)
Lemma line_skipped : observe (m_geometry false 0 (MCollection [MLine (0, 0)%Z (1, 1)%Z])) =
  ([OEv (CollectionBegin 1 0); OEv (CollectionEnd 0)], Ok tt).
Proof. reflexivity. Qed.

(** ** Remaining steps of the claims *)
Lemma point_position : forall gsize base64 debug extent left bottom right top src x y z m u,
  delivers src (fun multi => gevents multi 0 (GPoint (mkC x y z m))) (Ok u) ->
  to_mvt gsize base64 debug extent left bottom right top src =
  match position extent left bottom right top x y with
  | Ok p => Ok (mkMFeature None (MPoint p) [])
  | Err e => Err e
  end.
Proof.
  intros gsize base64 debug E l b r t src x y z m u D. unfold position. destruct (mvt_new E l b r t) as [c|e] eqn:N.
  - rewrite (to_mvt_delivers gsize base64 debug E l b r t src (GPoint (mkC x y z m)) c u N eq_refl I D). reflexivity.
  - unfold to_mvt. rewrite N. reflexivity.
Qed.
Lemma position_extent : forall E l b r t x y,
  (E = 0 -> position E l b r t x y = Err InvalidExtent) /\ (E <> 0 -> exists p, position E l b r t x y = Ok p).
Proof.
  intros E l b r t x y. rewrite position_axes. split.
  - intros ->. reflexivity.
  - intros H. destruct (N.eqb_spec E 0); [contradiction|]. eexists. reflexivity.
Qed.
Lemma inside_met : (0 < 4096 < 2 ^ 31)%N /\ finite w0 /\ finite w1 /\ finite whalf /\
  (powerRZ 2 (-990) <= value w1 - value w0)%R /\ (value w0 <= value whalf <= value w1)%R.
Proof.
  split; [split; reflexivity|]. split; [reflexivity|]. split; [reflexivity|]. split; [reflexivity|]. split; [apply unit_width|].
  rewrite w0_value, w1_value, whalf_value. lra.
Qed.
Lemma big_extent_refutes : exists extent left bottom right top x y px py,
  (0 < extent < 2 ^ 32)%N /\ finite left /\ finite bottom /\ finite right /\ finite top /\ finite x /\ finite y /\
  (value left <= value x <= value right)%R /\ (value bottom <= value y <= value top)%R /\
  (value left < value right)%R /\ (value bottom < value top)%R /\
  position extent left bottom right top x y = Ok (px, py) /\ (py < 0)%Z.
Proof.
  exists 3000000000, w0, w0, w1, w1, w0, w0. eexists. eexists. rewrite big_extent, w0_value, w1_value.
  repeat (split; [first [reflexivity | lra | split; [reflexivity|reflexivity]]|]). reflexivity.
Qed.
Lemma tiny_box_refutes : exists left bottom right top x y px py,
  finite left /\ finite bottom /\ finite right /\ finite top /\ finite x /\ finite y /\
  (value left <= value x <= value right)%R /\ (value bottom <= value y <= value top)%R /\
  (value left < value right)%R /\ (value bottom < value top)%R /\
  position 4096 left bottom right top x y = Ok (px, py) /\ (4096 < px)%Z.
Proof.
  exists w0, w0, wtiny, w1, wtiny, w0. eexists. eexists. rewrite tiny_box, w0_value, w1_value. pose proof wtiny_value.
  repeat (split; [first [reflexivity | lra]|]). reflexivity.
Qed.
Lemma order_met : position 4096 w0 w0 w1 w1 whalf whalf = Ok (2048, 2048)%Z /\
  position 4096 w0 w0 w1 w1 w1 w1 = Ok (4096, 0)%Z /\ (value w0 < value w1)%R /\ (value whalf <= value w1)%R.
Proof.
  split; [vm_compute; reflexivity|]. split; [vm_compute; reflexivity|]. rewrite w0_value, w1_value, whalf_value. split; lra.
Qed.
Lemma position_collapse : forall E l b r t x y p, (0 < E < 2 ^ 32)%N ->
  finite l -> finite r -> finite x -> (powerRZ 2 1024 <= value r - value l)%R ->
  position E l b r t x y = Ok p -> fst p = 0%Z.
Proof.
  intros E l b r t x y p HE Fl Fr Fx W. rewrite position_axes. destruct (E =? 0); [discriminate|]. intros H. injection H as <-.
  exact (collapse E l r x HE Fl Fr Fx W).
Qed.
Lemma unscaled_scale : forall E c, mvt_unscaled E = Ok c -> mc_scale c = false /\ mc_extent c = E /\ E <> 0.
Proof.
  intros E c. unfold mvt_unscaled. destruct (N.eqb_spec E 0); [discriminate|]. intros H. injection H as <-. auto.
Qed.
Lemma unscaled_keeps : forall E c x y zx zy, mvt_unscaled E = Ok c -> finite x -> finite y ->
  (- 2 ^ 31 <= zx < 2 ^ 31)%Z -> (- 2 ^ 31 <= zy < 2 ^ 31)%Z -> value x = IZR zx -> value y = IZR zy ->
  transform c x y = (zx, zy).
Proof. intros E c x y zx zy H. apply unscaled_exact. apply (unscaled_scale E c H). Qed.
Lemma unscaled_cuts : forall E c x y, mvt_unscaled E = Ok c -> finite x -> finite y ->
  transform c x y =
  (Z.max (- 2 ^ 31) (Z.min (2 ^ 31 - 1) (Ztrunc (value x))), Z.max (- 2 ^ 31) (Z.min (2 ^ 31 - 1) (Ztrunc (value y)))).
Proof. intros E c x y H Fx Fy. rewrite unscaled_finite by (try assumption; apply (unscaled_scale E c H)). reflexivity. Qed.
Lemma history_valid_single : forall gsize base64 debug c history f,
  into_feature (after (mvt_writer gsize base64 debug c) history mw_init) = Ok f -> valid_tile (mf_geometry f).
Proof. intros gsize base64 debug c l f. apply take_valid, after_sound, init_sound. Qed.
Lemma one_spot_written : exists l c, mvt_unscaled 4096 = Ok c /\ length l = 4%nat /\
  (forall p q, In p l -> In q l -> p = q) /\
  In (mkMFeature None (MPolygon (l, [])) [])
     (mw_features (after (tw false)
       (OEv (FeatureBegin 0) :: map OEv (gevents false 0 one_spot) ++ [OEv (FeatureEnd 0)]) mw_init)).
Proof.
  exists [(3, 4); (3, 4); (3, 4); (3, 4)]%Z, plain_cfg. split; [reflexivity|]. split; [reflexivity|]. split.
  - intros p q Hp Hq. cbn in Hp, Hq. intuition congruence.
  - vm_compute. left. reflexivity.
Qed.
Lemma accepts_met : plain mixed = true /\ tile_small 48 mixed /\ drawable (transform plain_cfg) mixed = true /\
  drawable (transform plain_cfg) (GCollection [GPoint (ipt 1 1); GLineString [ipt 1 1]]) = false.
Proof.
  split; [reflexivity|]. split; [|split; vm_compute; reflexivity].
  cbn; unfold tile_small_rings, fits; repeat (split || constructor); cbn; lia.
Qed.
Lemma release_errors : forall gsize base64 c s e x,
  snd (p_step (mvt_writer gsize base64 false c) s e) = Err x -> x = EGeometry \/ x = TooFewCoordinates.
Proof. intros gsize base64 c s e x. apply step_err. reflexivity. Qed.
Lemma features_written : forall gsize base64 debug c name (l : list ftr),
  Forall (tile_good gsize c) l ->
  exists s, feed (mvt_writer gsize base64 debug c) (dataset_obs false name l) mw_init = (s, Ok tt) /\
    mw_features s =
    map (fun f => mkMFeature None (tile_joined (transform c) (snd f)) (kept base64 (fst f)))
        (filter (fun f => negb (Nat.eqb (length (snd f)) 0)) l).
Proof.
  intros gsize base64 debug c name l H. destruct (m_feed_dataset gsize base64 debug c l name H) as (s & F & E).
  exists s. split; [exact F|]. rewrite E. clear. induction l as [|[ps gs] l IH]; [reflexivity|].
  cbn [flat_map filter snd]. rewrite IH. unfold tile_feature. cbn [snd fst]. destruct gs; reflexivity.
Qed.
Lemma value_stored : forall base64 v, stored base64 v (mvt_value base64 v).
Proof. intros base64 []; cbn; constructor; cbn; tauto. Qed.
Lemma features_stored : forall gsize base64 debug c name (l : list ftr),
  Forall (fun f => forallb plain (snd f) = true /\ Forall (tile_small gsize) (snd f) /\
                   forallb (drawable (transform c)) (snd f) = true) l ->
  exists s, feed (mvt_writer gsize base64 debug c) (dataset_obs false name l) mw_init = (s, Ok tt) /\
    Forall2 (fun f m => mf_id m = None /\ mf_geometry m = tile_joined (transform c) (snd f) /\
               Forall2 (fun q p => fst p = snd (fst q) /\ stored base64 (snd q) (snd p)) (fst f) (mf_properties m))
      (filter (fun f => negb (Nat.eqb (length (snd f)) 0)) l) (mw_features s).
Proof.
  intros gsize base64 debug c name l H. destruct (features_written gsize base64 debug c name l H) as (s & F & E).
  exists s. split; [exact F|]. rewrite E. clear.
  match goal with |- Forall2 _ ?x _ => induction x as [|f r IH] end; [constructor|]. cbn [map]. constructor; [|exact IH].
  split; [reflexivity|]. split; [reflexivity|]. cbn [mf_properties]. induction (fst f) as [|q t IHt]; [constructor|].
  cbn [map]. constructor; [|exact IHt]. split; [reflexivity|apply value_stored].
Qed.
Lemma next_alone : mw_features (after (tw false) next_feature mw_init) = [mkMFeature None (MPoint (2, 2)%Z) []].
Proof. vm_compute. reflexivity. Qed.
Lemma unscaled_round_trip : forall gsize base64 debug extent c l name, mvt_unscaled extent = Ok c ->
  Forall (fun f => i32_geom (mf_geometry f) /\ valid_tile (mf_geometry f) /\ tile_small gsize (untile (mf_geometry f)))
         (ml_features l) ->
  exists s, exec (mvt_writer gsize base64 debug c) (process_layer l xy_dims) mw_init = (s, Ok tt) /\
    mvt_layer c s name =
    mkLayer name extent
      (map (fun f => mkMFeature None (mf_geometry f) (rewritten_props (mf_properties f))) (ml_features l)).
Proof.
  intros gsize base64 debug extent c l name H. destruct (unscaled_scale extent c H) as (S & E & N). rewrite <- E.
  apply layer_round_trip; congruence.
Qed.

(** ** Positions given by [coordinate] *)
Lemma m_ignored_coords : forall gsize base64 debug c l i s,
  run (mvt_writer gsize base64 debug c) (mapi (ev_coord true) i l) s = (s, Ok tt).
Proof. induction l as [|p l IH]; intros i s; [reflexivity|]. cbn [mapi run]. exact (IH (S i) s). Qed.
Lemma coordinate_tile : forall gsize base64 debug c g, g = true ->
  (forall x y z m, snd (run (mvt_writer gsize base64 debug c) (gevents g 0 (GPoint (mkC x y z m))) mw_init) = Err EGeometry) /\
  (forall l, tile_small gsize (GLineString l) ->
     snd (run (mvt_writer gsize base64 debug c) (gevents g 0 (GLineString l)) mw_init) = Err TooFewCoordinates).
Proof.
  intros gsize base64 debug c g ->. split.
  - intros. destruct debug; reflexivity.
  - intros l H. cbn [gevents]. unfold ev_line, ev_coords, mw_init. cbn [app run].
    rewrite m_step_line by exact H. rewrite run_app, m_ignored_coords. reflexivity.
Qed.
