(** The MVT claims C36 to C38. *)
From Coq Require Import String Ascii.
From Coq Require Import List NArith ZArith Lia Bool Reals.
From Flocq Require Import Core.Raux.
From Verif Require Import Base Float Event Claims Geom GeoSpec.
From Verif Require Import MvtModel MvtSpec MvtTop MvtRead MvtSafe MvtPlace MvtMore MvtInt MvtWit.
From Verif Require WkbModel WkbSpec WkbClaims FeatureSpec.
Import ListNotations.
Local Open Scope N_scope.
Local Open Scope list_scope.

(** ** C36: the coordinate transform *)

(** A point goes where [position] says, for every source of that point. *)
Theorem C36_point : forall gsize base64 debug extent left bottom right top src x y z m u,
  delivers src (fun multi => gevents multi 0 (GPoint (mkC x y z m))) (Ok u) ->
  to_mvt gsize base64 debug extent left bottom right top src =
  match position extent left bottom right top x y with
  | Ok p => Ok (mkMFeature None (MPoint p) [])
  | Err e => Err e
  end.
Proof. exact point_position. Qed.
Print Assumptions C36_point.
Example C36_point_met : delivers (process_mvt_geom (mkMFeature None (MPoint (1, 2)%Z) []))
  (fun multi => gevents multi 0 (GPoint (mkC (f64_of_int 1) (f64_of_int 2) None None))) (Ok tt).
Proof. exact (feature_geom_delivers (mkMFeature None (MPoint (1, 2)%Z) []) eq_refl). Qed.

(** Only the extent 0 is refused, whatever the box. *)
Theorem C36_extent : forall extent left bottom right top x y,
  (extent = 0 -> position extent left bottom right top x y = Err InvalidExtent) /\
  (extent <> 0 -> exists p, position extent left bottom right top x y = Ok p).
Proof. exact position_extent. Qed.
Print Assumptions C36_extent.

(** Never outside i32, whatever the coordinates (NaN, infinities), the box and the extent. *)
Theorem C36_range : forall extent left bottom right top x y p,
  position extent left bottom right top x y = Ok p -> i32_pos p.
Proof. exact position_range. Qed.
Print Assumptions C36_range.
Example C36_range_met : position 4096 w0 w0 w1 w1 wmax wnan = Ok (2147483647, 4096)%Z.
Proof. vm_compute. reflexivity. Qed.

(** Inside the box means inside 0..extent.  Partial: the extent is below 2^31 and the box is not
    narrower than 2^-990; both conditions are needed (next two theorems). *)
Theorem C36_inside_partial : forall extent left bottom right top x y, (0 < extent < 2 ^ 31)%N ->
  finite left -> finite bottom -> finite right -> finite top -> finite x -> finite y ->
  (powerRZ 2 (-990) <= value right - value left)%R -> (powerRZ 2 (-990) <= value top - value bottom)%R ->
  (value left <= value x <= value right)%R -> (value bottom <= value y <= value top)%R ->
  exists px py, position extent left bottom right top x y = Ok (px, py) /\
    (0 <= px <= Z.of_N extent)%Z /\ (0 <= py <= Z.of_N extent)%Z.
Proof. exact inside_box. Qed.
Print Assumptions C36_inside_partial.
Example C36_inside_met : (0 < 4096 < 2 ^ 31)%N /\ finite w0 /\ finite w1 /\ finite whalf /\
  (powerRZ 2 (-990) <= value w1 - value w0)%R /\ (value w0 <= value whalf <= value w1)%R.
Proof. exact inside_met. Qed.

(** An extent of 2^31 and more becomes negative: a corner of the box leaves the tile. *)
Theorem C36_inside_refuted_extent : exists extent left bottom right top x y px py,
  (0 < extent < 2 ^ 32)%N /\ finite left /\ finite bottom /\ finite right /\ finite top /\ finite x /\ finite y /\
  (value left <= value x <= value right)%R /\ (value bottom <= value y <= value top)%R /\
  (value left < value right)%R /\ (value bottom < value top)%R /\
  position extent left bottom right top x y = Ok (px, py) /\ (py < 0)%Z.
Proof. exact big_extent_refutes. Qed.
Print Assumptions C36_inside_refuted_extent.

(** In a box narrower than about 2^-992 the multiplier is infinite and the edge is thrown to
    i32::MAX. *)
Theorem C36_inside_refuted_tiny : exists left bottom right top x y px py,
  finite left /\ finite bottom /\ finite right /\ finite top /\ finite x /\ finite y /\
  (value left <= value x <= value right)%R /\ (value bottom <= value y <= value top)%R /\
  (value left < value right)%R /\ (value bottom < value top)%R /\
  position 4096 left bottom right top x y = Ok (px, py) /\ (4096 < px)%Z.
Proof. exact tiny_box_refutes. Qed.
Print Assumptions C36_inside_refuted_tiny.

(** Order is kept along x and reversed along y, for all finite coordinates, inside or outside: so
    nothing ever wraps. *)
Theorem C36_order : forall extent left bottom right top x1 y1 x2 y2 p1 p2, (0 < extent < 2 ^ 32)%N ->
  finite left -> finite bottom -> finite right -> finite top ->
  finite x1 -> finite y1 -> finite x2 -> finite y2 ->
  (value left < value right)%R -> (value bottom < value top)%R ->
  position extent left bottom right top x1 y1 = Ok p1 -> position extent left bottom right top x2 y2 = Ok p2 ->
  ((value x1 <= value x2)%R -> (fst p1 <= fst p2)%Z) /\ ((value y1 <= value y2)%R -> (snd p2 <= snd p1)%Z).
Proof. exact position_order. Qed.
Print Assumptions C36_order.
Example C36_order_met : position 4096 w0 w0 w1 w1 whalf whalf = Ok (2048, 2048)%Z /\
  position 4096 w0 w0 w1 w1 w1 w1 = Ok (4096, 0)%Z /\ (value w0 < value w1)%R /\ (value whalf <= value w1)%R.
Proof. exact order_met. Qed.

(** The lower left corner is (0, extent). *)
Theorem C36_corner : forall extent left bottom right top, (0 < extent < 2 ^ 31)%N ->
  finite left -> finite bottom -> finite right -> finite top ->
  (value left < value right)%R -> (value bottom < value top)%R ->
  position extent left bottom right top left bottom = Ok (0%Z, Z.of_N extent).
Proof. exact position_corner. Qed.
Print Assumptions C36_corner.

(** The upper right corner is (extent, 0), or one off by rounding; both happen. *)
Theorem C36_far_corner : forall extent left bottom right top, (0 < extent < 2 ^ 31)%N ->
  finite left -> finite bottom -> finite right -> finite top ->
  (powerRZ 2 (-990) <= value right - value left <= powerRZ 2 1023)%R ->
  (powerRZ 2 (-990) <= value top - value bottom <= powerRZ 2 1023)%R ->
  exists px py, position extent left bottom right top right top = Ok (px, py) /\
    (px = Z.of_N extent \/ px = Z.of_N extent - 1)%Z /\ (py = 0 \/ py = 1)%Z.
Proof. exact position_far_corner. Qed.
Print Assumptions C36_far_corner.
Example C36_far_corner_met : (powerRZ 2 (-990) <= value w1 - value w0 <= powerRZ 2 1023)%R /\
  position 4096 w0 w0 w1 w1 w1 w1 = Ok (4096, 0)%Z /\ position 4096 w0 w0 w49 w1 w49 w1 = Ok (4095, 0)%Z.
Proof. exact (conj unit_width (conj right_edge_exact right_edge_short)). Qed.

(** Positions are proportional, rounded down along x and up along y, up to 2^-16. *)
Theorem C36_proportional : forall extent left bottom right top x y, (0 < extent < 2 ^ 31)%N ->
  finite left -> finite bottom -> finite right -> finite top -> finite x -> finite y ->
  (powerRZ 2 (-990) <= value right - value left <= powerRZ 2 1023)%R ->
  (powerRZ 2 (-990) <= value top - value bottom <= powerRZ 2 1023)%R ->
  (value left <= value x <= value right)%R -> (value bottom <= value y <= value top)%R ->
  exists px py, position extent left bottom right top x y = Ok (px, py) /\
    let ux := (IZR (Z.of_N extent) * (value x - value left) / (value right - value left))%R in
    let uy := (IZR (Z.of_N extent) * (value top - value y) / (value top - value bottom))%R in
    (ux - 1 - / 65536 < IZR px <= ux + / 65536)%R /\
    (uy - / 65536 <= IZR py < uy + 1 + / 65536)%R.
Proof. exact position_accuracy. Qed.
Print Assumptions C36_proportional.

(** In a box wider than the largest f64 everything finite collapses onto x = 0. *)
Theorem C36_collapse : forall extent left bottom right top x y p, (0 < extent < 2 ^ 32)%N ->
  finite left -> finite right -> finite x -> (powerRZ 2 1024 <= value right - value left)%R ->
  position extent left bottom right top x y = Ok p -> fst p = 0%Z.
Proof. exact position_collapse. Qed.
Print Assumptions C36_collapse.
Example C36_collapse_met : (powerRZ 2 1024 <= value wmax - value wmin)%R /\
  position 4096 wmin w0 wmax w1 wmax w1 = Ok (0, 0)%Z.
Proof. split; [exact wide_box|vm_compute; reflexivity]. Qed.

(** NaN counts as the lower left corner; infinities saturate. *)
Theorem C36_nan : forall extent left bottom right top x y, (0 < extent < 2 ^ 31)%N ->
  not_a_number x -> not_a_number y ->
  position extent left bottom right top x y = Ok (0%Z, Z.of_N extent).
Proof. exact position_nan. Qed.
Print Assumptions C36_nan.
Example C36_nan_met : not_a_number wnan.
Proof. split; [reflexivity|discriminate]. Qed.
Theorem C36_infinite : forall extent left bottom right top negx negy x y, (0 < extent < 2 ^ 31)%N ->
  finite left -> finite bottom -> finite right -> finite top ->
  (0 < value right - value left <= powerRZ 2 1023)%R -> (0 < value top - value bottom <= powerRZ 2 1023)%R ->
  infinite negx x -> infinite negy y ->
  position extent left bottom right top x y =
  Ok (if negx then (- 2 ^ 31)%Z else (2 ^ 31 - 1)%Z, if negy then (2 ^ 31 - 1)%Z else (Z.of_N extent - (2 ^ 31 - 1))%Z).
Proof. exact position_infinite. Qed.
Print Assumptions C36_infinite.
Example C36_infinite_met : infinite false winf.
Proof. repeat split. Qed.

(** Equal coordinates, -0 and 0 included, land equally, in every configuration. *)
Theorem C36_equal : forall c x y x' y', f64_eqb x x' = true -> f64_eqb y y' = true ->
  transform c x y = transform c x' y'.
Proof. exact transform_equal. Qed.
Print Assumptions C36_equal.
Example C36_equal_met : f64_eqb 0 0x8000000000000000 = true.
Proof. reflexivity. Qed.

(** Without scaling integer coordinates are kept. *)
Theorem C36_unscaled : forall extent c x y zx zy, mvt_unscaled extent = Ok c -> finite x -> finite y ->
  (- 2 ^ 31 <= zx < 2 ^ 31)%Z -> (- 2 ^ 31 <= zy < 2 ^ 31)%Z -> value x = IZR zx -> value y = IZR zy ->
  transform c x y = (zx, zy).
Proof. exact unscaled_keeps. Qed.
Print Assumptions C36_unscaled.
Example C36_unscaled_met : mvt_unscaled 4096 = Ok plain_cfg /\ finite w1 /\ value w1 = IZR 1.
Proof. exact (conj eq_refl (conj eq_refl w1_value)). Qed.
(** Other finite numbers are cut towards zero and saturated. *)
Theorem C36_unscaled_cut : forall extent c x y, mvt_unscaled extent = Ok c -> finite x -> finite y ->
  transform c x y =
  (Z.max (- 2 ^ 31) (Z.min (2 ^ 31 - 1) (Ztrunc (value x))), Z.max (- 2 ^ 31) (Z.min (2 ^ 31 - 1) (Ztrunc (value y)))).
Proof. exact unscaled_cuts. Qed.
Print Assumptions C36_unscaled_cut.

(** ** C37: validity of what is written *)

(** Every feature geometry of the tile is valid after every sequence of callbacks, failing ones
    included. *)
Theorem C37_valid : forall gsize base64 debug c history f,
  In f (mw_features (after (mvt_writer gsize base64 debug c) history mw_init)) -> valid_tile (mf_geometry f).
Proof. exact history_valid. Qed.
Print Assumptions C37_valid.
Example C37_valid_met : exists f,
  In f (mw_features (after (tw false) (broken_feature ++ next_feature) mw_init)) /\
  mf_geometry f = MCollection [MPoint (1, 1)%Z; MPoint (2, 2)%Z].
Proof. rewrite mixed_up. eexists. split; [left; reflexivity|reflexivity]. Qed.
(** The same for a single feature. *)
Theorem C37_valid_single : forall gsize base64 debug c history f,
  into_feature (after (mvt_writer gsize base64 debug c) history mw_init) = Ok f -> valid_tile (mf_geometry f).
Proof. exact history_valid_single. Qed.
Print Assumptions C37_valid_single.

(** Three *distinct* vertices are not guaranteed: a ring of one repeated position is accepted. *)
Theorem C37_distinct_refuted : exists l c, mvt_unscaled 4096 = Ok c /\ length l = 4%nat /\
  (forall p q, In p l -> In q l -> p = q) /\
  In (mkMFeature None (MPolygon (l, [])) [])
     (mw_features (after (tw false)
       (OEv (FeatureBegin 0) :: map OEv (gevents false 0 one_spot) ++ [OEv (FeatureEnd 0)]) mw_init)).
Proof. exact one_spot_written. Qed.
Print Assumptions C37_distinct_refuted.

(** A geometry is accepted exactly if its lines and rings are long enough, and then it is the
    transformed geometry with its rings closed; otherwise the error is TooFewCoordinates. *)
Theorem C37_accepts : forall gsize base64 debug extent left bottom right top src g c u,
  mvt_new extent left bottom right top = Ok c -> plain g = true -> tile_small gsize g ->
  delivers src (fun multi => gevents multi 0 g) (Ok u) ->
  to_mvt gsize base64 debug extent left bottom right top src =
  if drawable (transform c) g then Ok (mkMFeature None (tile_of (transform c) g) []) else Err TooFewCoordinates.
Proof. exact to_mvt_delivers. Qed.
Print Assumptions C37_accepts.
Example C37_accepts_met : plain mixed = true /\ tile_small 48 mixed /\ drawable (transform plain_cfg) mixed = true /\
  drawable (transform plain_cfg) (GCollection [GPoint (ipt 1 1); GLineString [ipt 1 1]]) = false.
Proof. exact accepts_met. Qed.

(** Without debug assertions no callback ever panics, in any state. *)
Theorem C37_no_panic_release : forall gsize base64 c s e x,
  snd (p_step (mvt_writer gsize base64 false c) s e) = Err x -> x = EGeometry \/ x = TooFewCoordinates.
Proof. exact release_errors. Qed.
Print Assumptions C37_no_panic_release.
Example C37_no_panic_release_met : snd (p_step (tw false) mw_init (Xy 0 0 0)) = Err EGeometry.
Proof. reflexivity. Qed.
(** With debug assertions a callback after a failed one can panic. *)
Theorem C37_no_panic_debug_refuted : exists l e,
  snd (run (tw true) l mw_init) = Err EGeometry /\ snd (p_step (tw true) (fst (run (tw true) l mw_init)) e) = Err EPanic.
Proof. exact (ex_intro _ broken_polygon (ex_intro _ (PolygonBegin true 1 0) debug_panic)). Qed.
Print Assumptions C37_no_panic_debug_refuted.
(** Decoding arbitrary bytes into a feature never panics, with or without debug assertions. *)
Theorem C37_wkb_no_panic : forall gsize base64 debug dialect bytes,
  mvt_from_wkb gsize base64 debug dialect bytes <> Err EPanic /\ mvt_from_wkb gsize base64 debug dialect bytes <> Err EFuel.
Proof. exact mvt_from_wkb_no_panic. Qed.
Print Assumptions C37_wkb_no_panic.
(** Standard WKB of a geometry gives that geometry. *)
Theorem C37_wkb : forall gsize base64 debug dl d srid env ed ext emp o g tail,
  WkbSpec.encodable g -> (WkbSpec.levels g <= 128)%nat -> WkbClaims.srid_ok dl srid ->
  WkbClaims.env_ok dl ed env -> WkbClaims.order_ok dl o ->
  let g' := WkbSpec.retained (dz d) (dm d) g in
  plain g' = true -> tile_small gsize g' ->
  mvt_from_wkb gsize base64 debug dl (WkbClaims.std dl d srid env ed ext emp o g ++ tail) =
  let T := fun x y => (f64_as_i32 x, f64_as_i32 y) in
  if drawable T g' then Ok (mkMFeature None (tile_of T g') []) else Err TooFewCoordinates.
Proof. exact mvt_from_wkb_value. Qed.
Print Assumptions C37_wkb.

(** Features keep their own properties and geometry, in order; features without geometry are
    dropped.  Partial: every geometry is one the writer accepts (see the two refuted theorems). *)
Theorem C37_features_partial : forall gsize base64 debug c name (l : list ftr),
  Forall (fun f => forallb plain (snd f) = true /\ Forall (tile_small gsize) (snd f) /\
                   forallb (drawable (transform c)) (snd f) = true) l ->
  exists s, feed (mvt_writer gsize base64 debug c) (dataset_obs false name l) mw_init = (s, Ok tt) /\
    Forall2 (fun f m => mf_id m = None /\ mf_geometry m = tile_joined (transform c) (snd f) /\
               Forall2 (fun q p => fst p = snd (fst q) /\ stored base64 (snd q) (snd p)) (fst f) (mf_properties m))
      (filter (fun f => negb (Nat.eqb (length (snd f)) 0)) l) (mw_features s).
Proof. exact features_stored. Qed.
Print Assumptions C37_features_partial.
Example C37_features_met : Forall (fun f : ftr => forallb plain (snd f) = true /\ Forall (tile_small 48) (snd f) /\
  forallb (drawable (transform plain_cfg)) (snd f) = true) two_features /\ length two_features = 3%nat.
Proof. exact (conj two_features_good eq_refl). Qed.
(** A position given by [coordinate] is ignored (C65 says that no reader gives an MvtWriter one). *)
Theorem C37_coordinate_refuted : forall gsize base64 debug c,
  (forall x y z m, snd (run (mvt_writer gsize base64 debug c) (gevents true 0 (GPoint (mkC x y z m))) mw_init) = Err EGeometry) /\
  (forall l, tile_small gsize (GLineString l) ->
     snd (run (mvt_writer gsize base64 debug c) (gevents true 0 (GLineString l)) mw_init) = Err TooFewCoordinates).
Proof. exact (fun gsize base64 debug c => coordinate_tile gsize base64 debug c true eq_refl). Qed.
Print Assumptions C37_coordinate_refuted.
(** After a geometry that failed, the next feature carries parts of it ... *)
Theorem C37_mixed_refuted : exists failed next,
  mw_features (after (tw false) next mw_init) = [mkMFeature None (MPoint (2, 2)%Z) []] /\
  mw_features (after (tw false) (failed ++ next) mw_init) =
  [mkMFeature None (MCollection [MPoint (1, 1)%Z; MPoint (2, 2)%Z]) []].
Proof. exact (ex_intro _ broken_feature (ex_intro _ next_feature (conj next_alone mixed_up))). Qed.
Print Assumptions C37_mixed_refuted.
(** ... or disappears. *)
Theorem C37_lost_refuted : exists failed next,
  mw_features (after (tw false) next mw_init) = [mkMFeature None (MPoint (2, 2)%Z) []] /\
  mw_features (after (tw false) (failed ++ next) mw_init) = [].
Proof. exact (ex_intro _ broken_collection (ex_intro _ next_feature (conj next_alone swallowed))). Qed.
Print Assumptions C37_lost_refuted.

(** ** C38: the reader *)

(** A layer is delivered as a dataset of its name, one feature per layer feature, numbered, with the
    properties in order and the documented sequence of the geometry. *)
Theorem C38_layer : forall l, forallb (fun f => decoded (mf_geometry f)) (ml_features l) = true ->
  FeatureSpec.delivers_obs (process_layer l)
    (fun multi => FeatureSpec.dataset_obs multi (Some (ml_name l)) (map layer_feature (ml_features l))) (Ok tt).
Proof. exact layer_delivers. Qed.
Print Assumptions C38_layer.
Example C38_layer_met : forallb (fun f => decoded (mf_geometry f)) (ml_features sample_layer) = true /\
  length (ml_features sample_layer) = 2%nat.
Proof. split; reflexivity. Qed.
Theorem C38_geometry : forall f, decoded (mf_geometry f) = true ->
  delivers (process_mvt_geom f) (fun multi => gevents multi 0 (untile (mf_geometry f))) (Ok tt).
Proof. exact feature_geom_delivers. Qed.
Print Assumptions C38_geometry.
(** The positions delivered are the tile positions as floating point numbers, bit by bit; zero is positive. *)
Theorem C38_numbers : forall x y, (Z.abs x < 2 ^ 53)%Z -> (Z.abs y < 2 ^ 53)%Z ->
  at_tile (x, y) = mkC (int_bits x) (int_bits y) None None.
Proof. exact at_tile_bits. Qed.
Print Assumptions C38_numbers.
Example C38_numbers_met : int_bits 0 = 0%N /\ int_bits (-3) = 0xC008000000000000%N /\
  int_bits 4096 = 0x40B0000000000000%N.
Proof. repeat split. Qed.
(** A line inside a collection (no tile can encode it) is announced and not delivered. *)
Theorem C38_line_refuted : exists g, observe (m_geometry false 0 (MCollection [g])) =
  ([OEv (CollectionBegin 1 0); OEv (CollectionEnd 0)], Ok tt).
Proof. exact (ex_intro _ (MLine (0, 0)%Z (1, 1)%Z) line_skipped). Qed.
Print Assumptions C38_line_refuted.
(** Reading a valid layer into an unscaled writer gives the layer back; ids and nulls are dropped and
    Int becomes SInt. *)
Theorem C38_round_trip : forall gsize base64 debug extent c l name, mvt_unscaled extent = Ok c ->
  Forall (fun f => i32_geom (mf_geometry f) /\ valid_tile (mf_geometry f) /\ tile_small gsize (untile (mf_geometry f)))
         (ml_features l) ->
  exists s, exec (mvt_writer gsize base64 debug c) (process_layer l xy_dims) mw_init = (s, Ok tt) /\
    mvt_layer c s name =
    mkLayer name extent
      (map (fun f => mkMFeature None (mf_geometry f) (rewritten_props (mf_properties f))) (ml_features l)).
Proof. exact unscaled_round_trip. Qed.
Print Assumptions C38_round_trip.
Example C38_round_trip_met :
  Forall (fun f => i32_geom (mf_geometry f) /\ valid_tile (mf_geometry f) /\ tile_small 48 (untile (mf_geometry f)))
         (ml_features sample_layer) /\ length (ml_features sample_layer) = 2%nat.
Proof. exact (conj sample_layer_fine eq_refl). Qed.
Theorem C38_geometry_round_trip : forall gsize base64 debug f,
  i32_geom (mf_geometry f) -> valid_tile (mf_geometry f) -> tile_small gsize (untile (mf_geometry f)) ->
  to_mvt_unscaled gsize base64 debug (process_mvt_geom f) = Ok (mkMFeature None (mf_geometry f) []).
Proof. exact geometry_round_trip. Qed.
Print Assumptions C38_geometry_round_trip.
