(** Further facts for the MVT claims: equal coordinates, points, WKB, histories with errors. *)
From Coq Require Import String Ascii.
From Coq Require Import List NArith ZArith Lia Bool.
From Coq Require Import Floats.SpecFloat.
From Verif Require Import Base BaseLemmas Float Event EventLemmas Claims Geom GeoModel GeoSpec.
From Verif Require Import MvtModel MvtSpec MvtTop.
From Verif Require WkbModel WkbSpec WkbClaims WkbTop.
Import ListNotations.
Local Open Scope N_scope.
Local Open Scope list_scope.

(** ** Equal coordinates land equally *)
Definition is_zero (x : spec_float) : bool := match x with S754_zero _ => true | _ => false end.
Lemma eqb_cases : forall x y, f64_eqb x y = true ->
  f64_decode x = f64_decode y \/ (is_zero (f64_decode x) = true /\ is_zero (f64_decode y) = true).
Proof.
  intros x y. unfold f64_eqb, f64_cmp, SFcompare.
  destruct (f64_decode x) as [sx|sx| |sx mx ex], (f64_decode y) as [sy|sy| |sy my ey]; try discriminate;
    try (right; split; reflexivity); try (destruct sx; discriminate); try (destruct sy; discriminate); left.
  - destruct sx, sy; try discriminate; reflexivity.
  - destruct sx, sy; try discriminate;
      (destruct (Z.compare_spec ex ey) as [->| |]; try discriminate; cbn [CompOpp] in *;
       destruct (Pos.compare_cont Eq mx my) eqn:C; try discriminate;
       change (Pos.compare_cont Eq mx my) with (Pos.compare mx my) in C; apply Pos.compare_eq in C; subst; reflexivity).
Qed.
Definition cell_of (t : f64) : Z := f64_as_i32 (f64_floor t).
Lemma zero_cell : forall a m, is_zero (f64_decode a) = true -> cell_of (f64_mul a m) = 0%Z.
Proof.
  intros a m H. unfold f64_mul. destruct (f64_decode a) as [s| | |]; try discriminate H. cbn [SFmul].
  destruct (f64_decode m) as [s'|s'| |s' mm e]; try reflexivity; destruct s, s'; reflexivity.
Qed.
Lemma zero_sub : forall x y l, is_zero (f64_decode x) = true -> is_zero (f64_decode y) = true ->
  f64_sub x l = f64_sub y l \/ (is_zero (f64_decode (f64_sub x l)) = true /\ is_zero (f64_decode (f64_sub y l)) = true).
Proof.
  intros x y l Hx Hy. unfold f64_sub. destruct (f64_decode x) as [s| | |]; try discriminate Hx.
  destruct (f64_decode y) as [s'| | |]; try discriminate Hy. cbn [SFsub].
  destruct (f64_decode l) as [t|t| |t m e]; try (left; reflexivity).
  right. destruct s, s', t; split; reflexivity.
Qed.
Lemma equal_cell : forall x y l m, f64_eqb x y = true ->
  cell_of (f64_mul (f64_sub x l) m) = cell_of (f64_mul (f64_sub y l) m).
Proof.
  intros x y l m H. destruct (eqb_cases x y H) as [E|[Zx Zy]].
  - unfold f64_sub. rewrite E. reflexivity.
  - destruct (zero_sub x y l Zx Zy) as [->|[A B]]; [reflexivity|]. rewrite !zero_cell by assumption. reflexivity.
Qed.
Lemma equal_int : forall x y, f64_eqb x y = true -> f64_as_i32 x = f64_as_i32 y.
Proof.
  intros x y H. unfold f64_as_i32. destruct (eqb_cases x y H) as [E|[Zx Zy]]; [rewrite E; reflexivity|].
  destruct (f64_decode x), (f64_decode y); try discriminate; reflexivity.
Qed.
Lemma transform_equal : forall c x y x' y', f64_eqb x x' = true -> f64_eqb y y' = true ->
  transform c x y = transform c x' y'.
Proof.
  intros c x y x' y' Hx Hy. unfold transform. destruct (mc_scale c).
  - cbv zeta. fold (cell_of (f64_mul (f64_sub x (mc_left c)) (mc_xm c))). fold (cell_of (f64_mul (f64_sub y (mc_bottom c)) (mc_ym c))).
    rewrite (equal_cell x x' _ _ Hx), (equal_cell y y' _ _ Hy). reflexivity.
  - rewrite (equal_int x x' Hx), (equal_int y y' Hy). reflexivity.
Qed.

(** ** WKB *)
Lemma mvt_from_wkb_value : forall gsize base64 debug dl d srid env ed ext emp o g tail,
  WkbSpec.encodable g -> (WkbSpec.levels g <= 128)%nat -> WkbClaims.srid_ok dl srid ->
  WkbClaims.env_ok dl ed env -> WkbClaims.order_ok dl o ->
  let g' := WkbSpec.retained (dz d) (dm d) g in
  plain g' = true -> tile_small gsize g' ->
  mvt_from_wkb gsize base64 debug dl (WkbClaims.std dl d srid env ed ext emp o g ++ tail) =
  let T := fun x y => (f64_as_i32 x, f64_as_i32 y) in
  if drawable T g' then Ok (mkMFeature None (tile_of T g') []) else Err TooFewCoordinates.
Proof.
  intros gsize base64 debug dl d srid env ed ext emp o g tail E L R V O g' P S.
  pose proof (WkbTop.delivers_std dl d srid env ed ext emp o g tail E L R V O) as D. fold g' in D.
  unfold mvt_from_wkb. cbv zeta.
  set (cf := mkMCfg 4096 false 0 0 0x3FF0000000000000 0x3FF0000000000000).
  exact (to_mvt_unscaled_delivers _ gsize base64 debug _ [Srid (WkbClaims.reported_srid dl srid)] g' cf _ eq_refl P S
          (or_intror (ex_intro _ _ eq_refl)) D).
Qed.
