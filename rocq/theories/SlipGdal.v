(** Compressed SpatiaLite lines read into GDAL (helper lemma for C56). *)
From Coq Require Import String Ascii.
From Coq Require Import List NArith ZArith Lia Bool.
From Coq Require Import Init.Byte.
From Verif Require Import Base BaseLemmas Event EventLemmas Claims Geom GdalModel GdalSpec GdalWrite GdalExact.
From Verif Require WkbModel WkbSpec WkbClaims WkbTop GeosMore WkbReadTop.
Import ListNotations.
Local Open Scope list_scope.

Lemma compressed_gdal : forall z m srid env e first ds last tail,
  is_i32 srid -> length env = 4%nat -> Forall f64_ok env ->
  WkbSpec.coord64 first -> WkbSpec.coord64 last -> Forall WkbClaims.delta_ok ds -> N.lt (N.of_nat (3 + length ds)) (2 ^ 31) ->
  gdal_from_wkb WkbModel.SpatiaLite
    (WkbClaims.compressed_header z m srid env e 2 ++ WkbClaims.compressed_bytes z m e first ds last ++ tail) =
  let c := WkbSpec.stored z m first in
  Ok (gvalue false (GLineString ((c :: WkbClaims.running z m c ds) ++ [mkC f64_zero f64_zero None None; WkbSpec.stored z m last]))).
Proof.
  intros z m srid env e first ds last tail H1 H2 H3 H4 H5 H6 H7. cbv zeta. set (c := WkbSpec.stored z m first). unfold gdal_from_wkb.
  assert (H8 : N.lt (N.of_nat (2 + length ds)) (2 ^ 32)) by (change (2 ^ 32)%N with 4294967296%N; change (2 ^ 31)%N with 2147483648%N in H7; lia).
  pose proof (WkbTop.compressed_blob z m srid env e first ds last tail H1 H2 H3 H4 H5 H6 H8) as D.
  specialize (D _ w (gw_with xy_dims)). cbn [p_dims gdal_writer] in D. change (wd false) with xy_dims in D. rewrite D. clear D.
  change (multi_dim xy_dims) with false. fold c.
  set (pts := c :: WkbClaims.running z m c ds).
  assert (Lp : length pts = S (length ds)) by (unfold pts; cbn [length]; rewrite GeosMore.running_length; reflexivity).
  cbn [run p_step gdal_writer].
  lazymatch goal with |- context [gdal_step ?s (Srid ?v)] => change (gdal_step s (Srid v)) with (s, @Ok unit tt) end.
  cbv beta iota. change xy_dims with (wd false).
  change (gw_with (wd false)) with (mkGw (wd false) empty_point (Own (nd OLineString [] []))).
  lazymatch goal with |- context [gdal_step ?s (LineStringBegin true ?n 0)] =>
    replace (gdal_step s (LineStringBegin true n 0)) with (mkGw (wd false) (nd OLineString [] []) (Own (nd OLineString [] [])), @Ok unit tt) by reflexivity end.
  cbv beta iota. rewrite run_app.
  assert (B : N.le (N.of_nat (length (@nil coord) + length pts)) (2 ^ 31)) by (rewrite Lp; cbn [length]; lia).
  pose proof (line_run false pts [] (Own (nd OLineString [] [])) B) as R.
  cbn [length] in R. unfold ev_coords in R. rewrite R. clear R.
  cbn [run p_step gdal_writer].
  rewrite (step_direct false) by reflexivity.
  change (nd OLineString ([] ++ map (pt_of false) pts) []) with (line_value false pts).
  rewrite setp_put by (cbn [plus]; lia).
  assert (P : put zero_pt (2 + length ds) (pt_of false (WkbSpec.stored z m last)) (map (pt_of false) pts) =
              map (pt_of false) pts ++ [zero_pt; pt_of false (WkbSpec.stored z m last)]).
  { replace (2 + length ds)%nat with (S (length (map (pt_of false) pts))) by (rewrite map_length, Lp; reflexivity).
    generalize (map (pt_of false) pts) as k. induction k as [|a k IH]; [reflexivity|].
    cbn [length app]. change (put zero_pt (S (S (length k)))) with (fun (p : pt) (l : list pt) => match l with [] => zero_pt :: put zero_pt (S (length k)) p [] | a :: r => a :: put zero_pt (S (length k)) p r end).
    cbv beta iota. f_equal. exact IH. }
  rewrite P. cbn [gvalue line_value]. unfold line_value. rewrite map_app. reflexivity.
Qed.
