(** Proofs about positions of the GDAL writer that GDAL refuses silently (helper lemmas for C56). *)
From Coq Require Import String Ascii.
From Coq Require Import List NArith ZArith Lia Bool.
From Verif Require Import Base BaseLemmas Event EventLemmas Claims Geom GdalModel GdalSpec GdalWrite.
Import ListNotations.
Local Open Scope N_scope.
Local Open Scope list_scope.

Lemma c_int_negative : forall n, 2 ^ 31 <= N.of_nat n -> N.of_nat n < 2 ^ 32 -> c_int n = None.
Proof.
  intros n H K. unfold c_int. rewrite N.mod_small by exact K.
  replace (N.of_nat n <? 2 ^ 31) with false; [reflexivity|]. symmetry. apply N.ltb_ge. exact H.
Qed.
Lemma c_int_around : forall n k, N.of_nat n = 2 ^ 32 + N.of_nat k -> N.of_nat k < 2 ^ 31 -> c_int n = Some k.
Proof.
  intros n k H K. unfold c_int. rewrite H. replace (2 ^ 32 + N.of_nat k) with (N.of_nat k + 1 * 2 ^ 32) by lia.
  rewrite N.mod_add by discriminate. rewrite N.mod_small by lia. apply N.ltb_lt in K. rewrite K. now rewrite Nat2N.id.
Qed.
Lemma put_at : forall A (zero p a : A) l r, put zero (length l) p (l ++ a :: r) = l ++ p :: r.
Proof. induction l as [|c l IH]; intros r; cbn; [reflexivity|]. now rewrite IH. Qed.
Lemma mapi_app : forall A B (f : nat -> A -> B) l l' i, mapi f i (l ++ l') = mapi f i l ++ mapi f (i + length l)%nat l'.
Proof.
  induction l as [|a l IH]; intros l' i; cbn; [now rewrite Nat.add_0_r|]. rewrite IH. do 3 f_equal. lia.
Qed.

Section Beyond.
  Variable b : bool.
  Notation w := (gdal_writer (wd b)).
  Notation nd k pts kids := (Og k b b pts kids).
  (** positions GDAL takes for negative ones *)
  Lemma lost_run : forall l i pts r, 2 ^ 31 <= N.of_nat i -> N.of_nat (i + length l) <= 2 ^ 32 ->
    run w (mapi (ev_coord b) i l) (mkGw (wd b) (nd OLineString pts []) r) = (mkGw (wd b) (nd OLineString pts []) r, Ok tt).
  Proof.
    induction l as [|c l IH]; intros i pts r H K; cbn [mapi]; [reflexivity|]. cbn [length] in K.
    cbn [run p_step gdal_writer]. rewrite step_direct by reflexivity.
    replace (setp b i c (nd OLineString pts [])) with (nd OLineString pts []).
    - fold w. apply IH; lia.
    - unfold setp. destruct b; cbn [set_point set_point_2d]; rewrite c_int_negative by lia; reflexivity.
  Qed.
  (** positions GDAL takes for the first ones *)
  Lemma setp_at : forall n l a r c, N.of_nat n = 2 ^ 32 + N.of_nat (length l) -> N.of_nat (length l) < 2 ^ 31 ->
    setp b n c (nd OLineString (map (pt_of b) l ++ pt_of b a :: r) []) = nd OLineString (map (pt_of b) l ++ pt_of b c :: r) [].
  Proof.
    intros n l a r c H K. assert (L : length (map (pt_of b) l) = length l) by apply map_length.
    unfold setp, pt_of in *. destruct b; cbn [set_point set_point_2d]; rewrite (c_int_around n (length l) H K).
    - rewrite <- L, put_at. reflexivity.
    - rewrite <- L at 1 2. rewrite put_at. rewrite app_nth2 by lia. rewrite Nat.sub_diag. reflexivity.
  Qed.
  Lemma around_run : forall l done rest i r, N.of_nat i = 2 ^ 32 + N.of_nat (length done) ->
    N.of_nat (length done + length l) <= 2 ^ 31 -> (length l <= length rest)%nat ->
    run w (mapi (ev_coord b) i l) (mkGw (wd b) (nd OLineString (map (pt_of b) (done ++ rest)) []) r) =
    (mkGw (wd b) (nd OLineString (map (pt_of b) (done ++ l ++ skipn (length l) rest)) []) r, Ok tt).
  Proof.
    induction l as [|c l IH]; intros done rest i r H K G; cbn [mapi]; [reflexivity|]. cbn [length] in K, G.
    destruct rest as [|a rest]; [cbn in G; lia|]. cbn [length] in G.
    cbn [run p_step gdal_writer]. rewrite step_direct by reflexivity. rewrite map_app. cbn [map].
    rewrite setp_at by lia. fold w.
    replace (map (pt_of b) done ++ pt_of b c :: map (pt_of b) rest) with (map (pt_of b) ((done ++ [c]) ++ rest))
      by (rewrite <- app_assoc, map_app; reflexivity).
    rewrite IH by (rewrite ?app_length; cbn [length]; lia). rewrite <- app_assoc. reflexivity.
  Qed.
End Beyond.

Lemma long_line : forall (h : bool) src head lost over (x : unit),
  N.of_nat (length head) = 2 ^ 31 -> N.of_nat (length lost) = 2 ^ 31 -> N.of_nat (length over) <= 2 ^ 31 ->
  delivers src (fun multi => gevents multi 0 (GLineString (head ++ lost ++ over))) (Ok x) ->
  to_gdal_ndim src (if h then xyzm_dims else xy_dims) = Ok (gvalue h (GLineString (over ++ skipn (length over) head))).
Proof.
  intros h src head lost over x H L O D. fold (wd h). unfold to_gdal_ndim. specialize (D _ (gdal_writer (wd h)) (gw_with (wd h))).
  cbn [p_dims gdal_writer] in D. rewrite D. clear D. rewrite wd_multi. cbn [gevents]. unfold ev_line, ev_coords.
  cbn [run p_step gdal_writer gdal_step]. unfold replace_geom. cbn [gw_with g_dims g_line].
  change (gw_with (wd h)) with (mkGw (wd h) (g_geom (gw_with (wd h))) (g_line (gw_with (wd h)))).
  rewrite wd_empty. fold (gdal_writer (wd h)). rewrite run_app, mapi_app, run_app.
  pose proof (line_run h head []) as A. cbn [length app Nat.add] in A. rewrite A by (rewrite H; reflexivity). clear A.
  rewrite mapi_app, run_app, lost_run by lia.
  pose proof (around_run h over [] head) as A. cbn [length app] in A. rewrite A by lia. reflexivity.
Qed.
Lemma longer_line : forall (h : bool) src head lost (x : unit),
  N.of_nat (length head) = 2 ^ 31 -> N.of_nat (length lost) <= 2 ^ 31 ->
  delivers src (fun multi => gevents multi 0 (GLineString (head ++ lost))) (Ok x) ->
  to_gdal_ndim src (if h then xyzm_dims else xy_dims) = Ok (gvalue h (GLineString head)).
Proof.
  intros h src head lost x H L D. fold (wd h). unfold to_gdal_ndim. specialize (D _ (gdal_writer (wd h)) (gw_with (wd h))).
  cbn [p_dims gdal_writer] in D. rewrite D. clear D. rewrite wd_multi. cbn [gevents]. unfold ev_line, ev_coords.
  cbn [run p_step gdal_writer gdal_step]. unfold replace_geom. cbn [gw_with g_dims g_line].
  change (gw_with (wd h)) with (mkGw (wd h) (g_geom (gw_with (wd h))) (g_line (gw_with (wd h)))).
  rewrite wd_empty. fold (gdal_writer (wd h)). rewrite run_app, mapi_app, run_app.
  pose proof (line_run h head []) as A. cbn [length app Nat.add] in A. rewrite A by (rewrite H; reflexivity). clear A.
  rewrite lost_run by lia. reflexivity.
Qed.

(** *** Positions without a ring *)
Lemma ringless_run : forall l i k r, nested k = true ->
  exists q, run (gdal_writer xy_dims) (mapi (ev_coord false) i l) (mkGw xy_dims (Og k false false [] []) (Own r)) =
  (mkGw xy_dims (Og k false false [] []) (Own q), Ok tt).
Proof.
  induction l as [|c l IH]; intros i k r K; cbn [mapi]; [eexists; reflexivity|]. cbn [run p_step gdal_writer].
  assert (E : gdal_step (mkGw xy_dims (Og k false false [] []) (Own r)) (ev_coord false i c) =
              (mkGw xy_dims (Og k false false [] []) (Own (set_point_2d i (cx c) (cy c) r)), Ok tt))
    by (destruct k; try discriminate; reflexivity).
  rewrite E. fold (gdal_writer xy_dims). apply IH. exact K.
Qed.
Lemma ringless_lost : forall src g arc (x : unit), g = GPolygon [] \/ g = GMultiLineString [] \/ g = GMultiPolygon [] ->
  delivers src (fun multi => gevents multi 0 (GCollection [g; GCircularString arc])) (Ok x) ->
  to_gdal src = Ok (gvalue false g).
Proof.
  intros src g arc x G D. unfold to_gdal, to_gdal_ndim. specialize (D _ (gdal_writer xy_dims) (gw_with xy_dims)).
  cbn [p_dims gdal_writer] in D. rewrite D. clear D. change (multi_dim xy_dims) with false.
  assert (K : exists k pre post, nested k = true /\ gvalue false g = Og k false false [] [] /\
    gevents false 0 (GCollection [g; GCircularString arc]) = pre ++ mapi (ev_coord false) 0 arc ++ post /\
    run (gdal_writer xy_dims) pre (gw_with xy_dims) =
      (mkGw xy_dims (Og k false false [] []) (Own (Og OLineString false false [] [])), Ok tt) /\
    forall s, run (gdal_writer xy_dims) post s = (s, Ok tt)).
  { destruct G as [-> | [-> | ->]]; [exists OPolygon|exists OMultiLineString|exists OMultiPolygon];
      eexists (_ :: _ :: _ :: _ :: nil), (CircularStringEnd 1 :: CollectionEnd 0 :: nil); cbn [gevents length app flat_mapi];
      unfold ev_polygon, ev_arc, ev_coords; cbn [flat_mapi app]; rewrite <- ?app_assoc; repeat split; reflexivity. }
  destruct K as (k & pre & post & K & -> & -> & P & Q). rewrite run_app, P, run_app.
  destruct (ringless_run arc 0 k (Og OLineString false false [] []) K) as [q ->]. now rewrite Q.
Qed.
