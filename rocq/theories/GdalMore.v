(** More proofs about the GDAL conversions (helper lemmas for C55, C56). *)
From Coq Require Import String Ascii.
From Coq Require Import List NArith ZArith Lia Bool.
From Coq Require Import Init.Byte.
From Verif Require Import Base BaseLemmas Event EventLemmas Claims Geom WkbModel WkbSpec WkbClaims WkbWriteTop WkbTop.
From Verif Require Import GeoModel GeoSpec GeoTop.
From Verif Require Import GdalModel GdalSpec GdalTop GdalWrite.
Import ListNotations.
Local Open Scope N_scope.
Local Open Scope list_scope.

(** ** Reading OGR geometries into other formats *)
Lemma gdal_to_wkb : forall missing g t dl d srid env, tree (fill missing g) = Some t -> multi_dim d = dz d ->
  srid_ok dl srid -> (dl = SpatiaLite -> spatialite_safe t) ->
  to_wkb_dialect (gdal_process missing g) dl d srid env = Ok (std dl d srid env xy_dims false false little t).
Proof.
  intros missing g t dl d srid env E M R Hs. unfold to_wkb_dialect.
  change (w_read_dims (with_opts dl d srid env)) with d. rewrite (said_same missing g t d E M).
  exact (to_wkb_std (said t) [] dl d srid env t tt (said_delivers t) (Forall_nil _) R (fill_no_empty _ _ _ E) Hs).
Qed.
Lemma gdal_to_geo : forall debug missing g t, tree (fill missing g) = Some t -> plain t = true -> small t ->
  to_geo debug (gdal_process missing g) = Ok (value_of t).
Proof.
  intros debug missing g t E P S. unfold to_geo. rewrite (said_same missing g t _ E) by reflexivity.
  exact (to_geo_delivers debug (said t) t tt P S (said_delivers t)).
Qed.
Lemma empty_calls : forall missing S (p : proc S) s,
  exec p (gdal_process missing empty_point (p_dims p)) s =
  run p (gevents (dz (p_dims p)) 0 (GPoint (pos_of missing))) s.
Proof. intros missing S p s. apply gdal_reads. reflexivity. Qed.

(** ** to_gdal *)
Lemma gdal_wkb_value : forall dl d srid env ed ext emp o g tail,
  encodable g -> (levels g <= 128)%nat -> srid_ok dl srid -> env_ok dl ed env -> order_ok dl o ->
  let g' := retained (dz d) (dm d) g in simple g' = true -> short_geom g' ->
  gdal_from_wkb dl (std dl d srid env ed ext emp o g ++ tail) = Ok (gvalue false g').
Proof.
  intros dl d srid env ed ext emp o g tail E L R V O g' P S. unfold gdal_from_wkb.
  pose proof (delivers_std dl d srid env ed ext emp o g tail E L R V O) as D.
  specialize (D _ (gdal_writer xy_dims) (gw_with xy_dims)). cbn [p_dims gdal_writer] in D. rewrite D. clear D. fold g'.
  change (multi_dim xy_dims) with false.
  destruct (writes_srids false [Srid (reported_srid dl srid)] g' ltac:(repeat econstructor) P S 0 (gw_with xy_dims) eq_refl) as [r X].
  change (Srid (reported_srid dl srid) :: gevents false 0 g') with ([Srid (reported_srid dl srid)] ++ gevents false 0 g').
  change (gdal_writer (wd false)) with (gdal_writer xy_dims) in X. fold (gdal_writer xy_dims). rewrite X. reflexivity.
Qed.

(** *** There and back *)
Definition kept (h : bool) (c : coord) : coord := pos_of (pt_of h c).
Lemma kept_again : forall h c, pt_of h (kept h c) = pt_of h c.
Proof. intros [] c; reflexivity. Qed.
Lemma line_of_value : forall h l, line_of (line_value h l) = map (kept h) l.
Proof. intros. unfold line_of. cbn. now rewrite map_map. Qed.
Lemma collect_map : forall A B C (f : B -> option C) (v : A -> B) (k : A -> C) l,
  (forall a, f (v a) = Some (k a)) -> collect f (map v l) = Some (map k l).
Proof. intros A B C f v k l H. induction l as [|a l IH]; [reflexivity|]. cbn in *. fold (collect f). now rewrite H, IH. Qed.
Lemma rings_of_value : forall h k r, rings_tree (Og k h h [] (map (line_value h) r)) = Some (map (map (kept h)) r).
Proof. intros h k r. unfold rings_tree. cbn [o_kids]. apply collect_map. intros l. unfold line_tree. cbn [o_kind]. now rewrite line_of_value. Qed.
Lemma line_value_kept : forall h l, line_value h (map (kept h) l) = line_value h l.
Proof. intros h l. unfold line_value. rewrite map_map. f_equal. apply map_ext. apply kept_again. Qed.
Lemma poly_value_kept : forall h r, poly_value h (map (map (kept h)) r) = poly_value h r.
Proof. intros h r. unfold poly_value. rewrite map_map. f_equal. apply map_ext. apply line_value_kept. Qed.
Lemma short_map : forall A B (f : A -> B) l, short l -> short (map f l).
Proof. intros A B f l H. unfold short in *. now rewrite map_length. Qed.
Lemma shorts_map : forall A B (f : A -> B) l, Forall short l -> Forall short (map (map f) l).
Proof. intros A B f l H. induction H; constructor; [now apply short_map|assumption]. Qed.
Lemma fill_value : forall missing (h : bool) t, simple t = true -> fill missing (gvalue h t) = gvalue h t.
Proof.
  intros missing h t S. destruct t; try discriminate; try reflexivity.
  cbn. rewrite map_map. reflexivity.
Qed.
Lemma tree_value : forall h t, simple t = true -> short_geom t ->
  exists t', tree (gvalue h t) = Some t' /\ simple t' = true /\ short_geom t' /\ gvalue h t' = gvalue h t.
Proof.
  intros h t Si Sh. destruct t; try discriminate; cbn [gvalue short_geom] in *.
  - exists (GPoint (kept h c)). repeat split. cbn [gvalue]. unfold point_value. now rewrite kept_again.
  - exists (GMultiPoint (map (kept h) l)). split; [|repeat split].
    + cbn [tree]. erewrite collect_map; [reflexivity|]. intros c. reflexivity.
    + cbn [gvalue]. rewrite map_map. f_equal. apply map_ext. intros c. unfold point_value. now rewrite kept_again.
  - exists (GLineString (map (kept h) l)). split; [|repeat split].
    + cbn [tree line_value]. fold (line_value h l). now rewrite line_of_value.
    + now apply short_map.
    + apply line_value_kept.
  - exists (GMultiLineString (map (map (kept h)) l)). split; [|repeat split].
    + cbn [tree]. pose proof (rings_of_value h OMultiLineString l) as E. unfold rings_tree in E. cbn [o_kids] in E. now rewrite E.
    + now apply shorts_map.
    + cbn [gvalue]. rewrite map_map. f_equal. apply map_ext. apply line_value_kept.
  - exists (GPolygon (map (map (kept h)) r)). split; [|repeat split].
    + cbn [tree poly_value]. now rewrite rings_of_value.
    + now apply shorts_map.
    + apply poly_value_kept.
  - exists (GMultiPolygon (map (map (map (kept h))) l)). split; [|repeat split].
    + cbn [tree]. erewrite collect_map; [reflexivity|]. intros r. unfold polygon_tree. cbn [o_kind poly_value]. apply rings_of_value.
    + cbn [short_geom]. clear Si. induction Sh; cbn [map]; constructor; [now apply shorts_map|assumption].
    + cbn [gvalue]. rewrite map_map. f_equal. apply map_ext. apply poly_value_kept.
Qed.
Lemma gdal_round : forall missing (h : bool) t, simple t = true -> short_geom t ->
  to_gdal_ndim (gdal_process missing (gvalue h t)) (if h then xyzm_dims else xy_dims) = Ok (gvalue h t).
Proof.
  intros missing h t Si Sh. destruct (tree_value h t Si Sh) as (t' & T & Si' & Sh' & V).
  fold (wd h). unfold to_gdal_ndim. rewrite (said_same missing _ t').
  - rewrite <- V. exact (to_gdal_simple h (said t') [] t' (Forall_nil _) Si' Sh' (said_delivers t')).
  - now rewrite fill_value.
  - rewrite wd_multi. symmetry. apply wd_z.
Qed.

(** *** Collections: the last member stays *)
Lemma members_write : forall b l k s, g_dims s = wd b -> l <> [] -> Forall (fun g => simple g = true /\ short_geom g) l ->
  exists r, run (gdal_writer (wd b)) ((fix go (i : nat) (l : list geom) : list event :=
              match l with [] => [] | a :: r => gevents b i a ++ go (S i) r end) k l) s =
    (mkGw (wd b) (gvalue b (last l GEmptyPoint)) r, Ok tt).
Proof.
  intros b. induction l as [|g l IH]; intros k s D N H; [contradiction|]. inversion H as [|? ? [P S] H']; subst.
  rewrite run_app. destruct (writes b g P S k s D) as [r ->]. destruct l as [|g' l].
  - exists r. reflexivity.
  - apply (IH (Datatypes.S k) (mkGw (wd b) (gvalue b g) r) eq_refl ltac:(discriminate) H').
Qed.
Lemma collection_last : forall (h : bool) src l (r : unit), l <> [] -> Forall (fun g => simple g = true /\ short_geom g) l ->
  delivers src (fun multi => gevents multi 0 (GCollection l)) (Ok r) ->
  to_gdal_ndim src (if h then xyzm_dims else xy_dims) = Ok (gvalue h (last l GEmptyPoint)).
Proof.
  intros h src l r N H D. fold (wd h). unfold to_gdal_ndim. specialize (D _ (gdal_writer (wd h)) (gw_with (wd h))).
  cbn [p_dims gdal_writer] in D. rewrite D. clear D. rewrite wd_multi. cbn [gevents].
  cbn [run p_step gdal_writer gdal_step default_step]. fold (gdal_writer (wd h)).
  rewrite run_app. destruct (members_write h l 0 (gw_with (wd h)) eq_refl N H) as [q ->]. reflexivity.
Qed.
Lemma collection_none : forall src (r : unit),
  delivers src (fun multi => gevents multi 0 (GCollection [])) (Ok r) -> to_gdal src = Ok empty_point.
Proof. intros src r D. unfold to_gdal, to_gdal_ndim. specialize (D _ (gdal_writer xy_dims) (gw_with xy_dims)). cbn [p_dims gdal_writer] in D. rewrite D. reflexivity. Qed.

(** *** z alone: every position is refused *)
Section Z.
  Notation w := (gdal_writer xyz_dims).
  Notation nd k kids := (Og k true false [] kids).
  Lemma no_lines : forall l i k kids r, (match k with OMultiLineString | OPolygon | OMultiPolygon => True | _ => False end) -> l <> [] ->
    run w (flat_mapi (ev_line true false) i l) (mkGw xyz_dims (nd k kids) r) = (mkGw xyz_dims (nd k kids) r, Err gdal_error).
  Proof. intros [|a l] i k kids r K N; [contradiction|]. destruct k; try contradiction; reflexivity. Qed.
  Lemma lift_same : forall g, lift false false g = g.
  Proof.
    induction g as [k z m pts kids IH] using og_ind'. cbn. rewrite !orb_false_r. f_equal.
    induction IH as [|a l Ha _ IHl]; cbn; [reflexivity|]. now rewrite Ha, IHl.
  Qed.
  Lemma no_polys : forall l i kids r, concat (concat l) <> [] ->
    exists s, run w (flat_mapi (ev_polygon true false) i l) (mkGw xyz_dims (nd OMultiPolygon kids) r) = (s, Err gdal_error).
  Proof.
    induction l as [|p l IH]; intros i kids r N; [contradiction|]. cbn [flat_mapi]. rewrite run_app.
    assert (Bg : forall n, exists kids', gdal_step (mkGw xyz_dims (nd OMultiPolygon kids) r) (PolygonBegin false n i) =
      (mkGw xyz_dims (nd OMultiPolygon kids') r, Ok tt)) by (intros n; eexists; reflexivity).
    unfold ev_polygon at 1. cbn [run p_step gdal_writer]. match goal with |- context [PolygonBegin false ?n i] => destruct (Bg n) as [kids' ->] end. fold w.
    rewrite run_app. destruct p as [|q p].
    - cbn [flat_mapi run p_step gdal_writer gdal_step default_step]. apply IH. exact N.
    - rewrite no_lines; [eexists; reflexivity|exact I|discriminate].
  Qed.
End Z.
Ltac start k := match goal with |- context [run ?w (?e :: ?t) (gw_with xyz_dims)] =>
  change (run w (e :: t) (gw_with xyz_dims)) with
    (run w t (mkGw xyz_dims (Og k true false [] []) (Own (Og OLineString false false [] [])))) end.
Lemma z_refused : forall src g (r : unit), simple g = true -> positions g <> [] ->
  delivers src (fun multi => gevents multi 0 g) (Ok r) -> to_gdal_ndim src xyz_dims = Err gdal_error.
Proof.
  intros src g r S N D. unfold to_gdal_ndim. specialize (D _ (gdal_writer xyz_dims) (gw_with xyz_dims)).
  cbn [p_dims gdal_writer] in D. rewrite D. clear D. change (multi_dim xyz_dims) with true.
  fold (gdal_writer xyz_dims).
  assert (L : forall A (l : list (list A)), concat l <> [] -> l <> []) by (intros A l H E; apply H; now subst).
  destruct g; try discriminate; cbn [gevents positions] in *.
  - reflexivity.
  - destruct l; [contradiction|]. reflexivity.
  - destruct l; [contradiction|]. reflexivity.
  - start OMultiLineString. rewrite run_app, no_lines; [reflexivity|exact I|now apply L].
  - unfold ev_polygon. start OPolygon. rewrite run_app, no_lines; [reflexivity|exact I|now apply L].
  - start OMultiPolygon. rewrite run_app.
    match goal with |- context [mkGw _ _ ?q] => destruct (no_polys l 0 [] q N) as [s E] end. rewrite E. reflexivity.
Qed.

(** *** Curves, surfaces *)
Lemma arc_point : forall c l (r0 : unit) src, short (c :: l) ->
  delivers src (fun multi => gevents multi 0 (GCircularString (c :: l))) (Ok r0) -> to_gdal src = Ok (gvalue false (GPoint c)).
Proof.
  intros c l r0 src Sh D. unfold to_gdal, to_gdal_ndim. specialize (D _ (gdal_writer xy_dims) (gw_with xy_dims)).
  cbn [p_dims gdal_writer] in D. rewrite D. clear D. change (multi_dim xy_dims) with false. cbn [gevents]. unfold ev_arc, ev_coords.
  cbn [mapi]. set (s1 := mkGw xy_dims (gvalue false (GPoint c)) (Own (Og OLineString false false [] []))).
  assert (A : forall l i, (0 < i)%nat -> N.of_nat (i + length l) <= 2 ^ 31 ->
    run (gdal_writer xy_dims) (mapi (ev_coord false) i l) s1 = (s1, Ok tt)).
  { clear. induction l as [|d l IH]; intros i P H; [reflexivity|]. cbn [mapi run p_step gdal_writer]. cbn [length] in H.
    assert (St : gdal_step s1 (ev_coord false i d) = (s1, Ok tt)).
    { unfold ev_coord, s1. change (full_code (gvalue false (GPoint c))) with 1. cbn [gdal_step g_geom].
      change (full_code (gvalue false (GPoint c))) with 1. cbn [gvalue]. unfold point_value. cbn [set_point_2d].
      rewrite (c_int_short i) by lia. destruct i; [lia|]. reflexivity. }
    rewrite St. apply IH; lia. }
  cbn [run p_step gdal_writer app]. change (gdal_step (gw_with xy_dims) _) with (gw_with xy_dims, @Ok unit tt). cbn iota.
  change (gdal_step (gw_with xy_dims) (ev_coord false 0 c)) with (s1, @Ok unit tt). cbn iota.
  fold (gdal_writer xy_dims). rewrite run_app, A; [reflexivity|lia|]. unfold short in Sh. cbn [length] in Sh. lia.
Qed.
(** what follows does not matter once an error came *)
Lemma curve_refused : forall src g r l, g = GCompoundCurve (SegLine l :: r) \/
    (exists q, g = GMultiCurve (CvLine l :: q)) \/ (exists q, g = GCurvePolygon (CvLine l :: q)) \/
    (exists q p, g = GTin ((l :: p) :: q)) \/ (exists p, g = GTriangle (l :: p)) ->
  forall x : unit, delivers src (fun multi => gevents multi 0 g) (Ok x) -> to_gdal src = Err gdal_error.
Proof.
  intros src g r l H x D. unfold to_gdal, to_gdal_ndim. specialize (D _ (gdal_writer xy_dims) (gw_with xy_dims)).
  cbn [p_dims gdal_writer] in D. rewrite D.
  destruct H as [-> | [[q ->] | [[q ->] | [(q & p & ->) | [p ->]]]]]; reflexivity.
Qed.
Lemma surface_refused : forall src g r q, g = GMultiSurface (SfPolygon r :: q) \/ (exists q, g = GPolyhedralSurface (r :: q)) ->
  forall x : unit, delivers src (fun multi => gevents multi 0 g) (Ok x) -> to_gdal src = Err EGeometry.
Proof.
  intros src g r q H x D. unfold to_gdal, to_gdal_ndim. specialize (D _ (gdal_writer xy_dims) (gw_with xy_dims)).
  cbn [p_dims gdal_writer] in D. rewrite D.
  destruct H as [-> | [p ->]]; reflexivity.
Qed.
Lemma empty_refused : forall src d (x : unit), delivers src (fun multi => gevents multi 0 GEmptyPoint) (Ok x) ->
  to_gdal_ndim src d = Err EGeometry.
Proof. intros src d x D. unfold to_gdal_ndim. specialize (D _ (gdal_writer d) (gw_with d)). cbn [p_dims gdal_writer] in D. rewrite D. reflexivity. Qed.

(** *** The line of a geometry that is gone *)
Lemma rings_last : forall b l done i r, l <> [] -> Forall short l ->
  run (gdal_writer (wd b)) (flat_mapi (ev_line b false) i l) (mkGw (wd b) (Og OPolygon b b [] (map (line_value b) done)) r) =
  (mkGw (wd b) (poly_value b (done ++ l)) (At [length done + length l - 1]%nat), Ok tt).
Proof.
  intros b l. induction l as [|a l IH]; intros done i r N Sh; [contradiction|]. cbn [flat_mapi].
  pose proof (Forall_inv Sh) as Sa. pose proof (Forall_inv_tail Sh) as Sl. rewrite run_app, ring_run by (reflexivity || assumption).
  destruct l as [|a' l].
  - cbn [flat_mapi run length]. unfold poly_value. do 3 f_equal. f_equal. lia.
  - rewrite IH by (discriminate || assumption). rewrite <- app_assoc, app_length. cbn [length app]. do 3 f_equal. f_equal. lia.
Qed.
Lemma polygon_line : forall l i s, g_dims s = xy_dims -> l <> [] -> Forall short l ->
  run (gdal_writer xy_dims) (gevents false i (GPolygon l)) s =
  (mkGw xy_dims (poly_value false l) (At [length l - 1]%nat), Ok tt).
Proof.
  intros l i s D N Sh. cbn [gevents]. unfold ev_polygon. destruct s as [d g q]. cbn in D. subst d. cbn [run p_step gdal_writer].
  unfold gdal_step at 1. unfold replace_geom. cbn [g_dims g_line]. cbn iota. fold (gdal_writer xy_dims).
  change (empty_geom (mkGw xy_dims g q) OPolygon) with (Og OPolygon false false [] (map (line_value false) [])).
  rewrite run_app. change xy_dims with (wd false) at 1 2. rewrite (rings_last false l [] 0 _ N Sh). reflexivity.
Qed.
Definition dangling (l : rings) (c : coord) (arc : line) : geom :=
  GCollection [GPolygon l; GMultiPolygon []; GCircularString (c :: arc)].
Lemma dangling_undefined : forall src l c arc (x : unit), l <> [] -> Forall short l ->
  delivers src (fun multi => gevents multi 0 (dangling l c arc)) (Ok x) -> to_gdal src = Err undefined.
Proof.
  intros src l c arc x N Sh D. unfold to_gdal, to_gdal_ndim. specialize (D _ (gdal_writer xy_dims) (gw_with xy_dims)).
  cbn [p_dims gdal_writer] in D. rewrite D. clear D. change (multi_dim xy_dims) with false. unfold dangling.
  set (tl := gevents false 1 (GMultiPolygon []) ++ gevents false 2 (GCircularString (c :: arc)) ++ [CollectionEnd 0]).
  replace (gevents false 0 _) with (CollectionBegin 3 0 :: gevents false 0 (GPolygon l) ++ tl)
    by (unfold tl; cbn [gevents length]; rewrite <- !app_assoc; reflexivity).
  cbn [run p_step gdal_writer]. change (gdal_step (gw_with xy_dims) (CollectionBegin 3 0)) with (gw_with xy_dims, @Ok unit tt). cbn iota.
  fold (gdal_writer xy_dims). rewrite run_app, polygon_line by (reflexivity || assumption). reflexivity.
Qed.
(** the first position of the arc overwrites one of the polygon's *)
Lemma polluted_ring : forall src p q c (x : unit),
  delivers src (fun multi => gevents multi 0 (GCollection [GPolygon [p :: q]; GCircularString [c]])) (Ok x) -> short (p :: q) ->
  to_gdal src = Ok (gvalue false (GPolygon [c :: q])).
Proof.
  intros src p q c x D Sh. unfold to_gdal, to_gdal_ndim. specialize (D _ (gdal_writer xy_dims) (gw_with xy_dims)).
  cbn [p_dims gdal_writer] in D. rewrite D. clear D. change (multi_dim xy_dims) with false.
  set (tl := gevents false 1 (GCircularString [c]) ++ [CollectionEnd 0]).
  replace (gevents false 0 _) with (CollectionBegin 2 0 :: gevents false 0 (GPolygon [p :: q]) ++ tl)
    by (unfold tl; cbn [gevents length]; rewrite <- !app_assoc; reflexivity).
  cbn [run p_step gdal_writer]. change (gdal_step (gw_with xy_dims) (CollectionBegin 2 0)) with (gw_with xy_dims, @Ok unit tt). cbn iota.
  fold (gdal_writer xy_dims). rewrite run_app, polygon_line; [reflexivity|reflexivity|discriminate|].
  constructor; [exact Sh|constructor].
Qed.
(** a curve made of lines after an empty multi polygon *)
Lemma no_polygon_panics : forall src l q (x : unit),
  delivers src (fun multi => gevents multi 0 (GCollection [GMultiPolygon []; GCompoundCurve (SegLine l :: q)])) (Ok x) ->
  to_gdal src = Err EPanic.
Proof.
  intros src l q x D. unfold to_gdal, to_gdal_ndim. specialize (D _ (gdal_writer xy_dims) (gw_with xy_dims)).
  cbn [p_dims gdal_writer] in D. rewrite D. reflexivity.
Qed.
