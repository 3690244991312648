(** Proofs behind the exact form of claim C68. *)
From Coq Require Import String Ascii.
From Coq Require Import List NArith ZArith Lia Bool.
From Verif Require Import Base BaseLemmas Float Event EventLemmas Claims Geom WkbModel WkbSpec WkbClaims WkbWrite WkbWriteTop WkbTop WkbMarks WkbInj ReencSpec ReencTop GeoModel GeoSpec GeoExact JsonSpec
  GeoJsonModel GeoJsonSpec GeoJsonRead GeoJsonWrite GeoJsonTop ChainSpec ChainTop WkbRead InjSpec InjTop InjExactSpec.
Import ListNotations.
Local Open Scope list_scope.

(** ** The callbacks of a mapped geometry *)
Section Mapped.
  Variable h : event -> event.
  Variable f : coord -> coord.
  Variables b b' : bool.
  Hypothesis hc : forall i c, h (ev_coord b i c) = ev_coord b' i (f c).
  Hypothesis hs : forall e, match e with Xy _ _ _ | Coord _ _ _ _ _ _ _ => True | _ => h e = e end.
  Let sh := map h.
  Ltac hd := match goal with |- context [map h (?e :: _)] => idtac end; unfold sh; cbn [map app]; rewrite ?map_app; cbn [map];
    repeat match goal with |- context [h ?e] =>
      first [ rewrite (hs e) ] end.
  Lemma m_coords : forall l, sh (ev_coords b l) = ev_coords b' (map f l).
  Proof.
    unfold sh, ev_coords. intros l. generalize 0%nat as i.
    induction l as [|c l IH]; intros i; cbn [mapi map]; [reflexivity|]. now rewrite IH, hc.
  Qed.
  Lemma m_mapi : forall A (e e' : nat -> A -> list event) (m : A -> A), (forall k a, sh (e k a) = e' k (m a)) ->
    forall l i, sh (flat_mapi e i l) = flat_mapi e' i (map m l).
  Proof.
    intros A e e' m H. induction l as [|a l IH]; intros i; cbn [flat_mapi map]; [reflexivity|].
    unfold sh in *. now rewrite map_app, H, IH.
  Qed.
  Lemma m_line : forall t k l, sh (ev_line b t k l) = ev_line b' t k (map f l).
  Proof.
    intros. unfold ev_line, sh. cbn [map]. rewrite map_app, map_length. cbn [map].
    rewrite (hs (LineStringBegin t _ k)), (hs (LineStringEnd t k)). fold sh. now rewrite m_coords.
  Qed.
  Lemma m_arc : forall k l, sh (ev_arc b k l) = ev_arc b' k (map f l).
  Proof.
    intros. unfold ev_arc, sh. cbn [map]. rewrite map_app, map_length. cbn [map].
    rewrite (hs (CircularStringBegin _ k)), (hs (CircularStringEnd k)). fold sh. now rewrite m_coords.
  Qed.
  Ltac mem H B E := unfold sh; cbn [map]; rewrite map_app, map_length; cbn [map]; rewrite (hs B), (hs E); fold sh;
    rewrite (m_mapi _ _ _ _ H); reflexivity.
  Lemma m_polygon : forall t k l, sh (ev_polygon b t k l) = ev_polygon b' t k (map (map f) l).
  Proof. intros. unfold ev_polygon. mem (m_line false) (PolygonBegin t (length l) k) (PolygonEnd t k). Qed.
  Lemma m_triangle : forall t k l, sh (ev_triangle b t k l) = ev_triangle b' t k (map (map f) l).
  Proof. intros. unfold ev_triangle. mem (m_line false) (TriangleBegin t (length l) k) (TriangleEnd t k). Qed.
  Lemma m_segment : forall k s, sh (ev_segment b k s) = ev_segment b' k (map_segment f s).
  Proof. intros k [l|l]; [apply m_line|apply m_arc]. Qed.
  Lemma m_compound : forall k l, sh (ev_compound b k l) = ev_compound b' k (map (map_segment f) l).
  Proof. intros. unfold ev_compound. mem m_segment (CompoundCurveBegin (length l) k) (CompoundCurveEnd k). Qed.
  Lemma m_curve : forall k s, sh (ev_curve b k s) = ev_curve b' k (map_curve f s).
  Proof. intros k [l|l|l]; [apply m_line|apply m_arc|apply m_compound]. Qed.
  Lemma m_curvepolygon : forall k l, sh (ev_curvepolygon b k l) = ev_curvepolygon b' k (map (map_curve f) l).
  Proof. intros. unfold ev_curvepolygon. mem m_curve (CurvePolygonBegin (length l) k) (CurvePolygonEnd k). Qed.
  Lemma m_surface : forall k s, sh (ev_surface b k s) = ev_surface b' k (map_surface f s).
  Proof. intros k [l|l]; [apply m_polygon|apply m_curvepolygon]. Qed.
  Lemma mapped_gevents : forall g k, map h (gevents b k g) = gevents b' k (map_geom GPoint f g).
  Proof.
    change (forall g k, sh (gevents b k g) = gevents b' k (map_geom GPoint f g)).
    induction g using geom_ind'; intros k; cbn [map_geom].
    all: try (cbn [gevents]; first [apply m_line|apply m_arc|apply m_polygon|apply m_triangle|apply m_compound|apply m_curvepolygon]).
    - unfold sh. cbn [gevents map]. now rewrite hc, (hs (PointBegin k)), (hs (PointEnd k)).
    - unfold sh. cbn [gevents map]. now rewrite (hs (EmptyPoint k)).
    - cbn [gevents]. unfold sh. cbn [map]. rewrite map_app, map_length. cbn [map].
      rewrite (hs (MultiPointBegin (length l) k)), (hs (MultiPointEnd k)). fold sh. now rewrite m_coords.
    - cbn [gevents]. mem (m_line false) (MultiLineStringBegin (length l) k) (MultiLineStringEnd k).
    - cbn [gevents]. mem (m_polygon false) (MultiPolygonBegin (length l) k) (MultiPolygonEnd k).
    - rewrite !gevents_collection. unfold sh. cbn [map]. rewrite map_app, map_length. cbn [map].
      rewrite (hs (CollectionBegin (length l) k)), (hs (CollectionEnd k)).
      do 2 f_equal. revert H. generalize 0%nat as i. intros i H. revert i.
      induction H; intros i; cbn [flat_mapi map]; [reflexivity|]. unfold sh in *. rewrite map_app, H. now rewrite IHForall.
    - cbn [gevents]. mem m_curve (MultiCurveBegin (length l) k) (MultiCurveEnd k).
    - cbn [gevents]. mem m_surface (MultiSurfaceBegin (length l) k) (MultiSurfaceEnd k).
    - cbn [gevents]. mem (m_polygon false) (PolyhedralSurfaceBegin (length l) k) (PolyhedralSurfaceEnd k).
    - cbn [gevents]. mem (m_triangle false) (TinBegin (length l) k) (TinEnd k).
  Qed.
End Mapped.

(** ** GeoJSON *)
Definition as_position (e : event) : event :=
  match e with
  | Xy x y i => Coord x y None None None None i
  | Coord x y z _ _ _ i => Coord x y z None None None i
  | e => e
  end.
Lemma kept_events : forall z g k, map as_position (gevents z k g) = gevents true k (kept_geom z g).
Proof.
  intros z g k. apply mapped_gevents.
  - intros i [x y h m]. destruct z; reflexivity.
  - intros []; exact I || reflexivity.
Qed.
Lemma position_run : forall fmt32 fmt d d' l s,
  run (geojson_writer fmt32 fmt d) l s = run (geojson_writer fmt32 fmt d') (map as_position l) s.
Proof.
  intros fmt32 fmt d d'. induction l as [|e l IH]; intros s; [reflexivity|]. cbn [map run p_step geojson_writer].
  replace (gj_step fmt s (as_position e)) with (gj_step fmt s e).
  2:{ destruct e; try reflexivity. }
  destruct (gj_step fmt s e) as [s' [[]|x]]; [|reflexivity]. apply IH.
Qed.
Lemma geojson_exact : forall fmt32 fmt num d d' src src' l l' g g' t t',
  json_format GeoJsonSpec.finite fmt num -> comes src l g -> comes src' l' g' ->
  geojson_kind g = true -> geojson_kind g' = true -> finite_geom (multi_dim d) g -> finite_geom (multi_dim d') g' ->
  exec (geojson_writer fmt32 fmt d) (src d) EmptyString = (t, Ok tt) ->
  exec (geojson_writer fmt32 fmt d') (src' d') EmptyString = (t', Ok tt) ->
  (t = t' <-> kept_geom (multi_dim d) g = kept_geom (multi_dim d') g').
Proof.
  intros fmt32 fmt num d d' src src' l l' g g' t t' JF C C' K K' F F' E E'. split; intros Q.
  - subst t'. exact (geojson_one fmt32 fmt num d d' src src' l l' g g' t JF C C' K K' F F' E E').
  - destruct (geometry_written fmt32 fmt d num JF g K F) as (u & j & T & P & G).
    destruct (geometry_written fmt32 fmt d' num JF g' K' F') as (u' & j' & T' & P' & G').
    rewrite (json_text _ _ _ _ _ _ _ C T) in E. rewrite (json_text _ _ _ _ _ _ _ C' T') in E'.
    rewrite (position_run fmt32 fmt d d) in T. rewrite (position_run fmt32 fmt d' d) in T'.
    rewrite kept_events in T, T'. rewrite Q in T. congruence.
Qed.

(** ** geo-types *)
Lemma last_map : forall A B (f : A -> B) l a, last (map f l) (f a) = f (last l a).
Proof. intros A B f. induction l as [|x [|y l] IH]; intros a; try reflexivity. exact (IH a). Qed.
Lemma ring_closed : forall l, ring_of l = line_of (closed_line l).
Proof.
  intros [|a l]; [reflexivity|]. unfold ring_of, closed_line, line_of. cbn [map]. 
  change (xy_of a :: map xy_of l) with (map xy_of (a :: l)). rewrite last_map. cbn [fst snd xy_of].
  destruct (_ && _)%bool; [reflexivity|]. now rewrite map_app.
Qed.
Lemma tree_line_flat : forall l : line, tree_line (line_of l) = map flat_of l.
Proof. intros l. unfold tree_line, line_of. rewrite map_map. now apply map_ext. Qed.
Lemma poly_closed : forall r : rings, tree_poly (poly_of r) = map (map flat_of) (closed_rings r).
Proof.
  intros [|e r]; [reflexivity|]. unfold closed_rings, tree_poly. cbn [poly_of fst snd map].
  rewrite ring_closed, tree_line_flat. f_equal. rewrite !map_map. apply map_ext. intros l. now rewrite ring_closed, tree_line_flat.
Qed.
Lemma closed_tree : forall rect triangle g, plain g = true -> tree rect triangle (GeoSpec.value_of g) = flat (close_rings g).
Proof.
  intros rect triangle. induction g using geom_ind'; intros K; try discriminate K; unfold flat; cbn [GeoSpec.value_of tree close_rings map_geom].
  - reflexivity.
  - f_equal. apply tree_line_flat.
  - f_equal. apply tree_line_flat.
  - f_equal. rewrite map_map. apply map_ext. intros; apply tree_line_flat.
  - f_equal. apply poly_closed.
  - f_equal. rewrite !map_map. apply map_ext. intros; apply poly_closed.
  - f_equal. rewrite !map_map. cbn [plain] in K. induction H as [|a l A _ IH]; [reflexivity|].
    cbn [forallb] in K. apply andb_prop in K. destruct K as [K1 K2]. cbn [map]. rewrite A by exact K1. f_equal. now apply IH.
Qed.
(** the value whose tree is given *)
Definition bare_poly (r : rings) : poly :=
  match r with [] => ([], []) | e :: i => (line_of e, map line_of i) end.
Fixpoint bare (g : geom) : gt :=
  match g with
  | GPoint c => TPoint (xy_of c)
  | GMultiPoint l => TMultiPoint (map xy_of l)
  | GLineString l => TLineString (line_of l)
  | GMultiLineString l => TMultiLineString (map line_of l)
  | GPolygon r => TPolygon (bare_poly r)
  | GMultiPolygon l => TMultiPolygon (map bare_poly l)
  | GCollection l => TCollection (map bare l)
  | _ => TCollection []
  end.
Lemma bare_line : forall l, line_of (tree_line l) = l.
Proof. intros l. unfold line_of, tree_line. rewrite map_map. rewrite <- (map_id l) at 2. apply map_ext. now intros []. Qed.
Lemma bare_poly_tree : forall p, bare_poly (tree_poly p) = p.
Proof.
  intros [e i]. unfold bare_poly, tree_poly. cbn [fst snd]. rewrite bare_line, map_map. f_equal.
  rewrite <- (map_id i) at 2. apply map_ext. apply bare_line.
Qed.
Lemma bare_tree : forall rect triangle g, plain g = true -> bare (tree rect triangle (GeoSpec.value_of g)) = GeoSpec.value_of g.
Proof.
  intros rect triangle. induction g using geom_ind'; intros K; try discriminate K; cbn [GeoSpec.value_of tree bare].
  - reflexivity.
  - f_equal. exact (bare_line (map xy_of l)).
  - f_equal. apply bare_line.
  - f_equal. rewrite map_map. rewrite <- (map_id (map line_of l)) at 2. apply map_ext. apply bare_line.
  - f_equal. apply bare_poly_tree.
  - f_equal. rewrite map_map. rewrite <- (map_id (map poly_of l)) at 2. apply map_ext. apply bare_poly_tree.
  - f_equal. rewrite !map_map. cbn [plain] in K. induction H as [|a l A _ IH]; [reflexivity|].
    cbn [forallb] in K. apply andb_prop in K. destruct K as [K1 K2]. cbn [map]. rewrite A by exact K1. f_equal. now apply IH.
Qed.
Lemma to_geo_value : forall dbg src l g v, plain g = true -> comes src l g -> to_geo dbg src = Ok v -> v = GeoSpec.value_of g.
Proof.
  intros dbg src l g v K H E.
  assert (X : to_geo dbg src = to_geo dbg (said g)).
  { unfold to_geo. change xy_dims with (p_dims (geo_writer dbg)).
    rewrite (deaf_same _ (geo_writer dbg) src l g gw_init); [reflexivity| |exact H]. intros s x. reflexivity. }
  rewrite X in E. destruct (to_geo_all dbg (said g) g tt K (said_delivers g)) as [[_ Y]|[_ Y]]; congruence.
Qed.
Lemma geo_exact : forall dbg src src' l l' g g' v v',
  comes src l g -> comes src' l' g' -> plain g = true -> plain g' = true ->
  to_geo dbg src = Ok v -> to_geo dbg src' = Ok v' -> (v = v' <-> flat (close_rings g) = flat (close_rings g')).
Proof.
  intros dbg src src' l l' g g' v v' C C' K K' E E'.
  rewrite (to_geo_value dbg src l g v K C E), (to_geo_value dbg src' l' g' v' K' C' E').
  pose (rc := fun _ _ : pos => (([], []) : poly)). pose (tr := fun _ _ _ : pos => (([], []) : poly)).
  rewrite <- (closed_tree rc tr g K), <- (closed_tree rc tr g' K'). split; intros Q; [now rewrite Q|].
  rewrite <- (bare_tree rc tr g K), <- (bare_tree rc tr g' K'). now rewrite Q.
Qed.

(** ** WKB *)
Lemma srids_run : forall dl d s env l e st,
  run (wkb_writer (with_opts dl d s env)) (map Srid l ++ e) st = run (wkb_writer (with_opts dl d s env)) e st.
Proof. intros dl d s env. induction l as [|x l IH]; intros e st; [reflexivity|]. cbn [map app]. rewrite writer_run_srid. apply IH. Qed.
Lemma to_wkb_blob : forall src l d s env g, comes src l g -> no_empty g ->
  to_wkb_dialect src SpatiaLite d s env = Ok (spatialite_blob (dz d) (dm d) (opt_default 0%Z s) env g).
Proof.
  intros src l d s env g H N. unfold to_wkb_dialect.
  pose proof (H wst (wkb_writer (with_opts SpatiaLite d s env)) wst_init) as Hx.
  change (p_dims (wkb_writer (with_opts SpatiaLite d s env))) with d in Hx.
  change (w_read_dims (with_opts SpatiaLite d s env)) with d. rewrite Hx, srids_run. clear Hx H.
  pose proof (blob_written d d s env xy_dims false false g (asks_for_all_refl d) N) as W.
  unfold write_all in W. change (with_extended_opts SpatiaLite d d s env xy_dims false false)
    with (with_opts SpatiaLite d s env) in W.
  destruct (run _ _ _) as [st [u|e]]; [now injection W as ->|discriminate].
Qed.
(** empty points are refused, so that what is written has none *)
Lemma run_no_mark : forall c l st st', run (wkb_writer c) l st = (st', Ok tt) -> Forall no_mark l.
Proof.
  intros c. induction l as [|e l IH]; intros st st' E; constructor; cbn [run] in E.
  - destruct e; try exact I. discriminate E.
  - destruct (p_step (wkb_writer c) st e) as [s1 [[]|x]]; [|discriminate E]. eapply IH, E.
Qed.
Lemma written_no_empty : forall src l dl d s env g w, comes src l g -> to_wkb_dialect src dl d s env = Ok w -> no_empty g.
Proof.
  intros src l dl d s env g w H W. unfold to_wkb_dialect in W.
  pose proof (H wst (wkb_writer (with_opts dl d s env)) wst_init) as Hx.
  change (p_dims (wkb_writer (with_opts dl d s env))) with d in Hx.
  change (w_read_dims (with_opts dl d s env)) with d in W. rewrite Hx, srids_run in W. clear Hx H.
  destruct (run (wkb_writer (with_opts dl d s env)) (gevents (multi_dim d) 0 g) wst_init) as [st [[]|e]] eqn:E; [|discriminate W].
  apply run_no_mark in E. exact (marks_no_empty _ _ _ E).
Qed.
Lemma wkb_written_one : forall src src' l l' dl d d' s s' env env' g g' w,
  comes src l g -> comes src' l' g' ->
  encodable g -> encodable g' ->
  srid_ok dl s -> srid_ok dl s' -> env_ok dl xy_dims env -> env_ok dl xy_dims env' ->
  to_wkb_dialect src dl d s env = Ok w -> to_wkb_dialect src' dl d' s' env' = Ok w ->
  dz d = dz d' /\ dm d = dm d' /\ retained (dz d) (dm d) g = retained (dz d') (dm d') g' /\
  reported_srid dl s = reported_srid dl s'.
Proof.
  intros src src' l l' dl d d' s s' env env' g g' w C C' G G' R R' V V' W W'.
  pose proof (written_no_empty _ _ _ _ _ _ _ _ C W) as N. pose proof (written_no_empty _ _ _ _ _ _ _ _ C' W') as N'.
  assert (SR : forall m, Forall (fun e => exists x, e = Srid x) (map Srid m)).
  { intros m. apply Forall_forall. intros e I. apply in_map_iff in I. destruct I as (x & <- & _). now exists x. }
  assert (DD : dl = SpatiaLite \/ dl <> SpatiaLite) by (destruct dl; ((left; reflexivity) || (right; discriminate))).
  destruct DD as [->|D].
  - rewrite (to_wkb_blob src l d s env g C N) in W. rewrite (to_wkb_blob src' l' d' s' env' g' C' N') in W'.
    rewrite <- W' in W. assert (E := f_equal (fun x => match x with Ok y => y | Err _ => [] end) W). cbv beta iota in E. unfold spatialite_blob in E.
    eapply spatialite_header_told in E; try eassumption; try apply kind_small; try (eapply mysql_i32; eassumption).
    destruct E as (_ & Z & M & S & K & E). rewrite <- Z, <- M in *. repeat split.
    + eapply marked_told; eassumption.
    + cbn [reported_srid]. destruct s as [[]|], s' as [[]|]; cbn in S; try congruence; reflexivity.
  - rewrite (to_wkb_std src (map Srid l) dl d s env g tt C) in W; try assumption; try (now intros); try apply SR.
    rewrite (to_wkb_std src' (map Srid l') dl d' s' env' g' tt C') in W'; try assumption; try (now intros); try apply SR.
    rewrite <- W' in W. assert (E := f_equal (fun x => match x with Ok y => y | Err _ => [] end) W). cbv beta iota in E. exact (std_told _ _ _ _ _ _ _ _ _ _ _ _ _ _ _ _ _ G G' R R' V V' E).
Qed.

(** ** Kinds a format does not have *)
Lemma kinds_alike : exists g g', g <> g' /\ finite_geom true g /\ finite_geom true g' /\
  forall fmt32 fmt d, exec (geojson_writer fmt32 fmt d) (said g d) EmptyString = exec (geojson_writer fmt32 fmt d) (said g' d) EmptyString.
Proof.
  exists (GCircularString [mkC 0%N 0%N None None]), (GCompoundCurve [SegArc [mkC 0%N 0%N None None]]).
  split; [discriminate|]. split; [concrete|]. split; [concrete|].
  intros fmt32 fmt d. unfold said. destruct (multi_dim d); reflexivity.
Qed.
Lemma geo_kinds_alike : exists g g' v, flat (close_rings g) <> flat (close_rings g') /\ small g /\ small g' /\
  forall dbg, to_geo dbg (said g) = Ok v /\ to_geo dbg (said g') = Ok v.
Proof.
  exists (GCollection []), (GCollection [GCircularString []]), (TCollection []).
  split; [discriminate|]. split; [split; [unfold fits; cbn; lia|exact I]|]. split; [split; [unfold fits; cbn; lia|split; exact I]|].
  intros []; split; vm_compute; reflexivity.
Qed.
