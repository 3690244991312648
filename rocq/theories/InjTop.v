(** Assembly of claim C68. *)
From Coq Require Import String Ascii.
From Coq Require Import List NArith ZArith Lia Bool.
From Verif Require Import Base BaseLemmas Event EventLemmas Claims Geom WkbModel WkbSpec WkbClaims WkbRead WkbReadTop WkbWrite WkbWriteTop WkbTop
  WktModel WktSpec WktTop GeoModel GeoSpec GeoTop JsonSpec GeoJsonModel GeoJsonSpec GeoJsonTop GeoJsonMore DbModel DbTop ChainSpec ChainTop InjSpec.
Import ListNotations.
Local Open Scope list_scope.

(** ** From callbacks back to the geometry *)
Section Events.
  Variable multi : bool.
  Variable f : coord -> coord.
  Hypothesis F : forall k a b, ev_coord multi k a = ev_coord multi k b -> f a = f b.

  (** what [e] makes can be told apart, up to [h], whatever follows *)
  Definition told {A B} (e : nat -> A -> list event) (h : A -> B) : Prop :=
    forall k a b r r', e k a ++ r = e k b ++ r' -> h a = h b /\ r = r'.

  Lemma told_list : forall A B (e : nat -> A -> list event) (h : A -> B), told e h ->
    forall l l' k r r', length l = length l' ->
    flat_mapi e k l ++ r = flat_mapi e k l' ++ r' -> map h l = map h l' /\ r = r'.
  Proof.
    intros A B e h T. induction l as [|a l IH]; intros [|b l'] k r r' L E; try discriminate L.
    - now split.
    - cbn [flat_mapi] in E. rewrite <- !app_assoc in E. apply T in E. destruct E as [E1 E2].
      apply IH in E2; [|now injection L]. destruct E2 as [E2 E3]. cbn [map]. now rewrite E1, E2.
  Qed.
  Lemma told_coords : forall l l' k r r', length l = length l' ->
    mapi (ev_coord multi) k l ++ r = mapi (ev_coord multi) k l' ++ r' -> map f l = map f l' /\ r = r'.
  Proof.
    induction l as [|a l IH]; intros [|b l'] k r r' L E; try discriminate L.
    - now split.
    - cbn [mapi app] in E. injection E as E1 E2. apply F in E1.
      apply IH in E2; [|now injection L]. destruct E2 as [E2 E3]. cbn [map]. now rewrite E1, E2.
  Qed.

  Ltac open H L := cbn [app] in H; rewrite <- ?app_assoc in H; injection H as L H.
  Ltac close H := let M := fresh "M" in destruct H as [M H]; cbn [app] in H; injection H as H; split; [first [exact M|f_equal; exact M]|exact H].

  Lemma told_line : forall t, told (ev_line multi t) (map f).
  Proof.
    intros t k a b r r' H. unfold ev_line, ev_coords in H. open H L.
    apply told_coords in H; [|exact L]. close H.
  Qed.
  Lemma told_arc : told (ev_arc multi) (map f).
  Proof.
    intros k a b r r' H. unfold ev_arc, ev_coords in H. open H L.
    apply told_coords in H; [|exact L]. close H.
  Qed.
  Lemma told_polygon : forall t, told (ev_polygon multi t) (map (map f)).
  Proof.
    intros t k a b r r' H. unfold ev_polygon in H. open H L.
    apply (told_list _ _ _ _ (told_line false)) in H; [|exact L]. close H.
  Qed.
  Lemma told_triangle : forall t, told (ev_triangle multi t) (map (map f)).
  Proof.
    intros t k a b r r' H. unfold ev_triangle in H. open H L.
    apply (told_list _ _ _ _ (told_line false)) in H; [|exact L]. close H.
  Qed.
  Lemma told_segment : told (ev_segment multi) (map_segment f).
  Proof.
    intros k [a|a] [b|b] r r' H; cbn [ev_segment] in H; try discriminate H; cbn [map_segment].
    - apply told_line in H. destruct H as [-> ->]. now split.
    - apply told_arc in H. destruct H as [-> ->]. now split.
  Qed.
  Lemma told_compound : told (ev_compound multi) (map (map_segment f)).
  Proof.
    intros k a b r r' H. unfold ev_compound in H. open H L.
    apply (told_list _ _ _ _ told_segment) in H; [|exact L]. close H.
  Qed.
  Lemma told_curve : told (ev_curve multi) (map_curve f).
  Proof.
    intros k [a|a|a] [b|b|b] r r' H; cbn [ev_curve] in H; try discriminate H; cbn [map_curve].
    - apply told_line in H. destruct H as [-> ->]. now split.
    - apply told_arc in H. destruct H as [-> ->]. now split.
    - apply told_compound in H. destruct H as [-> ->]. now split.
  Qed.
  Lemma told_curvepolygon : told (ev_curvepolygon multi) (map (map_curve f)).
  Proof.
    intros k a b r r' H. unfold ev_curvepolygon in H. open H L.
    apply (told_list _ _ _ _ told_curve) in H; [|exact L]. close H.
  Qed.
  Lemma told_surface : told (ev_surface multi) (map_surface f).
  Proof.
    intros k [a|a] [b|b] r r' H; cbn [ev_surface] in H; try discriminate H; cbn [map_surface].
    - apply told_polygon in H. destruct H as [-> ->]. now split.
    - apply told_curvepolygon in H. destruct H as [-> ->]. now split.
  Qed.

  Lemma told_geom : forall g k g' r r', gevents multi k g ++ r = gevents multi k g' ++ r' ->
    map_geom GPoint f g = map_geom GPoint f g' /\ r = r'.
  Proof.
    intros g. induction g using geom_ind'; intros k g' r r' E; destruct g'; try discriminate E; cbn [map_geom].
    - cbn [gevents app] in E. injection E as E1 E2. apply F in E1. now rewrite E1.
    - cbn [gevents app] in E. injection E as E2. now split.
    - cbn [gevents] in E. unfold ev_coords in E. open E L. apply told_coords in E; [|exact L]. close E.
    - cbn [gevents] in E. apply told_line in E. destruct E as [-> ->]. now split.
    - cbn [gevents] in E. open E L. apply (told_list _ _ _ _ (told_line false)) in E; [|exact L]. close E.
    - cbn [gevents] in E. apply told_polygon in E. destruct E as [-> ->]. now split.
    - cbn [gevents] in E. open E L. apply (told_list _ _ _ _ (told_polygon false)) in E; [|exact L]. close E.
    - rewrite !gevents_collection in E. open E L.
      assert (M : map (map_geom GPoint f) l = map (map_geom GPoint f) l0 /\
                  CollectionEnd k :: r = CollectionEnd k :: r').
      { revert E L. generalize 0%nat as i. revert l0. induction H as [|a l A _ IH]; intros [|b l'] i E L; try discriminate L.
        - now split.
        - cbn [flat_mapi] in E. rewrite <- !app_assoc in E. apply A in E. destruct E as [E1 E2].
          apply IH in E2; [|now injection L]. destruct E2 as [E2 E3]. cbn [map]. now rewrite E1, E2. }
      destruct M as [M1 M2]. injection M2 as M2. split; [now rewrite M1|exact M2].
    - cbn [gevents] in E. apply told_arc in E. destruct E as [-> ->]. now split.
    - cbn [gevents] in E. apply told_compound in E. destruct E as [-> ->]. now split.
    - cbn [gevents] in E. apply told_curvepolygon in E. destruct E as [-> ->]. now split.
    - cbn [gevents] in E. open E L. apply (told_list _ _ _ _ told_curve) in E; [|exact L]. close E.
    - cbn [gevents] in E. open E L. apply (told_list _ _ _ _ told_surface) in E; [|exact L]. close E.
    - cbn [gevents] in E. apply told_triangle in E. destruct E as [-> ->]. now split.
    - cbn [gevents] in E. open E L. apply (told_list _ _ _ _ (told_polygon false)) in E; [|exact L]. close E.
    - cbn [gevents] in E. open E L. apply (told_list _ _ _ _ (told_triangle false)) in E; [|exact L]. close E.
  Qed.
End Events.

Lemma map_geom_id : forall g, map_geom GPoint (fun q => q) g = g.
Proof.
  assert (L : forall l : line, map (fun q => q) l = l) by (intros; apply map_id).
  assert (R : forall l : rings, map (map (fun q => q)) l = l).
  { intros l. rewrite <- (map_id l) at 2. now apply map_ext. }
  assert (Sg : forall x, map_segment (fun q => q) x = x) by (intros [l|l]; cbn; now rewrite L).
  assert (Cv : forall x, map_curve (fun q => q) x = x).
  { intros [l|l|l]; cbn; [now rewrite L..|]. f_equal. rewrite <- (map_id l) at 2. now apply map_ext. }
  assert (Cs : forall l, map (map_curve (fun q => q)) l = l).
  { intros l. rewrite <- (map_id l) at 2. now apply map_ext. }
  assert (Ss : forall l, map (map_segment (fun q => q)) l = l).
  { intros l. rewrite <- (map_id l) at 2. now apply map_ext. }
  assert (Rs : forall l : list rings, map (map (map (fun q => q))) l = l).
  { intros l. rewrite <- (map_id l) at 2. now apply map_ext. }
  induction g using geom_ind'; cbn [map_geom]; rewrite ?L, ?R, ?Rs, ?Cs, ?Ss; try reflexivity; f_equal.
  - induction H as [|a l A _ IH]; [reflexivity|]. cbn [map]. now rewrite A, IH.
  - rewrite <- (map_id l) at 2. apply map_ext. intros [x|x]; cbn; now rewrite ?R, ?Cs.
Qed.

Lemma streams : forall k g g' r r', gevents true k g ++ r = gevents true k g' ++ r' -> g = g' /\ r = r'.
Proof.
  intros k g g' r r' E. apply (told_geom true (fun q => q)) in E.
  - rewrite !map_geom_id in E. exact E.
  - intros i [x y z m] [x' y' z' m'] H. unfold ev_coord in H. cbn in H. now injection H as -> -> -> ->.
Qed.

Lemma mapi_flat : forall l k, mapi (ev_coord false) k (map flat_of l) = mapi (ev_coord false) k l.
Proof. induction l as [|a l IH]; intros k; [reflexivity|]. cbn [map mapi]. now rewrite IH. Qed.
Lemma flat_mapi_map : forall A B (e : nat -> A -> list B) (h : A -> A) l k, (forall i a, e i (h a) = e i a) ->
  flat_mapi e k (map h l) = flat_mapi e k l.
Proof. intros A B e h l k H. revert k. induction l as [|a l IH]; intros k; [reflexivity|]. cbn [map flat_mapi]. now rewrite H, IH. Qed.
Lemma flat_line : forall t k l, ev_line false t k (map flat_of l) = ev_line false t k l.
Proof. intros. unfold ev_line, ev_coords. now rewrite map_length, mapi_flat. Qed.
Lemma flat_arc : forall k l, ev_arc false k (map flat_of l) = ev_arc false k l.
Proof. intros. unfold ev_arc, ev_coords. now rewrite map_length, mapi_flat. Qed.
Lemma flat_polygon : forall t k l, ev_polygon false t k (map (map flat_of) l) = ev_polygon false t k l.
Proof. intros. unfold ev_polygon. rewrite map_length, flat_mapi_map; [reflexivity|]. intros; apply flat_line. Qed.
Lemma flat_triangle : forall t k l, ev_triangle false t k (map (map flat_of) l) = ev_triangle false t k l.
Proof. intros. unfold ev_triangle. rewrite map_length, flat_mapi_map; [reflexivity|]. intros; apply flat_line. Qed.
Lemma flat_segment : forall k s, ev_segment false k (map_segment flat_of s) = ev_segment false k s.
Proof. intros k [l|l]; cbn [map_segment ev_segment]; [apply flat_line|apply flat_arc]. Qed.
Lemma flat_compound : forall k l, ev_compound false k (map (map_segment flat_of) l) = ev_compound false k l.
Proof. intros. unfold ev_compound. rewrite map_length, flat_mapi_map; [reflexivity|]. apply flat_segment. Qed.
Lemma flat_curve : forall k s, ev_curve false k (map_curve flat_of s) = ev_curve false k s.
Proof. intros k [l|l|l]; cbn [map_curve ev_curve]; [apply flat_line|apply flat_arc|apply flat_compound]. Qed.
Lemma flat_curvepolygon : forall k l, ev_curvepolygon false k (map (map_curve flat_of) l) = ev_curvepolygon false k l.
Proof. intros. unfold ev_curvepolygon. rewrite map_length, flat_mapi_map; [reflexivity|]. apply flat_curve. Qed.
Lemma flat_surface : forall k s, ev_surface false k (map_surface flat_of s) = ev_surface false k s.
Proof. intros k [l|l]; cbn [map_surface ev_surface]; [apply flat_polygon|apply flat_curvepolygon]. Qed.
Lemma flat_gevents : forall g k, gevents false k (flat g) = gevents false k g.
Proof.
  unfold flat. induction g using geom_ind'; intros k; cbn [map_geom];
    try (rewrite !gevents_collection; rewrite map_length; f_equal; f_equal);
    cbn [gevents]; unfold ev_coords; rewrite ?map_length, ?mapi_flat;
    try reflexivity;
    try ((apply flat_line || apply flat_arc || apply flat_polygon || apply flat_triangle || apply flat_compound || apply flat_curvepolygon));
    try (rewrite flat_mapi_map; [reflexivity|]; intros;
         (apply flat_line || apply flat_polygon || apply flat_triangle || apply flat_curve || apply flat_surface)).
  generalize 0%nat as i. induction H as [|a l A _ IH]; intros i; [reflexivity|]. cbn [map flat_mapi]. now rewrite A, IH.
Qed.
Lemma streams_xy : forall k g g', gevents false k g = gevents false k g' <-> flat g = flat g'.
Proof.
  intros k g g'. split; intros H.
  - assert (E : gevents false k g ++ [] = gevents false k g' ++ []) by now rewrite H.
    apply (told_geom false flat_of) in E; [apply E|].
    intros i [x y z m] [x' y' z' m'] Q. unfold ev_coord in Q. cbn in Q. now injection Q as -> ->.
  - rewrite <- (flat_gevents g), <- (flat_gevents g'). now rewrite H.
Qed.

(** ** Sources *)
Definition witness_proc (d : dims) : proc (list event) :=
  {| p_dims := d; p_step := fun s e => (s ++ [e], Ok tt); p_prop := fun s _ _ _ => (s, Ok false) |}.
Lemma witness_run : forall d l s, run (witness_proc d) l s = (s ++ l, Ok tt).
Proof.
  intros d. induction l as [|e l IH]; intros s; cbn [run]; [now rewrite app_nil_r|].
  cbn [p_step witness_proc]. change (run _ l (s ++ [e])) with (run (witness_proc d) l (s ++ [e])).
  now rewrite IH, <- app_assoc.
Qed.
Lemma delivers_same : forall A (src : dims -> prog A) st st' r r',
  delivers src st r -> delivers src st' r' -> (forall multi, st multi = st' multi) /\ r = r'.
Proof.
  intros A src st st' r r' H H'.
  assert (Q : forall d, st (multi_dim d) = st' (multi_dim d) /\ r = r').
  { intros d. pose proof (H _ (witness_proc d) []) as E. rewrite (H' _ (witness_proc d) []) in E.
    rewrite !witness_run in E. cbn [p_dims witness_proc app] in E. now injection E as -> ->. }
  split; [|apply (Q xy_dims)]. intros [|]; [apply (Q xyz_dims)|apply (Q xy_dims)].
Qed.
Lemma source_one : forall A (src : dims -> prog A) l l' k k' g g' r r',
  delivers src (fun multi => map Srid l ++ gevents multi k g) r ->
  delivers src (fun multi => map Srid l' ++ gevents multi k' g') r' -> l = l' /\ k = k' /\ g = g'.
Proof.
  intros A src l l' k k' g g' r r' H H'. destruct (delivers_same _ _ _ _ _ _ H H') as [E _].
  specialize (E true). clear H H'. revert l' E. induction l as [|x l IH]; intros [|x' l'] E.
  - cbn [map app] in E.
    assert (K : k = k').
    { destruct g; destruct g'; try discriminate E; cbn in E; try (injection E; intros; congruence). }
    subst k'. assert (E' : gevents true k g ++ [] = gevents true k g' ++ []) by now rewrite E.
    apply streams in E'. destruct E' as [-> _]. auto.
  - destruct g; discriminate E.
  - destruct g'; discriminate E.
  - cbn [map app] in E. injection E as -> E. apply IH in E. destruct E as (-> & -> & ->). auto.
Qed.

(** ** Formats *)
Lemma wkb_bytes_one : forall dl d d' s s' env env' ed ed' ext ext' emp emp' o o' g g',
  encodable g -> encodable g' -> (levels g <= 128)%nat -> (levels g' <= 128)%nat ->
  srid_ok dl s -> srid_ok dl s' -> env_ok dl ed env -> env_ok dl ed' env' -> order_ok dl o -> order_ok dl o' ->
  std dl d s env ed ext emp o g = std dl d' s' env' ed' ext' emp' o' g' ->
  retained (dz d) (dm d) g = retained (dz d') (dm d') g' /\ reported_srid dl s = reported_srid dl s'.
Proof.
  intros dl d d' s s' env env' ed ed' ext ext' emp emp' o o' g g' G G' L L' R R' V V' O O' E.
  pose proof (delivers_std0 dl d s env ed ext emp o g G L R V O) as H.
  pose proof (delivers_std0 dl d' s' env' ed' ext' emp' o' g' G' L' R' V' O') as H'.
  rewrite E in H.
  destruct (source_one _ _ [reported_srid dl s] [reported_srid dl s'] 0 0 _ _ _ _ H H') as (A & _ & B).
  split; [exact B|now injection A].
Qed.
Lemma wkb_one : forall src src' l l' dl d d' s s' env env' g g' w,
  comes src l g -> comes src' l' g' ->
  encodable g -> encodable g' -> no_empty g -> no_empty g' -> (levels g <= 128)%nat -> (levels g' <= 128)%nat ->
  srid_ok dl s -> srid_ok dl s' -> env_ok dl xy_dims env -> env_ok dl xy_dims env' ->
  (dl = SpatiaLite -> spatialite_safe g /\ spatialite_safe g') ->
  to_wkb_dialect src dl d s env = Ok w -> to_wkb_dialect src' dl d' s' env' = Ok w ->
  retained (dz d) (dm d) g = retained (dz d') (dm d') g' /\ reported_srid dl s = reported_srid dl s'.
Proof.
  intros src src' l l' dl d d' s s' env env' g g' w C C' G G' N N' L L' R R' V V' F W W'.
  assert (SR : forall m, Forall (fun e => exists x, e = Srid x) (map Srid m)).
  { intros m. apply Forall_forall. intros e I. apply in_map_iff in I. destruct I as (x & <- & _). now exists x. }
  rewrite (to_wkb_std src (map Srid l) dl d s env g tt C) in W; try assumption; try (now apply F); [|apply SR].
  rewrite (to_wkb_std src' (map Srid l') dl d' s' env' g' tt C') in W'; try assumption; try (now apply F); [|apply SR].
  assert (O : order_ok dl little) by (destruct dl; exact I || reflexivity).
  apply (wkb_bytes_one dl d d' s s' env env' xy_dims xy_dims false false false false little little g g'); try assumption.
  congruence.
Qed.

Lemma to_geo_any : forall dbg src l g, plain g = true -> small g -> comes src l g -> to_geo dbg src = Ok (GeoSpec.value_of g).
Proof.
  intros dbg src l g K M H.
  rewrite <- (to_geo_delivers dbg (said g) g tt K M (said_delivers g)). unfold to_geo.
  change xy_dims with (p_dims (geo_writer dbg)).
  rewrite (deaf_same _ (geo_writer dbg) src l g gw_init); [reflexivity| |exact H]. intros s x. reflexivity.
Qed.
Definition no_crates : crates :=
  mkCrates false (fun _ _ => ([], [])) (fun _ _ _ => ([], [])) xy_dims (fun _ => EmptyString) (fun _ => Err EFuel)
    (fun _ => EmptyString) (fun _ => EmptyString) (fun _ => Err EFuel).
Lemma geo_one : forall dbg src src' l l' g g' v,
  comes src l g -> comes src' l' g' -> plain g = true -> plain g' = true -> small g -> small g' ->
  tidy g -> tidy g' -> exactly false false g -> exactly false false g' ->
  to_geo dbg src = Ok v -> to_geo dbg src' = Ok v -> g = g'.
Proof.
  intros dbg src src' l l' g g' v C C' K K' M M' T T' X X' E E'.
  rewrite (to_geo_any dbg src l g K M C) in E. rewrite (to_geo_any dbg src' l' g' K' M' C') in E'.
  assert (Q : GeoSpec.value_of g = GeoSpec.value_of g') by congruence.
  rewrite <- (flat_tree no_crates g K T X), <- (flat_tree no_crates g' K' T' X'). now rewrite Q.
Qed.

Lemma json_text : forall fmt32 fmt d src l g t, comes src l g ->
  run (geojson_writer fmt32 fmt d) (gevents (multi_dim d) 0 g) EmptyString = (t, Ok tt) ->
  exec (geojson_writer fmt32 fmt d) (src d) EmptyString = (t, Ok tt).
Proof.
  intros fmt32 fmt d src l g t H T.
  pose proof (H _ (geojson_writer fmt32 fmt d) EmptyString) as Q. cbn [p_dims geojson_writer] in Q.
  rewrite Q, deaf_run; [|intros s x; reflexivity]. fold (multi_dim d) in T. now rewrite T.
Qed.
Lemma geojson_one : forall fmt32 fmt num d d' src src' l l' g g' t,
  json_format GeoJsonSpec.finite fmt num -> comes src l g -> comes src' l' g' ->
  geojson_kind g = true -> geojson_kind g' = true -> finite_geom (multi_dim d) g -> finite_geom (multi_dim d') g' ->
  exec (geojson_writer fmt32 fmt d) (src d) EmptyString = (t, Ok tt) ->
  exec (geojson_writer fmt32 fmt d') (src' d') EmptyString = (t, Ok tt) ->
  kept_geom (multi_dim d) g = kept_geom (multi_dim d') g'.
Proof.
  intros fmt32 fmt num d d' src src' l l' g g' t JF C C' K K' F F' E E'.
  destruct (geometry_written fmt32 fmt d num JF g K F) as (u & j & T & P & G).
  destruct (geometry_written fmt32 fmt d' num JF g' K' F') as (u' & j' & T' & P' & G').
  rewrite (json_text _ _ _ _ _ _ _ C T) in E. rewrite (json_text _ _ _ _ _ _ _ C' T') in E'.
  assert (u = u') by congruence. subst u'. rewrite P in P'. injection P' as <-. congruence.
Qed.

(** ** Geometries that are written alike *)
Lemma geo_alike : exists g g', g <> g' /\ plain g = true /\ plain g' = true /\ small g /\ small g' /\
  exactly false false g /\ exactly false false g' /\
  forall dbg, to_geo dbg (said g) = to_geo dbg (said g').
Proof.
  exists (GPolygon [[mkC 0%N 0%N None None; mkC 1%N 0%N None None; mkC 1%N 1%N None None]]),
    (GPolygon [[mkC 0%N 0%N None None; mkC 1%N 0%N None None; mkC 1%N 1%N None None; mkC 0%N 0%N None None]]).
  assert (S1 : small (GPolygon [[mkC 0%N 0%N None None; mkC 1%N 0%N None None; mkC 1%N 1%N None None]])) by (split; [unfold fits; cbn; lia|repeat constructor; unfold fits; cbn; lia]).
  assert (S2 : small (GPolygon [[mkC 0%N 0%N None None; mkC 1%N 0%N None None; mkC 1%N 1%N None None; mkC 0%N 0%N None None]])) by (split; [unfold fits; cbn; lia|repeat constructor; unfold fits; cbn; lia]).
  split; [discriminate|]. split; [reflexivity|]. split; [reflexivity|]. split; [exact S1|]. split; [exact S2|].
  split; [WkbTop.concrete|]. split; [WkbTop.concrete|].
  intros dbg.
  match goal with |- to_geo _ (said ?a) = to_geo _ (said ?b) =>
    rewrite (to_geo_any dbg (said a) [] a eq_refl S1 (said_delivers a));
    rewrite (to_geo_any dbg (said b) [] b eq_refl S2 (said_delivers b)) end. reflexivity.
Qed.
Lemma geojson_alike : exists g g', g <> g' /\ geojson_kind g = true /\ geojson_kind g' = true /\
  (forall z, finite_geom z g /\ finite_geom z g') /\
  forall fmt32 fmt d, exec (geojson_writer fmt32 fmt d) (said g d) EmptyString = exec (geojson_writer fmt32 fmt d) (said g' d) EmptyString.
Proof.
  exists (GPoint (mkC 0%N 0%N None (Some 0%N))), (GPoint (mkC 0%N 0%N None None)).
  split; [discriminate|]. split; [reflexivity|]. split; [reflexivity|].
  split; [intros [|]; vm_compute; intuition congruence|].
  intros fmt32 fmt d. unfold said. destruct (multi_dim d); reflexivity.
Qed.

Lemma told_apart :
  let g := GPoint (mkC 0%N 1%N None None) in let g' := GMultiPoint [mkC 0%N 1%N None None] in
  encodable g /\ encodable g' /\ no_empty g /\ no_empty g' /\
  (forall dl, srid_ok dl (Some 4326%Z)) /\ (forall dl, env_ok dl xy_dims [0; 1; 0; 1]%N) /\
  (forall src src' l l' dl w,
    delivers src (fun multi => map Srid l ++ gevents multi 0 g) (Ok tt) ->
    delivers src' (fun multi => map Srid l' ++ gevents multi 0 g') (Ok tt) ->
    to_wkb_dialect src dl xy_dims (Some 4326%Z) [0; 1; 0; 1]%N = Ok w ->
    to_wkb_dialect src' dl xy_dims (Some 4326%Z) [0; 1; 0; 1]%N <> Ok w).
Proof.
  intros g g'.
  assert (G : encodable g) by concrete. assert (G' : encodable g') by concrete.
  assert (N : no_empty g) by concrete. assert (N' : no_empty g') by concrete.
  assert (R : forall dl, srid_ok dl (Some 4326%Z)) by (intros []; concrete).
  assert (V : forall dl, env_ok dl xy_dims [0; 1; 0; 1]%N) by (intros []; concrete).
  repeat (split; [assumption|]). intros src src' l l' dl w C C' W W'.
  assert (L : (levels g <= 128)%nat) by (cbn; lia). assert (L' : (levels g' <= 128)%nat) by (cbn; lia).
  destruct (wkb_one src src' l l' dl xy_dims xy_dims (Some 4326%Z) (Some 4326%Z) [0; 1; 0; 1]%N [0; 1; 0; 1]%N g g' w
    C C' G G' N N' L L' (R dl) (R dl) (V dl) (V dl)) as [Q _]; try assumption; [intros _; split; concrete|discriminate Q].
Qed.
