(** Assembly of claim C62. *)
From Coq Require Import String Ascii.
From Coq Require Import List NArith ZArith Lia Bool.
From Verif Require Import Base BaseLemmas Event EventLemmas Claims Geom WkbModel WkbSpec WkbClaims WkbRead WkbReadTop WkbWrite WkbWriteTop WkbTop
  WktModel WktSpec WktTop GeoModel GeoSpec GeoTop JsonSpec GeoJsonModel GeoJsonSpec GeoJsonTop GeoJsonMore DbModel DbTop ChainSpec.
Import ListNotations.
Local Open Scope list_scope.

(** a processor that leaves SRIDs alone *)
Definition deaf {S} (p : proc S) : Prop := forall s x, p_step p s (Srid x) = (s, Ok tt).
Lemma deaf_run : forall S (p : proc S) l r s, deaf p -> run p (map Srid l ++ r) s = run p r s.
Proof.
  intros S p l r s H. induction l as [|x l IH]; [reflexivity|]. cbn [map app run]. rewrite H. exact IH.
Qed.
Definition said (g : geom) : dims -> prog unit := fun d => calls (gevents (multi_dim d) 0 g) (Done (Ok tt)).
Lemma said_delivers : forall g, delivers (said g) (fun multi => gevents multi 0 g) (Ok tt).
Proof. intros g. apply WkbTop.delivers_calls. reflexivity. Qed.
Lemma deaf_same : forall S (p : proc S) src l g s, deaf p ->
  delivers src (fun multi => map Srid l ++ gevents multi 0 g) (Ok tt) ->
  exec p (src (p_dims p)) s = exec p (said g (p_dims p)) s.
Proof. intros S p src l g s D H. rewrite H, (said_delivers g). now rewrite deaf_run. Qed.

Lemma map_line_map : forall (f h : coord -> coord) l, map f (map h l) = map (fun q => f (h q)) l.
Proof. intros. apply map_map. Qed.
Lemma map_geom_map : forall f h g,
  map_geom GPoint f (map_geom GPoint h g) = map_geom GPoint (fun q => f (h q)) g.
Proof.
  intros f h.
  assert (L : forall l : list line, map (map f) (map (map h) l) = map (map (fun q => f (h q))) l).
  { intros l. rewrite map_map. apply map_ext. intros a. apply map_map. }
  assert (R : forall l : list rings, map (map (map f)) (map (map (map h)) l) = map (map (map (fun q => f (h q)))) l).
  { intros l. rewrite map_map. apply map_ext. intros a. apply L. }
  assert (Sg : forall x, map_segment f (map_segment h x) = map_segment (fun q => f (h q)) x).
  { intros [l|l]; cbn; now rewrite map_map. }
  assert (Sgs : forall l, map (map_segment f) (map (map_segment h) l) = map (map_segment (fun q => f (h q))) l).
  { intros l. rewrite map_map. now apply map_ext. }
  assert (C : forall x, map_curve f (map_curve h x) = map_curve (fun q => f (h q)) x).
  { intros [l|l|l]; cbn; [now rewrite map_map..|now rewrite Sgs]. }
  assert (Cs : forall l, map (map_curve f) (map (map_curve h) l) = map (map_curve (fun q => f (h q))) l).
  { intros l. rewrite map_map. now apply map_ext. }
  intros g. induction g using geom_ind'; cbn [map_geom]; try reflexivity;
    try ((rewrite ?R, ?L, ?Sgs, ?Cs; reflexivity) || (rewrite map_map; reflexivity)).
  - f_equal. rewrite map_map. induction H as [|a l A _ IH]; [reflexivity|]. cbn [map]. now rewrite A, IH.
  - f_equal. rewrite map_map. apply map_ext. intros [x|x]; cbn; now rewrite ?L, ?Cs.
Qed.
Lemma map_geom_same : forall f h g, (forall q, f q = h q) -> map_geom GPoint f g = map_geom GPoint h g.
Proof.
  intros f h g E.
  assert (L : forall l : line, map f l = map h l) by (intros; now apply map_ext).
  assert (R : forall l : rings, map (map f) l = map (map h) l) by (intros; now apply map_ext).
  assert (Sg : forall x, map_segment f x = map_segment h x) by (intros [l|l]; cbn; now rewrite L).
  assert (Cv : forall x, map_curve f x = map_curve h x).
  { intros [l|l|l]; cbn; [now rewrite L..|]. f_equal. now apply map_ext. }
  induction g using geom_ind'; cbn [map_geom]; rewrite ?E, ?L, ?R; try reflexivity; f_equal; try (now apply map_ext).
  - induction H as [|a l A _ IH]; [reflexivity|]. cbn [map]. now rewrite A, IH.
  - apply map_ext. intros [x|x]; cbn; [now rewrite R|]. f_equal. now apply map_ext.
Qed.
Lemma kept_kept : forall g, kept_geom true (kept_geom false g) = kept_geom false g.
Proof. intros g. unfold kept_geom. rewrite map_geom_map. now apply map_geom_same. Qed.

Section Chain.
  Variable c : crates.
  Variable wnum jnum : string -> option f64.
  Hypothesis WF : formats (c_wkt_format c) wnum.
  Hypothesis WC : wkt_crate c wnum.
  Hypothesis JF : json_format GeoJsonSpec.finite (c_format c) jnum.
  Hypothesis JC : geojson_crate c jnum.

  Definition comes (src : dims -> prog unit) (l : list (option Z)) (g : geom) : Prop :=
    delivers src (fun multi => map Srid l ++ gevents multi 0 g) (Ok tt).

  Lemma wkb_hop : forall dl d srid env src l g, suits c g (AsWkb dl d srid env) -> comes src l g ->
    exists src', convert c (AsWkb dl d srid env) src = Ok src' /\ comes src' [reported_srid dl srid] g.
  Proof.
    intros dl d srid env src l g (G & C & L & R & V & F) H. cbn [convert].
    rewrite (to_wkb_std src (map Srid l) dl d srid env g tt H); try assumption;
      [|apply Forall_forall; intros e I; apply in_map_iff in I; destruct I as (x & <- & _); now exists x
       |eapply conforming_no_empty; exact C].
    cbn [on_ok]. eexists. split; [reflexivity|]. intros S p s. cbn [so_process wkb_source].
    assert (O : order_ok dl little) by (destruct dl; exact I || reflexivity).
    pose proof (reads_std dl (p_dims p) d srid env xy_dims false false little g [] G L R V O) as Q.
    unfold reads in Q. rewrite app_nil_r in Q. rewrite Q, (retained_conforming _ _ _ C). clear.
    rewrite pbind_calls, exec_calls. cbn [map app].
    destruct (run p _ s) as [s' [u|e]]; reflexivity.
  Qed.

  Lemma wkt_hop : forall src l g, suits c g AsWkt -> comes src l g ->
    exists src', convert c AsWkt src = Ok src' /\ comes src' [] g.
  Proof.
    intros src l g (K & X & NF) H. cbn [convert].
    destruct (recover (c_wkt_format c) wnum unit (said g) (c_dims c) g tt WF X (said_delivers g)) as (t & T & P).
    assert (E : to_wkt_ndim (c_wkt_format c) src (c_dims c) = Ok t).
    { rewrite <- T. unfold to_wkt_ndim.
      rewrite (to_wkt_any _ src l PlainWkt (c_dims c) None (c_wkt_format c) g tt H).
      now rewrite (to_wkt_any _ (said g) [] PlainWkt (c_dims c) None (c_wkt_format c) g tt (said_delivers g)). }
    rewrite E. cbn [on_ok]. rewrite (canon_nan_free g NF) in P.
    destruct (WC t g P K) as (w & -> & G). cbn [on_ok]. eexists. split; [reflexivity|].
    exact (wkt_delivers w g G).
  Qed.

  Lemma flat_coord : forall q : coord, cz q = None /\ cm q = None -> at_xy (xy_of q) = q.
  Proof. intros [x y z m] [Z M]. cbn in *. now subst. Qed.
  Lemma flat_line : forall l : line, Forall (fun q => cz q = None /\ cm q = None) l -> tree_line (line_of l) = l.
  Proof.
    intros l H. unfold tree_line, line_of. rewrite map_map. induction H as [|a l A _ IH]; [reflexivity|].
    cbn [map]. now rewrite IH, flat_coord.
  Qed.
  Lemma closed_same : forall l, closed_ring (line_of l) -> ring_of l = line_of l.
  Proof.
    intros l. unfold ring_of, closed_ring. destruct (line_of l) as [|a r]; [reflexivity|].
    intros [A B]. now rewrite A, B.
  Qed.
  Lemma flat_rings : forall r : rings, tidy_rings r ->
    Forall (fun l => True /\ Forall (fun q => cz q = None /\ cm q = None) l) r -> tree_poly (poly_of r) = r.
  Proof.
    intros [|e r] [N H] F; [now elim N|]. cbn [poly_of]. unfold tree_poly. cbn [fst snd].
    inversion_clear H as [|? ? H1 H2]. inversion_clear F as [|? ? [_ F1] F2].
    rewrite (closed_same e H1), (flat_line e F1). f_equal. clear -H2 F2.
    induction r as [|a r IH]; [reflexivity|]. inversion_clear H2 as [|? ? A B].
    inversion_clear F2 as [|? ? [_ C] D]. cbn [map]. now rewrite (closed_same a A), (flat_line a C), (IH B D).
  Qed.
  Lemma flat_tree : forall g, plain g = true -> tidy g -> exactly false false g ->
    tree (c_rect c) (c_triangle c) (GeoSpec.value_of g) = g.
  Proof.
    intros g K T X. apply exactly_flat in X. revert K T X.
    induction g using geom_ind'; intros K T X; try discriminate K.
    - cbn in X |- *. f_equal. apply flat_coord. tauto.
    - cbn in X |- *. f_equal. rewrite map_map. change (map (fun x => at_xy (xy_of x)) l) with (map (fun x => at_xy (xy_of x)) l).
      destruct X as [_ X]. rewrite <- (map_map xy_of at_xy). exact (flat_line l X).
    - cbn in X |- *. f_equal. apply flat_line, X.
    - cbn in X |- *. f_equal. rewrite map_map. destruct X as [_ X].
      induction X as [|a l [_ A] _ IH]; [reflexivity|]. cbn [map]. now rewrite IH, flat_line.
    - cbn in X, T |- *. f_equal. apply flat_rings; [exact T|apply X].
    - cbn in X, T |- *. f_equal. rewrite map_map. destruct X as [_ X].
      induction X as [|a l [_ A] _ IH]; [reflexivity|]. inversion_clear T as [|? ? T1 T2].
      cbn [map]. now rewrite (IH eq_refl T2), (flat_rings a T1 A).
    - apply on_geom_collection in X. destruct X as [_ X]. cbn [GeoSpec.value_of tree]. f_equal. rewrite map_map.
      cbn [plain] in K. cbn [tidy] in T. clear -H K T X. revert K T.
      induction l as [|a l IH]; intros K T; [reflexivity|].
      cbn [forallb] in K. apply andb_prop in K. destruct K as [K1 K2]. destruct T as [T1 T2].
      inversion_clear H as [|? ? H1 H2]. inversion_clear X as [|? ? X1 X2].
      cbn [map]. f_equal; [apply H1; assumption|apply IH; assumption].
  Qed.

  Lemma geo_hop : forall src l g, suits c g AsGeo -> comes src l g ->
    exists src', convert c AsGeo src = Ok src' /\ comes src' [] g.
  Proof.
    intros src l g (K & M & T & X) H. cbn [convert].
    assert (E : to_geo (c_debug c) src = Ok (GeoSpec.value_of g)).
    { rewrite <- (to_geo_delivers (c_debug c) (said g) g tt K M (said_delivers g)). unfold to_geo.
      change xy_dims with (p_dims (geo_writer (c_debug c))).
      rewrite (deaf_same _ (geo_writer (c_debug c)) src l g gw_init); [reflexivity| |exact H].
      intros s x. reflexivity. }
    rewrite E. cbn [on_ok]. eexists. split; [reflexivity|].
    pose proof (geo_delivers (c_rect c) (c_triangle c) (GeoSpec.value_of g)) as D.
    rewrite (flat_tree g K T X) in D. exact D.
  Qed.

  Lemma json_hop : forall d src l g, suits c g (AsJson d) -> comes src l g ->
    exists src', convert c (AsJson d) src = Ok src' /\ comes src' [] g.
  Proof.
    intros d src l g (K & NE & F & KG) H. cbn [convert].
    destruct (geometry_written (c_format32 c) (c_format c) d jnum JF g K F) as (t & j & T & P & G).
    rewrite KG in G.
    assert (KT : kept_geom true g = g).
    { destruct (multi_dim d) eqn:M; [exact KG|]. rewrite <- KG. apply kept_kept. }
    assert (E : exec (geojson_writer (c_format32 c) (c_format c) d) (src d) EmptyString = (t, Ok tt)).
    { pose proof (H _ (geojson_writer (c_format32 c) (c_format c) d) EmptyString) as Q. cbn [p_dims geojson_writer] in Q.
      rewrite Q, deaf_run; [|intros s x; reflexivity]. fold (multi_dim d) in T. now rewrite T. }
    rewrite E. eexists. split; [reflexivity|]. destruct (JC t j g P G K NE KT) as (x & Ex & Tx).
    intros S p s. rewrite Ex.
    pose proof (view_stream (GjGeometry x) [g] ltac:(constructor; [exact Tx|constructor])) as V.
    specialize (V S p s). cbn [flat_mapi] in V. rewrite app_nil_r in V. exact V.
  Qed.

  Lemma chained : forall fs src l g, Forall (suits c g) fs -> comes src l g ->
    exists src', chain c fs src = Ok src' /\ comes src' (finally l fs) g.
  Proof.
    induction fs as [|f fs IH]; intros src l g Q H; [exists src; split; [reflexivity|exact H]|].
    inversion_clear Q as [|? ? Q1 Q2].
    assert (E : exists src', convert c f src = Ok src' /\ comes src' (announced f) g).
    { destruct f; cbn [announced]; eauto using wkb_hop, wkt_hop, geo_hop, json_hop. }
    destruct E as (src' & E & H'). destruct (IH src' (announced f) g Q2 H') as (src2 & E2 & H2).
    exists src2. cbn [chain]. rewrite E. split; [exact E2|exact H2].
  Qed.
  Lemma chained_same : forall fs src l g, Forall (suits c g) fs -> comes src l g ->
    exists src', chain c fs src = Ok src' /\
      forall S (p : proc S) s, deaf p -> exec p (src' (p_dims p)) s = exec p (src (p_dims p)) s.
  Proof.
    intros fs src l g Q H. destruct (chained fs src l g Q H) as (src' & E & H'). exists src'. split; [exact E|].
    intros S p s D. rewrite (deaf_same S p src' _ g s D H'). symmetry. exact (deaf_same S p src _ g s D H).
  Qed.
End Chain.

(** ** Crates that follow the grammars *)
Fixpoint as_wkt (g : geom) : wkt :=
  match g with
  | GPoint q => WPoint (Some q)
  | GMultiPoint l => WMultiPoint (map Some l)
  | GLineString l => WLineString l
  | GMultiLineString l => WMultiLineString l
  | GPolygon l => WPolygon l
  | GMultiPolygon l => WMultiPolygon l
  | GCollection l => WCollection (map as_wkt l)
  | _ => WPoint None
  end.
Lemma somes_some : forall A (l : list A), somes (map Some l) = Some l.
Proof. induction l as [|a l IH]; [reflexivity|]. cbn [map somes]. now rewrite IH. Qed.
Lemma as_wkt_geom : forall g, common g = true -> wkt_geom (as_wkt g) = Some g.
Proof.
  intros g. induction g using geom_ind'; intros K; try discriminate K; try reflexivity.
  - cbn. now rewrite somes_some.
  - cbn [as_wkt wkt_geom]. cbn [common] in K. rewrite map_map.
    replace (map (fun x => wkt_geom (as_wkt x)) l) with (map Some l); [now rewrite somes_some|].
    induction H as [|a l A _ IH]; [reflexivity|]. cbn [forallb] in K. apply andb_prop in K. destruct K as [K1 K2].
    cbn [map]. rewrite (A K1). f_equal. exact (IH K2).
Qed.
Definition as_position (q : coord) : list f64 := cx q :: cy q :: match cz q with Some v => [v] | None => [] end.
Fixpoint as_geojson (g : geom) : gjgeom :=
  match g with
  | GPoint q => GjPoint (as_position q)
  | GMultiPoint l => GjMultiPoint (map as_position l)
  | GLineString l => GjLineString (map as_position l)
  | GMultiLineString l => GjMultiLineString (map (map as_position) l)
  | GPolygon l => GjPolygon (map (map as_position) l)
  | GMultiPolygon l => GjMultiPolygon (map (map (map as_position)) l)
  | GCollection l => GjCollection (map as_geojson l)
  | _ => GjPoint []
  end.
Lemma all_map : forall A B (f : B -> option A) (h : A -> B) (k : A -> A) l,
  (forall a, f (h a) = Some (k a)) -> all f (map h l) = Some (map k l).
Proof. intros A B f h k l E. induction l as [|a l IH]; [reflexivity|]. cbn [map all]. now rewrite E, IH. Qed.
Lemma position_coord : forall q, coord_of (as_position q) = Some (kept true q).
Proof. intros [x y [z|] m]; reflexivity. Qed.
Lemma as_geojson_tree : forall g, geojson_kind g = true -> no_empty g -> tree_of (as_geojson g) = Some (kept_geom true g).
Proof.
  assert (L : forall l, all coord_of (map as_position l) = Some (map (kept true) l)).
  { intros l. now apply all_map, position_coord. }
  assert (R : forall l, all (all coord_of) (map (map as_position) l) = Some (map (map (kept true)) l)).
  { intros l. now apply all_map. }
  intros g. induction g using geom_ind'; intros K E; try discriminate K; try (now elim E); cbn [as_geojson tree_of].
  - now rewrite position_coord.
  - now rewrite L.
  - now rewrite L.
  - now rewrite R.
  - now rewrite R.
  - rewrite (all_map rings _ (all (all coord_of)) (map (map as_position)) (map (map (kept true)))); [reflexivity|apply R].
  - apply on_geom_collection in E. destruct E as [_ E]. cbn [geojson_kind] in K.
    change (tree_of (GjCollection (map as_geojson l)) = Some (kept_geom true (GCollection l))).
    rewrite GeoJsonRead.tree_collection. unfold kept_geom. cbn [map_geom].
    replace (all tree_of (map as_geojson l)) with (Some (map (map_geom GPoint (kept true)) l)); [reflexivity|].
    symmetry. induction H as [|a l A _ IH]; [reflexivity|]. cbn [forallb] in K. apply andb_prop in K. destruct K as [K1 K2].
    inversion_clear E as [|? ? E1 E2]. cbn [map all]. rewrite (A K1 E1), (IH K2 E2). reflexivity.
Qed.
Definition some_crates (debug : bool) (d : dims) : crates :=
  mkCrates debug sample_rect sample_triangle d
    show_bits (fun t => match parse_wkt read_bits (dz d) (dm d) t with Some g => Ok (as_wkt g) | None => Err EGeometry end)
    GeoJsonRead.show_num GeoJsonRead.show_num
    (fun t => match parse_json t with
              | Some j => match geometry_of GeoJsonRead.read_num j with
                          | Some g => Ok (GjGeometry (as_geojson g)) | None => Err EGeometry end
              | None => Err EGeometry end).
Lemma some_crates_wkt : forall debug d, wkt_crate (some_crates debug d) read_bits.
Proof. intros debug d t g P K. cbn in *. rewrite P. eexists. split; [reflexivity|]. now apply as_wkt_geom. Qed.
Lemma some_crates_geojson : forall debug d, geojson_crate (some_crates debug d) GeoJsonRead.read_num.
Proof.
  intros debug d t j g P G K E KT. cbn in *. rewrite P, G. eexists. split; [reflexivity|].
  rewrite as_geojson_tree by assumption. now rewrite KT.
Qed.
Definition some_forms : list form :=
  [AsWkb Ewkb xy_dims (Some 4326%Z) []; AsWkt; AsGeo; AsJson xy_dims; AsWkb SpatiaLite xy_dims (Some 3857%Z) [];
   AsGeo; AsWkb Geopackage xy_dims None []].
Definition at2 (x y : f64) : coord := mkC x y None None.
Definition some_shape : geom :=
  (GCollection [GPoint (at2 1 2); GPolygon [[at2 0 0; at2 1 0; at2 1 1; at2 0 0]]; GMultiLineString [[at2 5 6]; []]; GCollection []])%N.
Lemma some_chain : forall debug,
  let c := some_crates debug xy_dims in
  formats (c_wkt_format c) read_bits /\ wkt_crate c read_bits /\ json_format GeoJsonSpec.finite (c_format c) GeoJsonRead.read_num /\
  geojson_crate c GeoJsonRead.read_num /\ Forall (suits c some_shape) some_forms /\
  delivers (said some_shape) (fun multi => map Srid [] ++ gevents multi 0 some_shape) (Ok tt).
Proof.
  intros debug c. split; [exact bits_format|]. split; [apply some_crates_wkt|]. split; [apply GeoJsonRead.show_num_ok|].
  split; [apply some_crates_geojson|]. split; [|exact (said_delivers some_shape)].
  assert (EN : encodable some_shape) by concrete.
  assert (CF : conforming false false some_shape) by concrete.
  assert (LV : (levels some_shape <= 128)%nat) by (vm_compute; lia).
  assert (KM : common some_shape = true) by reflexivity.
  assert (EX : exactly false false some_shape) by concrete.
  assert (NF : nan_free some_shape) by concrete.
  assert (SM : small some_shape) by (repeat (split || constructor); cbv; discriminate).
  assert (TD : tidy some_shape) by (repeat (split || constructor); cbn; discriminate).
  assert (NE : no_empty some_shape) by concrete.
  assert (FN : finite_geom false some_shape) by concrete.
  assert (I1 : is_i32 4326%Z) by (unfold is_i32; lia).
  assert (I2 : is_i32 3857%Z) by (unfold is_i32; lia).
  assert (G : suits c some_shape AsGeo) by (split; [reflexivity|split; [exact SM|split; [exact TD|exact EX]]]).
  assert (V : forall dl, env_ok dl xy_dims []) by (intros []; cbn; auto).
  repeat (apply Forall_cons || apply Forall_nil); try exact G; cbn [suits].
  - repeat (split; [first [assumption|apply V|exact I1]|]). intros Q; discriminate Q.
  - split; [exact KM|split; [exact EX|exact NF]].
  - split; [exact KM|split; [exact NE|split; [exact FN|reflexivity]]].
  - repeat (split; [first [assumption|apply V|exact I2]|]). intros _; exact I.
  - repeat (split; [first [assumption|apply V|exact I]|]). intros Q; discriminate Q.
Qed.
