(** More proofs about the GEOS conversions (helper lemmas for C53, C54). *)
From Coq Require Import String Ascii.
From Coq Require Import List NArith ZArith Lia Bool.
From Coq Require Import Init.Byte.
From Verif Require Import Base BaseLemmas Event EventLemmas Claims Geom WkbModel WkbSpec WkbClaims WkbInv WkbWriteTop WkbTop WkbSizes.
From Verif Require Import GeoModel GeoSpec GeoTop.
From Verif Require Import GeosModel GeosSpec GeosTop.
From Verif Require DbModel.
Import ListNotations.
Local Open Scope N_scope.
Local Open Scope list_scope.

(** ** Reading GEOS values into other formats *)
Lemma every : forall A (P : A -> Prop) l, (forall a, P a) -> Forall P l.
Proof. intros A P l H. induction l; constructor; auto. Qed.
Ltac nothing := repeat first [exact I | apply every; intros | split].
Lemma tree_no_empty : forall g, filled g -> no_empty (gtree g).
Proof.
  unfold no_empty.
  induction g as [s|s|s|e l|l|l|l|l IH] using gg_ind'; intros F; cbn [gtree]; try (cbn [on_geom]; unfold on_rings, on_line; nothing).
  - destruct F as [c E]. rewrite E. split; exact I.
  - cbn [filled] in F.
    induction IH as [|a l Ha _ IHl]; [exact I|]. destruct F as [Fa Fl]. cbn [map]. split; [exact (Ha Fa)|exact (IHl Fl)].
Qed.
Lemma geos_multi : forall h, multi_dim (geos_dims h) = dz (geos_dims h).
Proof. intros h. unfold geos_dims, multi_dim. cbn. rewrite !orb_false_r. reflexivity. Qed.
Lemma geos_to_wkb : forall g dl d srid env, filled g -> multi_dim d = dz d ->
  srid_ok dl srid -> (dl = SpatiaLite -> spatialite_safe (gtree g)) ->
  to_wkb_dialect (geos_process g) dl d srid env = Ok (std dl d srid env xy_dims false false little (gtree g)).
Proof.
  intros g dl d srid env F M R Hs. unfold to_wkb_dialect.
  change (w_read_dims (with_opts dl d srid env)) with d. rewrite said_same by assumption.
  exact (to_wkb_std (geos_said g) [] dl d srid env (gtree g) tt (said_delivers g) (Forall_nil _) R (tree_no_empty g F) Hs).
Qed.
Lemma geos_column : forall g has_z get_srid, filled g -> (forall v, get_srid = Ok v -> is_i32 v) ->
  let d := mkDims (match has_z with Ok true => true | _ => false end) false false false in
  DbModel.pg_encode (DbModel.mkSource (geos_process g) (geos_dims has_z) (geos_srid get_srid)) =
  Ok (Some (std Ewkb d (match get_srid with Ok v => Some v | Err _ => None end) [] xy_dims false false little (gtree g))).
Proof.
  intros g has_z get_srid F R d. unfold DbModel.pg_encode. cbn [DbModel.so_process DbModel.so_dims DbModel.so_srid].
  assert (E : geos_dims has_z = d) by (unfold d, geos_dims; destruct has_z as [[]|]; reflexivity). rewrite E.
  rewrite geos_to_wkb; [|exact F|unfold d, multi_dim; cbn; now rewrite !orb_false_r| |discriminate].
  - destruct get_srid; reflexivity.
  - destruct get_srid as [v|]; cbn; [now apply R|exact I].
Qed.
Lemma geos_to_geo : forall debug g, filled g -> small (gtree g) ->
  to_geo debug (geos_process g) = Ok (value_of (gtree g)).
Proof.
  intros debug g F S. unfold to_geo. rewrite said_same by (exact F || reflexivity).
  refine (to_geo_delivers debug (geos_said g) (gtree g) tt _ S (said_delivers g)).
  clear S. induction g as [s|s|s|e l|l|l|l|l IH] using gg_ind'; try reflexivity.
  - destruct F as [c E]. cbn [gtree]. rewrite E. reflexivity.
  - cbn [gtree plain]. cbn [filled] in F. induction IH as [|a l Ha _ IHl]; [reflexivity|]. destruct F as [Fa Fl].
    cbn [map forallb]. rewrite Ha by exact Fa. apply IHl, Fl.
Qed.
Lemma empty_calls : forall S (p : proc S) s,
  exec p (geos_process empty_point (p_dims p)) s = run p [PointBegin 0; PointEnd 0] s.
Proof.
  intros S p s. cbn. destruct (p_step p s (PointBegin 0)) as [s1 [u|x]]; [|reflexivity].
  destruct (p_step p s1 (PointEnd 0)) as [s2 [[]|x]]; reflexivity.
Qed.

(** ** to_geos *)
Section More.
  Variable lib : geos_lib.
  Hypothesis Hlib : sane lib.
  Notation W := (geos_writer lib).

  Lemma run_srids : forall l k s, srids l ->
    run W (l ++ k) s = run W k (mkGs (s_geom s) (last_srid (s_srid s) l) (s_cs s) (s_polys s)).
  Proof.
    induction l as [|e l IH]; intros k s H; [destruct s; reflexivity|].
    inversion H as [|? ? [v ->] H']; subst. cbn [app run last_srid]. cbn [p_step geos_writer geos_step].
    rewrite IH by exact H'. reflexivity.
  Qed.
  Lemma geos_value : forall src l g r, simple g = true -> short_geom g ->
    delivers src (fun multi => l ++ gevents multi 0 g) (Ok r) -> srids l ->
    (accepted lib g = true -> to_geos lib src = Ok (mkVal (gvalue g) (opt_default 0%Z (last_srid None l)))) /\
    (accepted lib g = false -> to_geos lib src = Err EGeometry \/ to_geos lib src = Err geos_error).
  Proof.
    intros src l g r P S D R. unfold to_geos. specialize (D _ W gs_init). cbn [p_dims geos_writer] in D.
    rewrite D. clear D. change (multi_dim xy_dims) with false. rewrite run_srids by exact R.
    match goal with |- context [run W _ ?s] =>
      destruct (geos_writes lib Hlib g 0 s P S) as (s' & e & E & He & F) end.
    rewrite E. destruct (accepted lib g).
    - split; [|discriminate]. intros _. destruct F as [F _]; [reflexivity|]. rewrite F. reflexivity.
    - split; [discriminate|]. intros _. destruct He as [-> | ->]; auto.
  Qed.
  Lemma geos_wkb_value : forall dl d srid env ed ext emp o g tail,
    encodable g -> (levels g <= 128)%nat -> srid_ok dl srid -> env_ok dl ed env -> order_ok dl o ->
    let g' := retained (dz d) (dm d) g in simple g' = true -> short_geom g' -> accepted lib g' = true ->
    geos_from_wkb lib dl (std dl d srid env ed ext emp o g ++ tail) =
    Ok (mkVal (gvalue g') (opt_default 0%Z (reported_srid dl srid))).
  Proof.
    intros dl d srid env ed ext emp o g tail E L R V O g' P S A. unfold geos_from_wkb.
    pose proof (delivers_std dl d srid env ed ext emp o g tail E L R V O) as D.
    specialize (D _ W gs_init). cbn [p_dims geos_writer] in D. rewrite D. clear D. fold g'.
    change (multi_dim xy_dims) with false.
    change (run W (Srid (reported_srid dl srid) :: gevents false 0 g') gs_init)
      with (run W (gevents false 0 g') (mkGs (s_geom gs_init) (reported_srid dl srid) [] [])).
    destruct (geos_writes lib Hlib g' 0 (mkGs (s_geom gs_init) (reported_srid dl srid) [] []) P S) as (s' & e & X & _ & F).
    rewrite X, A. destruct (F A) as [F1 _]. rewrite F1. reflexivity.
  Qed.

  (** *** Collections: the last member stays *)
  Lemma members : forall l k s, l <> [] -> Forall (fun g => simple g = true /\ short_geom g /\ accepted lib g = true) l ->
    exists s', run W ((fix go (i : nat) (l : list geom) : list event :=
                match l with [] => [] | a :: r => gevents false i a ++ go (S i) r end) k l) s = (s', Ok tt) /\
      s_geom s' = final s (last l GEmptyPoint) /\ s_srid s' = s_srid s.
  Proof.
    induction l as [|g l IH]; intros k s N H; [contradiction|]. inversion H as [|? ? (P & S & A) H']; subst.
    rewrite run_app. destruct (geos_writes lib Hlib g k s P S) as (s1 & e & E & _ & F). rewrite E, A.
    destruct (F A) as [F1 F2]. destruct l as [|g' l].
    - exists s1. split; [reflexivity|]. split; assumption.
    - destruct (IH (Datatypes.S k) s1) as (s2 & E2 & G1 & G2); [discriminate|exact H'|].
      exists s2. split; [exact E2|]. split; [|congruence]. rewrite G1. unfold final. rewrite F2. reflexivity.
  Qed.
  Lemma collection_last : forall src l r, l <> [] ->
    Forall (fun g => simple g = true /\ short_geom g /\ accepted lib g = true) l ->
    delivers src (fun multi => gevents multi 0 (GCollection l)) (Ok r) ->
    to_geos lib src = Ok (mkVal (gvalue (last l GEmptyPoint)) 0%Z).
  Proof.
    intros src l r N H D. unfold to_geos. specialize (D _ W gs_init). cbn [p_dims geos_writer] in D.
    rewrite D. clear D. change (multi_dim xy_dims) with false. cbn [gevents].
    cbn [run p_step geos_writer geos_step default_step].
    rewrite run_app. destruct (members l 0 gs_init N H) as (s' & E & G & _). rewrite E.
    cbn [run p_step geos_writer geos_step default_step]. rewrite G. reflexivity.
  Qed.
  Lemma collection_none : forall src r,
    delivers src (fun multi => gevents multi 0 (GCollection [])) (Ok r) ->
    to_geos lib src = Ok (mkVal empty_point 0%Z).
  Proof. intros src r D. unfold to_geos. specialize (D _ W gs_init). cbn [p_dims geos_writer] in D. rewrite D. reflexivity. Qed.

  (** *** Curves and surfaces: silently nothing *)
  Definition keeps (l : list event) : Prop :=
    forall s, exists s', run W l s = (s', Ok tt) /\ s_geom s' = s_geom s.
  Lemma keeps_app : forall l k, keeps l -> keeps k -> keeps (l ++ k).
  Proof.
    intros l k H K s. destruct (H s) as (s1 & E & G). destruct (K s1) as (s2 & E2 & G2).
    exists s2. rewrite run_app, E, E2. split; congruence.
  Qed.
  Lemma keeps_nil : keeps []. Proof. intros s. exists s. split; reflexivity. Qed.
  Lemma keeps_one : forall e l, (forall s, geos_step lib s e = (s, Ok tt)) -> keeps l -> keeps (e :: l).
  Proof. intros e l H K s. cbn [run p_step geos_writer]. rewrite H. apply K. Qed.
  Lemma keeps_for : forall A (f : nat -> A -> list event) (l : list A) i,
    (forall k a, In a l -> keeps (f k a)) -> keeps (flat_mapi f i l).
  Proof.
    induction l as [|a l IH]; intros i H; cbn [flat_mapi]; [apply keeps_nil|].
    apply keeps_app; [apply H; now left|]. apply IH. intros k b B. apply H. now right.
  Qed.
  Lemma keeps_line : forall l i, short l -> keeps (ev_line false false i l).
  Proof.
    intros l i H s. exists (set_cs s (s_cs s ++ [seq_of l])).
    change (ev_line false false i l) with ((LineStringBegin false (length l) i :: ev_coords false l) ++ [LineStringEnd false i]).
    rewrite run_app, (run_line lib false l i s H). split; reflexivity.
  Qed.
  Lemma keeps_poly : forall r i, short_rings r -> rings_ok lib r = true -> keeps (ev_polygon false false i r).
  Proof.
    intros r i H A s. destruct (run_rings lib Hlib false r i s H) as (s' & E & F). rewrite A in E. exists s'.
    split; [exact E|]. rewrite (F A). reflexivity.
  Qed.
  Lemma lost : forall src l r, keeps l -> delivers src (fun multi => if multi then [] else l) (Ok r) ->
    to_geos lib src = Ok (mkVal empty_point 0%Z).
  Proof.
    intros src l r K D. unfold to_geos. specialize (D _ W gs_init). cbn [p_dims geos_writer] in D.
    rewrite D. clear D. change (multi_dim xy_dims) with false. cbv iota. destruct (K gs_init) as (s' & E & G).
    rewrite E, G. reflexivity.
  Qed.
  Lemma not_asked : forall src ev r, delivers src ev (Ok r) ->
    forall l, ev false = l -> keeps l -> to_geos lib src = Ok (mkVal empty_point 0%Z).
  Proof.
    intros src ev r D l E K. unfold to_geos. specialize (D _ W gs_init). cbn [p_dims geos_writer] in D.
    rewrite D. clear D. change (multi_dim xy_dims) with false. rewrite E. destruct (K gs_init) as (s' & X & G).
    rewrite X, G. reflexivity.
  Qed.
  Lemma step_default : forall e s, match e with
    | CompoundCurveBegin _ _ | CompoundCurveEnd _ | MultiCurveBegin _ _ | MultiCurveEnd _
    | MultiSurfaceBegin _ _ | MultiSurfaceEnd _ | PolyhedralSurfaceBegin _ _ | PolyhedralSurfaceEnd _
    | TinBegin _ _ | TinEnd _ | TriangleBegin _ _ _ | TriangleEnd _ _
    | CurvePolygonBegin _ _ | CurvePolygonEnd _ => True | _ => False end -> geos_step lib s e = (s, Ok tt).
  Proof. intros e s H. destruct e; try contradiction; reflexivity. Qed.
  Ltac dflt := apply keeps_one; [intros ?; apply step_default; exact I|].
  Lemma lost_compound : forall src l r, Forall short l ->
    delivers src (fun multi => gevents multi 0 (GCompoundCurve (map SegLine l))) (Ok r) ->
    to_geos lib src = Ok (mkVal empty_point 0%Z).
  Proof.
    intros src l r H D. eapply not_asked; [exact D|reflexivity|]. cbn [gevents]. unfold ev_compound.
    dflt. apply keeps_app; [|dflt; apply keeps_nil]. rewrite flat_mapi_map. apply keeps_for.
    intros k a Ha. apply keeps_line. rewrite Forall_forall in H. apply H, Ha.
  Qed.
  Lemma lost_polygons : forall src l r, Forall short_rings l -> forallb (rings_ok lib) l = true ->
    delivers src (fun multi => gevents multi 0 (GMultiSurface (map SfPolygon l))) (Ok r) \/
    delivers src (fun multi => gevents multi 0 (GPolyhedralSurface l)) (Ok r) ->
    to_geos lib src = Ok (mkVal empty_point 0%Z).
  Proof.
    intros src l r H A D. rewrite Forall_forall in H. rewrite forallb_forall in A.
    destruct D as [D|D]; (eapply not_asked; [exact D|reflexivity|]); cbn [gevents]; dflt;
      (apply keeps_app; [|dflt; apply keeps_nil]).
    - rewrite flat_mapi_map. apply keeps_for. intros k a Ha. apply keeps_poly; [apply H, Ha|apply A, Ha].
    - apply keeps_for. intros k a Ha. apply keeps_poly; [apply H, Ha|apply A, Ha].
  Qed.
  Lemma lost_tin : forall src l r, Forall (Forall short) l ->
    delivers src (fun multi => gevents multi 0 (GTin l)) (Ok r) ->
    to_geos lib src = Ok (mkVal empty_point 0%Z).
  Proof.
    intros src l r H D. rewrite Forall_forall in H. eapply not_asked; [exact D|reflexivity|]. cbn [gevents].
    dflt. apply keeps_app; [|dflt; apply keeps_nil]. apply keeps_for. intros k a Ha. unfold ev_triangle.
    dflt. apply keeps_app; [|dflt; apply keeps_nil]. apply keeps_for. intros j b Hb. apply keeps_line.
    specialize (H a Ha). rewrite Forall_forall in H. apply H, Hb.
  Qed.
  Lemma arc_refused : forall src c l r,
    delivers src (fun multi => gevents multi 0 (GCircularString (c :: l))) (Ok r) -> to_geos lib src = Err EGeometry.
  Proof. intros src c l r D. unfold to_geos. specialize (D _ W gs_init). cbn [p_dims geos_writer] in D. rewrite D. reflexivity. Qed.
  Lemma empty_refused : forall src r,
    delivers src (fun multi => gevents multi 0 GEmptyPoint) (Ok r) -> to_geos lib src = Err EGeometry.
  Proof. intros src r D. unfold to_geos. specialize (D _ W gs_init). cbn [p_dims geos_writer] in D. rewrite D. reflexivity. Qed.

  (** *** No panic *)
  Lemma step_calm : forall e s, modest e -> out_of_range lib <> EPanic -> snd (geos_step lib s e) <> Err EPanic.
  Proof.
    intros e s M O. assert (C : forall n, N.of_nat n < 2 ^ 32 -> capacity_ok (seq_bytes lib) n = true /\ capacity_ok (geom_bytes lib) n = true).
    { intros n H. destruct Hlib as [h1 h2]. unfold capacity_ok. split; apply N.ltb_lt; nia. }
    assert (G : geos_error <> EPanic) by discriminate.
    destruct e; cbn [geos_step default_step]; try (cbn; discriminate);
      try (unfold modest in M; cbn [announced] in M; destruct (C _ M) as [C1 C2]; rewrite ?C1, ?C2; cbn; discriminate).
    - destruct (rev (s_cs s)) as [|c r]; [cbn; discriminate|]. destruct (set_at idx (x, y) c); cbn; [discriminate|congruence].
    - destruct (rev (s_cs s)) as [|c r]; [cbn; discriminate|]. destruct (Nat.ltb _ _); cbn; discriminate.
    - destruct (rev (s_cs s)) as [|c r]; cbn; discriminate.
    - destruct tagged; [|cbn; discriminate]. destruct (rev (s_cs s)) as [|c r]; [cbn; discriminate|].
      destruct (line_ok lib c); cbn; discriminate.
    - destruct (forallb _ _); cbn; discriminate.
    - destruct (s_cs s) as [|c r]; [cbn; discriminate|]. destruct (negb _); [cbn; discriminate|].
      destruct (_ && _); [|cbn; discriminate]. destruct tagged; cbn; discriminate.
  Qed.
  Lemma run_calm : forall l s, Forall modest l -> out_of_range lib <> EPanic -> snd (run W l s) <> Err EPanic.
  Proof.
    induction l as [|e l IH]; intros s H O; [cbn; discriminate|]. inversion H as [|? ? M H']; subst.
    cbn [run]. cbn [p_step geos_writer]. pose proof (step_calm e s M O) as C.
    destruct (geos_step lib s e) as [s' [u|x]]; [apply IH; assumption|]. cbn in *. congruence.
  Qed.
  Lemma geos_wkb_calm : forall dl b, out_of_range lib <> EPanic -> geos_from_wkb lib dl b <> Err EPanic.
  Proof.
    intros dl b O. unfold geos_from_wkb. destruct (wkb_modest dl xy_dims b) as (l & r & E & M).
    rewrite E, exec_calls. pose proof (run_calm l gs_init M O) as C.
    destruct (run W l gs_init) as [s [u|x]]; cbn [snd exec] in *; [|congruence].
    destruct (bounded dl xy_dims b) as (l' & r' & H1 & _ & H3). rewrite E in H1. unfold makes, observe in H1.
    rewrite exec_calls, recorder_run in H1. cbn [exec] in H1. injection H1 as _ <-.
    destruct r as [[u' rest]|e]; [discriminate|]. destruct H3 as [->|[->| ->]]; discriminate.
  Qed.

  (** *** Compressed SpatiaLite lines *)
  Lemma set_at_none : forall l i p, (length l <= i)%nat -> set_at i p l = None.
  Proof.
    induction l as [|a l IH]; intros i p H; [destruct i; reflexivity|]. destruct i as [|i]; cbn in *; [lia|].
    rewrite IH by lia. reflexivity.
  Qed.
  Lemma run_some : forall l done rest s cs, (length l <= rest)%nat ->
    run W (mapi (ev_coord false) (length done) l) (set_cs s (cs ++ [done ++ repeat (f64_zero, f64_zero) rest])) =
    (set_cs s (cs ++ [done ++ seq_of l ++ repeat (f64_zero, f64_zero) (rest - length l)]), Ok tt).
  Proof.
    induction l as [|c l IH]; intros done rest s cs H; [cbn; rewrite Nat.sub_0_r; reflexivity|].
    destruct rest as [|rest]; cbn [length] in H; [lia|].
    cbn [mapi run length repeat seq_of map]. cbn [p_step geos_writer ev_coord geos_step set_cs s_cs].
    rewrite rev_app_distr. cbn [rev app]. rewrite set_at_app, rev_involutive.
    specialize (IH (done ++ [(cx c, cy c)]) rest s cs). rewrite app_length in IH. cbn [length] in IH.
    rewrite Nat.add_1_r, <- app_assoc in IH. cbn [app] in IH. eapply eq_trans; [apply IH; lia|].
    unfold seq_of. rewrite <- app_assoc. reflexivity.
  Qed.
  Lemma running_length : forall z m c ds, length (running z m c ds) = length ds.
  Proof. intros z m c ds. revert c. induction ds as [|d ds IH]; intros c; cbn; [reflexivity|]. now rewrite IH. Qed.
  Lemma compressed_refused : forall z m srid env e first ds last tail,
    is_i32 srid -> length env = 4%nat -> Forall f64_ok env ->
    coord64 first -> coord64 last -> Forall delta_ok ds -> N.of_nat (2 + length ds) < 2 ^ 32 ->
    geos_from_wkb lib SpatiaLite (compressed_header z m srid env e 2 ++ compressed_bytes z m e first ds last ++ tail) =
    Err (out_of_range lib).
  Proof.
    intros z m srid env e first ds last tail H1 H2 H3 H4 H5 H6 H7. unfold geos_from_wkb.
    pose proof (compressed_blob z m srid env e first ds last tail H1 H2 H3 H4 H5 H6 H7) as D.
    specialize (D _ W gs_init). cbn [p_dims geos_writer] in D. rewrite D. clear D.
    change (multi_dim xy_dims) with false.
    set (pts := stored z m first :: running z m (stored z m first) ds).
    cbn [run p_step geos_writer geos_step]. unfold add_seq, new_seq. rewrite N.mod_small by exact H7. rewrite Nat2N.id.
    rewrite run_app.
    assert (Lp : length pts = S (length ds)) by (unfold pts; cbn [length]; rewrite running_length; reflexivity).
    set (s0 := mkGs (s_geom gs_init) (WkbReadTop.srid_or_none srid) [] []).
    lazymatch goal with |- context [run W (mapi (ev_coord false) 0 pts) ?x] =>
      change x with (set_cs s0 ([] ++ [[] ++ repeat (f64_zero, f64_zero) (2 + length ds)])) end.
    pose proof (run_some pts [] (2 + length ds) s0 []) as R. cbn [length] in R. rewrite Lp in R. rewrite R by lia.
    cbn [run p_step geos_writer geos_step ev_coord s_cs set_cs rev app].
    rewrite set_at_none; [reflexivity|]. rewrite app_length, repeat_length. unfold seq_of. rewrite map_length, Lp. lia.
  Qed.
End More.

(** ** Round trip *)
Lemma flat_back : forall s, (exists l, s = Flat l) -> flat (seq_line s) = s.
Proof.
  intros s [l ->]. unfold flat, seq_of, seq_line. rewrite map_map. cbn. f_equal.
  induction l as [|[x y] l IH]; cbn; [reflexivity|]. now rewrite IH.
Qed.
Lemma flats_back : forall l, Forall (fun s => exists k, s = Flat k) l -> map flat (map seq_line l) = l.
Proof. induction 1 as [|s l H _ IH]; cbn; [reflexivity|]. now rewrite (flat_back s H), IH. Qed.
Lemma tree_back : forall g, two_dim g -> filled g -> simple (gtree g) = true /\ gvalue (gtree g) = g.
Proof.
  intros [s|s|s|e l|l|l|l|l] T F; cbn [two_dim] in T; try contradiction; cbn [gtree].
  - destruct F as [c E]. pose proof (flat_back s T) as B. rewrite E in *. split; [reflexivity|]. cbn [gvalue]. rewrite B. reflexivity.
  - split; [reflexivity|]. cbn [gvalue]. rewrite flat_back by exact T. reflexivity.
  - split; [reflexivity|]. destruct T as [T1 T2]. cbn [gvalue poly_value fst snd]. rewrite flat_back, flats_back by assumption. reflexivity.
  - split; [reflexivity|]. cbn [gvalue]. f_equal. cbn [filled] in F.
    induction T as [|s l H _ IH]; [reflexivity|]. inversion F as [|? ? [c E] F']; subst. cbn [flat_map]. rewrite E.
    cbn [app map]. rewrite IH by exact F'. pose proof (flat_back s H) as B. rewrite E in B. rewrite B. reflexivity.
  - split; [reflexivity|]. cbn [gvalue]. rewrite flats_back by exact T. reflexivity.
  - split; [reflexivity|]. cbn [gvalue]. f_equal. rewrite map_map.
    induction T as [|[e i] l [H1 H2] _ IH]; [reflexivity|]. cbn [map fst snd poly_value] in *. rewrite IH, flat_back, flats_back by assumption. reflexivity.
Qed.
Lemma geos_round : forall lib g, sane lib -> two_dim g -> filled g -> short_geom (gtree g) -> accepted lib (gtree g) = true ->
  to_geos lib (geos_process g) = Ok (mkVal g 0%Z).
Proof.
  intros lib g L T F S A. destruct (tree_back g T F) as [P B].
  pose proof (proj1 (geos_value lib L (geos_said g) [] (gtree g) tt P S (said_delivers g) (Forall_nil _)) A) as H.
  unfold to_geos in *. rewrite said_same by (exact F || reflexivity). rewrite H, B. reflexivity.
Qed.
