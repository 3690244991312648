(** Lemmas behind C81: what the writers heed of numbers and sizes. *)
From Coq Require Import String Ascii.
From Coq Require Import List NArith ZArith Lia Bool.
From Verif Require Import Base BaseLemmas Float Event ProcModel Claims NumbersSpec.
From Verif Require WkbModel WktModel GeoJsonModel CsvModel SvgModel GeoModel MvtModel GeosModel GdalModel
  TessModel.
Import ListNotations.
Local Open Scope list_scope.

Lemma ltb_zero_alike : forall i j, zero_alike i j -> Nat.ltb 0 i = Nat.ltb 0 j.
Proof. unfold zero_alike. intros [|i] [|j] [A B]; try reflexivity; [discriminate (A eq_refl)|discriminate (B eq_refl)]. Qed.
Lemma eqb_zero_alike : forall i j, zero_alike i j -> Nat.eqb i 0 = Nat.eqb j 0.
Proof. unfold zero_alike. intros [|i] [|j] [A B]; try reflexivity; [discriminate (A eq_refl)|discriminate (B eq_refl)]. Qed.

(** A relation between states that every pair of like callbacks preserves. *)
Lemma feed_rel : forall S (p : proc S) u (R : S -> S -> Prop),
  (forall e e' s s', same_call u e e' -> R s s' ->
     R (fst (p_step p s e)) (fst (p_step p s' e')) /\ snd (p_step p s e) = snd (p_step p s' e')) ->
  (forall i j n v s s', u_prop u i j -> R s s' ->
     R (fst (p_prop p s i n v)) (fst (p_prop p s' j n v)) /\ snd (p_prop p s i n v) = snd (p_prop p s' j n v)) ->
  forall l l' s s', same_stream u l l' -> R s s' ->
    R (fst (feed p l s)) (fst (feed p l' s')) /\ snd (feed p l s) = snd (feed p l' s').
Proof.
  intros S p u R He Hp l l' s s' F. revert s s'.
  induction F as [|o o' l l' O F IH]; intros s s' HR; cbn [feed].
  - split; [exact HR|reflexivity].
  - destruct O as [e e' C|i j n v C].
    + destruct (He e e' s s' C HR) as [A B].
      destruct (p_step p s e) as [s1 [x|x]], (p_step p s' e') as [s2 [y|y]]; cbn [fst snd] in A, B |- *;
        try discriminate B.
      * apply IH. exact A.
      * split; [exact A|]. injection B as ->. reflexivity.
    + destruct (Hp i j n v s s' C HR) as [A B].
      destruct (p_prop p s i n v) as [s1 [x|x]], (p_prop p s' j n v) as [s2 [y|y]]; cbn [fst snd] in A, B |- *;
        try discriminate B.
      * apply IH. exact A.
      * split; [exact A|]. injection B as ->. reflexivity.
Qed.

Lemma heeds_step : forall S (p : proc S) u,
  (forall e e' s, same_call u e e' -> p_step p s e = p_step p s e') ->
  (forall i j n v s, u_prop u i j -> p_prop p s i n v = p_prop p s j n v) ->
  heeds_only u p.
Proof.
  intros S p u He Hp l l' s F.
  assert (X := feed_rel S p u eq).
  destruct X with (l := l) (l' := l') (s := s) (s' := s) as [A B].
  - intros e e' s1 s2 C <-. rewrite (He e e' s1 C). split; reflexivity.
  - intros i j n v s1 s2 C <-. rewrite (Hp i j n v s1 C). split; reflexivity.
  - exact F.
  - reflexivity.
  - rewrite (surjective_pairing (feed p l s)), (surjective_pairing (feed p l' s)), A, B. reflexivity.
Qed.
Lemma heeds_step_inv : forall S (p : proc S) u, heeds_only u p ->
  forall e e' s, same_call u e e' -> p_step p s e = p_step p s e'.
Proof.
  intros S p u H e e' s C.
  specialize (H [OEv e] [OEv e'] s (Forall2_cons _ _ (so_event u e e' C) (Forall2_nil _))).
  cbn [feed] in H.
  destruct (p_step p s e) as [s1 [[]|x]], (p_step p s e') as [s2 [[]|y]]; congruence.
Qed.
Lemma heeds_mono : forall S (p : proc S) u u',
  (forall e e', same_call u' e e' -> same_call u e e') -> (forall i j, u_prop u' i j -> u_prop u i j) ->
  heeds_only u p -> heeds_only u' p.
Proof.
  intros S p u u' A B H l l' s F. apply H.
  induction F as [|o o' l l' O F IH]; constructor; [|exact IH].
  destruct O as [e e' C|i j n v C]; constructor; auto.
Qed.

(** ** WKB *)
Lemma w_u32_alike : forall en a b, u32_alike a b ->
  WkbModel.w_u32 en (N.of_nat a) = WkbModel.w_u32 en (N.of_nat b).
Proof.
  intros en a b H. unfold WkbModel.w_u32.
  rewrite <- (bytes_of_mod en 4 (N.of_nat a)), <- (bytes_of_mod en 4 (N.of_nat b)).
  change (256 ^ N.of_nat 4)%N with (2 ^ 32)%N. unfold u32_alike in H. rewrite H. reflexivity.
Qed.
Lemma w_u32_alike_inv : forall en a b,
  WkbModel.w_u32 en (N.of_nat a) = WkbModel.w_u32 en (N.of_nat b) -> u32_alike a b.
Proof.
  intros en a b H. unfold WkbModel.w_u32 in H.
  apply (f_equal (val_of en)) in H. rewrite !val_of_bytes_of_mod in H. exact H.
Qed.
Lemma header_size_alike : forall c s t a b, u32_alike a b ->
  WkbModel.header_size c s t a = WkbModel.header_size c s t b.
Proof.
  intros c s t a b H. unfold WkbModel.header_size. destruct (WkbModel.write_header c s t) as [s' [x|x]]; [|reflexivity].
  rewrite (w_u32_alike _ _ _ H). reflexivity.
Qed.
Theorem wkb_heeds : forall c, heeds_only use_wkb (WkbModel.wkb_writer c).
Proof.
  intros c. apply heeds_step; [|reflexivity].
  intros e e' s C. cbn [WkbModel.wkb_writer p_step].
  destruct C; cbn [WkbModel.wkb_step use_wkb u_count u_members] in *; try reflexivity;
    match goal with H : u32_alike _ _ |- _ =>
      rewrite ?(header_size_alike _ _ _ _ _ H), ?(w_u32_alike _ _ _ H); reflexivity end.
Qed.

(** ** GeoJSON *)
Lemma gj_comma_alike : forall out i j, zero_alike i j -> GeoJsonModel.gj_comma out i = GeoJsonModel.gj_comma out j.
Proof. intros out i j H. unfold GeoJsonModel.gj_comma. rewrite (ltb_zero_alike _ _ H). reflexivity. Qed.
Lemma gj_step_alike : forall fmt e e' s, same_call use_json e e' ->
  GeoJsonModel.gj_step fmt s e = GeoJsonModel.gj_step fmt s e'.
Proof.
  intros fmt e e' s C.
  destruct C; cbn [use_json u_pos u_geom u_feat] in *; cbv delta [GeoJsonModel.gj_step] beta iota zeta;
    try reflexivity;
    match goal with H : zero_alike _ _ |- _ =>
      rewrite ?(gj_comma_alike _ _ _ H), ?(ltb_zero_alike _ _ H); reflexivity end.
Qed.
Lemma gj_prop_alike : forall fmt32 fmt i j n v s, zero_alike i j ->
  GeoJsonModel.gj_prop fmt32 fmt s i n v = GeoJsonModel.gj_prop fmt32 fmt s j n v.
Proof. intros fmt32 fmt i j n v s H. unfold GeoJsonModel.gj_prop. rewrite (ltb_zero_alike _ _ H). reflexivity. Qed.
Theorem json_heeds : forall fmt32 fmt d, heeds_only use_json (GeoJsonModel.geojson_writer fmt32 fmt d).
Proof.
  intros fmt32 fmt d. apply heeds_step.
  - intros e e' s C. apply gj_step_alike. exact C.
  - intros i j n v s H. apply gj_prop_alike. exact H.
Qed.

Lemma line_begin_alike : forall fmt s i j e e', zero_alike i j -> (forall t, GeoJsonModel.gj_step fmt t e = GeoJsonModel.gj_step fmt t e') ->
  GeoJsonModel.line_begin fmt s i e = GeoJsonModel.line_begin fmt s j e'.
Proof.
  intros fmt s i j e e' H G. unfold GeoJsonModel.line_begin, GeoJsonModel.lw_inner.
  rewrite (ltb_zero_alike _ _ H). cbn [snd]. rewrite G. reflexivity.
Qed.
Lemma line_end_alike : forall fmt s e e', (forall t, GeoJsonModel.gj_step fmt t e = GeoJsonModel.gj_step fmt t e') ->
  GeoJsonModel.line_end fmt s e = GeoJsonModel.line_end fmt s e'.
Proof. intros fmt s e e' G. unfold GeoJsonModel.line_end, GeoJsonModel.lw_inner. rewrite G. reflexivity. Qed.
Theorem lines_heeds : forall fmt32 fmt, heeds_only use_lines (GeoJsonModel.geojson_line_writer fmt32 fmt).
Proof.
  intros fmt32 fmt. apply heeds_step.
  - intros e e' s C. cbn [GeoJsonModel.geojson_line_writer p_step].
    destruct C; cbn [use_lines u_pos u_geom u_feat] in *; cbn [GeoJsonModel.gjl_step]; try reflexivity;
      try (apply line_begin_alike; [assumption|reflexivity]);
      try (apply line_end_alike; reflexivity).
    + unfold GeoJsonModel.lw_inner. rewrite (gj_step_alike fmt (Xy x y i) (Xy x y j)); [reflexivity|].
      constructor. assumption.
    + unfold GeoJsonModel.lw_inner.
      rewrite (gj_step_alike fmt (Coord x y z m t tm i) (Coord x y z m t tm j)); [reflexivity|].
      constructor. assumption.
    + rewrite (line_begin_alike fmt s i j (EmptyPoint 0) (EmptyPoint 0)); [reflexivity|assumption|reflexivity].
  - intros i j n v s H. cbn [GeoJsonModel.geojson_line_writer p_prop]. unfold GeoJsonModel.gjl_prop.
    rewrite (gj_prop_alike fmt32 fmt i j n v (snd s) H). reflexivity.
Qed.

(** ** SVG, bounds, tessellator *)
Theorem svg_heeds : forall fmt c, heeds_only use_none (SvgModel.svg_writer fmt c).
Proof. intros fmt c. apply heeds_step; [|reflexivity]. intros e e' s C. destruct C; reflexivity. Qed.
Theorem bounds_heeds : heeds_only use_none bounds_proc.
Proof. apply heeds_step; [|reflexivity]. intros e e' s C. destruct C; reflexivity. Qed.
Theorem tess_heeds : forall narrow ly, heeds_only use_tess (TessModel.tessellator narrow ly).
Proof.
  intros narrow ly. apply heeds_step; [|reflexivity]. intros e e' s C. destruct C; try reflexivity.
  cbn [use_tess u_pos] in H. cbn [TessModel.tessellator p_step TessModel.tess_step].
  rewrite (eqb_zero_alike _ _ H). reflexivity.
Qed.

(** ** GDAL, GEOS *)
Theorem gdal_heeds : forall d, heeds_only use_gdal (GdalModel.gdal_writer d).
Proof.
  intros d. apply heeds_step; [|reflexivity]. intros e e' s C.
  destruct C; cbn [use_gdal u_pos] in *; unfold same in *; subst; reflexivity.
Qed.
Lemma capacity_alike : forall z a b, (N.of_nat a * z < 2 ^ 63 <-> N.of_nat b * z < 2 ^ 63)%N ->
  GeosModel.capacity_ok z a = GeosModel.capacity_ok z b.
Proof.
  intros z a b H. unfold GeosModel.capacity_ok.
  destruct (N.ltb_spec (N.of_nat a * z) (2 ^ 63)) as [A|A], (N.ltb_spec (N.of_nat b * z) (2 ^ 63)) as [B|B];
    try reflexivity; exfalso; apply H in A || apply H in B; apply (N.lt_irrefl (2 ^ 63)); eapply N.le_lt_trans; eassumption.
Qed.
Lemma vec_two : forall x y a b, vec_alike [x; y] a b ->
  (N.of_nat a * x < 2 ^ 63 <-> N.of_nat b * x < 2 ^ 63)%N /\ (N.of_nat a * y < 2 ^ 63 <-> N.of_nat b * y < 2 ^ 63)%N.
Proof.
  unfold vec_alike. intros x y a b H. inversion H as [|? ? A B]. inversion B as [|? ? C D]. split; [exact A|exact C].
Qed.
Theorem geos_heeds : forall lib, heeds_only (use_geos (GeosModel.seq_bytes lib) (GeosModel.geom_bytes lib)) (GeosModel.geos_writer lib).
Proof.
  intros lib. apply heeds_step; [|reflexivity]. intros e e' s C.
  destruct C; cbn [use_geos u_pos u_count u_members] in *; unfold same in *; subst; try reflexivity;
    cbn [GeosModel.geos_writer p_step GeosModel.geos_step];
    try (unfold GeosModel.add_seq, GeosModel.new_seq; unfold u32_alike in H; rewrite H; reflexivity);
    apply vec_two in H; destruct H as [X1 X2];
    rewrite ?(capacity_alike _ _ _ X1), ?(capacity_alike _ _ _ X2); reflexivity.
Qed.

(** ** geo-types, features, MVT *)
Lemma bounded_alike : forall z a b, (N.of_nat a * z <= 16777216 <-> N.of_nat b * z <= 16777216)%N ->
  match GeoModel.bounded_vec z (N.of_nat a), GeoModel.bounded_vec z (N.of_nat b) with
  | Ok _, Ok _ => True
  | Err x, Err y => x = y
  | _, _ => False
  end.
Proof.
  intros z a b H. unfold GeoModel.bounded_vec, GeoModel.validate_capacity, GeoModel.saturating_mul.
  change GeoModel.max_prealloc_bytes with 16777216%N.
  assert (E : forall n, (16777216 <? N.min n (2 ^ 64 - 1))%N = (16777216 <? n)%N).
  { intros n. destruct (N.ltb_spec 16777216 n) as [L|L].
    - apply N.ltb_lt. apply N.min_glb_lt; [exact L|reflexivity].
    - apply N.ltb_ge. etransitivity; [apply N.le_min_l|exact L]. }
  rewrite !E.
  destruct (N.ltb_spec 16777216 (N.of_nat a * z)) as [A|A], (N.ltb_spec 16777216 (N.of_nat b * z)) as [B|B];
    try exact I; try reflexivity; exfalso;
    [apply H in B|apply H in A]; apply (N.lt_irrefl 16777216); eapply N.lt_le_trans; eassumption.
Qed.
Lemma reserve_alike : forall A z a b s (set : GeoModel.gw -> option (list A) -> GeoModel.gw),
  (N.of_nat a * z <= 16777216 <-> N.of_nat b * z <= 16777216)%N ->
  GeoModel.reserve z a s set = GeoModel.reserve z b s set.
Proof.
  intros A z a b s set H. unfold GeoModel.reserve. pose proof (bounded_alike z a b H) as X.
  destruct (GeoModel.bounded_vec z (N.of_nat a)), (GeoModel.bounded_vec z (N.of_nat b)); try destruct X; reflexivity.
Qed.
Lemma mreserve_alike : forall A z a b s (set : MvtModel.mw -> option (list A) -> MvtModel.mw),
  (N.of_nat a * z <= 16777216 <-> N.of_nat b * z <= 16777216)%N ->
  MvtModel.mreserve z a s set = MvtModel.mreserve z b s set.
Proof.
  intros A z a b s set H. unfold MvtModel.mreserve. pose proof (bounded_alike z a b H) as X.
  destruct (GeoModel.bounded_vec z (N.of_nat a)), (GeoModel.bounded_vec z (N.of_nat b)); try destruct X; reflexivity.
Qed.
Lemma budget_one : forall x a b, budget_alike [x] a b -> (N.of_nat a * x <= 16777216 <-> N.of_nat b * x <= 16777216)%N.
Proof. unfold budget_alike. intros x a b H. inversion H. assumption. Qed.
Lemma budget_three : forall x y z a b, budget_alike [x; y; z] a b ->
  (N.of_nat a * x <= 16777216 <-> N.of_nat b * x <= 16777216)%N /\
  (N.of_nat a * y <= 16777216 <-> N.of_nat b * y <= 16777216)%N /\
  (N.of_nat a * z <= 16777216 <-> N.of_nat b * z <= 16777216)%N.
Proof.
  unfold budget_alike. intros x y z a b H. inversion H as [|? ? A B]. inversion B as [|? ? C D].
  inversion D as [|? ? E F]. split; [exact A|split; [exact C|exact E]].
Qed.
Lemma geo_step_alike : forall debug e e' s, same_call use_geo e e' ->
  GeoModel.geo_step debug s e = GeoModel.geo_step debug s e'.
Proof.
  intros debug e e' s C.
  destruct C; try reflexivity; cbn [use_geo u_count u_members] in *;
    cbn [GeoModel.geo_step];
    (apply budget_three in H; destruct H as (X1 & X2 & X3)) || apply budget_one in H.
  all: change GeoModel.coord_size with 16%N; change GeoModel.linestring_size with 24%N;
    change GeoModel.polygon_size with 48%N; change GeoModel.geometry_size with 56%N; try reflexivity.
  1,2: rewrite (reserve_alike _ _ _ _ _ _ H); reflexivity.
  1,2: rewrite (reserve_alike _ _ _ _ _ _ X1); reflexivity.
  - rewrite (reserve_alike _ _ _ _ _ _ X2); reflexivity.
  - pose proof (bounded_alike _ _ _ X3) as X.
    destruct (GeoModel.bounded_vec 56 (N.of_nat a)), (GeoModel.bounded_vec 56 (N.of_nat b)); try destruct X; reflexivity.
Qed.
Theorem geo_heeds : forall debug, heeds_only use_geo (GeoModel.geo_writer debug).
Proof. intros debug. apply heeds_step; [|reflexivity]. intros e e' s C. apply geo_step_alike. exact C. Qed.
Theorem feature_heeds : forall debug, heeds_only use_geo (GeoModel.feature_writer debug).
Proof.
  intros debug. apply heeds_step; [|reflexivity]. intros e e' s C.
  cbn [GeoModel.feature_writer p_step].
  pose proof (geo_step_alike debug e e' (GeoModel.f_writer s) C) as X.
  destruct C; try reflexivity; cbn [GeoModel.feature_step]; rewrite X; reflexivity.
Qed.
Theorem mvt_heeds : forall gsize base64 debug c,
  heeds_only (use_mvt gsize) (MvtModel.mvt_writer gsize base64 debug c).
Proof.
  intros gsize base64 debug c. apply heeds_step; [|reflexivity].
  intros e e' s C. cbn [MvtModel.mvt_writer p_step].
  destruct C; try reflexivity; cbn [use_mvt u_count u_members] in *;
    cbn [MvtModel.mvt_step];
    (apply budget_three in H; destruct H as (X1 & X2 & X3)) || apply budget_one in H.
  all: change MvtModel.tcoord_size with 8%N; change GeoModel.linestring_size with 24%N;
    change GeoModel.polygon_size with 48%N; try reflexivity.
  1,2: rewrite (mreserve_alike _ _ _ _ _ _ H); reflexivity.
  1,2: rewrite (mreserve_alike _ _ _ _ _ _ X1); reflexivity.
  - rewrite (mreserve_alike _ _ _ _ _ _ X2); reflexivity.
  - pose proof (bounded_alike _ _ _ X3) as X.
    destruct (GeoModel.bounded_vec gsize (N.of_nat a)), (GeoModel.bounded_vec gsize (N.of_nat b)); try destruct X; reflexivity.
Qed.

(** ** WKT *)
Definition wkt_rel (s s' : WktModel.wktst) : Prop :=
  WktModel.k_srid s = WktModel.k_srid s' /\ WktModel.k_first s = WktModel.k_first s' /\
  WktModel.k_out s = WktModel.k_out s' /\ Forall2 zero_alike (WktModel.k_sizes s) (WktModel.k_sizes s').
Lemma wkt_rel_refl : forall s, wkt_rel s s.
Proof.
  intros s. unfold wkt_rel. refine (conj eq_refl (conj eq_refl (conj eq_refl _))).
  induction (WktModel.k_sizes s) as [|a l IH]; constructor; [|exact IH]. split; exact (fun x => x).
Qed.
Section Wkt.
  Variable fmt : f64 -> string.
  Variable c : WktModel.wktcfg.
  Lemma put_rel : forall s s' t, wkt_rel s s' -> wkt_rel (WktModel.put s t) (WktModel.put s' t).
  Proof.
    intros s s' t (A & B & C & D). unfold wkt_rel, WktModel.put. cbn.
    refine (conj A (conj B (conj _ D))). rewrite C. reflexivity.
  Qed.
  Lemma wkt_header_rel : forall s s', wkt_rel s s' -> wkt_rel (WktModel.wkt_header c s) (WktModel.wkt_header c s').
  Proof.
    intros s s' R. assert (R' := R). destruct R' as (A & B & C & D). unfold WktModel.wkt_header. cbn [WktModel.k_srid].
    rewrite <- B, <- A. destruct (WktModel.k_first s); [|exact R].
    destruct (WktModel.k_dialect c); try exact R.
    assert (X : wkt_rel (WktModel.mkWktSt (WktModel.k_srid s) false (WktModel.k_sizes s) (WktModel.k_out s))
                        (WktModel.mkWktSt (WktModel.k_srid s) false (WktModel.k_sizes s') (WktModel.k_out s'))).
    { unfold wkt_rel. cbn. refine (conj eq_refl (conj eq_refl (conj C D))). }
    destruct (WktModel.k_srid s) as [[|p|p]|]; try exact X; apply put_rel; exact X.
  Qed.
  Lemma wkt_comma_rel : forall s s' i j, zero_alike i j -> wkt_rel s s' ->
    wkt_rel (WktModel.wkt_comma s i) (WktModel.wkt_comma s' j).
  Proof.
    intros s s' i j Z R. unfold WktModel.wkt_comma. rewrite (ltb_zero_alike _ _ Z).
    destruct (Nat.ltb 0 j); [apply put_rel|]; exact R.
  Qed.
  Lemma geom_begin_rel : forall s s' tag tagged a b i j, zero_alike a b -> zero_alike i j -> wkt_rel s s' ->
    wkt_rel (WktModel.geom_begin c s tag tagged a i) (WktModel.geom_begin c s' tag tagged b j).
  Proof.
    intros s s' tag tagged a b i j Za Zi R. unfold WktModel.geom_begin. cbv zeta.
    assert (R1 := wkt_comma_rel _ _ i j Zi (wkt_header_rel _ _ R)).
    set (s1 := WktModel.wkt_comma (WktModel.wkt_header c s) i) in *.
    set (s1' := WktModel.wkt_comma (WktModel.wkt_header c s') j) in *.
    assert (R2 : wkt_rel (if tagged then WktModel.put s1 tag else s1) (if tagged then WktModel.put s1' tag else s1')).
    { destruct tagged; [apply put_rel|]; exact R1. }
    set (s2 := if tagged then WktModel.put s1 tag else s1) in *.
    set (s2' := if tagged then WktModel.put s1' tag else s1') in *.
    assert (R3 : wkt_rel
      (WktModel.mkWktSt (WktModel.k_srid s2) (WktModel.k_first s2) (a :: WktModel.k_sizes s2) (WktModel.k_out s2))
      (WktModel.mkWktSt (WktModel.k_srid s2') (WktModel.k_first s2') (b :: WktModel.k_sizes s2') (WktModel.k_out s2'))).
    { destruct R2 as (A & B & C & D). unfold wkt_rel. cbn. refine (conj A (conj B (conj C _))).
      constructor; assumption. }
    rewrite (eqb_zero_alike _ _ Za). destruct (Nat.eqb b 0).
    - apply put_rel. destruct tagged; [apply put_rel|]; exact R3.
    - apply put_rel. exact R3.
  Qed.
  Lemma geom_end_rel : forall s s', wkt_rel s s' ->
    wkt_rel (fst (WktModel.geom_end s)) (fst (WktModel.geom_end s')) /\
    snd (WktModel.geom_end s) = snd (WktModel.geom_end s').
  Proof.
    intros s s' R. assert (R' := R). destruct R' as (A & B & C & D). unfold WktModel.geom_end.
    destruct D as [|a b l l' Z D]; cbn [fst snd].
    - split; [exact R|reflexivity].
    - split; [|reflexivity].
      assert (X : wkt_rel (WktModel.mkWktSt (WktModel.k_srid s) (WktModel.k_first s) l (WktModel.k_out s))
                          (WktModel.mkWktSt (WktModel.k_srid s') (WktModel.k_first s') l' (WktModel.k_out s'))).
      { unfold wkt_rel. cbn. refine (conj A (conj B (conj C D))). }
      rewrite (ltb_zero_alike _ _ Z). destruct (Nat.ltb 0 b); [apply put_rel|]; exact X.
  Qed.
  Lemma wkt_step_rel : forall e e' s s', same_call use_wkt e e' -> wkt_rel s s' ->
    wkt_rel (fst (WktModel.wkt_step fmt c s e)) (fst (WktModel.wkt_step fmt c s' e')) /\
    snd (WktModel.wkt_step fmt c s e) = snd (WktModel.wkt_step fmt c s' e').
  Proof.
    intros e e' s s' C R.
    destruct C; cbn [use_wkt u_pos u_geom u_count u_members] in *; cbn [WktModel.wkt_step fst snd];
      try (apply geom_end_rel; exact R);
      try (split; [exact R|reflexivity]);
      try (split; [apply geom_begin_rel; first [assumption|split; exact (fun x => x)]|reflexivity]).
    - split; [|reflexivity]. destruct R as (A & B & C & D). unfold wkt_rel. cbn. rewrite A.
      refine (conj eq_refl (conj B (conj C D))).
    - split; [|reflexivity]. destruct (_ && _); apply put_rel, wkt_comma_rel; assumption.
    - split; [|reflexivity]. destruct (_ && _ && _ && _); [apply put_rel, wkt_comma_rel; assumption|].
      destruct z, m; repeat apply put_rel; apply wkt_comma_rel; assumption.
    - apply geom_end_rel, geom_begin_rel; [split; exact (fun x => x)|assumption|exact R].
  Qed.
  Theorem wkt_heeds : forall l l' s, same_stream use_wkt l l' ->
    WktModel.k_out (fst (feed (WktModel.wkt_writer fmt c) l s)) =
    WktModel.k_out (fst (feed (WktModel.wkt_writer fmt c) l' s)) /\
    snd (feed (WktModel.wkt_writer fmt c) l s) = snd (feed (WktModel.wkt_writer fmt c) l' s).
  Proof.
    intros l l' s F.
    destruct (feed_rel _ (WktModel.wkt_writer fmt c) use_wkt wkt_rel) with (l := l) (l' := l') (s := s) (s' := s)
      as [A B].
    - intros e e' s1 s2 C R. apply wkt_step_rel; assumption.
    - intros i j n v s1 s2 C R. split; [exact R|reflexivity].
    - exact F.
    - apply wkt_rel_refl.
    - split; [apply A|exact B].
  Qed.
End Wkt.

(** ** CSV *)
Definition csv_rel (s s' : CsvModel.csvst) : Prop :=
  CsvModel.cs_csv s = CsvModel.cs_csv s' /\ CsvModel.cs_headers s = CsvModel.cs_headers s' /\
  CsvModel.cs_written s = CsvModel.cs_written s' /\ CsvModel.cs_row s = CsvModel.cs_row s' /\
  wkt_rel (CsvModel.cs_wkt s) (CsvModel.cs_wkt s').
Section Csv.
  Variable fmt32 : N -> string.
  Variable fmt : f64 -> string.
  Variable debug : bool.
  Variable d : dims.
  Lemma csv_wkt_rel : forall s s' e e', csv_rel s s' -> same_call use_wkt e e' ->
    csv_rel (fst (CsvModel.csv_wkt fmt d s e)) (fst (CsvModel.csv_wkt fmt d s' e')) /\
    snd (CsvModel.csv_wkt fmt d s e) = snd (CsvModel.csv_wkt fmt d s' e').
  Proof.
    intros s s' e e' (A & B & C & D & E) H. unfold CsvModel.csv_wkt.
    destruct (wkt_step_rel fmt (WktModel.mkWktCfg d WktModel.PlainWkt) e e' _ _ H E) as [X Y].
    destruct (WktModel.wkt_step fmt _ (CsvModel.cs_wkt s) e) as [w r],
             (WktModel.wkt_step fmt _ (CsvModel.cs_wkt s') e') as [w' r']. cbn [fst snd] in *.
    split; [|exact Y]. unfold csv_rel. cbn. refine (conj A (conj B (conj C (conj D X)))).
  Qed.
  Lemma offset_alike : forall s s' i j, csv_rel s s' -> zero_alike i j ->
    zero_alike (CsvModel.offset_geom_idx s i) (CsvModel.offset_geom_idx s' j).
  Proof.
    intros s s' i j (A & B & C & D & E) Z. unfold CsvModel.offset_geom_idx, CsvModel.geometry_started.
    destruct E as (_ & _ & O & _). rewrite O. destruct (negb _); [exact Z|split; exact (fun x => x)].
  Qed.
  Lemma csv_assert_rel : forall s s' b, csv_rel s s' ->
    csv_rel (fst (CsvModel.csv_assert debug b s)) (fst (CsvModel.csv_assert debug b s')) /\
    snd (CsvModel.csv_assert debug b s) = snd (CsvModel.csv_assert debug b s').
  Proof. intros s s' b R. unfold CsvModel.csv_assert. destruct (_ && _); split; try exact R; reflexivity. Qed.
  Lemma csv_feature_end_rel : forall s s', csv_rel s s' ->
    csv_rel (fst (CsvModel.csv_feature_end s)) (fst (CsvModel.csv_feature_end s')) /\
    snd (CsvModel.csv_feature_end s) = snd (CsvModel.csv_feature_end s').
  Proof.
    intros s s' (A & B & C & D & E). unfold CsvModel.csv_feature_end. rewrite <- A, <- B, <- C, <- D.
    assert (E' := E). destruct E' as (E1 & E2 & E3 & E4). rewrite <- E3.
    destruct (if CsvModel.cs_written s then _ else _) as [o [x|x]].
    - cbv zeta. destruct (CsvModel.csv_write_record _ _) as [o' [y|y]]; cbn [fst snd]; (split; [|reflexivity]);
        unfold csv_rel; cbn; refine (conj eq_refl (conj eq_refl (conj eq_refl (conj eq_refl _))));
        unfold wkt_rel; cbn; refine (conj E1 (conj E2 (conj eq_refl E4))).
    - cbn [fst snd]. split; [|reflexivity]. unfold csv_rel. cbn.
      refine (conj eq_refl (conj eq_refl (conj eq_refl (conj eq_refl E)))).
  Qed.
  Lemma csv_step_rel : forall e e' s s', same_call use_csv e e' -> csv_rel s s' ->
    csv_rel (fst (CsvModel.csv_step fmt debug d s e)) (fst (CsvModel.csv_step fmt debug d s' e')) /\
    snd (CsvModel.csv_step fmt debug d s e) = snd (CsvModel.csv_step fmt debug d s' e').
  Proof.
    intros e e' s s' C R. assert (Q := R). destruct Q as (A & B & W & D & E).
    destruct C; cbn [use_csv u_pos u_geom u_count u_members] in *; cbn [CsvModel.csv_step];
      try (apply csv_wkt_rel; [exact R|]; constructor; first [assumption | apply offset_alike; assumption]);
      try (split; [exact R|reflexivity]).
    - rewrite B. apply csv_assert_rel. exact R.
    - cbn [fst snd]. split; [|reflexivity]. unfold csv_rel. cbn.
      refine (conj A (conj eq_refl (conj W (conj D E)))).
    - rewrite D. apply csv_assert_rel. exact R.
    - apply csv_feature_end_rel. exact R.
    - rewrite D. apply csv_assert_rel. exact R.
    - unfold CsvModel.geometry_started. destruct E as (_ & _ & O & _). rewrite O. apply csv_assert_rel. exact R.
  Qed.
  Lemma csv_prop_rel : forall i n v s s', csv_rel s s' ->
    csv_rel (fst (CsvModel.csv_prop fmt32 fmt s i n v)) (fst (CsvModel.csv_prop fmt32 fmt s' i n v)) /\
    snd (CsvModel.csv_prop fmt32 fmt s i n v) = snd (CsvModel.csv_prop fmt32 fmt s' i n v).
  Proof.
    intros i n v s s' R. assert (Q := R). destruct Q as (A & B & W & D & E).
    unfold CsvModel.csv_prop. rewrite <- A, <- B, <- W, <- D.
    assert (X : forall h, csv_rel
      (CsvModel.mkCsv (CsvModel.cs_csv s) h (CsvModel.cs_written s) (CsvModel.cs_row s ++ [show_colval fmt32 fmt v]) (CsvModel.cs_wkt s))
      (CsvModel.mkCsv (CsvModel.cs_csv s) h (CsvModel.cs_written s) (CsvModel.cs_row s ++ [show_colval fmt32 fmt v]) (CsvModel.cs_wkt s'))).
    { intros h. unfold csv_rel. cbn. refine (conj eq_refl (conj eq_refl (conj eq_refl (conj eq_refl E)))). }
    destruct (CsvModel.cs_written s).
    - destruct (nth_error _ _) as [h|]; [destruct (String.eqb n h)|]; cbn [fst snd]; split; try apply X; try exact R; reflexivity.
    - cbn [fst snd]. split; [apply X|reflexivity].
  Qed.
  Theorem csv_heeds : forall l l' s, same_stream use_csv l l' ->
    CsvModel.cs_csv (fst (feed (CsvModel.csv_writer fmt32 fmt debug d) l s)) =
    CsvModel.cs_csv (fst (feed (CsvModel.csv_writer fmt32 fmt debug d) l' s)) /\
    snd (feed (CsvModel.csv_writer fmt32 fmt debug d) l s) = snd (feed (CsvModel.csv_writer fmt32 fmt debug d) l' s).
  Proof.
    intros l l' s F.
    destruct (feed_rel _ (CsvModel.csv_writer fmt32 fmt debug d) use_csv csv_rel) with (l := l) (l' := l') (s := s) (s' := s)
      as [A B].
    - intros e e' s1 s2 C R. apply csv_step_rel; assumption.
    - intros i j n v s1 s2 C R. cbn [use_csv u_prop] in C. unfold same in C. subst j. apply csv_prop_rel. exact R.
    - exact F.
    - unfold csv_rel. refine (conj eq_refl (conj eq_refl (conj eq_refl (conj eq_refl (wkt_rel_refl _))))).
    - split; [apply A|exact B].
  Qed.
End Csv.


(** ** Processors that pass callbacks on *)
Definition wrap_event (f : f64 -> f64 -> f64 * f64) (e : event) : event :=
  match e with
  | Xy x y i => Xy (fst (f x y)) (snd (f x y)) i
  | Coord x y z m t tm i => Coord (fst (f x y)) (snd (f x y)) z m t tm i
  | e => e
  end.
Lemma wrap_step_event : forall S (p : proc S) f s e, p_step (wrapped_xy f p) s e = p_step p s (wrap_event f e).
Proof. intros S p f s e. destruct e; cbn [wrapped_xy p_step wrap_step wrap_event]; try reflexivity; destruct (f x y); reflexivity. Qed.
Definition wrap_obs (f : f64 -> f64 -> f64 * f64) (o : obs) : obs :=
  match o with OEv e => OEv (wrap_event f e) | o => o end.
Lemma feed_wrapped : forall S (p : proc S) f l s, feed (wrapped_xy f p) l s = feed p (map (wrap_obs f) l) s.
Proof.
  intros S p f. induction l as [|[e|i n v] l IH]; intros s; cbn [feed map wrap_obs].
  - reflexivity.
  - rewrite wrap_step_event. destruct (p_step p s (wrap_event f e)) as [s' [x|x]]; [apply IH|reflexivity].
  - cbn [wrapped_xy p_prop]. destruct (p_prop p s i n v) as [s' [x|x]]; [apply IH|reflexivity].
Qed.
Theorem wrapped_heeds : forall S (p : proc S) f u, heeds_only u p -> heeds_only u (wrapped_xy f p).
Proof.
  intros S p f u H l l' s F. rewrite !feed_wrapped. apply H. clear -F.
  induction F as [|o o' l l' O F IH]; cbn [map]; constructor; [|exact IH].
  destruct O as [e e' C|i j n v C]; cbn [wrap_obs]; constructor; [|exact C].
  destruct C; cbn [wrap_event]; constructor; assumption.
Qed.
Theorem datasource_heeds : forall S (p : proc S) u, heeds_only u p -> heeds_only u (datasource_geom p).
Proof.
  intros S p u H. apply heeds_step; [|reflexivity].
  intros e e' s C. assert (X := heeds_step_inv S p u H e e' s C).
  destruct C; cbn [datasource_geom p_step ds_step]; first [exact X|reflexivity].
Qed.
(** equal up to the answer to a property callback, which [feed] drops *)
Definition drop {A} (r : res A) : res unit := match r with Ok _ => Ok tt | Err e => Err e end.
Lemma heeds_prop_inv : forall S (p : proc S) u, heeds_only u p -> forall i j n v s, u_prop u i j ->
  fst (p_prop p s i n v) = fst (p_prop p s j n v) /\ drop (snd (p_prop p s i n v)) = drop (snd (p_prop p s j n v)).
Proof.
  intros S p u H i j n v s C.
  specialize (H [OProp i n v] [OProp j n v] s (Forall2_cons _ _ (so_prop u i j n v C) (Forall2_nil _))).
  cbn [feed] in H.
  destruct (p_prop p s i n v) as [s1 [x|x]], (p_prop p s j n v) as [s2 [y|y]]; cbn [fst snd drop]; split; congruence.
Qed.
Lemma heeds_step_drop : forall S (p : proc S) u,
  (forall e e' s, same_call u e e' -> p_step p s e = p_step p s e') ->
  (forall i j n v s, u_prop u i j ->
     fst (p_prop p s i n v) = fst (p_prop p s j n v) /\ drop (snd (p_prop p s i n v)) = drop (snd (p_prop p s j n v))) ->
  heeds_only u p.
Proof.
  intros S p u He Hp l l' s F. revert s. induction F as [|o o' l l' O F IH]; intros s; cbn [feed].
  - reflexivity.
  - destruct O as [e e' C|i j n v C].
    + rewrite (He e e' s C). destruct (p_step p s e') as [s' [x|x]]; [apply IH|reflexivity].
    + destruct (Hp i j n v s C) as [A B].
      destruct (p_prop p s i n v) as [s1 [x|x]], (p_prop p s j n v) as [s2 [y|y]]; cbn [fst snd drop] in *;
        try discriminate B; subst s2; [apply IH|]. injection B as ->. reflexivity.
Qed.
Theorem mux_heeds : forall S1 S2 (p1 : proc S1) (p2 : proc S2) u, heeds_only u p1 -> heeds_only u p2 ->
  heeds_only u (multiplexer p1 p2).
Proof.
  intros S1 S2 p1 p2 u H1 H2. apply heeds_step_drop.
  - intros e e' [s1 s2] C.
    assert (X1 := heeds_step_inv S1 p1 u H1 e e' s1 C). assert (X2 := heeds_step_inv S2 p2 u H2 e e' s2 C).
    cbn [multiplexer p_step].
    destruct C; cbn [mux_step]; try reflexivity; unfold mux_both; rewrite X1, X2; reflexivity.
  - intros i j n v [s1 s2] C. cbn [multiplexer p_prop mux_prop].
    destruct (heeds_prop_inv S1 p1 u H1 i j n v s1 C) as [A1 B1].
    destruct (heeds_prop_inv S2 p2 u H2 i j n v s2 C) as [A2 B2].
    destruct (p_prop p1 s1 i n v) as [a [x|x]], (p_prop p1 s1 j n v) as [b [y|y]], (p_prop p2 s2 i n v) as [a' [x'|x']],
      (p_prop p2 s2 j n v) as [b' [y'|y']]; cbn [fst snd drop] in *; subst; try discriminate; split; try reflexivity; congruence.
Qed.

(** ** Exactness *)
Lemma append_len : forall a b, String.length (a ++ b)%string = String.length a + String.length b.
Proof. induction a as [|c a IH]; intros b; cbn; [reflexivity|rewrite IH; reflexivity]. Qed.
Lemma zero_alike_dec : forall i j, zero_alike i j <-> Nat.ltb 0 i = Nat.ltb 0 j.
Proof.
  intros i j. split; [apply ltb_zero_alike|]. unfold zero_alike.
  destruct i, j; cbn; intros E; try discriminate E; split; intros X; try reflexivity; discriminate X.
Qed.
Lemma comma_len : forall s i, String.length (WktModel.k_out (WktModel.wkt_comma s i)) =
  String.length (WktModel.k_out s) + (if Nat.ltb 0 i then 1 else 0).
Proof.
  intros s i. unfold WktModel.wkt_comma. destruct (Nat.ltb 0 i); [|lia].
  unfold WktModel.put. cbn [WktModel.k_out]. rewrite append_len. reflexivity.
Qed.
Theorem wkt_position_exact : forall fmt c s x y i j,
  WktModel.k_out (fst (WktModel.wkt_step fmt c s (Xy x y i))) =
  WktModel.k_out (fst (WktModel.wkt_step fmt c s (Xy x y j))) <-> zero_alike i j.
Proof.
  intros fmt c s x y i j. split.
  - intros E. apply (f_equal String.length) in E. cbn [WktModel.wkt_step fst] in E. apply zero_alike_dec.
    destruct (f64_is_nan x && f64_is_nan y); unfold WktModel.put in E; cbn [WktModel.k_out] in E;
      rewrite !append_len, !comma_len in E; destruct (Nat.ltb 0 i), (Nat.ltb 0 j); try reflexivity; lia.
  - intros Z. destruct (wkt_step_rel fmt c (Xy x y i) (Xy x y j) s s) as [A _].
    + constructor. exact Z.
    + apply wkt_rel_refl.
    + apply A.
Qed.
Theorem wkt_size_exact : forall fmt c s t a b i,
  WktModel.k_out (fst (WktModel.wkt_step fmt c s (LineStringBegin t a i))) =
  WktModel.k_out (fst (WktModel.wkt_step fmt c s (LineStringBegin t b i))) <-> zero_alike a b.
Proof.
  intros fmt c s t a b i. split.
  - intros E. apply (f_equal String.length) in E. cbn [WktModel.wkt_step fst] in E.
    unfold WktModel.geom_begin in E. cbv zeta in E.
    set (s1 := WktModel.wkt_comma (WktModel.wkt_header c s) i) in E. clearbody s1. unfold zero_alike.
    destruct (Nat.eqb_spec a 0) as [A|A], (Nat.eqb_spec b 0) as [B|B]; try (split; intros; congruence);
      exfalso; destruct t; unfold WktModel.put in E; cbn [WktModel.k_out] in E; rewrite !append_len in E;
      cbn [String.length] in E; lia.
  - intros Z. destruct (wkt_step_rel fmt c (LineStringBegin t a i) (LineStringBegin t b i) s s) as [A _].
    + constructor; [exact Z|split; exact (fun x => x)].
    + apply wkt_rel_refl.
    + apply A.
Qed.
Theorem json_position_exact : forall fmt s x y i j,
  fst (GeoJsonModel.gj_step fmt s (Xy x y i)) = fst (GeoJsonModel.gj_step fmt s (Xy x y j)) <-> zero_alike i j.
Proof.
  intros fmt s x y i j. split.
  - intros E. apply (f_equal String.length) in E. cbn [GeoJsonModel.gj_step fst] in E. apply zero_alike_dec.
    unfold GeoJsonModel.gj_comma in E. rewrite !append_len in E.
    destruct (Nat.ltb 0 i), (Nat.ltb 0 j); try reflexivity; rewrite !append_len in E; cbn [String.length] in E; lia.
  - intros Z. rewrite (gj_step_alike fmt (Xy x y i) (Xy x y j)); [reflexivity|constructor; exact Z].
Qed.
Theorem json_feature_exact : forall fmt s i j,
  fst (GeoJsonModel.gj_step fmt s (FeatureBegin i)) = fst (GeoJsonModel.gj_step fmt s (FeatureBegin j)) <-> zero_alike i j.
Proof.
  intros fmt s i j. split.
  - intros E. apply (f_equal String.length) in E. cbn [GeoJsonModel.gj_step fst] in E. apply zero_alike_dec.
    rewrite !append_len in E. destruct (Nat.ltb 0 i), (Nat.ltb 0 j); try reflexivity; rewrite ?append_len in E;
      cbn [String.length] in E; lia.
  - intros Z. rewrite (gj_step_alike fmt (FeatureBegin i) (FeatureBegin j)); [reflexivity|constructor; exact Z].
Qed.
Theorem wkb_size_exact : forall c s a b i,
  snd (WkbModel.wkb_step c s (CollectionBegin a i)) = Ok tt ->
  (WkbModel.w_out (fst (WkbModel.wkb_step c s (CollectionBegin a i))) =
   WkbModel.w_out (fst (WkbModel.wkb_step c s (CollectionBegin b i))) <-> u32_alike a b).
Proof.
  intros c s a b i K. cbn [WkbModel.wkb_step] in *. split.
  - intros E. unfold WkbModel.header_size in *.
    destruct (WkbModel.write_header c (WkbModel.nest_incr s) WkbModel.TGeometryCollection) as [s' [x|x]];
      cbn [fst snd] in *; [|discriminate K].
    unfold WkbModel.out_app in E. cbn [WkbModel.w_out] in E. apply app_inv_head in E.
    exact (w_u32_alike_inv _ _ _ E).
  - intros Z. rewrite (header_size_alike _ _ _ _ _ Z). reflexivity.
Qed.
Theorem geos_size_exact : forall lib s t a b i,
  GeosModel.geos_step lib s (LineStringBegin t a i) = GeosModel.geos_step lib s (LineStringBegin t b i) <-> u32_alike a b.
Proof.
  intros lib s t a b i. split.
  - intros E. cbn [GeosModel.geos_step] in E. apply (f_equal fst) in E. cbn [fst] in E.
    apply (f_equal GeosModel.s_cs) in E. unfold GeosModel.add_seq in E. cbn [GeosModel.s_cs GeosModel.set_cs] in E.
    apply app_inv_head in E. injection E as E. apply (f_equal (@List.length _)) in E.
    unfold GeosModel.new_seq in E. rewrite !repeat_length in E. apply N2Nat.inj in E. exact E.
  - intros Z. cbn [GeosModel.geos_step]. unfold GeosModel.add_seq, GeosModel.new_seq. unfold u32_alike in Z.
    rewrite Z. reflexivity.
Qed.
Theorem geo_size_exact : forall debug s t a b i, GeoModel.g_coords s = None ->
  (GeoModel.geo_step debug s (LineStringBegin t a i) = GeoModel.geo_step debug s (LineStringBegin t b i) <->
   budget_alike [16]%N a b).
Proof.
  intros debug s t a b i N0. split.
  - intros E. cbn [GeoModel.geo_step] in E. rewrite N0 in E. unfold GeoModel.debug_assert in E. cbn in E.
    rewrite andb_false_r in E. constructor; [|constructor].
    change GeoModel.coord_size with 16%N in E.
    unfold GeoModel.reserve, GeoModel.bounded_vec, GeoModel.validate_capacity, GeoModel.saturating_mul in E.
    change GeoModel.max_prealloc_bytes with 16777216%N in E.
    assert (M : forall n, (16777216 <? N.min n (2 ^ 64 - 1))%N = (16777216 <? n)%N).
    { intros n. destruct (N.ltb_spec 16777216 n) as [L|L].
      - apply N.ltb_lt. apply N.min_glb_lt; [exact L|reflexivity].
      - apply N.ltb_ge. etransitivity; [apply N.le_min_l|exact L]. }
    rewrite !M in E.
    destruct (N.ltb_spec 16777216 (N.of_nat a * 16)) as [A|A], (N.ltb_spec 16777216 (N.of_nat b * 16)) as [B|B];
      try discriminate E; split; intros X; try assumption; exfalso;
      first [exact (N.lt_irrefl _ (N.lt_le_trans _ _ _ A X))|exact (N.lt_irrefl _ (N.lt_le_trans _ _ _ B X))].
  - intros Z. apply geo_step_alike. constructor; [exact Z|exact I].
Qed.

(** ** Where the numbers do matter *)
Lemma gdal_numbers_matter : ~ heeds_only use_none (GdalModel.gdal_writer xy_dims).
Proof.
  intros H.
  specialize (H [OEv (LineStringBegin true 2 0); OEv (Xy 1%N 2%N 0)] [OEv (LineStringBegin true 2 0); OEv (Xy 1%N 2%N 1)]
                (GdalModel.gw_with xy_dims)).
  assert (F : same_stream use_none [OEv (LineStringBegin true 2 0); OEv (Xy 1%N 2%N 0)]
                                   [OEv (LineStringBegin true 2 0); OEv (Xy 1%N 2%N 1)]).
  { repeat constructor. }
  specialize (H F). vm_compute in H. discriminate H.
Qed.
Lemma tess_numbers_matter : forall narrow ly, ~ heeds_only use_none (TessModel.tessellator narrow ly).
Proof.
  intros narrow ly H.
  specialize (H [OEv (Xy 1%N 2%N 0)] [OEv (Xy 1%N 2%N 1)] (TessModel.mkTs false [] false [])).
  assert (F : same_stream use_none [OEv (Xy 1%N 2%N 0)] [OEv (Xy 1%N 2%N 1)]).
  { repeat constructor. }
  specialize (H F). cbn [feed] in H. revert H.
  cbn [TessModel.tessellator p_step TessModel.tess_step Nat.eqb]. unfold TessModel.b_begin, TessModel.b_line.
  cbn [TessModel.set_started TessModel.ts_open TessModel.ts_path TessModel.ts_started TessModel.ts_out].
  destruct (TessModel.checks ly); cbn [andb orb negb];
    [destruct (negb (TessModel.point_ok ly _))|]; intros H; discriminate H.
Qed.
Lemma csv_numbers_matter : forall fmt32 fmt debug d, exists l l' s,
  same_stream (mkUse same same same any same same) l l' /\
  snd (feed (CsvModel.csv_writer fmt32 fmt debug d) l s) <> snd (feed (CsvModel.csv_writer fmt32 fmt debug d) l' s).
Proof.
  intros fmt32 fmt debug d.
  exists [OProp 0 "a"%string (CBool true)], [OProp 1 "a"%string (CBool true)],
    (CsvModel.mkCsv CsvModel.csv_out_init ["geometry"; "a"]%string true [] (WktModel.wkt_init None)).
  split; [repeat constructor|]. vm_compute. discriminate.
Qed.
