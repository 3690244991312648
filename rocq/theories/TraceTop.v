(** Lemmas behind C82: which callbacks leave no trace. *)
From Coq Require Import String Ascii.
From Coq Require Import List NArith ZArith Lia Bool.
From Verif Require Import Base BaseLemmas Float Event ProcModel Claims TraceSpec.
From Verif Require WkbModel WktModel GeoJsonModel CsvModel SvgModel GeoModel MvtModel GeosModel GdalModel
  TessModel.
Import ListNotations.
Local Open Scope list_scope.

Lemma feed_app : forall S (p : proc S) l1 l2 s,
  feed p (l1 ++ l2) s = match feed p l1 s with (s', Ok _) => feed p l2 s' | (s', Err x) => (s', Err x) end.
Proof.
  intros S p. induction l1 as [|[e|i n v] l1 IH]; intros l2 s; cbn [app feed].
  - reflexivity.
  - destruct (p_step p s e) as [s' [x|x]]; [apply IH|reflexivity].
  - destruct (p_prop p s i n v) as [s' [x|x]]; [apply IH|reflexivity].
Qed.
(** one callback, answers to properties dropped *)
Definition one {S} (p : proc S) (o : obs) (s : S) : S * res unit := feed p [o] s.
Lemma feed_cons : forall S (p : proc S) o l s,
  feed p (o :: l) s = match one p o s with (s', Ok _) => feed p l s' | (s', Err x) => (s', Err x) end.
Proof. intros S p o l s. exact (feed_app S p [o] l s). Qed.
Lemma silent_traceless : forall S O (out : S -> O) (p : proc S) s0 o,
  (forall s, one p o s = (s, Ok tt)) -> traceless out p s0 o.
Proof.
  intros S O out p s0 o H l1 l2. rewrite !feed_app. destruct (feed p l1 s0) as [s [x|x]]; [|split; reflexivity].
  rewrite feed_cons, H. split; reflexivity.
Qed.
(** the same up to a relation that the writer keeps and the output does not see *)
Lemma related_traceless : forall S O (out : S -> O) (p : proc S) s0 o (R : S -> S -> Prop),
  (forall s s', R s s' -> out s = out s') ->
  (forall s, R s s) ->
  (forall s, R (fst (one p o s)) s /\ snd (one p o s) = Ok tt) ->
  (forall o s s', R s s' -> R (fst (one p o s)) (fst (one p o s')) /\ snd (one p o s) = snd (one p o s')) ->
  traceless out p s0 o.
Proof.
  intros S O out p s0 o R Ho Hr H1 H2 l1 l2. rewrite !feed_app. destruct (feed p l1 s0) as [s [x|x]]; [|split; reflexivity].
  rewrite feed_cons. destruct (H1 s) as [A B]. destruct (one p o s) as [s' [y|y]]; [|discriminate B]. cbn [fst] in A.
  clear -Ho H2 A. revert s s' A. induction l2 as [|o2 l2 IH]; intros s s' A.
  - cbn. split; [apply Ho; exact A|reflexivity].
  - rewrite (feed_cons S p o2 l2 s), (feed_cons S p o2 l2 s'). destruct (H2 o2 s' s A) as [B C].
    destruct (one p o2 s') as [a [x|x]], (one p o2 s) as [b [y|y]]; cbn [fst snd] in *; try discriminate C.
    + apply IH. exact B.
    + split; [apply Ho; exact B|exact C].
Qed.
Lemma all_traceless : forall S O (out : S -> O) (p : proc S) s0 ign,
  (forall o, ign o = true -> traceless out p s0 o) ->
  forall l, let l' := filter (fun o => negb (ign o)) l in
    out (fst (feed p l s0)) = out (fst (feed p l' s0)) /\ snd (feed p l s0) = snd (feed p l' s0).
Proof.
  intros S O out p s0 ign H.
  assert (G : forall l l1, let l' := filter (fun o => negb (ign o)) l in
    out (fst (feed p (l1 ++ l) s0)) = out (fst (feed p (l1 ++ l') s0)) /\ snd (feed p (l1 ++ l) s0) = snd (feed p (l1 ++ l') s0)).
  { induction l as [|o l IH]; intros l1; cbn [filter]; cbv zeta in *.
    - split; reflexivity.
    - destruct (ign o) eqn:E; cbn [negb].
      + destruct (H o E l1 l) as [A B]. rewrite A, B. apply IH.
      + change (o :: l) with ([o] ++ l). change (o :: filter (fun o0 => negb (ign o0)) l) with ([o] ++ filter (fun o0 => negb (ign o0)) l).
        rewrite !app_assoc. apply IH. }
  intros l. exact (G l []).
Qed.
Lemma ignores_by : forall S O (out : S -> O) (p : proc S) s0 ign,
  (forall o, ign o = true -> traceless out p s0 o) ->
  (forall o, ign o = false -> ~ traceless out p s0 o) ->
  ignores out p s0 ign.
Proof.
  intros S O out p s0 ign A B. split; [|apply all_traceless; exact A].
  intros o. split; [|apply A]. intros T. destruct (ign o) eqn:E; [reflexivity|]. destruct (B o E T).
Qed.

(** one pair of streams shows a trace *)
Ltac shows l1 l2 :=
  let T := fresh "T" in let A := fresh "A" in let B := fresh "B" in
  intros T; destruct (T l1 l2) as [A B]; clear T;
  cbn in A, B; try discriminate A; try discriminate B; try congruence.

(** ** Bounds *)
Theorem bounds_ignores : ignores (fun s => s) bounds_proc None ign_bounds.
Proof.
  apply ignores_by; intros [[]|] E; try discriminate E; try (apply silent_traceless; reflexivity); shows (@nil obs) (@nil obs).
Qed.

(** ** SVG *)
Lemma app_len : forall a b, String.length (a ++ b)%string = String.length a + String.length b.
Proof. induction a as [|c a IH]; intros b; cbn; [reflexivity|rewrite IH; reflexivity]. Qed.
Lemma grown : forall a b : string, String.length a <> String.length b -> a <> b.
Proof. intros a b H E. apply H. rewrite E. reflexivity. Qed.
Lemma app_nil : forall a, (a ++ "")%string = a.
Proof. induction a as [|c a IH]; cbn; [reflexivity|rewrite IH; reflexivity]. Qed.
(** the text is longer *)
Ltac longer l1 l2 :=
  let T := fresh "T" in let A := fresh "A" in
  intros T; destruct (T l1 l2) as [A _]; clear T; apply (f_equal String.length) in A; cbn in A;
  rewrite ?app_len in A; cbn in A; lia.
Theorem svg_ignores : forall fmt c, ignores (fun s => s) (SvgModel.svg_writer fmt c) ""%string ign_svg.
Proof.
  intros fmt c. apply ignores_by; intros [[]|] E; try discriminate E.
  all: try (apply silent_traceless; intros ?; cbn; rewrite ?app_nil; reflexivity).
  all: try (shows (@nil obs) (@nil obs); fail).
  all: try (longer (@nil obs) (@nil obs)).
  all: try (destruct tagged; shows (@nil obs) (@nil obs); fail).

Qed.

(** ** GeoJSON *)
Theorem json_ignores : forall fmt32 fmt d, ignores (fun s => s) (GeoJsonModel.geojson_writer fmt32 fmt d) ""%string ign_json.
Proof.
  intros fmt32 fmt d. apply ignores_by; intros [[]|[|i] n []] E; try discriminate E.
  all: try (apply silent_traceless; intros ?; cbn; rewrite ?app_nil; reflexivity).
  all: try (shows (@nil obs) (@nil obs); fail).
  all: try (destruct idx; longer (@nil obs) (@nil obs)).
  all: destruct tagged; try (shows (@nil obs) (@nil obs); fail); destruct idx; longer (@nil obs) (@nil obs).
Qed.
Theorem lines_ignores : forall fmt32 fmt, ignores snd (GeoJsonModel.geojson_line_writer fmt32 fmt) (0, ""%string) ign_lines.
Proof.
  intros fmt32 fmt. apply ignores_by; intros [[]|[|i] n []] E; try discriminate E.
  all: try (apply silent_traceless; intros [? ?]; cbn; rewrite ?app_nil; reflexivity).
  all: try (shows (@nil obs) (@nil obs); fail).
  all: try (destruct idx; longer (@nil obs) (@nil obs)).
  all: destruct tagged; try (shows (@nil obs) (@nil obs); fail); destruct idx; longer (@nil obs) (@nil obs).
Qed.

(** ** GDAL *)
Theorem gdal_ignores : forall d, ignores GdalModel.g_geom (GdalModel.gdal_writer d) (GdalModel.gw_with d) ign_gdal.
Proof.
  intros [[] [] [] []]; apply ignores_by; intros [[]|] E; try discriminate E.
  all: try (apply silent_traceless; intros ?; reflexivity).
  all: try (shows (@nil obs) (@nil obs); fail).
  all: try (shows [OEv (MultiPointBegin 0 0)] (@nil obs); fail).
  all: try (shows [OEv (PointBegin 0)] (@nil obs); fail).
  all: destruct tagged; try (shows (@nil obs) (@nil obs); fail).
Qed.

(** ** GEOS *)
Theorem geos_ignores : forall lib, GeosModel.ring_ok lib [] = true -> GeosModel.poly_ok lib [] [] = true ->
  ignores GeosModel.s_geom (GeosModel.geos_writer lib) GeosModel.gs_init ign_geos.
Proof.
  intros lib HR HP. apply ignores_by; intros o E.
  - destruct o as [[]|]; try discriminate E; try (apply silent_traceless; intros ?; reflexivity).
    destruct tagged; [discriminate E|]. apply silent_traceless; intros ?; reflexivity.
  - destruct o as [[]|]; try discriminate E.
    all: try (destruct tagged; [|discriminate E]).
    all: try (shows (@nil obs) (@nil obs); fail).
    + intros T. destruct (T [OEv (Srid (Some (match s with Some z => z + 1 | None => 1 end)%Z))] [OEv (PointBegin 0); OEv (PointEnd 0)]) as [A _].
      cbn in A. destruct s; [|discriminate A]. injection A as A. lia.
    + intros T. destruct (T [] [OEv (PointEnd 0)]) as [_ B]. cbn in B. discriminate B.
    + intros T. destruct (T [] [OEv (MultiPointEnd 0)]) as [_ B].
      cbn [app feed GeosModel.geos_writer p_step GeosModel.geos_step] in B. unfold GeosModel.add_seq in B.
      cbn [GeosModel.set_cs GeosModel.s_cs app rev GeosModel.gs_init snd] in B. discriminate B.
    + intros T. destruct (T [] [OEv (LineStringEnd true 0)]) as [_ B].
      cbn [app feed GeosModel.geos_writer p_step GeosModel.geos_step] in B. unfold GeosModel.add_seq in B.
      destruct tagged; cbn [GeosModel.set_cs GeosModel.s_cs app rev GeosModel.gs_init snd] in B;
        destruct (GeosModel.line_ok lib (GeosModel.new_seq size)); discriminate B.
    + intros T. destruct (T [OEv (LineStringBegin true 0 0)] [OEv (LineStringEnd true 0)]) as [_ B].
      cbn [app feed GeosModel.geos_writer p_step GeosModel.geos_step] in B. unfold GeosModel.add_seq in B.
      destruct (GeosModel.capacity_ok (GeosModel.seq_bytes lib) size);
        cbn [GeosModel.set_cs GeosModel.s_cs app rev GeosModel.gs_init snd] in B;
        destruct (GeosModel.line_ok lib (GeosModel.new_seq 0)); discriminate B.
    + intros T. destruct (T [OEv (LineStringBegin true 0 0)] [OEv (LineStringEnd true 0)]) as [_ B].
      cbn [app feed GeosModel.geos_writer p_step GeosModel.geos_step] in B. unfold GeosModel.add_seq in B.
      destruct (GeosModel.capacity_ok (GeosModel.seq_bytes lib) size);
        cbn [GeosModel.set_cs GeosModel.s_cs app rev GeosModel.gs_init snd] in B;
        destruct (GeosModel.line_ok lib (GeosModel.new_seq 0)); discriminate B.
    + intros T. destruct (T [OEv (LineStringBegin false 0 0); OEv (PolygonEnd false 0)] [OEv (MultiPolygonEnd 0)]) as [A B].
      rewrite !feed_app in A, B.
      assert (E1 : feed (GeosModel.geos_writer lib) [OEv (LineStringBegin false 0 0); OEv (PolygonEnd false 0)] GeosModel.gs_init =
        (GeosModel.set_polys GeosModel.gs_init [([], [])], Ok tt)).
      { cbn.
        match goal with |- context[GeosModel.ring_ok lib ?e] => replace (GeosModel.ring_ok lib e) with true by (symmetry; exact HR) end. cbn.
        match goal with |- context[GeosModel.poly_ok lib ?e ?i] => replace (GeosModel.poly_ok lib e i) with true by (symmetry; exact HP) end. reflexivity. }
      rewrite E1 in A, B. cbn in A, B.
      destruct (GeosModel.capacity_ok (GeosModel.geom_bytes lib) size); cbn in A, B; [discriminate A|discriminate B].
Qed.

(** ** WKT *)
Definition srid_free (s s' : WktModel.wktst) : Prop :=
  WktModel.k_first s = WktModel.k_first s' /\ WktModel.k_sizes s = WktModel.k_sizes s' /\ WktModel.k_out s = WktModel.k_out s'.
Lemma header_srid : forall c s, WktModel.k_srid (WktModel.wkt_header c s) = WktModel.k_srid s.
Proof.
  intros c [sr f sz o]. unfold WktModel.wkt_header. cbn. destruct f, (WktModel.k_dialect c); try reflexivity.
  destruct sr as [[]|]; reflexivity.
Qed.
Lemma begin_srid : forall c s tag tagged n i, WktModel.k_srid (WktModel.geom_begin c s tag tagged n i) = WktModel.k_srid s.
Proof.
  intros c s tag tagged n i. unfold WktModel.geom_begin, WktModel.wkt_comma.
  destruct (Nat.eqb n 0), tagged, (Nat.ltb 0 i); cbn; apply header_srid.
Qed.
Lemma end_srid : forall s, WktModel.k_srid (fst (WktModel.geom_end s)) = WktModel.k_srid s.
Proof. intros s. unfold WktModel.geom_end. destruct (WktModel.k_sizes s) as [|[|n] r]; reflexivity. Qed.
Lemma srid_kept : forall fmt c z o s, WktModel.k_srid s = Some z ->
  WktModel.k_srid (fst (one (WktModel.wkt_writer fmt c) o s)) = Some z.
Proof.
  intros fmt c z o s H. unfold one. destruct o as [e|i n v]; [|exact H].
  replace (feed (WktModel.wkt_writer fmt c) [OEv e] s) with (WktModel.wkt_step fmt c s e)
    by (cbn; destruct (WktModel.wkt_step fmt c s e) as [? [[]|?]]; reflexivity).
  destruct e; cbn [WktModel.wkt_step fst default_step]; rewrite ?begin_srid, ?end_srid, ?begin_srid; try exact H.
  - cbn. rewrite H. reflexivity.
  - unfold WktModel.wkt_comma. destruct (Nat.ltb 0 idx), (f64_is_nan x && f64_is_nan y); exact H.
  - unfold WktModel.wkt_comma. destruct (Nat.ltb 0 idx), (_ && _ && _ && _); try exact H; destruct z0, m; exact H.
Qed.
Lemma srid_kept_all : forall fmt c z l s, WktModel.k_srid s = Some z ->
  WktModel.k_srid (fst (feed (WktModel.wkt_writer fmt c) l s)) = Some z.
Proof.
  intros fmt c z. induction l as [|o l IH]; intros s H; [exact H|]. rewrite feed_cons.
  pose proof (srid_kept fmt c z o s H) as K. destruct (one (WktModel.wkt_writer fmt c) o s) as [s' [x|x]]; [apply IH|]; exact K.
Qed.
Lemma plain_free : forall fmt c o s s', WktModel.k_dialect c = WktModel.PlainWkt -> srid_free s s' ->
  srid_free (fst (one (WktModel.wkt_writer fmt c) o s)) (fst (one (WktModel.wkt_writer fmt c) o s')) /\
  snd (one (WktModel.wkt_writer fmt c) o s) = snd (one (WktModel.wkt_writer fmt c) o s').
Proof.
  intros fmt c o [sr f sz ou] [sr' f' sz' ou'] Hd (A & B & C). cbn in A, B, C. subst.
  assert (H : forall s, WktModel.wkt_header c s = s).
  { intros s. unfold WktModel.wkt_header. rewrite Hd. destruct (WktModel.k_first s); reflexivity. }
  assert (Hb : forall s s' tag tagged n i, srid_free s s' ->
    srid_free (WktModel.geom_begin c s tag tagged n i) (WktModel.geom_begin c s' tag tagged n i)).
  { intros [] [] tag tagged n i (X & Y & Z). cbn in X, Y, Z. subst. unfold WktModel.geom_begin, WktModel.wkt_comma. rewrite !H.
    destruct (Nat.eqb n 0), tagged, (Nat.ltb 0 i); repeat split; reflexivity. }
  assert (He : forall s s', srid_free s s' ->
    srid_free (fst (WktModel.geom_end s)) (fst (WktModel.geom_end s')) /\ snd (WktModel.geom_end s) = snd (WktModel.geom_end s')).
  { intros [] [] (X & Y & Z). cbn in X, Y, Z. subst. unfold WktModel.geom_end. cbn [WktModel.k_sizes].
    destruct k_sizes0 as [|[|n] r]; repeat split; reflexivity. }
  unfold one. destruct o as [e|i n v]; [|repeat split; reflexivity].
  assert (Hs : forall s, feed (WktModel.wkt_writer fmt c) [OEv e] s = WktModel.wkt_step fmt c s e)
    by (intros s; cbn; destruct (WktModel.wkt_step fmt c s e) as [? [[]|?]]; reflexivity).
  rewrite !Hs.
  assert (R0 : srid_free (WktModel.mkWktSt sr f' sz' ou') (WktModel.mkWktSt sr' f' sz' ou')) by (repeat split; reflexivity).
  destruct e; cbn [WktModel.wkt_step default_step].
  all: try (split; [apply Hb; exact R0|reflexivity]).
  all: try (apply He; try apply Hb; exact R0).
  all: try (repeat split; reflexivity).
  - unfold WktModel.wkt_comma. destruct (Nat.ltb 0 idx), (f64_is_nan x && f64_is_nan y); repeat split; reflexivity.
  - unfold WktModel.wkt_comma. destruct (Nat.ltb 0 idx), (_ && _ && _ && _); try (repeat split; reflexivity);
      destruct z, m; repeat split; reflexivity.
Qed.
Lemma begin_grows : forall c s tag tagged n i,
  (String.length (WktModel.k_out s) < String.length (WktModel.k_out (WktModel.geom_begin c s tag tagged n i)))%nat.
Proof.
  intros c s tag tagged n i. unfold WktModel.geom_begin, WktModel.wkt_comma.
  assert (Hh : (String.length (WktModel.k_out s) <= String.length (WktModel.k_out (WktModel.wkt_header c s)))%nat).
  { unfold WktModel.wkt_header. destruct (WktModel.k_first s), (WktModel.k_dialect c); try lia.
    destruct s as [[[]|] ? ? ?]; cbn; rewrite ?app_len; lia. }
  destruct (Nat.eqb n 0), tagged, (Nat.ltb 0 i); cbn; rewrite ?app_len; cbn; lia.
Qed.
Theorem wkt_ignores : forall fmt c srid,
  ignores WktModel.k_out (WktModel.wkt_writer fmt c) (WktModel.wkt_init srid)
    (ign_wkt (is_ewkt (WktModel.k_dialect c)) srid).
Proof.
  intros fmt c srid. apply ignores_by; intros o E.
  - destruct o as [[]|]; try discriminate E.
    all: try (apply silent_traceless; intros ?; reflexivity).
    destruct s as [z|]; [|apply silent_traceless; intros [[] ? ? ?]; reflexivity].
    destruct (WktModel.k_dialect c) eqn:Ed.
    + apply (related_traceless _ _ _ _ _ _ srid_free).
      * intros s s' (_ & _ & H). exact H.
      * intros s. repeat split.
      * intros s. repeat split.
      * intros o s s' H. apply plain_free; assumption.
    + destruct srid as [v|]; [|discriminate E]. intros l1 l2. rewrite !feed_app.
      pose proof (srid_kept_all fmt c v l1 (WktModel.wkt_init (Some v)) eq_refl) as K.
      destruct (feed (WktModel.wkt_writer fmt c) l1 (WktModel.wkt_init (Some v))) as [s [x|x]]; [|split; reflexivity].
      cbn [fst] in K. rewrite feed_cons. destruct s as [sr f sz ou]. cbn in K. subst sr. split; reflexivity.
  - destruct o as [e|i n v]; [|discriminate E].
    pose proof (begin_grows c) as Hb.
    assert (G : forall s', one (WktModel.wkt_writer fmt c) (OEv e) (WktModel.wkt_init srid) = (s', Ok tt) ->
      (0 < String.length (WktModel.k_out s'))%nat ->
      ~ traceless WktModel.k_out (WktModel.wkt_writer fmt c) (WktModel.wkt_init srid) (OEv e)).
    { intros s' H1 H2 T. destruct (T [] []) as [A _]. cbn [app] in A. rewrite feed_cons, H1 in A. cbn in A. rewrite A in H2. cbn in H2. lia. }
    destruct e; try discriminate E.
    all: try (shows (@nil obs) (@nil obs); fail).
    all: try (eapply G; [reflexivity|]; apply (Hb (WktModel.wkt_init srid)); fail).
    + destruct s as [z|]; [|discriminate E]. destruct srid; [cbn in E; rewrite orb_true_r in E; discriminate E|].
      destruct (WktModel.k_dialect c) eqn:Ed; [discriminate E|]. intros T.
      destruct (Z.eq_dec z 0) as [->|Hz].
      * destruct (T [] [OEv (Srid (Some 1%Z)); OEv (PointBegin 0)]) as [A _].
        cbn in A. unfold WktModel.geom_begin, WktModel.wkt_header in A. cbn in A. rewrite Ed in A. cbn in A. discriminate A.
      * destruct (T [] [OEv (PointBegin 0)]) as [A _].
        cbn in A. unfold WktModel.geom_begin, WktModel.wkt_header in A. cbn in A. rewrite Ed in A. cbn in A.
        destruct z; [contradiction| |]; discriminate A.
    + eapply G; [reflexivity|]. unfold WktModel.wkt_comma. destruct (Nat.ltb 0 idx), (f64_is_nan x && f64_is_nan y); cbn; rewrite ?app_len; cbn; lia.
    + eapply G; [reflexivity|]. unfold WktModel.wkt_comma. destruct (Nat.ltb 0 idx), (_ && _ && _ && _); cbn; try lia;
        destruct z, m; cbn; rewrite ?app_len; cbn; lia.
Qed.

(** ** WKB *)
Lemma header_grows : forall c s t, srid_fits c ->
  exists s', WkbModel.write_header c s t = (s', Ok tt) /\
    length (WkbModel.w_out s) < length (WkbModel.w_out s') /\ WkbModel.w_state s' = WkbModel.w_state s.
Proof.
  intros c s t F. unfold srid_fits in F. unfold WkbModel.write_header.
  assert (W : forall s, length (WkbModel.w_out s) < length (WkbModel.w_out (WkbModel.write_wkb_header c s t)) /\
    WkbModel.w_state (WkbModel.write_wkb_header c s t) = WkbModel.w_state s).
  { intros s0. split; [|reflexivity]. unfold WkbModel.write_wkb_header. cbn [WkbModel.out_app WkbModel.w_out]. rewrite !app_length.
    cbn [WkbModel.w_u8 length]. lia. }
  destruct (WkbModel.w_dialect c).
  - eexists. split; [reflexivity|apply W].
  - eexists. split; [reflexivity|]. unfold WkbModel.write_ewkb_header. destruct s as [[] g n o]; destruct (WkbModel.w_srid c);
      cbn [WkbModel.out_app WkbModel.w_out WkbModel.w_first WkbModel.w_state WkbModel.set_first]; rewrite !app_length;
      cbn [WkbModel.w_u8 length]; (split; [lia|reflexivity]).
  - eexists. split; [reflexivity|]. destruct (WkbModel.w_first s); [|apply W].
    destruct (W (WkbModel.set_first (WkbModel.write_gpkg_header c s) false)) as [A B]. split; [|rewrite B; reflexivity].
    refine (Nat.le_lt_trans _ _ _ _ A). unfold WkbModel.write_gpkg_header. cbn [WkbModel.out_app WkbModel.w_out WkbModel.set_first].
    rewrite !app_length. lia.
  - destruct (WkbModel.w_first s); [|eexists; split; [reflexivity|apply W]]. unfold WkbModel.write_mysql_header.
    specialize (F eq_refl). destruct (WkbModel.w_srid c) as [v|].
    + destruct (Z.ltb_spec v 0); [lia|]. eexists. split; [reflexivity|].
      match goal with |- context[WkbModel.write_wkb_header c ?x t] => destruct (W x) as [A B] end.
      split; [|rewrite B; reflexivity]. refine (Nat.le_lt_trans _ _ _ _ A). cbn [WkbModel.out_app WkbModel.w_out WkbModel.set_first].
      rewrite !app_length. lia.
    + eexists. split; [reflexivity|].
      match goal with |- context[WkbModel.write_wkb_header c ?x t] => destruct (W x) as [A B] end.
      split; [|rewrite B; reflexivity]. refine (Nat.le_lt_trans _ _ _ _ A). cbn [WkbModel.out_app WkbModel.w_out WkbModel.set_first].
      rewrite !app_length. lia.
  - eexists. split; [reflexivity|]. unfold WkbModel.write_spatialite_header. destruct s as [[] g n o];
      cbn [WkbModel.out_app WkbModel.w_out WkbModel.w_first WkbModel.w_state WkbModel.set_first]; rewrite !app_length;
      cbn [WkbModel.w_u8 length]; (split; [lia|reflexivity]).
Qed.
Lemma header_size_grows : forall c s t n, srid_fits c ->
  exists s', WkbModel.header_size c s t n = (s', Ok tt) /\
    length (WkbModel.w_out s) < length (WkbModel.w_out s') /\ WkbModel.w_state s' = WkbModel.w_state s.
Proof.
  intros c s t n F. destruct (header_grows c s t F) as (s' & A & B & C). unfold WkbModel.header_size. rewrite A.
  eexists. split; [reflexivity|]. cbn [WkbModel.out_app WkbModel.w_out WkbModel.w_state]. rewrite app_length. split; [lia|exact C].
Qed.
Theorem wkb_ignores : forall c, srid_fits c ->
  ignores WkbModel.w_out (WkbModel.wkb_writer c) WkbModel.wst_init (ign_wkb (marked c)).
Proof.
  intros c F. apply ignores_by; intros o E.
  - assert (Hf : forall s, marked c = false -> WkbModel.write_footer c s = (s, Ok tt)).
    { intros s M. unfold marked in M. unfold WkbModel.write_footer. destruct (WkbModel.w_dialect c); try discriminate M; reflexivity. }
    destruct o as [[]|]; try discriminate E; apply silent_traceless; intros ?; try reflexivity.
    all: cbn in E; destruct (marked c) eqn:M; try discriminate E; unfold one; cbn [feed p_step WkbModel.wkb_writer WkbModel.wkb_step];
      rewrite Hf by reflexivity; reflexivity.
  - destruct o as [e|i n v]; [|discriminate E].
    assert (G : forall s', WkbModel.wkb_step c WkbModel.wst_init e = (s', Ok tt) ->
      (0 < length (WkbModel.w_out s'))%nat ->
      ~ traceless WkbModel.w_out (WkbModel.wkb_writer c) WkbModel.wst_init (OEv e)).
    { intros s' H1 H2 T. destruct (T [] []) as [A _]. cbn [app feed p_step WkbModel.wkb_writer] in A. rewrite H1 in A. cbn in A.
      rewrite A in H2. cbn in H2. lia. }
    assert (Gh : forall t n s, length (WkbModel.w_out s) = 0%nat -> WkbModel.wkb_step c WkbModel.wst_init e = WkbModel.header_size c s t n ->
      ~ traceless WkbModel.w_out (WkbModel.wkb_writer c) WkbModel.wst_init (OEv e)).
    { intros t n s L H. destruct (header_size_grows c s t n F) as (s' & A & B & _). apply (G s'); [rewrite H; exact A|lia]. }
    assert (Gs : forall g t n s, length (WkbModel.w_out s) = 0%nat -> WkbModel.wkb_step c WkbModel.wst_init e = WkbModel.then_state g (WkbModel.header_size c s t n) ->
      ~ traceless WkbModel.w_out (WkbModel.wkb_writer c) WkbModel.wst_init (OEv e)).
    { intros g t n s L H. destruct (header_size_grows c s t n F) as (s' & A & B & _). apply (G (WkbModel.set_state s' g)); [rewrite H, A; reflexivity|cbn; lia]. }
    assert (Gx : forall x y z m, WkbModel.wkb_step c WkbModel.wst_init e = WkbModel.write_coordinate c WkbModel.wst_init x y z m ->
      ~ traceless WkbModel.w_out (WkbModel.wkb_writer c) WkbModel.wst_init (OEv e)).
    { intros x y z m H. eapply G; [rewrite H; reflexivity|]. destruct (dz (WkbModel.w_dims c)), (dm (WkbModel.w_dims c));
        cbn [WkbModel.out_app WkbModel.w_out]; rewrite !app_length; unfold WkbModel.w_f64; rewrite !bytes_of_length; lia. }
    assert (Gf : forall s, WkbModel.w_nest s = 0%nat -> WkbModel.w_out s = [] -> marked c = true ->
      WkbModel.wkb_step c WkbModel.wst_init e = WkbModel.write_footer c s ->
      ~ traceless WkbModel.w_out (WkbModel.wkb_writer c) WkbModel.wst_init (OEv e)).
    { intros s L O M H. unfold marked in M. unfold WkbModel.write_footer in H. destruct (WkbModel.w_dialect c); try discriminate M.
      rewrite L in H. cbn [Nat.eqb] in H. eapply G; [exact H|]. cbn [WkbModel.out_app WkbModel.w_out]. rewrite O. cbn. lia. }
    assert (Gr : marked c = false -> (forall s, WkbModel.wkb_step c s e = WkbModel.write_footer c (WkbModel.set_state s WkbModel.Normal)) ->
      ~ traceless WkbModel.w_out (WkbModel.wkb_writer c) WkbModel.wst_init (OEv e)).
    { intros M H T. destruct (T [OEv (PolygonBegin false 0 0)] [OEv (LineStringBegin false 0 0)]) as [A _].
      destruct (header_size_grows c WkbModel.wst_init WkbModel.TPolygon 0 F) as (s1 & A1 & _ & _).
      rewrite !feed_app in A.
      assert (E1 : feed (WkbModel.wkb_writer c) [OEv (PolygonBegin false 0 0)] WkbModel.wst_init = (WkbModel.set_state s1 WkbModel.RingGeom, Ok tt)).
      { cbn [feed p_step WkbModel.wkb_writer WkbModel.wkb_step]. rewrite A1. reflexivity. }
      rewrite E1 in A.
      assert (Ef : forall s, WkbModel.write_footer c s = (s, Ok tt)).
      { intros s. unfold marked in M. unfold WkbModel.write_footer. destruct (WkbModel.w_dialect c); try discriminate M; reflexivity. }
      rewrite feed_cons in A.
      assert (E2 : one (WkbModel.wkb_writer c) (OEv e) (WkbModel.set_state s1 WkbModel.RingGeom) = (WkbModel.set_state s1 WkbModel.Normal, Ok tt)).
      { unfold one. cbn [feed p_step WkbModel.wkb_writer]. rewrite H, Ef. reflexivity. }
      rewrite E2 in A. destruct (header_grows c (WkbModel.set_state s1 WkbModel.Normal) WkbModel.TLineString F) as (s3 & A3 & B3 & _).
      cbn [feed p_step WkbModel.wkb_writer WkbModel.wkb_step] in A. unfold WkbModel.header_size in A. rewrite A3 in A.
      cbn [WkbModel.w_state WkbModel.set_state fst WkbModel.out_app WkbModel.w_out] in A, B3. apply (f_equal (@length Byte.byte)) in A.
      rewrite !app_length in A. lia. }
    destruct e; try discriminate E; cbn [WkbModel.wkb_step] in *.
    all: try (eapply Gh; [|reflexivity]; reflexivity).
    all: try (eapply Gs; [|reflexivity]; reflexivity).
    all: try (eapply Gx; reflexivity).
    all: try (cbn in E; apply negb_false_iff in E; eapply Gf; [| |exact E|reflexivity]; reflexivity).
    all: try (destruct (marked c) eqn:M; [eapply Gf; [| |reflexivity|reflexivity]; reflexivity|apply Gr; [reflexivity|intros ?; reflexivity]]; fail).
    all: try (shows (@nil obs) (@nil obs); fail).
    destruct (header_grows c WkbModel.wst_init WkbModel.TPoint F) as (s' & A & B & _). exact (G s' A B).
Qed.

(** ** geo-types *)
Local Arguments GeoModel.bounded_vec : simpl never.
Theorem geo_ignores : forall debug,
  ignores (fun s => snd (GeoModel.take_geometry s)) (GeoModel.geo_writer debug) GeoModel.gw_init ign_geo.
Proof.
  intros debug. apply ignores_by; intros o E.
  - destruct o as [[]|]; try discriminate E; apply silent_traceless; intros ?; reflexivity.
  - destruct o as [[]|]; try discriminate E.
    all: try (shows (@nil obs) (@nil obs); fail).
    all: intros T; pose proof (T [] []) as B0; pose proof (T [] [OEv (Xy 0%N 0%N 0)]) as B1;
      pose proof (T [] [OEv (MultiLineStringEnd 0)]) as B2; pose proof (T [] [OEv (MultiPolygonEnd 0)]) as B3;
      pose proof (T [] [OEv (CollectionEnd 0)]) as B4; clear T.
    all: destruct B0 as [_ B0], B1 as [_ B1], B2 as [_ B2], B3 as [_ B3], B4 as [_ B4].
    all: cbn in B0, B1, B2, B3, B4; unfold GeoModel.debug_assert, GeoModel.reserve in *.
    all: cbn in B0, B1, B2, B3, B4; rewrite ?andb_false_r in *.
    all: repeat match type of B0 with context[GeoModel.bounded_vec ?a ?b] => destruct (GeoModel.bounded_vec a b) end.
    all: cbn in B0, B1, B2, B3, B4; (discriminate B0 || discriminate B1 || discriminate B2 || discriminate B3 || discriminate B4).
Qed.
Theorem features_ignore : forall debug,
  ignores GeoModel.f_features (GeoModel.feature_writer debug) GeoModel.gf_init (ign_features debug).
Proof.
  intros debug. apply ignores_by; intros o E.
  - destruct debug; destruct o as [[]|]; try discriminate E; apply silent_traceless; intros [[] ? ?]; reflexivity.
  - destruct debug; destruct o as [[]|]; try discriminate E.
    all: try (shows (@nil obs) (@nil obs); fail).
    all: try (shows (@nil obs) [OProp 0 "a"%string (CBool true)]; rewrite ?andb_false_r in *; cbn in *; discriminate).
    all: try (shows [OEv (PointBegin 0); OEv (Xy 0%N 0%N 0); OEv (PointEnd 0)] (@nil obs); fail).
    all: intros T; pose proof (T [] []) as B0; pose proof (T [] [OEv (Xy 0%N 0%N 0)]) as B1;
      pose proof (T [] [OEv (MultiLineStringEnd 0)]) as B2; pose proof (T [] [OEv (MultiPolygonEnd 0)]) as B3;
      pose proof (T [] [OEv (CollectionEnd 0)]) as B4; pose proof (T [] [OProp 0 "a"%string (CBool true)]) as B5; clear T.
    all: destruct B0 as [_ B0], B1 as [_ B1], B2 as [_ B2], B3 as [_ B3], B4 as [_ B4], B5 as [_ B5].
    all: cbn in B0, B1, B2, B3, B4, B5; unfold GeoModel.f_assert, GeoModel.debug_assert, GeoModel.reserve in *.
    all: cbn in B0, B1, B2, B3, B4, B5; rewrite ?andb_false_r in *.
    all: repeat match type of B0 with context[GeoModel.bounded_vec ?a ?b] => destruct (GeoModel.bounded_vec a b) end.
    all: cbn in B0, B1, B2, B3, B4, B5; (discriminate B0 || discriminate B1 || discriminate B2 || discriminate B3 || discriminate B4 || discriminate B5).
Qed.

(** ** Tiles *)
Local Arguments MvtModel.transform : simpl never.
Theorem mvt_ignores : forall gsize base64 debug c,
  ignores MvtModel.mw_features (MvtModel.mvt_writer gsize base64 debug c) MvtModel.mw_init ign_mvt.
Proof.
  intros gsize base64 debug c. apply ignores_by; intros o E.
  - destruct o as [[]|]; try discriminate E; apply silent_traceless; intros ?; reflexivity.
  - destruct o as [[]|i n v]; try discriminate E.
    all: try (shows (@nil obs) (@nil obs); fail).
    all: try (shows [OEv (PointBegin 0); OEv (Xy 0%N 0%N 0); OEv (PointEnd 0)] (@nil obs); unfold MvtModel.massert in *; cbn in *; rewrite ?andb_false_r in *; cbn in *; discriminate).
    all: try (shows [OProp 0 "a"%string (CBool true)] [OEv (PointBegin 0); OEv (Xy 0%N 0%N 0); OEv (PointEnd 0); OEv (FeatureEnd 0)]; unfold MvtModel.massert in *; cbn in *; rewrite ?andb_false_r in *; cbn in *; discriminate).
    all: try (shows (@nil obs) [OEv (PointBegin 0); OEv (Xy 0%N 0%N 0); OEv (PointEnd 0); OEv (FeatureEnd 0)]; unfold MvtModel.massert in *; cbn in *; rewrite ?andb_false_r in *; cbn in *; discriminate).
    all: intros T; pose proof (T [] []) as B0; pose proof (T [] [OEv (Xy 0%N 0%N 0)]) as B1;
      pose proof (T [] [OEv (MultiLineStringEnd 0)]) as B2; pose proof (T [] [OEv (MultiPolygonEnd 0)]) as B3;
      pose proof (T [] [OEv (CollectionEnd 0)]) as B4; clear T.
    all: destruct B0 as [_ B0], B1 as [_ B1], B2 as [_ B2], B3 as [_ B3], B4 as [_ B4].
    all: cbn in B0, B1, B2, B3, B4; unfold MvtModel.massert, MvtModel.mreserve in *.
    all: cbn in B0, B1, B2, B3, B4; rewrite ?andb_false_r in *.
    all: repeat match type of B0 with context[GeoModel.bounded_vec ?a ?b] => destruct (GeoModel.bounded_vec a b) end.
    all: cbn in B0, B1, B2, B3, B4; try (discriminate B0 || discriminate B1 || discriminate B2 || discriminate B3 || discriminate B4).
Qed.

(** ** Tessellator *)
Theorem tess_ignores : forall narrow ly, TessModel.checks ly = true ->
  (exists x y, TessModel.point_ok ly (TessModel.pos32 narrow x y) = true) ->
  ignores TessModel.ts_out (TessModel.tessellator narrow ly) TessModel.ts_init ign_tess.
Proof.
  intros narrow ly C (x0 & y0 & P). unfold TessModel.pos32 in P. apply ignores_by; intros o E.
  - destruct o as [[]|]; try discriminate E; apply silent_traceless; intros ?; reflexivity.
  - assert (X : feed (TessModel.tessellator narrow ly) [OEv (Xy x0 y0 0)] TessModel.ts_init =
      (TessModel.mkTs true [TessModel.PBegin (narrow x0, narrow y0)] true [], Ok tt)).
    { cbn. unfold TessModel.b_begin, TessModel.pos32. cbn. rewrite C, P. reflexivity. }
    destruct o as [[]|]; try discriminate E.
    all: try (shows (@nil obs) (@nil obs); fail).
    + intros T. destruct idx as [|i].
      * destruct (TessModel.point_ok ly (TessModel.pos32 narrow x y)) eqn:Q.
        -- destruct (T [] [OEv (Xy x y 0)]) as [_ B]. cbn in B. unfold TessModel.b_begin in B. cbn in B. rewrite C, Q in B. cbn in B.
           rewrite ?C in B. discriminate B.
        -- destruct (T [] []) as [_ B]. cbn in B. unfold TessModel.b_begin in B. cbn in B. rewrite C, Q in B. discriminate B.
      * destruct (T [] []) as [_ B]. cbn in B. unfold TessModel.b_line in B. cbn in B. rewrite C in B. discriminate B.
    + intros T. destruct (T [OEv (Xy x0 y0 0)] [OEv (Xy x0 y0 0)]) as [_ B]. destruct (T [OEv (Xy x0 y0 0)] []) as [_ B']. clear T.
      rewrite !feed_app in B, B'. rewrite X in B, B'.
      cbn in B, B'. unfold TessModel.andthen, TessModel.close_started, TessModel.b_close, TessModel.tessellate_line, TessModel.b_begin, TessModel.pos32 in B, B'.
      cbn in B, B'. rewrite C in B, B'. cbn in B, B'. destruct tagged.
      * rewrite ?C in B, B'. cbn in B, B'. destruct (TessModel.stroke ly _) in B, B'; cbn in B, B'; [|discriminate B'].
        rewrite ?C, ?P in B. discriminate B.
      * cbn in B. rewrite ?C, ?P in B. discriminate B.
    + intros T. destruct (T [OEv (Xy x0 y0 0)] [OEv (Xy x0 y0 0)]) as [_ B]. destruct (T [OEv (Xy x0 y0 0)] []) as [_ B']. clear T.
      rewrite !feed_app in B, B'. rewrite X in B, B'.
      cbn in B, B'. unfold TessModel.andthen, TessModel.close_started, TessModel.b_close, TessModel.tessellate_poly, TessModel.b_begin, TessModel.pos32 in B, B'.
      cbn in B, B'. rewrite C in B, B'. cbn in B, B'. rewrite ?C in B, B'. cbn in B, B'.
      destruct (TessModel.fill ly _) as [[vs ix]|]; cbn in B, B'; [|discriminate B'].
      destruct (TessModel.threes ix); cbn in B, B'; [|discriminate B'].
      rewrite ?C, ?P in B. discriminate B.
Qed.

(** ** CSV *)
Theorem csv_ignores : forall fmt32 fmt debug d,
  ignores csv_text (CsvModel.csv_writer fmt32 fmt debug d) CsvModel.csv_init (ign_csv debug).
Proof.
  intros fmt32 fmt debug d. apply ignores_by; intros o E.
  - destruct o as [[]|]; try discriminate E; apply silent_traceless; intros ?; try reflexivity;
      (destruct debug; [discriminate E|reflexivity]).
  - assert (G : forall e e' w, CsvModel.csv_step fmt debug d CsvModel.csv_init e = CsvModel.csv_wkt fmt d CsvModel.csv_init e' ->
      WktModel.wkt_step fmt (WktModel.mkWktCfg d WktModel.PlainWkt) (WktModel.wkt_init None) e' = (w, Ok tt) ->
      (0 < String.length (WktModel.k_out w))%nat ->
      ~ traceless csv_text (CsvModel.csv_writer fmt32 fmt debug d) CsvModel.csv_init (OEv e)).
    { intros e e' w H1 H2 H3 T. destruct (T [] [OEv (FeatureEnd 0)]) as [A _]. cbn [app] in A. rewrite feed_cons in A.
      unfold one in A. cbn [feed p_step CsvModel.csv_writer] in A. rewrite H1 in A. unfold CsvModel.csv_wkt in A.
      change (CsvModel.cs_wkt CsvModel.csv_init) with (WktModel.wkt_init None) in A. rewrite H2 in A. cbn in A.
      injection A as A. rewrite A in H3. cbn in H3. lia. }
    pose proof (begin_grows (WktModel.mkWktCfg d WktModel.PlainWkt)) as Hb.
    destruct o as [[]|i n v].
    all: try discriminate E.
    all: try (shows (@nil obs) (@nil obs); fail).
    all: try (eapply G; [reflexivity|reflexivity|]; apply (Hb (WktModel.wkt_init None)); fail).
    all: try (cbn in E; destruct debug; [|discriminate E]; first [shows [OProp 0 "a"%string (CBool true)] (@nil obs); fail | shows [OEv (PointBegin 0)] (@nil obs); fail]).
    all: try (shows [OProp 0 "a"%string (CBool true)] [OEv (FeatureEnd 0)]; fail).
    all: try (shows (@nil obs) [OEv (FeatureEnd 0)]; fail).
    + eapply G; [reflexivity|reflexivity|]. unfold WktModel.wkt_comma. destruct (Nat.ltb 0 idx), (f64_is_nan x && f64_is_nan y); cbn; rewrite ?app_len; cbn; lia.
    + eapply G; [reflexivity|reflexivity|]. unfold WktModel.wkt_comma. destruct (Nat.ltb 0 idx), (_ && _ && _ && _); cbn; try lia;
        destruct z, m; cbn; rewrite ?app_len; cbn; lia.
Qed.
