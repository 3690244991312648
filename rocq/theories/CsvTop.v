(** Helper lemmas for C27, C28 and C49. *)
From Coq Require Import String Ascii.
From Coq Require Import List NArith ZArith Lia Bool.
From Verif Require Import Base BaseLemmas Event EventLemmas Claims Geom ProcModel ProcSpec ProcTop
  WktModel WktSpec WktWrite WktTop FeatureSpec GeoJsonModel GeoJsonSpec GeoJsonRead CsvModel CsvSpec.
Import ListNotations.
Local Open Scope string_scope.
Local Open Scope list_scope.

(** ** csv::Writer *)
Lemma write_fields : forall l o, fold_left csv_write_field l o = mkCsvOut (o_fields o ++ l) (o_records o) (o_count o).
Proof.
  induction l as [|a l IH]; intros o; cbn [fold_left]; [rewrite app_nil_r; now destruct o|].
  rewrite IH. unfold csv_write_field. cbn. now rewrite <- app_assoc.
Qed.

Lemma record_first : forall fs recs l, csv_write_record (mkCsvOut fs recs None) l =
  (mkCsvOut [] (recs ++ [fs ++ l]) (Some (length (fs ++ l))), Ok tt).
Proof. intros. unfold csv_write_record. rewrite write_fields. reflexivity. Qed.
Lemma record_next : forall fs recs k l, csv_write_record (mkCsvOut fs recs (Some k)) l =
  if Nat.eqb k (length (fs ++ l)) then (mkCsvOut [] (recs ++ [fs ++ l]) (Some k), Ok tt)
  else (mkCsvOut (fs ++ l) recs (Some k), Err EDataset).
Proof. intros. unfold csv_write_record. rewrite write_fields. reflexivity. Qed.

(** every record has the same number of fields, whatever happens *)
Definition even (o : csvout) : Prop :=
  match o_count o with
  | None => o_records o = []
  | Some n => Forall (fun r => length r = n) (o_records o)
  end.
Lemma even_fields : forall l o, even o -> even (fold_left csv_write_field l o).
Proof. intros l o H. rewrite write_fields. exact H. Qed.
Lemma even_record : forall l o, even o -> even (fst (csv_write_record o l)).
Proof.
  intros l o H. unfold csv_write_record. apply (even_fields l) in H. revert H.
  generalize (fold_left csv_write_field l o). intros o' H. unfold even in *.
  destruct (o_count o') as [k|] eqn:E.
  - destruct (Nat.eqb_spec k (length (o_fields o'))); cbn; [|rewrite E; exact H].
    apply Forall_app. split; [exact H|]. constructor; [congruence|constructor].
  - cbn. rewrite H. repeat constructor.
Qed.

Section Writer.
  Variable fmt32 : N -> string.
  Variable fmt : f64 -> string.
  Variable debug : bool.
  Variable d : dims.
  Notation W := (csv_writer fmt32 fmt debug d).
  Notation K := (wkt_writer fmt (mkWktCfg d PlainWkt)).
  Notation multi := (multi_dim d).

  Lemma even_step : forall s e, even (cs_csv s) -> even (cs_csv (fst (csv_step fmt debug d s e))).
  Proof.
    intros s e H.
    assert (K : forall e, even (cs_csv (fst (csv_wkt fmt d s e)))).
    { intros e'. unfold csv_wkt. destruct (wkt_step fmt _ (cs_wkt s) e'). exact H. }
    assert (A : forall b, even (cs_csv (fst (csv_assert debug b s)))).
    { intros b. unfold csv_assert. destruct (debug && negb b); exact H. }
    destruct e; cbn [csv_step]; try apply K; try apply A; try exact H.
    unfold csv_feature_end.
    assert (F : even (fst (if cs_written s then (cs_csv s, Ok tt) else csv_write_record (cs_csv s) (cs_headers s)))).
    { destruct (cs_written s); [exact H|now apply even_record]. }
    destruct (if cs_written s then _ else _) as [o [u|x]]; [|exact F]. cbn [fst] in F.
    assert (G : even (fst (csv_write_record (fold_left csv_write_field (cs_row s)
                  (csv_write_field o (k_out (cs_wkt s)))) []))).
    { apply even_record, even_fields. exact F. }
    destruct (csv_write_record _ []) as [o' [u'|x']]; exact G.
  Qed.
  Lemma even_prop : forall s i n v, even (cs_csv s) -> even (cs_csv (fst (csv_prop fmt32 fmt s i n v))).
  Proof.
    intros s i n v H. unfold csv_prop. destruct (cs_written s); [|exact H].
    destruct (nth_error _ _) as [h|]; [|exact H]. destruct (String.eqb n h); exact H.
  Qed.
  Lemma even_exec : forall A (g : prog A) s, even (cs_csv s) -> even (cs_csv (fst (exec W g s))).
  Proof.
    induction g as [r|e g IH|e g IH|i n v k IH]; intros s H; cbn [exec].
    - exact H.
    - assert (E := even_step s e H). cbn [p_step csv_writer]. destruct (csv_step _ _ _ s e) as [s' [u|x]]; auto.
    - apply IH, even_step, H.
    - assert (E := even_prop s i n v H). cbn [p_prop csv_writer]. destruct (csv_prop _ _ s i n v) as [s' [b|x]]; auto.
  Qed.

  (** ** Geometries *)
  Definition with_wkt (s : csvst) (w : wktst) : csvst := mkCsv (cs_csv s) (cs_headers s) (cs_written s) (cs_row s) w.
  (** callbacks of geometries *)
  Definition geometric (e : event) : Prop :=
    match e with
    | DatasetBegin _ | DatasetEnd | FeatureBegin _ | FeatureEnd _ | PropertiesBegin | PropertiesEnd
    | GeometryBegin | GeometryEnd | Srid _ => False
    | _ => True
    end.
  Lemma started_step : forall s e, geometric e -> k_out (cs_wkt s) <> "" -> csv_step fmt debug d s e = csv_wkt fmt d s e.
  Proof.
    intros s e G N.
    assert (O : forall i, offset_geom_idx s i = i).
    { intros i. unfold offset_geom_idx, geometry_started. destruct (String.eqb_spec (k_out (cs_wkt s)) ""); [contradiction|reflexivity]. }
    destruct e; cbn [geometric] in G; try contradiction; cbn [csv_step]; rewrite ?O; reflexivity.
  Qed.
  Lemma put_grows : forall w t, k_out w <> "" -> k_out (put w t) <> "".
  Proof. intros w t H. cbn. destruct (k_out w); [congruence|discriminate]. Qed.
  Lemma wkt_grows : forall w e, k_out w <> "" -> k_out (fst (wkt_step fmt (mkWktCfg d PlainWkt) w e)) <> "".
  Proof.
    intros w e H.
    assert (B : forall tag tagged n i, k_out (geom_begin (mkWktCfg d PlainWkt) w tag tagged n i) <> "").
    { intros tag tagged n i. rewrite begin_settled by (left; reflexivity). now apply put_grows. }
    assert (E : forall w, k_out w <> "" -> k_out (fst (geom_end w)) <> "").
    { clear. intros w H. unfold geom_end. destruct (k_sizes w) as [|n r]; [exact H|]. cbn [fst].
      destruct (Nat.ltb 0 n); [|exact H]. cbn. destruct (k_out w); [congruence|discriminate]. }
    destruct e; cbn [wkt_step fst]; auto.
    - rewrite comma_put. destruct (_ && _); apply put_grows, put_grows, H.
    - rewrite comma_put. destruct (_ && _); [apply put_grows, put_grows, H|].
      destruct z, m; repeat apply put_grows; exact H.
  Qed.
  Lemma started_run : forall l s, Forall geometric l -> k_out (cs_wkt s) <> "" ->
    run W l s = (with_wkt s (fst (run K l (cs_wkt s))), snd (run K l (cs_wkt s))).
  Proof.
    induction l as [|e l IH]; intros s G N; cbn [run].
    - destruct s; reflexivity.
    - inversion G as [|? ? G1 G2]; subst. cbn [p_step csv_writer wkt_writer].
      rewrite (started_step s e G1 N). unfold csv_wkt. pose proof (wkt_grows (cs_wkt s) e N) as N'.
      destruct (wkt_step fmt _ (cs_wkt s) e) as [w [u|x]]; [|reflexivity]. cbn [fst] in N'.
      rewrite (IH (mkCsv (cs_csv s) (cs_headers s) (cs_written s) (cs_row s) w) G2 N'). reflexivity.
  Qed.

  Lemma gevents_geometric : forall g idx, Forall geometric (gevents multi idx g).
  Proof.
    intros. apply GeoJsonLines.gevents_drawing. intros e He. destruct e; try exact I; discriminate He.
  Qed.
  (** the callbacks with index [idx] and those with index 0 differ in the first and the last *)
  Lemma gevents_split : forall g idx, exists b b' r e e',
    gevents multi idx g = b :: r ++ e /\ gevents multi 0 g = b' :: r ++ e' /\
    (forall s, k_out (cs_wkt s) = "" -> csv_step fmt debug d s b = csv_wkt fmt d s b') /\
    (forall w, run K e w = run K e' w) /\
    (forall w, k_out (fst (wkt_step fmt (mkWktCfg d PlainWkt) w b')) <> "").
  Proof.
    intros g idx.
    assert (O : forall s, k_out (cs_wkt s) = "" -> forall i, offset_geom_idx s i = 0%nat).
    { intros s E i. unfold offset_geom_idx, geometry_started. now rewrite E. }
    assert (B : forall w tag n i, k_out (geom_begin (mkWktCfg d PlainWkt) w tag true n i) <> "").
    { intros w tag n i. rewrite begin_settled by (left; reflexivity). unfold put, open_text. cbn [k_out].
      destruct (k_out (push w n)); [|discriminate]. cbn [append].
      destruct i, n; cbn; try discriminate; destruct tag; discriminate. }
    assert (B' : forall w i, k_out (fst (geom_end (geom_begin (mkWktCfg d PlainWkt) w "POINT" true 0 i))) <> "").
    { intros w i. unfold geom_end. specialize (B w "POINT" 0%nat i).
      rewrite begin_settled in * by (left; reflexivity). cbn [put push k_sizes fst Nat.ltb Nat.leb] in *. exact B. }
    assert (F : forall b b' r e e',
      (forall s, k_out (cs_wkt s) = "" -> csv_step fmt debug d s b = csv_wkt fmt d s b') ->
      (forall w, run K [e] w = run K [e'] w) ->
      (forall w, k_out (fst (wkt_step fmt (mkWktCfg d PlainWkt) w b')) <> "") ->
      exists b0 b0' r0 e0 e0', b :: r ++ [e] = b0 :: r0 ++ e0 /\ b' :: r ++ [e'] = b0' :: r0 ++ e0' /\
      (forall s, k_out (cs_wkt s) = "" -> csv_step fmt debug d s b0 = csv_wkt fmt d s b0') /\
      (forall w, run K e0 w = run K e0' w) /\
      (forall w, k_out (fst (wkt_step fmt (mkWktCfg d PlainWkt) w b0')) <> "")).
    { intros b b' r e e' H1 H2 H3. exists b, b', r, [e], [e']. auto. }
    destruct g; cbn [gevents].
    2: { exists (EmptyPoint idx), (EmptyPoint 0), [], [], []. repeat split.
         - intros s E. cbn [csv_step]. now rewrite (O s E).
         - intros w. cbn [wkt_step]. apply B'. }
    1: apply (F (PointBegin idx) (PointBegin 0) [ev_coord multi 0 c] (PointEnd idx) (PointEnd 0)).
    all: try (apply F).
    all: try (intros s E; cbn [csv_step]; now rewrite (O s E)).
    all: try (intros w; reflexivity).
    all: intros w; cbn [wkt_step fst]; try apply B.
  Qed.

  Lemma geometry_run : forall g idx s, cs_wkt s = wkt_init None ->
    run W (gevents multi idx g) s = (with_wkt s (put (wkt_init None) (wkt_text fmt multi multi g)), Ok tt).
  Proof.
    intros g idx s E.
    assert (R : run K (gevents multi 0 g) (wkt_init None) = (put (wkt_init None) (wkt_text fmt multi multi g), Ok tt)).
    { apply (geom_emit fmt (mkWktCfg d PlainWkt) multi multi).
      - intros H. cbn [k_dims] in H. now rewrite H.
      - intros H. cbn [k_dims] in H. rewrite H. apply carries_all.
      - left. reflexivity. }
    destruct (gevents_split g idx) as (b & b' & r & e & e' & E1 & E2 & S1 & S2 & S3).
    pose proof (gevents_geometric g idx) as G. pose proof (gevents_geometric g 0) as G'.
    rewrite E1 in G |- *. rewrite E2 in R, G'.
    inversion G as [|? ? _ Gr]; subst. clear G.
    apply Forall_app in Gr. destruct Gr as [Gr Ge].
    cbn [run p_step csv_writer wkt_writer] in R |- *. rewrite S1 by now rewrite E.
    unfold csv_wkt. rewrite E. specialize (S3 (wkt_init None)).
    destruct (wkt_step fmt _ (wkt_init None) b') as [w [u|x]]; [|discriminate R]. cbn [fst] in S3.
    rewrite started_run; [|now apply Forall_app|exact S3]. cbn [cs_wkt].
    assert (X : run K (r ++ e) w = run K (r ++ e') w).
    { rewrite !run_app. destruct (run K r w) as [w' [u'|x]]; [apply S2|reflexivity]. }
    rewrite X. change (fun s e => wkt_step fmt (mkWktCfg d PlainWkt) s e) with (wkt_step fmt (mkWktCfg d PlainWkt)) in R.
    change (mkProc _ (wkt_step fmt (mkWktCfg d PlainWkt)) _) with K in R. rewrite R. reflexivity.
  Qed.

  (** ** Features *)
  Definition between (o : csvout) (h : list string) (wr : bool) : csvst := mkCsv o h wr [] (wkt_init None).
  Definition geom_field (f : feature) : string :=
    match f_geom f with Some g => wkt_text fmt multi multi g | None => "" end.
  Definition row_of (f : feature) : list string := map (fun q => show_colval fmt32 fmt (snd q)) (the_props f).

  Lemma is_row_of : forall f, is_row fmt32 fmt multi f (geom_field f :: row_of f).
  Proof.
    intros f. exists (row_of f). split; [reflexivity|]. unfold row_of.
    induction (the_props f) as [|q l IH]; constructor; [apply show_text|exact IH].
  Qed.

  (** the effect of the property block *)
  Definition props_result (s : csvst) (l : list (nat * string * colval)) : csvst :=
    mkCsv (cs_csv s) (if cs_written s then cs_headers s else cs_headers s ++ map (fun q => snd (fst q)) l) (cs_written s)
          (cs_row s ++ map (fun q => show_colval fmt32 fmt (snd q)) l) (cs_wkt s).
  Definition matching (h : list string) (q : nat * string * colval) : Prop :=
    nth_error h (fst (fst q) + 1) = Some (snd (fst q)).
  Lemma props_feed : forall l s, (cs_written s = true -> Forall (matching (cs_headers s)) l) ->
    feed W (map prop_obs l) s = (props_result s l, Ok tt).
  Proof.
    induction l as [|q l IH]; intros s H; cbn [map feed].
    - unfold props_result. cbn [map]. rewrite !app_nil_r. destruct s as [a b w r k]. cbn. now destruct w.
    - unfold prop_obs at 1. cbn [feed p_prop csv_writer]. unfold csv_prop.
      destruct (cs_written s) eqn:E.
      + specialize (H eq_refl). inversion H as [|? ? H1 H2]; subst. unfold matching in H1. rewrite H1, String.eqb_refl.
        rewrite IH by (intros _; exact H2). unfold props_result. cbn. rewrite E, <- app_assoc. reflexivity.
      + rewrite IH by (cbn; congruence). unfold props_result. cbn. rewrite E, <- !app_assoc. reflexivity.
  Qed.
  Lemma props_matching : forall l s s', cs_written s = true -> feed W (map prop_obs l) s = (s', Ok tt) ->
    Forall (matching (cs_headers s)) l.
  Proof.
    induction l as [|q l IH]; intros s s' E H; cbn [map feed] in H; [constructor|].
    unfold prop_obs at 1 in H. cbn [feed p_prop csv_writer] in H. unfold csv_prop in H. rewrite E in H.
    destruct (nth_error (cs_headers s) _) as [h|] eqn:N; [|discriminate H].
    destruct (String.eqb_spec (snd (fst q)) h) as [Eh|]; [|discriminate H].
    subst h. constructor; [exact N|]. apply IH in H; [exact H|reflexivity].
  Qed.

  (** what a feature does up to its end, and its end *)
  Definition before_end (i gi : nat) (f : feature) : list obs := removelast (feature_obs multi i gi f).
  Lemma feature_split : forall i gi f, feature_obs multi i gi f = before_end i gi f ++ [OEv (FeatureEnd i)].
  Proof.
    intros. unfold before_end. rewrite (app_removelast_last (OEv (FeatureEnd i))) at 1 by discriminate. f_equal.
    unfold feature_obs. f_equal. rewrite !app_assoc, app_comm_cons. apply last_last.
  Qed.
  Lemma geom_part_feed : forall gi f s, cs_wkt s = wkt_init None ->
    feed W match f_geom f with
           | Some g => OEv GeometryBegin :: map OEv (gevents multi gi g) ++ [OEv GeometryEnd]
           | None => []
           end s = (with_wkt s (put (wkt_init None) (geom_field f)), Ok tt).
  Proof.
    intros gi f s E. unfold geom_field. destruct (f_geom f) as [g|].
    - cbn [feed p_step csv_writer csv_step]. unfold csv_assert, geometry_started. rewrite E. cbn [wkt_init k_out String.eqb negb].
      rewrite andb_false_r, feed_app, feed_run, geometry_run by exact E. reflexivity.
    - cbn [feed]. rewrite put_empty. rewrite <- E. now destruct s.
  Qed.
  Lemma props_part : forall f s, cs_row s = [] -> feed W match f_props f with
      | Some l => OEv PropertiesBegin :: map prop_obs l ++ [OEv PropertiesEnd] | None => [] end s
    = feed W (map prop_obs (the_props f)) s.
  Proof.
    intros f s E. unfold the_props. destruct (f_props f) as [l|]; [|reflexivity].
    cbn [feed p_step csv_writer csv_step]. unfold csv_assert. rewrite E. cbn [negb]. rewrite andb_false_r, feed_app.
    destruct (feed W (map prop_obs l) s) as [s' [u|x]]; cbn; [now destruct u|reflexivity].
  Qed.
  Lemma before_feed : forall i gi f o h wr, (wr = true -> Forall (matching h) (the_props f)) ->
    feed W (before_end i gi f) (between o h wr) =
    (mkCsv o (if wr then h else h ++ map (fun q => snd (fst q)) (the_props f)) wr (row_of f)
           (put (wkt_init None) (geom_field f)), Ok tt).
  Proof.
    intros i gi f o h wr H. unfold before_end, feature_obs. rewrite app_assoc, app_comm_cons, removelast_last.
    cbn [feed p_step csv_writer csv_step between cs_row]. unfold csv_assert. cbn [negb]. rewrite andb_false_r.
    rewrite feed_app, props_part by reflexivity. rewrite props_feed by exact H.
    rewrite geom_part_feed by reflexivity. reflexivity.
  Qed.

  Definition header_of (f : feature) : list string := map (fun q => snd (fst q)) (the_props f).
  Definition after (h : list string) (recs : list (list string)) : csvst :=
    between (mkCsvOut [] recs (Some (length h))) h true.
  Lemma first_feed : forall i gi f,
    feed W (feature_obs multi i gi f) csv_init =
    (after ("geometry" :: header_of f) [ "geometry" :: header_of f; geom_field f :: row_of f ], Ok tt).
  Proof.
    intros i gi f. rewrite feature_split, feed_app. change csv_init with (between csv_out_init ["geometry"] false).
    rewrite before_feed by discriminate. cbn [feed p_step csv_writer csv_step]. unfold csv_feature_end.
    cbn [cs_written cs_csv cs_headers cs_wkt put k_out wkt_init append cs_row]. unfold csv_out_init. rewrite record_first.
    rewrite write_fields. cbn [csv_write_field o_fields o_records o_count app]. rewrite record_next, app_nil_r.
    replace (Nat.eqb (length ("geometry" :: _)) (length (geom_field f :: row_of f))) with true; [reflexivity|].
    symmetry. apply Nat.eqb_eq. unfold row_of. cbn. now rewrite !map_length.
  Qed.
  Lemma later_feed : forall i gi f h recs, Forall (matching h) (the_props f) -> length h = S (length (the_props f)) ->
    feed W (feature_obs multi i gi f) (after h recs) =
    (after h (recs ++ [geom_field f :: row_of f]), Ok tt).
  Proof.
    intros i gi f h recs M L. rewrite feature_split, feed_app. unfold after.
    rewrite before_feed by (intros _; exact M). cbn [feed p_step csv_writer csv_step]. unfold csv_feature_end.
    cbn [cs_written cs_csv cs_headers cs_wkt put k_out wkt_init append cs_row].
    rewrite write_fields. cbn [csv_write_field o_fields o_records o_count app]. rewrite record_next, app_nil_r.
    replace (Nat.eqb (length h) (length (geom_field f :: row_of f))) with true; [reflexivity|].
    symmetry. apply Nat.eqb_eq. unfold row_of. cbn. now rewrite !map_length.
  Qed.
  Lemma later_ok : forall i gi f h recs s', feed W (feature_obs multi i gi f) (after h recs) = (s', Ok tt) ->
    Forall (matching h) (the_props f) /\ length h = S (length (the_props f)).
  Proof.
    intros i gi f h recs s' H.
    assert (M : Forall (matching h) (the_props f)).
    { revert H. unfold feature_obs, after. cbn [feed p_step csv_writer csv_step between cs_row]. unfold csv_assert. cbn [negb].
      rewrite andb_false_r, feed_app, props_part by reflexivity.
      destruct (feed W (map prop_obs (the_props f)) _) as [s1 [[]|x]] eqn:E; [|discriminate].
      intros _. apply props_matching in E; [exact E|reflexivity]. }
    split; [exact M|]. revert H. rewrite feature_split, feed_app. unfold after. rewrite before_feed by (intros _; exact M).
    cbn [feed p_step csv_writer csv_step]. unfold csv_feature_end.
    cbn [cs_written cs_csv cs_headers cs_wkt put k_out wkt_init append cs_row].
    rewrite write_fields. cbn [csv_write_field o_fields o_records o_count app]. rewrite record_next, app_nil_r.
    destruct (Nat.eqb_spec (length h) (length (geom_field f :: row_of f))) as [E|]; [|discriminate].
    intros _. rewrite E. unfold row_of. cbn. now rewrite map_length.
  Qed.

  (** ** Columns *)
  Lemma columns_header : forall ns f, has_columns ns f -> header_of f = ns.
  Proof.
    intros ns f H. unfold has_columns, header_of in *.
    rewrite <- (map_map fst snd), H. clear. generalize 0%nat. induction ns as [|n ns IH]; intros k; cbn; [reflexivity|].
    now rewrite IH.
  Qed.
  Lemma columns_length : forall ns f, has_columns ns f -> length (the_props f) = length ns.
  Proof. intros ns f H. rewrite <- (columns_header _ _ H). unfold header_of. now rewrite map_length. Qed.
  Lemma columns_matching : forall ns f, has_columns ns f -> Forall (matching ("geometry" :: ns)) (the_props f).
  Proof.
    intros ns f H. unfold has_columns in H. apply Forall_forall. intros q Hq.
    assert (I : In (fst q) (combine (seq 0 (length ns)) ns)) by (rewrite <- H; now apply in_map).
    destruct (In_nth_error _ _ I) as [k Hk]. unfold matching. rewrite Nat.add_1_r. cbn [nth_error].
    clear - Hk. assert (X : forall j, nth_error (combine (seq j (length ns)) ns) k = Some (fst q) ->
       nth_error ns (fst (fst q) - j) = Some (snd (fst q)) /\ j <= fst (fst q)).
    { clear. revert k. induction ns as [|n ns IH]; intros k j H; cbn in H; [destruct k; discriminate H|].
      destruct k as [|k]; cbn in H.
      - injection H as H. rewrite <- H. cbn. rewrite Nat.sub_diag. split; [reflexivity|lia].
      - apply IH in H. destruct H as [H1 H2]. split; [|lia].
        replace (fst (fst q) - j) with (S (fst (fst q) - S j)) by lia. exact H1. }
    apply X in Hk. now rewrite Nat.sub_0_r in Hk.
  Qed.
  Lemma matching_columns : forall ns f, numbered_props f -> Forall (matching ("geometry" :: ns)) (the_props f) ->
    length ns = length (the_props f) -> has_columns ns f.
  Proof.
    intros ns f N M L. unfold has_columns, numbered_props in *.
    revert N M. rewrite L.
    assert (X : forall l k pre, map (fun q => fst (fst q)) l = seq k (length l) -> length pre = k ->
       Forall (matching ("geometry" :: pre ++ ns)) l -> length ns = length l ->
       map fst l = combine (seq k (length l)) ns).
    { clear. intros l. revert ns. induction l as [|q l IH]; intros ns k pre N P M L; [reflexivity|].
      destruct ns as [|n ns]; [discriminate L|]. cbn in N. injection N as N1 N2. inversion M as [|? ? M1 M2]; subst.
      cbn [map length seq combine]. f_equal.
      - destruct q as [[i nm] v]. cbn [fst snd] in *. unfold matching in M1. cbn [fst snd] in M1.
        rewrite Nat.add_1_r in M1. cbn [nth_error] in M1. rewrite <- P, nth_error_app2, Nat.sub_diag in M1 by lia.
        cbn in M1. injection M1 as ->. now rewrite <- P.
      - apply (IH ns _ (pre ++ [n])); [exact N2| |rewrite <- app_assoc; exact M2|now injection L].
        rewrite app_length. cbn. lia. }
    intros N M. apply (X (the_props f) 0%nat []); auto.
  Qed.
  Lemma numbered_columns : forall f, numbered_props f -> has_columns (header_of f) f.
  Proof.
    intros f N. unfold has_columns, numbered_props, header_of in *. rewrite map_length, <- N.
    induction (the_props f) as [|[[i n] v] l IH]; [reflexivity|]. cbn. f_equal.
    clear. induction l as [|[[i n] v] l IH]; [reflexivity|]. cbn. now f_equal.
  Qed.

  (** ** Datasets *)
  Lemma features_feed : forall gi ns l i recs, Forall (has_columns ns) l ->
    feed W (flat_mapi (fun i f => feature_obs multi i (gi i) f) i l) (after ("geometry" :: ns) recs) =
    (after ("geometry" :: ns) (recs ++ map (fun f => geom_field f :: row_of f) l), Ok tt).
  Proof.
    induction l as [|f l IH]; intros i recs H; cbn [flat_mapi map].
    - cbn [feed]. now rewrite app_nil_r.
    - inversion H as [|? ? H1 H2]; subst. rewrite feed_app, later_feed.
      + rewrite IH by exact H2. now rewrite <- app_assoc.
      + now apply columns_matching.
      + cbn. now rewrite (columns_length _ _ H1).
  Qed.
  Lemma features_ok : forall gi ns l i recs s', Forall numbered_props l ->
    feed W (flat_mapi (fun i f => feature_obs multi i (gi i) f) i l) (after ("geometry" :: ns) recs) = (s', Ok tt) ->
    Forall (has_columns ns) l.
  Proof.
    induction l as [|f l IH]; intros i recs s' N H; cbn [flat_mapi] in H; [constructor|].
    inversion N as [|? ? N1 N2]; subst. rewrite feed_app in H.
    destruct (feed W (feature_obs multi i (gi i) f) _) as [s1 [[]|x]] eqn:E; [|discriminate H].
    destruct (later_ok _ _ _ _ _ _ E) as [M L]. cbn in L.
    assert (C : has_columns ns f) by (apply matching_columns; auto).
    constructor; [exact C|]. rewrite later_feed in E; [|assumption|assumption].
    injection E as <-. eapply IH; eauto.
  Qed.
  Lemma dataset_feed : forall gi name ns l, Forall (has_columns ns) l ->
    exists s, feed W (dataset_at multi gi name l) csv_init = (s, Ok tt) /\
      is_table fmt32 fmt multi ns l (o_records (cs_csv s)) /\ o_fields (cs_csv s) = [].
  Proof.
    intros gi name ns l H. unfold dataset_at. cbn [feed p_step csv_writer csv_step csv_init cs_headers]. unfold csv_assert.
    destruct (list_eq_dec _ _ _) as [_|]; [|congruence]. cbn [negb]. rewrite andb_false_r, feed_app.
    destruct l as [|f l]; cbn [flat_mapi].
    - cbn [feed p_step csv_writer csv_step]. eexists. split; [reflexivity|]. split; reflexivity.
    - inversion H as [|? ? H1 H2]; subst. rewrite feed_app.
      change (mkCsv csv_out_init ["geometry"] false [] (wkt_init None)) with csv_init. rewrite first_feed.
      rewrite (columns_header _ _ H1). rewrite features_feed by exact H2. cbn [feed p_step csv_writer csv_step].
      eexists. split; [reflexivity|]. split; [|reflexivity]. cbn [cs_csv after between o_records is_table].
      exists ((geom_field f :: row_of f) :: map (fun f => geom_field f :: row_of f) l). split; [reflexivity|].
      constructor; [apply is_row_of|]. clear. induction l; constructor; [apply is_row_of|assumption].
  Qed.
  Lemma dataset_ok : forall gi name l s', Forall numbered_props l ->
    feed W (dataset_at multi gi name l) csv_init = (s', Ok tt) -> exists ns, Forall (has_columns ns) l.
  Proof.
    intros gi name l s' N. unfold dataset_at. cbn [feed p_step csv_writer csv_step csv_init cs_headers]. unfold csv_assert.
    destruct (list_eq_dec _ _ _) as [_|]; [|congruence]. cbn [negb]. rewrite andb_false_r, feed_app.
    destruct l as [|f l]; cbn [flat_mapi]; [exists []; constructor|].
    inversion N as [|? ? N1 N2]; subst. rewrite feed_app.
    change (mkCsv csv_out_init ["geometry"] false [] (wkt_init None)) with csv_init. rewrite first_feed.
    destruct (feed W (flat_mapi _ 1 l) _) as [s1 [[]|x]] eqn:E; [|discriminate]. intros _.
    exists (header_of f). constructor; [now apply numbered_columns|]. eapply features_ok; eassumption.
  Qed.
End Writer.

(** ** The writer, whatever drives it *)
Lemma csv_even : forall fmt32 fmt debug d A (g : prog A) r1 r2,
  let records := o_records (cs_csv (fst (exec (csv_writer fmt32 fmt debug d) g csv_init))) in
  In r1 records -> In r2 records -> length r1 = length r2.
Proof.
  intros fmt32 fmt debug d A g r1 r2 records H1 H2.
  pose proof (even_exec fmt32 fmt debug d A g csv_init eq_refl) as E. unfold even in E.
  fold records in E. destruct (o_count _) as [n|]; [|rewrite E in H1; destruct H1].
  rewrite Forall_forall in E. now rewrite (E _ H1), (E _ H2).
Qed.
Lemma csv_table : forall fmt32 fmt debug d A (src : dims -> prog A) gi name ns l r,
  delivers_obs src (fun multi => dataset_at multi gi name l) (Ok r) -> Forall (has_columns ns) l ->
  exists s, exec (csv_writer fmt32 fmt debug d) (src d) csv_init = (s, Ok r) /\
    is_table fmt32 fmt (multi_dim d) ns l (o_records (cs_csv s)) /\ o_fields (cs_csv s) = [].
Proof.
  intros fmt32 fmt debug d A src gi name ns l r D H.
  destruct (dataset_feed fmt32 fmt debug d gi name ns l H) as (s & F & T).
  exists s. split; [|exact T]. specialize (D _ (csv_writer fmt32 fmt debug d) csv_init).
  cbn [p_dims csv_writer] in D. rewrite D.
  change (mkProc d (csv_step fmt debug d) (csv_prop fmt32 fmt)) with (csv_writer fmt32 fmt debug d).
  now rewrite F.
Qed.
Lemma to_csv_table : forall fmt32 fmt debug A (src : dims -> prog A) gi name ns l r,
  delivers_obs src (fun multi => dataset_at multi gi name l) (Ok r) -> Forall (has_columns ns) l ->
  exists records, to_csv fmt32 fmt debug src = Ok records /\ is_table fmt32 fmt false ns l records.
Proof.
  intros fmt32 fmt debug A src gi name ns l r D H.
  destruct (csv_table fmt32 fmt debug xy_dims A src gi name ns l r D H) as (s & E & T & _).
  exists (o_records (cs_csv s)). split; [|exact T]. unfold to_csv. now rewrite E.
Qed.
Lemma csv_aligned : forall fmt32 fmt debug d A (src : dims -> prog A) gi name l r s a,
  delivers_obs src (fun multi => dataset_at multi gi name l) r -> Forall numbered_props l ->
  exec (csv_writer fmt32 fmt debug d) (src d) csv_init = (s, Ok a) ->
  exists ns, Forall (has_columns ns) l.
Proof.
  intros fmt32 fmt debug d A src gi name l r s a D N E.
  specialize (D _ (csv_writer fmt32 fmt debug d) csv_init). cbn [p_dims csv_writer] in D.
  change (mkProc d (csv_step fmt debug d) (csv_prop fmt32 fmt)) with (csv_writer fmt32 fmt debug d) in D.
  rewrite E in D. destruct (feed _ (dataset_at _ gi name l) csv_init) as [s' [[]|x]] eqn:F; [|discriminate D].
  eapply dataset_ok; eassumption.
Qed.

(** ** The readers *)
Lemma nth_firstn_in : forall A (l : list A) i j a, nth_error l j = Some a -> (j < i)%nat -> In a (firstn i l).
Proof.
  induction l as [|b l IH]; intros i j a H L; [destruct j; discriminate H|].
  destruct i; [lia|]. destruct j; cbn in *; [injection H as ->; now left|right; eapply IH; [eassumption|lia]].
Qed.
Lemma position_first : forall column headers gi, first_at column headers gi -> position_of 0 column headers = Some gi.
Proof.
  intros column headers gi.
  assert (X : forall headers k gi, first_at column headers gi -> position_of k column headers = Some (k + gi)%nat).
  { clear. induction headers as [|h l IH]; intros k gi [H N]; [destruct gi; discriminate H|].
    cbn [position_of]. destruct (String.eqb_spec h column) as [->|Hn].
    - destruct gi as [|gi]; [now rewrite Nat.add_0_r|]. exfalso. apply N. now left.
    - destruct gi as [|gi]; [cbn in H; congruence|]. rewrite (IH (S k) gi).
      + f_equal. lia.
      + split; [exact H|]. intros I. apply N. now right. }
  intros H. now rewrite (X headers 0%nat gi H).
Qed.
Lemma position_none : forall column headers, ~ In column headers -> forall k, position_of k column headers = None.
Proof.
  induction headers as [|h l IH]; intros N k; cbn; [reflexivity|].
  destruct (String.eqb_spec h column) as [->|]; [exfalso; apply N; now left|]. apply IH. intros I. apply N. now right.
Qed.
Lemma filter_without : forall A (l : list A) k gi, (k <= gi)%nat ->
  map snd (filter (fun p => negb (Nat.eqb (fst p) gi)) (combine (seq k (length l)) l)) = without (gi - k) l.
Proof.
  induction l as [|a l IH]; intros k gi L; cbn [length seq combine filter map].
  - unfold without. now rewrite firstn_nil, skipn_nil.
  - cbn [fst]. destruct (Nat.eqb_spec k gi) as [->|N]; cbn [negb].
    + rewrite Nat.sub_diag. unfold without. cbn. clear. assert (X : forall j, (gi < j)%nat ->
        map snd (filter (fun p => negb (Nat.eqb (fst p) gi)) (combine (seq j (length l)) l)) = l).
      { induction l as [|a l IH]; intros j L; [reflexivity|]. cbn [length seq combine filter fst].
        destruct (Nat.eqb_spec j gi); [lia|]. cbn [negb map snd]. f_equal. apply IH. lia. }
      apply X. lia.
    + cbn [map snd]. rewrite IH by lia. replace (gi - k)%nat with (S (gi - S k)) by lia. reflexivity.
Qed.
Lemma combine_skipn : forall A B (a : list A) (b : list B) n, combine (skipn n a) (skipn n b) = skipn n (combine a b).
Proof.
  induction a as [|x a IH]; intros b n.
  - cbn. now rewrite !skipn_nil.
  - destruct b as [|y b]; [cbn; rewrite !skipn_nil; now destruct (skipn n (x :: a))|].
    destruct n; [reflexivity|]. cbn; apply IH.
Qed.
Lemma combine_app' : forall A B (a a' : list A) (b b' : list B), length a = length b ->
  combine (a ++ a') (b ++ b') = combine a b ++ combine a' b'.
Proof.
  induction a as [|x a IH]; intros a' [|y b] b' L; try discriminate L; [reflexivity|]. cbn. f_equal. apply IH. now injection L.
Qed.
Lemma without_combine : forall A B (a : list A) (b : list B) n, length a = length b ->
  without n (combine a b) = combine (without n a) (without n b).
Proof.
  intros A B a b n L. unfold without. rewrite combine_app', combine_firstn, combine_skipn; [reflexivity|].
  now rewrite !firstn_length, L.
Qed.
Lemma without_length : forall A (l : list A) n, (n < length l)%nat -> length (without n l) = (length l - 1)%nat.
Proof.
  intros A l n L. unfold without. rewrite app_length, firstn_length, skipn_length. lia.
Qed.
Lemma csv_columns_spec : forall gi headers r, length r = length headers ->
  csv_columns gi headers r = combine (without gi headers) (without gi r).
Proof.
  intros gi headers r L. unfold csv_columns.
  replace (length headers) with (length (combine headers r)) by (rewrite combine_length, L; apply Nat.min_id).
  rewrite filter_without by lia. rewrite Nat.sub_0_r. now apply without_combine.
Qed.

Section Reading.
  Variable parse : string -> option wkt.
  Variable multi : bool.

  Lemma props_play : forall names values k, length names = length values ->
    plays (pfor (fun i c => CallProp i (fst c) (CString (snd c)) (fun _ => pret tt)) k (combine names values))
          (map prop_obs (combine (combine (seq k (length names)) names) (map CString values))).
  Proof.
    induction names as [|n names IH]; intros [|v values] k L; try discriminate L; [apply plays_ret|].
    cbn [length seq combine map pfor]. apply (plays_then _ _ [_] _).
    - intros S p s. reflexivity.
    - apply IH. now injection L.
  Qed.
  Lemma read_play : forall t g, parses parse t g -> plays (read_wkt parse multi t) (map OEv (gevents multi 0 g)).
  Proof.
    intros t g (w & P & G). unfold read_wkt. rewrite P. rewrite (wgeom_calls multi _ w g 0 (le_n _) G). apply plays_calls.
  Qed.
  Lemma feature_play : forall headers gi r f i, is_record parse headers gi r f ->
    plays (csv_feature parse multi gi headers i (Ok r)) (feature_obs multi i 0 f).
  Proof.
    intros headers gi r f i (L & P & t & T & G). unfold csv_feature, feature_obs. rewrite P, T.
    assert (Hgi : (gi < length r)%nat) by (apply nth_error_Some; congruence).
    apply (plays_then _ _ [_] _); [apply plays_call|].
    match goal with |- plays _ ((?x :: map prop_obs ?c ++ [?y]) ++ ?z) =>
      replace ((x :: map prop_obs c ++ [y]) ++ z) with ([x] ++ map prop_obs c ++ [y] ++ z)
        by (cbn [app]; now rewrite <- app_assoc) end.
    apply plays_then; [apply plays_call|].
    apply plays_then.
    { rewrite csv_columns_spec by exact L. unfold columns.
      replace (length headers - 1)%nat with (length (without gi headers)) by (apply without_length; lia).
      apply props_play. rewrite !without_length by lia. lia. }
    apply plays_then; [apply plays_call|].
    destruct (f_geom f) as [g|].
    - destruct G as [N G]. destruct (String.eqb_spec t ""); [contradiction|].
      apply plays_then; [|apply plays_call].
      apply (plays_then _ _ [_] _); [apply plays_call|]. apply plays_then; [now apply read_play|apply plays_call].
    - subst t. cbn [String.eqb]. apply (plays_then _ _ [] _); [apply plays_ret|apply plays_call].
  Qed.
  Lemma dataset_play : forall column headers gi rs l, first_at column headers gi ->
    Forall2 (is_record parse headers gi) rs l ->
    plays (process_csv_features parse multi column (Ok headers) (map Ok rs)) (dataset_obs multi None l).
  Proof.
    intros column headers gi rs l F H. unfold process_csv_features, dataset_obs.
    rewrite (position_first _ _ _ F). apply (plays_then _ _ [_] _); [apply plays_call|].
    apply plays_then; [|apply plays_call].
    apply (plays_for2 _ _ (fun r f => exists r0, r = Ok r0 /\ is_record parse headers gi r0 f)).
    - induction H; constructor; [eexists; split; [reflexivity|assumption]|assumption].
    - intros k a f (r0 & -> & R). now apply feature_play.
  Qed.

  (** programs that make given callbacks and then fail *)
  Definition fails (g : prog unit) (l : list obs) (e : error) : Prop :=
    forall S (p : proc S) s, exec p g s = match feed p l s with (s', Ok _) => (s', Err e) | (s', Err x) => (s', Err x) end.
  Lemma fails_now : forall e, fails (pfail e) [] e.
  Proof. intros e S p s. reflexivity. Qed.
  Lemma plays_fails : forall g1 g2 l1 l2 e, plays g1 l1 -> fails g2 l2 e -> fails (pthen g1 g2) (l1 ++ l2) e.
  Proof.
    intros g1 g2 l1 l2 e H1 H2 S p s. unfold pthen. rewrite exec_pbind, H1, feed_app.
    destruct (feed p l1 s) as [s' [u|x]]; [apply H2|reflexivity].
  Qed.
  Lemma fails_then : forall g1 g2 l1 e, fails g1 l1 e -> fails (pthen g1 g2) l1 e.
  Proof.
    intros g1 g2 l1 e H1 S p s. unfold pthen. rewrite exec_pbind, H1.
    destruct (feed p l1 s) as [s' [u|x]]; reflexivity.
  Qed.
  Lemma pfor_app_plays : forall A B (R : A -> B -> Prop) (f : nat -> A -> prog unit) (ev : nat -> B -> list obs) l l' bad rest lb e i,
    Forall2 R l l' -> (forall k a b, R a b -> plays (f k a) (ev k b)) ->
    fails (f (i + length l)%nat bad) lb e ->
    fails (pfor f i (l ++ bad :: rest)) (flat_mapi ev i l' ++ lb) e.
  Proof.
    intros A B R f ev l l' bad rest lb e i H HR HB. revert i HB.
    induction H as [|a b l l' Hab H IH]; intros i HB; cbn [app pfor flat_mapi length] in *.
    - rewrite Nat.add_0_r in HB. now apply fails_then.
    - rewrite <- app_assoc. apply plays_fails; [now apply HR|]. apply IH. now rewrite Nat.add_succ_r in HB.
  Qed.
  Lemma bad_record_fails : forall column headers gi rs l e rest, first_at column headers gi ->
    Forall2 (is_record parse headers gi) rs l ->
    fails (process_csv_features parse multi column (Ok headers) (map Ok rs ++ Err e :: rest))
          (OEv (DatasetBegin None) :: flat_mapi (fun i f => feature_obs multi i 0 f) 0 l) e.
  Proof.
    intros column headers gi rs l e rest F H. unfold process_csv_features.
    rewrite (position_first _ _ _ F). apply (plays_fails _ _ [_] _); [apply plays_call|].
    apply fails_then. rewrite <- (app_nil_r (flat_mapi _ 0 l)).
    apply (pfor_app_plays _ _ (fun r f => exists r0, r = Ok r0 /\ is_record parse headers gi r0 f)).
    - induction H; constructor; [eexists; split; [reflexivity|assumption]|assumption].
    - intros k a f (r0 & -> & R). now apply feature_play.
    - apply fails_now.
  Qed.
  Lemma bad_geometry_fails : forall column headers gi rs l r t rest, first_at column headers gi ->
    Forall2 (is_record parse headers gi) rs l ->
    length r = length headers -> nth_error r gi = Some t -> t <> "" -> parse t = None ->
    fails (process_csv_features parse multi column (Ok headers) (map Ok rs ++ Ok r :: rest))
          (OEv (DatasetBegin None) :: flat_mapi (fun i f => feature_obs multi i 0 f) 0 l ++
           OEv (FeatureBegin (length rs)) :: OEv PropertiesBegin :: map prop_obs (columns gi headers r) ++
           [OEv PropertiesEnd; OEv GeometryBegin]) EGeometry.
  Proof.
    intros column headers gi rs l r t rest F H L T N P. unfold process_csv_features.
    rewrite (position_first _ _ _ F). apply (plays_fails _ _ [_] _); [apply plays_call|].
    apply fails_then.
    apply (pfor_app_plays _ _ (fun r f => exists r0, r = Ok r0 /\ is_record parse headers gi r0 f)).
    - induction H; constructor; [eexists; split; [reflexivity|assumption]|assumption].
    - intros k a f (r0 & -> & R). now apply feature_play.
    - cbn [Nat.add]. rewrite map_length. unfold csv_feature. rewrite T.
      assert (Hgi : (gi < length r)%nat) by (apply nth_error_Some; congruence).
      apply (plays_fails _ _ [_] _); [apply plays_call|]. apply (plays_fails _ _ [_] _); [apply plays_call|].
      apply plays_fails.
      { rewrite csv_columns_spec by exact L. unfold columns.
        replace (length headers - 1)%nat with (length (without gi headers)) by (apply without_length; lia).
        apply props_play. rewrite !without_length by lia. lia. }
      apply (plays_fails _ _ [_] _); [apply plays_call|]. destruct (String.eqb_spec t ""); [contradiction|].
      apply fails_then. apply (plays_fails _ _ [_] []); [apply plays_call|]. apply fails_then.
      unfold read_wkt. rewrite P. apply fails_now.
  Qed.
  Lemma no_column_fails : forall column headers records, ~ In column headers ->
    fails (process_csv_features parse multi column (Ok headers) records) [OEv (DatasetBegin None)] (ECsv 0).
  Proof.
    intros column headers records N. unfold process_csv_features. rewrite position_none by exact N.
    apply (plays_fails _ _ [_] []); [apply plays_call|apply fails_now].
  Qed.

  (** *** As one geometry *)
  Lemma geoms_run : forall gi rs gs, Forall2 (is_member parse gi) rs gs -> forall started i S (p : proc S) s,
    exec p (csv_geoms parse multi gi started i (map Ok rs)) s =
    match run p ((if started then [] else match gs with [] => [] | _ => [CollectionBegin 1 0] end) ++
                 flat_mapi (gevents multi) i gs) s with
    | (s', Ok _) => (s', Ok (started || match gs with [] => false | _ => true end))
    | (s', Err x) => (s', Err x)
    end.
  Proof.
    intros gi rs gs H. induction H as [|r g rs gs (t & T & w & P & G) H IH]; intros started i S p s.
    - cbn. rewrite app_nil_r, orb_false_r. destruct started; reflexivity.
    - cbn [map csv_geoms flat_mapi]. rewrite T, P. rewrite (wgeom_calls multi _ w g i (le_n _) G).
      replace (if started then pret tt else pcall (CollectionBegin 1 0))
        with (ok_calls (if started then [] else [CollectionBegin 1 0])) by (destruct started; reflexivity).
      unfold pthen. rewrite exec_pbind. unfold ok_calls at 1. rewrite exec_calls, run_app.
      destruct (run p (if started then [] else _) s) as [s' [[]|x]]; [|reflexivity].
      cbn [exec]. rewrite exec_pbind. unfold ok_calls. rewrite exec_calls, run_app.
      destruct (run p (gevents multi i g) s') as [s2 [[]|x]]; [|reflexivity]. cbn [exec].
      rewrite IH. cbn [app]. rewrite orb_true_r. reflexivity.
  Qed.
  Lemma geoms_bad : forall gi rs gs bad e rest, Forall2 (is_member parse gi) rs gs -> bad_member parse gi bad e ->
    forall started i S (p : proc S) s,
    exec p (csv_geoms parse multi gi started i (map Ok rs ++ bad :: rest)) s =
    match run p ((if started then [] else match gs with [] => [] | _ => [CollectionBegin 1 0] end) ++
                 flat_mapi (gevents multi) i gs) s with
    | (s', Ok _) => (s', Err e)
    | (s', Err x) => (s', Err x)
    end.
  Proof.
    intros gi rs gs bad e rest H B. induction H as [|r g rs gs (t & T & w & P & G) H IH]; intros started i S p s.
    - cbn [map app csv_geoms]. replace (run p _ s) with (s, Ok tt) by (destruct started; reflexivity).
      destruct bad as [r|x]; [|now rewrite B]. cbn [bad_member] in B.
      destruct (nth_error r gi) as [t|]; [|now rewrite B]. destruct B as [-> ->]. reflexivity.
    - cbn [map app csv_geoms flat_mapi]. rewrite T, P. rewrite (wgeom_calls multi _ w g i (le_n _) G).
      replace (if started then pret tt else pcall (CollectionBegin 1 0))
        with (ok_calls (if started then [] else [CollectionBegin 1 0])) by (destruct started; reflexivity).
      unfold pthen. rewrite exec_pbind. unfold ok_calls at 1. rewrite exec_calls, run_app.
      destruct (run p (if started then [] else _) s) as [s' [[]|x]]; [|reflexivity].
      cbn [exec]. rewrite exec_pbind. unfold ok_calls. rewrite exec_calls, run_app.
      destruct (run p (gevents multi i g) s') as [s2 [[]|x]]; [|reflexivity]. cbn [exec].
      rewrite IH. cbn [app]. reflexivity.
  Qed.
  Lemma geom_run : forall column headers gi rs gs, first_at column headers gi ->
    Forall2 (is_member parse gi) rs gs -> forall S (p : proc S) s,
    exec p (process_csv_geom parse multi column (Ok headers) (map Ok rs)) s =
    run p (CollectionBegin (match gs with [] => 0 | _ => 1 end) 0 :: flat_mapi (gevents multi) 0 gs ++ [CollectionEnd 0]) s.
  Proof.
    intros column headers gi rs gs F H S p s. unfold process_csv_geom. rewrite (position_first _ _ _ F), exec_pbind.
    rewrite (geoms_run gi rs gs H). destruct gs as [|g gs].
    - cbn. destruct (p_step p s _) as [s' [[]|x]]; [|reflexivity]. destruct (p_step p s' _) as [s2 [[]|x]]; reflexivity.
    - change (CollectionBegin 1 0 :: flat_mapi (gevents multi) 0 (g :: gs) ++ [CollectionEnd 0])
        with (([CollectionBegin 1 0] ++ flat_mapi (gevents multi) 0 (g :: gs)) ++ [CollectionEnd 0]).
      set (L := [CollectionBegin 1 0] ++ flat_mapi (gevents multi) 0 (g :: gs)).
      rewrite run_app. cbn [orb]. destruct (run p L s) as [s' [[]|x]]; [|reflexivity].
      cbn. destruct (p_step p s' _) as [s2 [[]|x]]; reflexivity.
  Qed.
End Reading.

(** *** Every processor *)
Lemma read_features : forall parse column headers gi rs l, first_at column headers gi ->
  Forall2 (is_record parse headers gi) rs l ->
  delivers_obs (fun d => process_csv_features parse (multi_dim d) column (Ok headers) (map Ok rs))
    (fun multi => dataset_obs multi None l) (Ok tt).
Proof. intros. apply plays_delivers. intros d. now apply dataset_play with (gi := gi). Qed.
Lemma fails_delivers : forall (src : dims -> prog unit) stream e,
  (forall d, fails (src d) (stream (multi_dim d)) e) -> delivers_obs src stream (Err e).
Proof. intros src stream e H S p s. apply (H (p_dims p)). Qed.
Lemma read_no_column : forall parse column headers records, ~ In column headers ->
  delivers_obs (fun d => process_csv_features parse (multi_dim d) column (Ok headers) records)
    (fun _ => [OEv (DatasetBegin None)]) (Err (ECsv 0)).
Proof. intros. apply fails_delivers. intros d. now apply no_column_fails. Qed.
Lemma read_bad_record : forall parse column headers gi rs l e rest, first_at column headers gi ->
  Forall2 (is_record parse headers gi) rs l ->
  delivers_obs (fun d => process_csv_features parse (multi_dim d) column (Ok headers) (map Ok rs ++ Err e :: rest))
    (fun multi => OEv (DatasetBegin None) :: flat_mapi (fun i f => feature_obs multi i 0 f) 0 l) (Err e).
Proof. intros. apply fails_delivers. intros d. now apply bad_record_fails with (gi := gi). Qed.
Lemma read_bad_geometry : forall parse column headers gi rs l r t rest, first_at column headers gi ->
  Forall2 (is_record parse headers gi) rs l ->
  length r = length headers -> nth_error r gi = Some t -> t <> "" -> parse t = None ->
  delivers_obs (fun d => process_csv_features parse (multi_dim d) column (Ok headers) (map Ok rs ++ Ok r :: rest))
    (fun multi => OEv (DatasetBegin None) :: flat_mapi (fun i f => feature_obs multi i 0 f) 0 l ++
       OEv (FeatureBegin (length rs)) :: OEv PropertiesBegin :: map prop_obs (columns gi headers r) ++
       [OEv PropertiesEnd; OEv GeometryBegin]) (Err EGeometry).
Proof. intros. apply fails_delivers. intros d. now apply bad_geometry_fails with (t := t). Qed.
Lemma read_geom : forall parse column headers gi rs gs, first_at column headers gi ->
  Forall2 (is_member parse gi) rs gs ->
  delivers (fun d => process_csv_geom parse (multi_dim d) column (Ok headers) (map Ok rs))
    (fun multi => CollectionBegin (match gs with [] => 0 | _ => 1 end) 0 ::
                  flat_mapi (gevents multi) 0 gs ++ [CollectionEnd 0]) (Ok tt).
Proof.
  intros parse column headers gi rs gs F H S p s. rewrite (geom_run parse _ column headers gi rs gs F H).
  destruct (run p _ s) as [s' [[]|x]]; reflexivity.
Qed.
Lemma read_geom_one : forall parse column headers gi rs gs, first_at column headers gi ->
  Forall2 (is_member parse gi) rs gs -> (length gs <= 1)%nat ->
  delivers (fun d => process_csv_geom parse (multi_dim d) column (Ok headers) (map Ok rs))
    (fun multi => gevents multi 0 (GCollection gs)) (Ok tt).
Proof.
  intros parse column headers gi rs gs F H L S p s. rewrite (geom_run parse _ column headers gi rs gs F H).
  rewrite GeoJsonWrite.collection_events.
  replace (match gs with [] => 0 | _ => 1 end)%nat with (length gs) by (destruct gs as [|a [|b gs]]; cbn in *; lia).
  destruct (run p _ s) as [s' [[]|x]]; reflexivity.
Qed.
Definition origin_parse (t : string) : option wkt :=
  if String.eqb t "POINT(0 0)" then Some (WPoint (Some (mkC 0%N 0%N None None))) else None.
Lemma read_geom_two : ~ exists t, delivers
  (fun d => process_csv_geom origin_parse (multi_dim d) "geom" (Ok ["geom"]) [Ok ["POINT(0 0)"]; Ok ["POINT(0 0)"]])
  (fun multi => gevents multi 0 t) (Ok tt).
Proof.
  intros [t H]. pose (o := GPoint (mkC 0%N 0%N None None)).
  assert (D : delivers
    (fun d => process_csv_geom origin_parse (multi_dim d) "geom" (Ok ["geom"]) [Ok ["POINT(0 0)"]; Ok ["POINT(0 0)"]])
    (fun multi => CollectionBegin 1 0 :: flat_mapi (gevents multi) 0 [o; o] ++ [CollectionEnd 0]) (Ok tt)).
  { apply (read_geom origin_parse "geom" ["geom"] 0 [["POINT(0 0)"]; ["POINT(0 0)"]] [o; o]).
    - split; [reflexivity|intros []].
    - repeat constructor; eexists; (split; [reflexivity|]); eexists; split; reflexivity. }
  pose proof (delivers_events _ _ _ _ _ H D) as E. clear H D. cbn in E.
  destruct t; try discriminate E. rewrite GeoJsonWrite.collection_events in E. injection E as L E.
  destruct l as [|a [|b l]]; try discriminate L. clear L. cbn [flat_mapi] in E. rewrite app_nil_r in E.
  apply (f_equal (@removelast event)) in E. rewrite removelast_last in E. cbn in E.
  destruct a; cbn in E; try discriminate E.
Qed.

(** ** Written, then read *)
Lemma wkt_text_not_empty : forall fmt z m g, wkt_text fmt z m g <> "".
Proof. intros fmt z m g. destruct g; cbn; try discriminate; unfold tagged_group; try (destruct l; discriminate); destruct r; discriminate. Qed.
Lemma row_record : forall fmt32 fmt parse ns f r, has_columns ns f -> is_row fmt32 fmt false f r ->
  (forall g, f_geom f = Some g -> parses parse (wkt_text fmt false false g) (WkbSpec.retained false false g)) ->
  exists f', as_text fmt32 fmt f f' /\ is_record parse ("geometry" :: ns) 0 r f'.
Proof.
  intros fmt32 fmt parse ns f r C (texts & -> & T) P.
  assert (L : length texts = length ns).
  { rewrite <- (columns_length _ _ C). clear - T. induction T; cbn; auto. }
  exists (mkFeature (Some (combine (map fst (the_props f)) (map CString texts)))
            (option_map (WkbSpec.retained false false) (f_geom f))). split.
  - split; [reflexivity|]. exists texts. auto.
  - split; [cbn; now rewrite L|]. split.
    + cbn [f_props]. unfold columns, without. cbn [firstn skipn app length]. rewrite Nat.sub_succ, Nat.sub_0_r, C. reflexivity.
    + eexists. split; [reflexivity|]. cbn [f_geom]. destruct (f_geom f) as [g|]; cbn [option_map]; [|reflexivity].
      split; [apply wkt_text_not_empty|now apply P].
Qed.
Lemma csv_round : forall fmt32 fmt debug parse A (src : dims -> prog A) gi name ns l r, l <> [] ->
  delivers_obs src (fun multi => dataset_at multi gi name l) (Ok r) -> Forall (has_columns ns) l ->
  (forall f g, In f l -> f_geom f = Some g ->
     parses parse (wkt_text fmt false false g) (WkbSpec.retained false false g)) ->
  exists header rows l', to_csv fmt32 fmt debug src = Ok (header :: rows) /\
    Forall2 (as_text fmt32 fmt) l l' /\
    delivers_obs (fun d => process_csv_features parse (multi_dim d) "geometry" (Ok header) (map Ok rows))
      (fun multi => dataset_obs multi None l') (Ok tt).
Proof.
  intros fmt32 fmt debug parse A src gi name ns l r NE D H P.
  destruct (to_csv_table fmt32 fmt debug A src gi name ns l r D H) as (records & E & T).
  destruct l as [|f0 l0] eqn:El; [congruence|]. rewrite <- El in *. unfold is_table in T. rewrite El in T. rewrite <- El in T.
  destruct T as (rows & -> & T). exists ("geometry" :: ns), rows.
  assert (X : exists l', Forall2 (as_text fmt32 fmt) l l' /\ Forall2 (is_record parse ("geometry" :: ns) 0) rows l').
  { clear - H P T. induction T as [|f r l rows F T IH]; [exists []; split; constructor|].
    inversion H as [|? ? H1 H2]; subst.
    destruct IH as (l' & I1 & I2); [exact H2|intros; eapply P; [right; eassumption|eassumption]|].
    destruct (row_record fmt32 fmt parse ns f r H1 F) as (f' & F1 & F2); [intros; eapply P; [now left|assumption]|].
    exists (f' :: l'). split; constructor; assumption. }
  destruct X as (l' & X1 & X2). exists l'. split; [exact E|]. split; [exact X1|].
  apply (read_features parse "geometry" ("geometry" :: ns) 0 rows l'); [|exact X2].
  split; [reflexivity|intros []].
Qed.

(** ** Refutations *)
(** two features with the same members, the first of which is null *)
Definition null_feature : gjfeature :=
  mkGjFeature None (Some [("a", JvNull); ("b", JvBool true)]).
Lemma null_panics : forall fmt32 fmt debug ser,
  to_csv fmt32 fmt debug (fun d => read_geojson ser (multi_dim d) (Ok (GjFeatures [null_feature; null_feature]))) = Err EPanic.
Proof. intros fmt32 fmt [] ser; reflexivity. Qed.
(** a dataset after a dataset with the same columns *)
Definition one_prop (n : string) (v : Z) : feature := mkFeature (Some [(0%nat, n, CInt v)]) None.
Lemma second_dataset_panics : forall fmt32 fmt debug d,
  snd (feed (csv_writer fmt32 fmt debug d)
    (dataset_obs (multi_dim d) None [one_prop "a" 1] ++ dataset_obs (multi_dim d) None [one_prop "a" 1]) csv_init)
  = Err EPanic.
Proof. intros fmt32 fmt [] d; reflexivity. Qed.
(** the same properties in another order *)
Definition misordered : list feature :=
  [mkFeature (Some [(0%nat, "a", CInt 1); (1%nat, "b", CInt 2)]) None;
   mkFeature (Some [(1%nat, "b", CInt 2); (0%nat, "a", CInt 1)]) None].
Lemma misordered_written : forall fmt32 fmt debug d, exists s,
  feed (csv_writer fmt32 fmt debug d) (dataset_obs (multi_dim d) None misordered) csv_init = (s, Ok tt) /\
  o_records (cs_csv s) = [["geometry"; "a"; "b"]; [""; "1"; "2"]; [""; "2"; "1"]].
Proof. intros fmt32 fmt [] d; (eexists; split; [vm_compute; reflexivity|reflexivity]). Qed.

(** ** Satisfiable *)
Definition town (name : string) (pop : Z) (g : option geom) : feature :=
  mkFeature (Some [(0%nat, "name", CString name); (1%nat, "pop", CLong pop)]) g.
Definition towns : list feature :=
  [town "A" 12 (Some (GPoint (mkC 0%N 0%N (Some 7%N) None))); town "B" (-3) None;
   town "" 0 (Some (GCollection [GLineString []; GPolygon [[mkC 0%N 0%N None None]]]))].
Definition replay (l : list obs) : prog unit :=
  (fix go (l : list obs) : prog unit :=
     match l with
     | [] => pret tt
     | OEv e :: r => pthen (pcall e) (go r)
     | OProp i n v :: r => CallProp i n v (fun _ => go r)
     end) l.
Lemma replay_delivers : forall stream, delivers_obs (fun d => replay (stream (multi_dim d))) stream (Ok tt).
Proof.
  intros stream S p s. generalize (stream (multi_dim (p_dims p))). intros l. revert s.
  induction l as [|[e|i n v] l IH]; intros s; cbn; [reflexivity| |].
  - destruct (p_step p s e) as [s' [u|x]]; [apply IH|reflexivity].
  - destruct (p_prop p s i n v) as [s' [u|x]]; [apply IH|reflexivity].
Qed.
(** a parser that knows the geometries of [towns] *)
Definition towns_wkt (fmt : f64 -> string) (t : string) : option wkt :=
  if String.eqb t (wkt_text fmt false false (GPoint (mkC 0%N 0%N None None)))
  then Some (WPoint (Some (mkC 0%N 0%N None None)))
  else if String.eqb t (wkt_text fmt false false (GCollection [GLineString []; GPolygon [[mkC 0%N 0%N None None]]]))
  then Some (WCollection [WLineString []; WPolygon [[mkC 0%N 0%N None None]]])
  else None.
Lemma towns_columns : Forall (has_columns ["name"; "pop"]) towns.
Proof. repeat constructor. Qed.
Lemma towns_numbered : Forall numbered_props towns.
Proof. repeat constructor. Qed.
Lemma towns_parse : forall f g, In f towns -> f_geom f = Some g ->
  parses (towns_wkt show_bits) (wkt_text show_bits false false g) (WkbSpec.retained false false g).
Proof.
  intros f g [<-|[<-|[<-|[]]]] E; [| discriminate E |]; injection E as <-; eexists; split; reflexivity.
Qed.
Lemma read_geom_bad : forall parse column headers gi rs gs bad e rest, first_at column headers gi ->
  Forall2 (is_member parse gi) rs gs -> bad_member parse gi bad e ->
  delivers (fun d => process_csv_geom parse (multi_dim d) column (Ok headers) (map Ok rs ++ bad :: rest))
    (fun multi => match gs with [] => [] | _ => [CollectionBegin 1 0] end ++ flat_mapi (gevents multi) 0 gs) (Err e).
Proof.
  intros parse column headers gi rs gs bad e rest F H B S p s. unfold process_csv_geom.
  rewrite (position_first _ _ _ F), exec_pbind, (geoms_bad _ _ gi rs gs bad e rest H B).
  destruct (run p _ s) as [s' [[]|x]]; reflexivity.
Qed.
Lemma read_geom_no_column : forall parse column headers records,
  (forall e, headers = Err e -> delivers (fun d => process_csv_geom parse (multi_dim d) column headers records) (fun _ => []) (Err e)) /\
  (forall hs, headers = Ok hs -> ~ In column hs ->
     delivers (fun d => process_csv_geom parse (multi_dim d) column headers records) (fun _ => []) (Err (ECsv 0))).
Proof.
  intros parse column headers records. split.
  - intros e -> S p s. reflexivity.
  - intros hs -> N S p s. unfold process_csv_geom. now rewrite position_none by exact N.
Qed.
Lemma no_headers : forall parse column e records,
  delivers_obs (fun d => process_csv_features parse (multi_dim d) column (Err e) records) (fun _ => []) (Err e).
Proof. intros. apply fails_delivers. intros d. apply fails_now. Qed.
(** a feature whose end never came *)
Lemma interrupted_row : forall fmt32 fmt d s i, cs_row s <> [] ->
  p_step (csv_writer fmt32 fmt true d) s (FeatureBegin i) = (s, Err EPanic) /\
  p_step (csv_writer fmt32 fmt false d) s (FeatureBegin i) = (s, Ok tt).
Proof. intros fmt32 fmt d s i H. destruct s as [o h w [|r rs] k]; [now elim H|]. split; reflexivity. Qed.
