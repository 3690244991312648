(** The exact extent of C27 (helper lemmas). *)
From Coq Require Import String Ascii.
From Coq Require Import List NArith ZArith Lia Bool.
From Verif Require Import Base BaseLemmas Event EventLemmas Claims Geom ProcModel ProcSpec ProcTop
  WktModel WktSpec WktTop FeatureSpec GeoJsonRead CsvModel CsvSpec CsvTop CsvExactSpec.
Import ListNotations.
Local Open Scope string_scope.
Local Open Scope list_scope.

Section Writer.
  Variable fmt32 : N -> string.
  Variable fmt : f64 -> string.
  Variable debug : bool.
  Variable d : dims.
  Notation W := (csv_writer fmt32 fmt debug d).
  Notation multi := (multi_dim d).

  Lemma known_matching : forall ns f, known ns f <-> Forall (matching ("geometry" :: ns)) (the_props f).
  Proof.
    intros ns f. unfold known, matching. split; apply Forall_impl; intros q H; rewrite Nat.add_1_r in *; exact H.
  Qed.
  Lemma known_dec : forall ns f, known ns f \/ ~ known ns f.
  Proof.
    intros ns f. unfold known.
    assert (D : forall a b : option string, {a = b} + {a <> b}) by (decide equality; apply string_dec).
    destruct (Forall_dec (fun q => nth_error ns (fst (fst q)) = Some (snd (fst q)))
      (fun q => D _ _) (the_props f)); tauto.
  Qed.

  Lemma props_unknown : forall l s, cs_written s = true -> ~ Forall (matching (cs_headers s)) l ->
    exists s', feed W (map prop_obs l) s = (s', Err EPanic) /\ cs_csv s' = cs_csv s.
  Proof.
    induction l as [|q l IH]; intros s E H; [contradict H; constructor|]. cbn [map].
    unfold prop_obs at 1. cbn [feed p_prop csv_writer]. unfold csv_prop. rewrite E.
    destruct (nth_error (cs_headers s) (fst (fst q) + 1)) as [h|] eqn:N; [|exists s; split; reflexivity].
    destruct (String.eqb_spec (snd (fst q)) h) as [Eh|Eh]; [|exists s; split; reflexivity].
    subst h. match goal with |- context [feed _ _ ?s0] => specialize (IH s0 eq_refl) end.
    destruct IH as (s' & F & C); [|exists s'; split; [exact F|exact C]].
    intros K. apply H. constructor; [exact N|exact K].
  Qed.

  Lemma later_unknown : forall i gi f ns recs, ~ known ns f ->
    exists s', feed W (feature_obs multi i gi f) (after ("geometry" :: ns) recs) = (s', Err EPanic) /\
               o_records (cs_csv s') = recs.
  Proof.
    intros i gi f ns recs H. rewrite known_matching in H. unfold feature_obs, after.
    cbn [feed p_step csv_writer csv_step between cs_row]. unfold csv_assert. cbn [negb].
    rewrite andb_false_r, feed_app, props_part by reflexivity.
    match goal with |- context [feed _ (map prop_obs _) ?s0] =>
      destruct (props_unknown (the_props f) s0 eq_refl H) as (s' & F & C) end.
    rewrite F. exists s'. split; [reflexivity|]. rewrite C. reflexivity.
  Qed.
  Lemma later_uneven : forall i gi f ns recs, known ns f -> length (the_props f) <> length ns ->
    exists s', feed W (feature_obs multi i gi f) (after ("geometry" :: ns) recs) = (s', Err EDataset) /\
               o_records (cs_csv s') = recs.
  Proof.
    intros i gi f ns recs M L. rewrite known_matching in M. rewrite feature_split, feed_app. unfold after.
    rewrite before_feed by (intros _; exact M). cbn [feed p_step csv_writer csv_step]. unfold csv_feature_end.
    cbn [cs_written cs_csv cs_headers cs_wkt put k_out wkt_init append cs_row].
    rewrite write_fields. cbn [csv_write_field o_fields o_records o_count app]. rewrite record_next, app_nil_r.
    replace (Nat.eqb (length ("geometry" :: ns)) (length (geom_field fmt d f :: row_of fmt32 fmt f))) with false.
    - eexists. split; [reflexivity|]. reflexivity.
    - symmetry. apply Nat.eqb_neq. unfold row_of. cbn. rewrite map_length. lia.
  Qed.
  Lemma later_fitting : forall i gi f ns recs, fitting ns f ->
    feed W (feature_obs multi i gi f) (after ("geometry" :: ns) recs) =
    (after ("geometry" :: ns) (recs ++ [geom_field fmt d f :: row_of fmt32 fmt f]), Ok tt).
  Proof.
    intros i gi f ns recs [K L]. apply later_feed; [now apply known_matching|]. cbn. now rewrite L.
  Qed.

  Definition stop_of (names : list string) (rest : list feature) (x : res unit) : Prop :=
    match rest with
    | [] => x = Ok tt
    | bad :: _ => (~ known names bad /\ x = Err EPanic) \/
                  (known names bad /\ length (the_props bad) <> length names /\ x = Err EDataset)
    end.
  Notation row := (fun f => geom_field fmt d f :: row_of fmt32 fmt f).
  Lemma features_split : forall gi ns l i recs, exists s x before rest,
    feed W (flat_mapi (fun i f => feature_obs multi i (gi i) f) i l) (after ("geometry" :: ns) recs) = (s, x) /\
    l = before ++ rest /\ Forall (fitting ns) before /\ stop_of ns rest x /\
    o_records (cs_csv s) = recs ++ map row before.
  Proof.
    induction l as [|f l IH]; intros i recs; cbn [flat_mapi].
    - exists (after ("geometry" :: ns) recs), (Ok tt), [], []. cbn. rewrite app_nil_r. repeat split; constructor.
    - rewrite feed_app. destruct (known_dec ns f) as [K|K].
      + destruct (Nat.eq_dec (length (the_props f)) (length ns)) as [L|L].
        * rewrite later_fitting by (split; assumption).
          destruct (IH (S i) (recs ++ [row f])) as (s & x & b & r & F & E & H1 & H2 & H3).
          exists s, x, (f :: b), r. split; [exact F|]. split; [now rewrite E|].
          split; [constructor; [split; assumption|exact H1]|]. split; [exact H2|].
          rewrite H3, <- app_assoc. reflexivity.
        * destruct (later_uneven i (gi i) f ns recs K L) as (s & F & C). rewrite F.
          exists s, (Err EDataset), [], (f :: l). cbn [map app]. rewrite app_nil_r.
          repeat split; [constructor|now right|exact C].
      + destruct (later_unknown i (gi i) f ns recs K) as (s & F & C). rewrite F.
        exists s, (Err EPanic), [], (f :: l). cbn [map app]. rewrite app_nil_r.
        repeat split; [constructor|now left|exact C].
  Qed.

  Lemma features_fit : forall gi ns l i recs, Forall (fitting ns) l -> exists recs',
    feed W (flat_mapi (fun i f => feature_obs multi i (gi i) f) i l) (after ("geometry" :: ns) recs) =
    (after ("geometry" :: ns) recs', Ok tt).
  Proof.
    induction l as [|f l IH]; intros i recs H; cbn [flat_mapi].
    - exists recs. reflexivity.
    - inversion H as [|? ? H1 H2]; subst. rewrite feed_app, later_fitting by exact H1. apply IH. exact H2.
  Qed.

  Lemma dataset_split : forall gi name f l, exists s x before rest,
    feed W (dataset_at multi gi name (f :: l)) csv_init = (s, x) /\
    l = before ++ rest /\ Forall (fitting (names_of f)) before /\ stop_of (names_of f) rest x /\
    is_table fmt32 fmt multi (names_of f) (f :: before) (o_records (cs_csv s)).
  Proof.
    intros gi name f l. unfold dataset_at. cbn [feed p_step csv_writer csv_step csv_init cs_headers]. unfold csv_assert.
    destruct (list_eq_dec _ _ _) as [_|]; [|congruence]. cbn [negb]. rewrite andb_false_r, feed_app.
    cbn [flat_mapi]. rewrite feed_app.
    change (mkCsv csv_out_init ["geometry"] false [] (wkt_init None)) with csv_init. rewrite first_feed.
    change (header_of f) with (names_of f).
    destruct (features_split gi (names_of f) l 1
      ["geometry" :: names_of f; geom_field fmt d f :: row_of fmt32 fmt f]) as (s & x & b & r & F & E & H1 & H2 & H3).
    rewrite F. destruct x as [[]|e].
    - destruct r as [|bad r]; [|destruct H2 as [[_ H2]|(_ & _ & H2)]; discriminate H2].
      cbn [feed p_step csv_writer csv_step]. eexists _, (Ok tt), b, []. split; [reflexivity|].
      split; [exact E|]. split; [exact H1|]. split; [reflexivity|].
      cbn [cs_csv o_records is_table]. rewrite H3. exists (map row (f :: b)). split; [reflexivity|].
      clear. generalize (f :: b). intros l. induction l; constructor; [apply is_row_of|assumption].
    - exists s, (Err e), b, r. split; [reflexivity|]. split; [exact E|]. split; [exact H1|]. split; [exact H2|].
      cbn [is_table]. rewrite H3. exists (map row (f :: b)). split; [reflexivity|].
      clear. generalize (f :: b). intros l. induction l; constructor; [apply is_row_of|assumption].
  Qed.
End Writer.

Lemma csv_second : forall fmt32 fmt debug d gi gi' name name' f l f' l',
  Forall (fitting (names_of f)) l ->
  exists s s' x,
    feed (csv_writer fmt32 fmt debug d) (dataset_at (multi_dim d) gi name (f :: l)) csv_init = (s, Ok tt) /\
    feed (csv_writer fmt32 fmt debug d) (dataset_at (multi_dim d) gi' name' (f' :: l')) s = (s', x) /\
    (the_props f' <> [] -> x = Err EPanic) /\
    (the_props f' = [] -> the_props f <> [] -> x = Err EDataset) /\
    (the_props f' <> [] \/ the_props f <> [] -> o_records (cs_csv s') = o_records (cs_csv s)).
Proof.
  intros fmt32 fmt debug d gi gi' name name' f l f' l' H.
  assert (D1 : exists recs, feed (csv_writer fmt32 fmt debug d) (dataset_at (multi_dim d) gi name (f :: l)) csv_init =
    (between (mkCsvOut [] recs (Some (S (length (the_props f))))) ["geometry"] true, Ok tt)).
  { unfold dataset_at. cbn [feed p_step csv_writer csv_step csv_init cs_headers]. unfold csv_assert.
    destruct (list_eq_dec _ _ _) as [_|]; [|congruence]. cbn [negb]. rewrite andb_false_r, feed_app.
    cbn [flat_mapi]. rewrite feed_app.
    change (mkCsv csv_out_init ["geometry"] false [] (wkt_init None)) with csv_init. rewrite first_feed.
    change (header_of f) with (names_of f).
    destruct (features_fit fmt32 fmt debug d gi (names_of f) l 1
      ["geometry" :: names_of f; geom_field fmt d f :: row_of fmt32 fmt f] H) as (recs & F).
    rewrite F. exists recs. cbn [feed p_step csv_writer csv_step after between cs_csv cs_row cs_wkt cs_written].
    unfold between, names_of. cbn [length]. now rewrite map_length. }
  destruct D1 as (recs & D1). rewrite D1.
  exists (between (mkCsvOut [] recs (Some (S (length (the_props f))))) ["geometry"] true). clear D1 H l name gi.
  unfold dataset_at. cbn [feed p_step csv_writer csv_step between cs_headers]. unfold csv_assert.
  destruct (list_eq_dec _ _ _) as [_|]; [|congruence]. cbn [negb]. rewrite andb_false_r.
  cbn [flat_mapi app]. rewrite <- app_assoc, feed_app.
  destruct (the_props f') as [|q qs] eqn:E.
  - rewrite feature_split, feed_app.
    change (mkCsv (mkCsvOut [] recs (Some (S (length (the_props f))))) ["geometry"] true [] (wkt_init None))
      with (between (mkCsvOut [] recs (Some (S (length (the_props f))))) ["geometry"] true).
    rewrite before_feed by (rewrite E; constructor). cbn [feed p_step csv_writer csv_step]. unfold csv_feature_end.
    cbn [cs_written cs_csv cs_headers cs_wkt put k_out wkt_init append cs_row].
    rewrite write_fields. cbn [csv_write_field o_fields o_records o_count app]. rewrite record_next, app_nil_r.
    unfold row_of. rewrite E. cbn [map length]. destruct (the_props f) as [|q0 qs0].
    + cbn [length Nat.eqb].
      match goal with |- context [feed ?w ?a ?b] => destruct (feed w a b) as [s1 x1] eqn:EE end.
      exists s1, x1. split; [reflexivity|]. split; [reflexivity|]. split; [congruence|]. split; [congruence|]. intros [K|K]; congruence.
    + cbn [length Nat.eqb]. eexists _, _. split; [reflexivity|]. split; [reflexivity|].
      split; [congruence|]. split; [reflexivity|]. reflexivity.
  - assert (P : exists s1, feed (csv_writer fmt32 fmt debug d) (feature_obs (multi_dim d) 0 (gi' 0%nat) f')
      (between (mkCsvOut [] recs (Some (S (length (the_props f))))) ["geometry"] true) = (s1, Err EPanic) /\
      o_records (cs_csv s1) = recs).
    { unfold feature_obs. cbn [feed p_step csv_writer csv_step between cs_row]. unfold csv_assert. cbn [negb].
      rewrite andb_false_r, feed_app, props_part by reflexivity. rewrite E. cbn [map].
      unfold prop_obs at 1. cbn [feed p_prop csv_writer]. unfold csv_prop. cbn [cs_written cs_headers].
      rewrite Nat.add_1_r. cbn [nth_error]. destruct (fst (fst q)); cbn [nth_error]; eexists; split; reflexivity. }
    destruct P as (s1 & P & C). rewrite P. eexists _, _. split; [reflexivity|]. split; [reflexivity|].
    split; [reflexivity|]. split; [congruence|]. intros _. exact C.
Qed.

Lemma csv_exact : forall fmt32 fmt debug d A (src : dims -> prog A) gi name f l r,
  delivers_obs src (fun multi => dataset_at multi gi name (f :: l)) r ->
  exists s x before rest,
    exec (csv_writer fmt32 fmt debug d) (src d) csv_init = (s, x) /\
    l = before ++ rest /\ Forall (fitting (names_of f)) before /\
    is_table fmt32 fmt (multi_dim d) (names_of f) (f :: before) (o_records (cs_csv s)) /\
    match rest with
    | [] => x = r
    | bad :: _ => (~ known (names_of f) bad /\ x = Err EPanic) \/
                  (known (names_of f) bad /\ length (the_props bad) <> length (names_of f) /\ x = Err EDataset)
    end.
Proof.
  intros fmt32 fmt debug d A src gi name f l r D.
  destruct (dataset_split fmt32 fmt debug d gi name f l) as (s & x & b & rest & F & E & H1 & H2 & H3).
  specialize (D _ (csv_writer fmt32 fmt debug d) csv_init). cbn [p_dims csv_writer] in D.
  change (mkProc d (csv_step fmt debug d) (csv_prop fmt32 fmt)) with (csv_writer fmt32 fmt debug d) in D.
  rewrite F in D. destruct x as [[]|e].
  - exists s, r, b, rest. split; [exact D|]. split; [exact E|]. split; [exact H1|]. split; [exact H3|].
    destruct rest as [|bad rest]; [reflexivity|]. destruct H2 as [[_ H2]|(_ & _ & H2)]; discriminate H2.
  - exists s, (Err e), b, rest. split; [exact D|]. split; [exact E|]. split; [exact H1|]. split; [exact H3|].
    destruct rest as [|bad rest]; [discriminate H2|].
    destruct H2 as [[K H2]|(K & L & H2)]; injection H2 as ->; [left|right]; auto.
Qed.

(** ** A record that ends before the geometry column *)
Lemma columns_before : forall n (l : list (string * string)) k gi, (length l <= n)%nat -> (k + length l <= gi)%nat ->
  map snd (filter (fun p => negb (Nat.eqb (fst p) gi)) (combine (seq k n) l)) = l.
Proof.
  induction n as [|n IH]; intros [|a l] k gi L G; cbn [seq combine filter map length] in *; try reflexivity; [lia|].
  cbn [fst]. replace (Nat.eqb k gi) with false by (symmetry; apply Nat.eqb_neq; lia). cbn [negb map snd].
  now rewrite IH by lia.
Qed.
Lemma props_short : forall names values k, (length values <= length names)%nat ->
  plays (pfor (fun i c => CallProp i (fst c) (CString (snd c)) (fun _ => pret tt)) k (combine names values))
        (map prop_obs (combine (combine (seq k (length values)) names) (map CString values))).
Proof.
  induction names as [|n names IH]; intros [|v values] k L; cbn [length] in L; try lia; try (apply plays_ret).
  cbn [length seq combine map pfor]. apply (plays_then _ _ [_] _).
  - intros S p s. reflexivity.
  - apply IH. lia.
Qed.
Lemma read_short_record : forall parse column headers gi rs l r rest, first_at column headers gi ->
  Forall2 (is_record parse headers gi) rs l -> (length r <= gi)%nat ->
  delivers_obs (fun d => process_csv_features parse (multi_dim d) column (Ok headers) (map Ok rs ++ Ok r :: rest))
    (fun multi => OEv (DatasetBegin None) :: flat_mapi (fun i f => feature_obs multi i 0 f) 0 l ++
       OEv (FeatureBegin (length rs)) :: OEv PropertiesBegin ::
       map prop_obs (combine (combine (seq 0 (length r)) headers) (map CString r)) ++ [OEv PropertiesEnd]) (Err (ECsv 0)).
Proof.
  intros parse column headers gi rs l r rest F H L. apply fails_delivers. intros d.
  assert (G : (gi < length headers)%nat) by (apply nth_error_Some; destruct F as [F _]; rewrite F; discriminate).
  unfold process_csv_features.
  rewrite (position_first _ _ _ F). apply (plays_fails _ _ [_] _); [apply plays_call|].
  apply fails_then.
  apply (pfor_app_plays _ _ (fun r f => exists r0, r = Ok r0 /\ is_record parse headers gi r0 f)).
  - induction H; constructor; [eexists; split; [reflexivity|assumption]|assumption].
  - intros k a f (r0 & -> & R). now apply feature_play.
  - cbn [Nat.add]. rewrite map_length. unfold csv_feature.
    replace (nth_error r gi) with (@None string) by (symmetry; apply nth_error_None; lia).
    apply (plays_fails _ _ [_] _); [apply plays_call|]. apply (plays_fails _ _ [_] _); [apply plays_call|].
    apply plays_fails.
    { unfold csv_columns. rewrite columns_before by (rewrite combine_length; lia). apply props_short. lia. }
    apply (plays_fails _ _ [_] []); [apply plays_call|]. apply fails_now.
Qed.
