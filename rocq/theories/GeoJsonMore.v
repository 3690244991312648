(** Consequences and counterexamples for the GeoJSON claims (helper lemmas for C21-C26). *)
From Coq Require Import String Ascii.
From Coq Require Import List NArith ZArith Lia Bool.
From Verif Require Import Base BaseLemmas Event EventLemmas Claims Geom WkbSpec ProcModel ProcSpec ProcTop
  JsonSpec JsonLemmas FeatureSpec GeoJsonModel GeoJsonSpec GeoJsonWrite GeoJsonTop GeoJsonLines GeoJsonRead.
From Verif Require Import GeomUnique.
From Verif Require WkbModel.
Import ListNotations.
Local Open Scope string_scope.
Local Open Scope list_scope.

Section More.
  Variable fmt32 : N -> string.
  Variable fmt : f64 -> string.
  Variable num32 : string -> option N.
  Variable num : string -> option f64.
  Hypothesis F32 : json_format finite32 fmt32 num32.
  Hypothesis F : json_format finite fmt num.
  Variable d : dims.
  Notation W := (geojson_writer fmt32 fmt d).
  Notation multi := (multi_dim d).

  Lemma tree_kind : forall g t, tree_of g = Some t -> geojson_kind t = true.
  Proof.
    induction g using gjgeom_ind'; intros t E.
    7: { rewrite tree_collection in E. destruct (all tree_of l) as [l'|] eqn:El; [|discriminate].
         injection E as <-. cbn [geojson_kind]. revert l' El. induction l as [|a l IH]; intros l' El; cbn [all] in El.
         - injection El as <-. reflexivity.
         - destruct (tree_of a) as [b|] eqn:Ea; [|discriminate]. destruct (all tree_of l) as [r|]; [|discriminate].
           injection El as <-. inversion H as [|? ? Ha Hl]; subst. cbn [forallb].
           rewrite (Ha b Ea), (IH Hl r eq_refl). reflexivity. }
    all: cbn [tree_of] in E;
      match type of E with option_map _ ?x = _ => destruct x as [r|] eqn:Er; [|discriminate] end;
      injection E as <-; reflexivity.
  Qed.

  Lemma geometry_copied : forall ser g t, tree_of g = Some t -> finite_geom multi t ->
    exists out j, exec W (process_geojson ser multi (GjGeometry g)) "" = (out, Ok tt) /\
      parse_json out = Some j /\ geometry_of num j = Some (kept_geom multi t).
  Proof.
    intros ser g t E G. destruct (geometry_written fmt32 fmt d num F t (tree_kind g t E) G) as (out & j & R & P & D).
    exists out, j. repeat split; try assumption. cbn [process_geojson].
    rewrite (geom_calls multi g t 0 E). unfold ok_calls. rewrite exec_calls, R. reflexivity.
  Qed.
  Lemma feature_copied : forall ser pf f, is_feature_of ser pf f ->
    (gf_geometry pf <> None \/ gf_properties pf <> None) -> safe_feature multi f ->
    exists out j, exec W (process_geojson ser multi (GjFeature pf)) "" = (out, Ok tt) /\
      parse_json out = Some j /\ dataset_json num32 num multi None [f] j.
  Proof.
    intros ser pf f E N S.
    destruct (dataset_written fmt32 fmt d num32 num F32 F None [f] I (Forall_cons f S (Forall_nil _))) as (out & j & R & P).
    exists out, j. split; [|exact P]. cbn [process_geojson]. rewrite (single_play ser multi 0 pf f E N).
    unfold dataset_obs in R. cbn [flat_mapi] in R. rewrite app_nil_r in R. exact R.
  Qed.
  Lemma lines_copied : forall ser l fs, Forall2 (is_feature_of ser) l fs -> Forall (safe_feature multi) fs ->
    exists out j, exec W (read_geojson_lines ser multi (map (fun f => Ok (GjFeature f)) l)) "" = (out, Ok tt) /\
      parse_json out = Some j /\ dataset_json num32 num multi None fs j.
  Proof.
    intros ser l fs E S.
    destruct (dataset_written fmt32 fmt d num32 num F32 F None fs I S) as (out & j & R & P).
    exists out, j. split; [|exact P]. rewrite (lines_play ser multi l fs E). exact R.
  Qed.
End More.

Lemma line_text : forall fmt32 fmt d multi name l out, forallb item_kind l = true ->
  exists texts,
    Forall2 (fun it t => feed (geojson_writer fmt32 fmt d) (item_obs multi (alone it)) "" = (t, Ok tt)) l texts /\
    feed (geojson_line_writer fmt32 fmt) (flat_map (item_obs multi) l) (0, out) =
      ((0, (out ++ String.concat "" (map (fun t => t ++ nl) texts))%string), Ok tt) /\
    feed (geojson_line_writer fmt32 fmt)
      (OEv (DatasetBegin name) :: flat_map (item_obs multi) l ++ [OEv DatasetEnd]) (0, out) =
      ((0, (out ++ String.concat "" (map (fun t => t ++ nl) texts))%string), Ok tt) /\
    ((forall x, has_newline (fmt32 x) = false) -> (forall x, has_newline (fmt x) = false) ->
     Forall single_line l -> Forall (fun t => has_newline t = false) texts).
Proof.
  intros fmt32 fmt d multi name l out K.
  exists (map (text_alone fmt32 fmt d multi) l).
  assert (C : forall l, concat_all l = String.concat "" l).
  { clear. induction l as [|a [|b l] IH]; [reflexivity|cbn; now rewrite sapp_nil|].
    cbn [concat_all String.concat] in *. now rewrite IH. }
  assert (R : feed (geojson_line_writer fmt32 fmt) (flat_map (item_obs multi) l) (0, out) =
      ((0, (out ++ String.concat "" (map (fun t => t ++ nl) (map (text_alone fmt32 fmt d multi) l)))%string), Ok tt)).
  { rewrite (items_lines fmt32 fmt d multi l out K), C, map_map. reflexivity. }
  split; [|split; [exact R|split]].
  - clear. induction l as [|it l IH]; cbn; constructor; [apply alone_text|exact IH].
  - cbn [feed p_step geojson_line_writer gjl_step default_step]. rewrite feed_app, R. reflexivity.
  - intros N32 N64 S. apply Forall_map. eapply Forall_impl; [|exact S]. intros it. now apply single_text.
Qed.

(** ** Counterexamples *)
Definition nan_bits : f64 := 0x7ff8000000000000%N.
Lemma nan_text : forall fmt32 fmt d, fmt nan_bits = "NaN" ->
  exists g, geojson_kind g = true /\
    parse_json (fst (run (geojson_writer fmt32 fmt d) (gevents (multi_dim d) 0 g) "")) = None.
Proof.
  intros fmt32 fmt d H. exists (GPoint (mkC nan_bits nan_bits None None)). split; [reflexivity|].
  rewrite (geom_emit fmt32 fmt d (GPoint (mkC nan_bits nan_bits None None)) 0 eq_refl). cbn [fst append gtext].
  unfold obj, ctext. cbn [cx cy cz]. rewrite H. destruct (multi_dim d); reflexivity.
Qed.
Lemma curve_text : forall fmt32 fmt d,
  run (geojson_writer fmt32 fmt d) (gevents (multi_dim d) 0 (GCircularString [])) "" = ("", Ok tt).
Proof. intros. reflexivity. Qed.

(** one feature with one property *)
Definition one_prop (i : nat) (n : string) (v : colval) : feature := mkFeature (Some [(i, n, v)]) None.
Lemma backslash_text : forall fmt32 fmt d,
  parse_json (fst (feed (geojson_writer fmt32 fmt d)
    (dataset_obs (multi_dim d) None [one_prop 0 "a" (CString "C:\dir")]) "")) = None.
Proof. intros. reflexivity. Qed.
(** the text parses, to a different value *)
Lemma backslash_value : forall fmt32 fmt d,
  exists j, parse_json (fst (feed (geojson_writer fmt32 fmt d)
    (dataset_obs (multi_dim d) None [one_prop 0 "a" (CString "C:\new")]) "")) = Some j /\
  j = JObj [("type", JStr "FeatureCollection");
            ("features", JArr [JObj [("type", JStr "Feature");
               ("properties", JObj [("a", JStr ("C:" ++ nl ++ "ew")%string)])]])].
Proof. intros. eexists. split; reflexivity. Qed.
Lemma control_text : forall fmt32 fmt d,
  parse_json (fst (feed (geojson_writer fmt32 fmt d)
    (dataset_obs (multi_dim d) None [one_prop 0 "a" (CString nl)]) "")) = None.
Proof. intros. reflexivity. Qed.
Lemma binary_text : forall fmt32 fmt d,
  parse_json (fst (feed (geojson_writer fmt32 fmt d)
    (dataset_obs (multi_dim d) None [mkFeature (Some [(0, "a", CBool true); (1, "b", CBinary [])]) None]) "")) = None.
Proof. intros. reflexivity. Qed.
Lemma name_text_bad : forall fmt32 fmt d,
  parse_json (fst (feed (geojson_writer fmt32 fmt d) (dataset_obs (multi_dim d) (Some "a""b") []) "")) = None.
Proof. intros. reflexivity. Qed.
(** {"a": null, "b": true} *)
Lemma null_text : forall ser fmt32 fmt d,
  exists out, exec (geojson_writer fmt32 fmt d) (process_geojson ser (multi_dim d)
    (GjFeature (mkGjFeature None (Some [("a", JvNull); ("b", JvBool true)])))) "" = (out, Ok tt) /\
  parse_json out = None.
Proof. intros. eexists. split; reflexivity. Qed.

(** two features with geometry *)
Definition empty_multipoint : gjfeature := mkGjFeature (Some (GjMultiPoint [])) None.
Lemma second_feature_text : forall ser fmt32 fmt d,
  exists out, exec (geojson_writer fmt32 fmt d)
    (process_geojson ser (multi_dim d) (GjFeatures [empty_multipoint; empty_multipoint])) "" = (out, Ok tt) /\
  parse_json out = None.
Proof. intros. eexists. split; reflexivity. Qed.
(** a bare geometry is not a dataset; no feature is delivered for an empty one; the streaming reader *)
Lemma bare_geometry : forall ser multi g t, tree_of g = Some t ->
  plays (process_geojson ser multi (GjGeometry g)) (map OEv (gevents multi 0 t)) /\
  ~ contract (map OEv (gevents multi 0 t)).
Proof.
  intros ser multi g t E. split.
  - cbn [process_geojson]. rewrite (geom_calls multi g t 0 E). apply plays_calls.
  - pose proof (gevents_all (fun e => is_feature_event e = false) (fun e H => H) multi t 0) as A.
    unfold contract. destruct (gevents multi 0 t) as [|e l]; [discriminate|].
    inversion A as [|? ? A1 A2]; subst. cbn [map contract_run].
    destruct e; try discriminate A1; discriminate.
Qed.
Lemma fc_bad : forall ser multi,
  exists l, ~ contract l /\ plays (read_geojson_fc ser multi [Ok empty_multipoint; Ok empty_multipoint]) l.
Proof.
  intros ser multi. eexists. split.
  2: { apply (fc_play ser multi [empty_multipoint; empty_multipoint]
                [mkFeature None (Some (GMultiPoint [])); mkFeature None (Some (GMultiPoint []))] 0).
       - repeat constructor.
       - constructor; [left; discriminate|]. constructor; [left; discriminate|constructor]. }
  discriminate.
Qed.
Lemma fc_none : forall ser multi, plays (read_geojson_fc ser multi []) [].
Proof. intros. apply plays_ret. Qed.

(** two lines as one geometry *)
Definition point_line : gj := GjGeometry (GjPoint [0%N; 0%N]).
Lemma two_lines : ~ exists t, delivers (fun d => read_geojson_line_geometries (multi_dim d) [Ok point_line; Ok point_line])
  (fun multi => gevents multi 0 t) (Ok tt).
Proof.
  intros [t H].
  pose (o := mkC 0%N 0%N None None).
  assert (D : delivers (fun d => read_geojson_line_geometries (multi_dim d) [Ok point_line; Ok point_line])
    (fun multi => CollectionBegin 1 0 :: members_events multi [(0%nat, GPoint o); (1%nat, GPoint o)] ++ [CollectionEnd 0]) (Ok tt)).
  { apply delivers_calls. intros d.
    apply (lines_geometry (multi_dim d) [point_line; point_line] [(0%nat, GPoint o); (1%nat, GPoint o)]);
      repeat constructor. }
  pose proof (delivers_events _ _ _ _ _ H D) as E. clear H D. cbn in E.
  destruct t; try discriminate E. rewrite collection_events in E. injection E as L E.
  destruct l as [|a [|b l]]; try discriminate L. clear L. cbn [flat_mapi] in E. rewrite app_nil_r in E.
  apply (f_equal (@removelast event)) in E. rewrite removelast_last in E. cbn in E.
  destruct a; cbn in E; try discriminate E.
Qed.
(** a line without geometry before *)
Lemma gap_lines : ~ exists t, delivers (fun d => read_geojson_line_geometries (multi_dim d)
    [Ok (GjFeature (mkGjFeature None None)); Ok point_line])
  (fun multi => gevents multi 0 t) (Ok tt).
Proof.
  intros [t H].
  pose (o := mkC 0%N 0%N None None).
  assert (D : delivers (fun d => read_geojson_line_geometries (multi_dim d)
      [Ok (GjFeature (mkGjFeature None None)); Ok point_line])
    (fun multi => CollectionBegin 1 0 :: members_events multi [(1%nat, GPoint o)] ++ [CollectionEnd 0]) (Ok tt)).
  { apply delivers_calls. intros d.
    apply (lines_geometry (multi_dim d) [GjFeature (mkGjFeature None None); point_line] [(1%nat, GPoint o)]);
      repeat constructor. }
  pose proof (delivers_events _ _ _ _ _ H D) as E. clear H D. cbn in E.
  destruct t; try discriminate E. rewrite collection_events in E. injection E as L E.
  destruct l as [|a [|b l]]; try discriminate L. clear L. cbn [flat_mapi] in E. rewrite app_nil_r in E.
  apply (f_equal (@removelast event)) in E. rewrite removelast_last in E. cbn in E.
  destruct a; cbn in E; try discriminate E.
Qed.
(** at most one geometry, on the first line *)
Lemma one_line : forall l ts, Forall no_collection l ->
  Forall2 member_of (line_members 0 l) ts -> (ts = [] \/ exists t, ts = [(0%nat, t)]) ->
  delivers (fun d => read_geojson_line_geometries (multi_dim d) (map Ok l))
    (fun multi => gevents multi 0 (GCollection (map snd ts))) (Ok tt).
Proof.
  intros l ts N H C. apply delivers_calls. intros d. rewrite (lines_geometry (multi_dim d) l ts N H).
  f_equal. rewrite collection_events. destruct C as [->|[t ->]]; reflexivity.
Qed.
Lemma lines_stream : forall l ts, Forall no_collection l -> Forall2 member_of (line_members 0 l) ts ->
  delivers (fun d => read_geojson_line_geometries (multi_dim d) (map Ok l))
    (fun multi => CollectionBegin (match ts with [] => 0 | _ => 1 end) 0 ::
                  flat_map (fun t => gevents multi (fst t) (snd t)) ts ++ [CollectionEnd 0]) (Ok tt).
Proof. intros l ts N H. apply delivers_calls. intros d. exact (lines_geometry (multi_dim d) l ts N H). Qed.

(** a small dataset used to show that the hypotheses can be met *)
Definition xyz (x y z : N) : coord := mkC x y (Some z) None.
Definition some_geom : geom :=
  GCollection [GPoint (xyz 1 2 3); GPolygon [[xyz 0 0 0; xyz 1 0 0; xyz 1 1 0; xyz 0 0 0]]; GCollection [GEmptyPoint]].
Definition some_feature : feature :=
  mkFeature (Some [(0, "na""me", CString "say ""hi"""); (1, "n", CInt (-7)); (2, "j", CJson "[1, {""k"": null}]")]%nat)
            (Some some_geom).
Lemma some_finite : forall z, finite_geom z some_geom.
Proof. intros []; vm_compute; repeat constructor; intros; discriminate. Qed.
Lemma some_safe : forall z, safe_feature z some_feature.
Proof.
  intros z. split.
  - split; [reflexivity|]. repeat constructor; cbn; discriminate.
  - split; [reflexivity|apply some_finite].
Qed.

(** ** A document as a geometry *)
Lemma pfor_geoms : forall multi l ts i, Forall2 (fun g t => tree_of g = Some t) l ts ->
  pfor (gj_geom_n multi) i l = ok_calls (flat_mapi (gevents multi) i ts).
Proof.
  intros multi l ts i H. revert i. induction H as [|g t l ts E H IH]; intros i; cbn [pfor flat_mapi]; [reflexivity|].
  rewrite (geom_calls multi g t i E), IH. apply pthen_calls.
Qed.
Lemma forall2_one : forall A B (R : A -> B -> Prop) a ts, Forall2 R [a] ts -> exists t, ts = [t] /\ R a t.
Proof.
  intros A B R a ts H. destruct ts as [|t ts]; [inversion H|]. exists t.
  assert (T : Forall2 R [] ts) by now inversion H. assert (E : R a t) by now inversion H.
  split; [f_equal; now inversion T|exact E].
Qed.
Lemma view_calls : forall multi g ts, Forall2 (fun g t => tree_of g = Some t) (doc_members g) ts ->
  read_geojson_geom multi (Ok g) = ok_calls (flat_mapi (gevents multi) 0 ts).
Proof.
  intros multi [l|f|g] ts H; cbn [read_geojson_geom process_geojson_geom doc_members] in *.
  - now apply pfor_geoms.
  - unfold own_geometry in H. destruct (gf_geometry f) as [g|]; cbn [when_some].
    + apply forall2_one in H. destruct H as [t [-> E]]. cbn [flat_mapi]. rewrite app_nil_r.
      now apply geom_calls.
    + inversion H; subst. reflexivity.
  - apply forall2_one in H. destruct H as [t [-> E]]. cbn [flat_mapi]. rewrite app_nil_r.
    now apply geom_calls.
Qed.
Lemma view_stream : forall g ts, Forall2 (fun g t => tree_of g = Some t) (doc_members g) ts ->
  delivers (fun d => read_geojson_geom (multi_dim d) (Ok g)) (fun multi => flat_mapi (gevents multi) 0 ts) (Ok tt).
Proof. intros g ts H. apply delivers_calls. intros d. now apply view_calls. Qed.
Lemma view_single : forall g ts, Forall2 (fun g t => tree_of g = Some t) (doc_members g) ts ->
  ((exists t, delivers (fun d => read_geojson_geom (multi_dim d) (Ok g)) (fun multi => gevents multi 0 t) (Ok tt))
   <-> length ts = 1).
Proof.
  intros g ts H. split.
  - intros [t D]. pose proof (delivers_events _ _ _ _ _ D (view_stream g ts H)) as E.
    symmetry in E. exact (single _ _ _ E).
  - destruct ts as [|t [|? ?]]; try discriminate. intros _. exists t. pose proof (view_stream g _ H) as D.
    cbn [flat_mapi] in D. intros S p s. rewrite D. now rewrite app_nil_r.
Qed.
Definition two_points : gj :=
  GjFeatures [mkGjFeature (Some (GjPoint [1%N; 2%N])) None; mkGjFeature None None;
              mkGjFeature (Some (GjPoint [3%N; 4%N])) None].
Lemma two_points_wkb : exists b,
  WkbModel.to_wkb_dialect (fun d => read_geojson_geom (multi_dim d) (Ok two_points)) WkbModel.Wkb xy_dims None [] = Ok b /\
  fst (observe (WkbModel.process_wkb_type_geom WkbModel.Wkb xy_dims b)) =
    map OEv (Srid None :: gevents false 0 (GPoint (mkC 1%N 2%N None None))).
Proof. eexists. split; [vm_compute; reflexivity|vm_compute; reflexivity]. Qed.
