(** GeoJsonLineWriter writes what GeoJsonWriter writes (helper lemmas for C25). *)
From Coq Require Import String Ascii.
From Coq Require Import List NArith ZArith Lia Bool.
From Verif Require Import Base BaseLemmas Event EventLemmas Claims Geom WkbSpec ProcModel ProcSpec ProcTop
  JsonSpec JsonLemmas FeatureSpec GeoJsonModel GeoJsonSpec GeoJsonWrite GeoJsonTop.
Import ListNotations.
Local Open Scope list_scope.
Local Open Scope string_scope.

(** ** No geometry callback is a feature callback *)
(** callbacks of geometries *)
Definition drawing (e : event) : bool := negb (is_feature_event e) && match e with Srid _ => false | _ => true end.
Section NoFeature.
  Variable P : event -> Prop.
  Hypothesis HP : forall e, drawing e = true -> P e.

  Lemma mapi_all : forall A (f : nat -> A -> event) l i, (forall k a, P (f k a)) -> Forall P (mapi f i l).
  Proof. induction l as [|a l IH]; intros i H; cbn; constructor; auto. Qed.
  Lemma flat_mapi_all : forall A (f : nat -> A -> list event) l i,
    (forall k a, In a l -> Forall P (f k a)) -> Forall P (flat_mapi f i l).
  Proof.
    induction l as [|a l IH]; intros i H; cbn [flat_mapi]; [constructor|].
    apply Forall_app. split; [apply H; now left|apply IH; intros; apply H; now right].
  Qed.
  Lemma wrap_all : forall b l e, drawing b = true -> drawing e = true ->
    Forall P l -> Forall P (b :: l ++ [e])%list.
  Proof. intros. constructor; [auto|]. apply Forall_app. split; [assumption|constructor; [auto|constructor]]. Qed.
  Variable multi : bool.
  Lemma coord_all : forall k c, P (ev_coord multi k c).
  Proof. intros. apply HP. unfold ev_coord. now destruct multi. Qed.
  Lemma line_all : forall t k l, Forall P (ev_line multi t k l).
  Proof. intros. apply wrap_all; try reflexivity. apply mapi_all. intros; apply coord_all. Qed.
  Lemma arc_all : forall k l, Forall P (ev_arc multi k l).
  Proof. intros. apply wrap_all; try reflexivity. apply mapi_all. intros; apply coord_all. Qed.
  Lemma polygon_all : forall t k l, Forall P (ev_polygon multi t k l).
  Proof. intros. apply wrap_all; try reflexivity. apply flat_mapi_all. intros; apply line_all. Qed.
  Lemma triangle_all : forall t k l, Forall P (ev_triangle multi t k l).
  Proof. intros. apply wrap_all; try reflexivity. apply flat_mapi_all. intros; apply line_all. Qed.
  Lemma segment_all : forall k s, Forall P (ev_segment multi k s).
  Proof. intros k []; [apply line_all|apply arc_all]. Qed.
  Lemma compound_all : forall k l, Forall P (ev_compound multi k l).
  Proof. intros. apply wrap_all; try reflexivity. apply flat_mapi_all. intros; apply segment_all. Qed.
  Lemma curve_all : forall k c, Forall P (ev_curve multi k c).
  Proof. intros k []; [apply line_all|apply arc_all|apply compound_all]. Qed.
  Lemma curvepolygon_all : forall k l, Forall P (ev_curvepolygon multi k l).
  Proof. intros. apply wrap_all; try reflexivity. apply flat_mapi_all. intros; apply curve_all. Qed.
  Lemma surface_all : forall k c, Forall P (ev_surface multi k c).
  Proof. intros k []; [apply polygon_all|apply curvepolygon_all]. Qed.
  Lemma gevents_drawing : forall g idx, Forall P (gevents multi idx g).
  Proof.
    induction g using geom_ind'; intros idx.
    8: { rewrite collection_events. apply wrap_all; try reflexivity. apply flat_mapi_all.
         rewrite Forall_forall in H. intros; apply H; assumption. }
    all: cbn [gevents]; try apply line_all; try apply polygon_all; try apply arc_all; try apply compound_all;
      try apply curvepolygon_all; try apply triangle_all.
    - constructor; [now apply HP|]. constructor; [apply coord_all|]. constructor; [now apply HP|constructor].
    - constructor; [now apply HP|constructor].
    - apply wrap_all; try reflexivity. apply mapi_all. intros; apply coord_all.
    - apply wrap_all; try reflexivity. apply flat_mapi_all. intros; apply line_all.
    - apply wrap_all; try reflexivity. apply flat_mapi_all. intros; apply polygon_all.
    - apply wrap_all; try reflexivity. apply flat_mapi_all. intros; apply curve_all.
    - apply wrap_all; try reflexivity. apply flat_mapi_all. intros; apply surface_all.
    - apply wrap_all; try reflexivity. apply flat_mapi_all. intros; apply polygon_all.
    - apply wrap_all; try reflexivity. apply flat_mapi_all. intros; apply triangle_all.
  Qed.
End NoFeature.
Lemma gevents_all : forall P : event -> Prop, (forall e, is_feature_event e = false -> P e) ->
  forall multi g idx, Forall P (gevents multi idx g).
Proof.
  intros P HP multi g idx. apply gevents_drawing. intros e H. apply HP. unfold drawing in H.
  apply andb_prop in H. now destruct (is_feature_event e).
Qed.

(** ** The contract holds of the standard stream *)
Lemma contract_app : forall a b s, contract_run s (a ++ b)%list =
  match contract_run s a with Some s' => contract_run s' b | None => None end.
Proof.
  induction a as [|o a IH]; intros b s; cbn [contract_run app]; [reflexivity|].
  destruct (contract_step s o); auto.
Qed.
Lemma contract_props : forall l n g, contract_run (CProps n g) (map prop_obs l) = Some (CProps n g).
Proof. induction l as [|q l IH]; intros n g; cbn; auto. Qed.
Lemma contract_geom : forall l n p, Forall (fun e => is_feature_event e = false) l ->
  contract_run (CGeom n p) (map OEv l) = Some (CGeom n p).
Proof.
  induction l as [|e l IH]; intros n p H; [reflexivity|]. inversion H as [|? ? H1 H2]; subst.
  cbn [map contract_run contract_step]. rewrite H1.
  replace (match e with GeometryEnd => Some (CFeature n p true) | _ => Some (CGeom n p) end)
    with (Some (CGeom n p)) by (destruct e; try reflexivity; discriminate).
  auto.
Qed.
Lemma contract_feature : forall multi i gi f,
  contract_run (CDataset i) (feature_obs multi i gi f) = Some (CDataset (S i)).
Proof.
  intros multi i gi f. unfold feature_obs. cbn [contract_run contract_step]. rewrite Nat.eqb_refl.
  rewrite contract_app.
  assert (E : contract_run (CFeature i false false)
    (match f_props f with
     | Some l => OEv PropertiesBegin :: map prop_obs l ++ [OEv PropertiesEnd] | None => [] end)%list
    = Some (CFeature i (match f_props f with Some _ => true | None => false end) false)).
  { destruct (f_props f); [|reflexivity]. cbn [contract_run contract_step].
    rewrite contract_app, contract_props. reflexivity. }
  rewrite E, contract_app. clear E.
  assert (E : forall p, contract_run (CFeature i p false)
    (match f_geom f with
     | Some g => OEv GeometryBegin :: map OEv (gevents multi gi g) ++ [OEv GeometryEnd] | None => [] end)%list
    = Some (CFeature i p (match f_geom f with Some _ => true | None => false end))).
  { intros p. destruct (f_geom f); [|reflexivity]. destruct p; cbn [contract_run contract_step];
      rewrite contract_app, (contract_geom _ _ _ (gevents_all _ (fun e H => H) multi g gi)); reflexivity. }
  rewrite E. destruct (f_props f), (f_geom f); cbn [contract_run contract_step]; rewrite Nat.eqb_refl; reflexivity.
Qed.
Lemma contract_features : forall multi (gi : nat -> nat) l i,
  contract_run (CDataset i) (flat_mapi (fun i f => feature_obs multi i (gi i) f) i l) =
  Some (CDataset (i + length l)).
Proof.
  induction l as [|f l IH]; intros i; cbn [flat_mapi].
  - cbn. now rewrite Nat.add_0_r.
  - rewrite contract_app, contract_feature, IH. cbn [length]. f_equal. f_equal. lia.
Qed.
Lemma contract_dataset : forall multi name (gi : nat -> nat) l,
  contract (OEv (DatasetBegin name) ::
            flat_mapi (fun i f => feature_obs multi i (gi i) f) 0 l ++ [OEv DatasetEnd])%list.
Proof.
  intros. unfold contract. cbn [contract_run contract_step].
  rewrite contract_app, contract_features. reflexivity.
Qed.

(** ** The line writer inside an item behaves like GeoJsonWriter *)
Section Lines.
  Variable fmt32 : N -> string.
  Variable fmt : f64 -> string.
  Variable d : dims.
  Variable multi : bool.
  Notation W := (geojson_writer fmt32 fmt d).
  Notation L := (geojson_line_writer fmt32 fmt).

  (** GeoJsonWriter only appends and never fails *)
  Lemma step_appends : forall e out, gj_step fmt out e = (out ++ fst (gj_step fmt "" e), Ok tt).
  Proof.
    intros e out. destruct e; cbn [gj_step default_step fst gj_comma]; unfold gj_comma;
      try destruct (Nat.ltb 0 _); cbn [fst]; rewrite ?sapp_assoc, ?sapp_nil; reflexivity.
  Qed.
  Lemma prop_appends : forall out i n v,
    gj_prop fmt32 fmt out i n v = (out ++ fst (gj_prop fmt32 fmt "" i n v), Ok false).
  Proof.
    intros. unfold gj_prop. destruct (Nat.ltb 0 i), v; cbn [fst]; rewrite ?sapp_assoc, ?sapp_nil; reflexivity.
  Qed.
  Lemma feed_appends : forall l out, feed W l out = (out ++ fst (feed W l ""), Ok tt).
  Proof.
    induction l as [|[e|i n v] l IH]; intros out; cbn [feed p_step p_prop geojson_writer].
    - cbn. now rewrite sapp_nil.
    - rewrite (step_appends e out), (step_appends e ""). rewrite IH, (IH ("" ++ _)). cbn [append fst].
      now rewrite sapp_assoc.
    - rewrite (prop_appends out), (prop_appends ""). rewrite IH, (IH ("" ++ _)). cbn [append fst].
      now rewrite sapp_assoc.
  Qed.

  Definition fsim (l : list obs) : Prop := forall n out,
    feed L l (S n, out) = ((S n, fst (feed W l out)), Ok tt).

  Lemma fsim_nil : fsim [].
  Proof. intros n out. reflexivity. Qed.
  Lemma fsim_app : forall a b, fsim a -> fsim b -> fsim (a ++ b).
  Proof.
    intros a b A B n out. rewrite !feed_app, A, feed_appends. cbn [fst snd]. apply B.
  Qed.
  Lemma fsim_prop : forall q, fsim [prop_obs q].
  Proof.
    intros [[i k] v] n out. cbn [feed prop_obs fst snd p_prop geojson_line_writer geojson_writer]. unfold gjl_prop. cbn [fst snd].
    rewrite prop_appends. reflexivity.
  Qed.
  Lemma fsim_props : forall l, fsim (map prop_obs l).
  Proof.
    induction l as [|q l IH]; [apply fsim_nil|].
    change (map prop_obs (q :: l)) with ([prop_obs q] ++ map prop_obs l)%list. apply fsim_app; [apply fsim_prop|exact IH].
  Qed.
  (** callbacks passed through *)
  Definition passes (e : event) : Prop := forall s, gjl_step fmt s e = lw_inner fmt s e.
  Lemma fsim_pass : forall e, passes e -> fsim [OEv e].
  Proof.
    intros e H n out. cbn [feed p_step geojson_line_writer geojson_writer]. rewrite H. unfold lw_inner. cbn [fst snd].
    rewrite step_appends. reflexivity.
  Qed.

  (** [b idx] opens, [e idx] closes *)
  Definition opens (b : nat -> event) : Prop := exists t,
    (forall s idx, gjl_step fmt s (b idx) = line_begin fmt s idx (b 0)) /\
    (forall out idx, gj_step fmt out (b idx) = (gj_comma out idx ++ t, Ok tt)).
  Definition closes (e : nat -> event) : Prop := exists t,
    (forall s idx, gjl_step fmt s (e idx) = line_end fmt s (e idx)) /\
    (forall out idx, gj_step fmt out (e idx) = (out ++ t, Ok tt)).
  Definition wrapped (b e : nat -> event) (body : list event) (idx : nat) : list obs :=
    (OEv (b idx) :: map OEv body ++ [OEv (e idx)])%list.

  Lemma wrap_inside : forall b e body idx, opens b -> closes e -> fsim (map OEv body) ->
    fsim (wrapped b e body idx).
  Proof.
    intros b e body idx (tb & B1 & B2) (te & E1 & E2) S n out. unfold wrapped.
    cbn [feed p_step geojson_line_writer geojson_writer]. rewrite B1, B2. unfold line_begin, lw_inner. cbn [fst snd].
    rewrite B2. cbn [Nat.ltb Nat.leb andb].
    assert (X : gj_comma (if match idx with 0 => false | Datatypes.S _ => true end then out ++ "," else out) 0 ++ tb
                = gj_comma out idx ++ tb) by (destruct idx; reflexivity).
    rewrite X. rewrite !feed_app, S, feed_appends. cbn [fst snd].
    cbn [feed p_step geojson_line_writer geojson_writer]. rewrite E1, E2. unfold line_end, lw_inner. cbn [fst snd].
    rewrite E2. unfold end_context. cbn [fst snd Nat.eqb]. reflexivity.
  Qed.
  Lemma wrap_outside : forall b e body idx out, opens b -> closes e -> fsim (map OEv body) ->
    feed L (wrapped b e body idx) (0, out) = ((0, fst (feed W (wrapped b e body 0) out) ++ nl), Ok tt).
  Proof.
    intros b e body idx out (tb & B1 & B2) (te & E1 & E2) S. unfold wrapped.
    cbn [feed p_step geojson_line_writer geojson_writer]. rewrite B1, B2. unfold line_begin, lw_inner. cbn [fst snd].
    rewrite B2. cbn [Nat.ltb Nat.leb andb]. rewrite !feed_app, S.
    rewrite feed_appends. cbn [fst snd].
    cbn [feed p_step geojson_line_writer geojson_writer]. rewrite E1, E2. unfold line_end, lw_inner. cbn [fst snd].
    rewrite E2. unfold end_context. cbn [fst snd Nat.eqb]. reflexivity.
  Qed.

  Lemma coord_sim : forall k c, fsim [OEv (ev_coord multi k c)].
  Proof. intros. apply fsim_pass. intros s. unfold ev_coord. now destruct multi. Qed.
  Lemma flat_sim : forall A (f : nat -> A -> list event) l i,
    (forall k a, In a l -> fsim (map OEv (f k a))) -> fsim (map OEv (flat_mapi f i l)).
  Proof.
    induction l as [|a l IH]; intros i H; cbn [flat_mapi map]; [apply fsim_nil|].
    rewrite map_app. apply fsim_app; [apply H; now left|apply IH; intros; apply H; now right].
  Qed.
  Lemma coords_sim : forall l, fsim (map OEv (ev_coords multi l)).
  Proof. intros. rewrite coords_events. apply flat_sim. intros. apply coord_sim. Qed.

  Lemma wrapped_events : forall b e body idx, map OEv (b idx :: body ++ [e idx])%list = wrapped b e body idx.
  Proof. intros. cbn [map]. now rewrite map_app. Qed.

  Ltac boundary := eexists; split; intros; reflexivity.
  Lemma line_sim : forall k l, fsim (map OEv (ev_line multi false k l)).
  Proof.
    intros. unfold ev_line.
    rewrite (wrapped_events (fun k => LineStringBegin false (length l) k) (fun k => LineStringEnd false k)).
    apply wrap_inside; [boundary..|apply coords_sim].
  Qed.
  Lemma polygon_sim : forall k l, fsim (map OEv (ev_polygon multi false k l)).
  Proof.
    intros. unfold ev_polygon.
    rewrite (wrapped_events (fun k => PolygonBegin false (length l) k) (fun k => PolygonEnd false k)).
    apply wrap_inside; [boundary..|]. apply flat_sim. intros; apply line_sim.
  Qed.

  (** a geometry is an empty point or begin, a body and end *)
  Lemma geom_frame : forall g, geojson_kind g = true ->
    g = GEmptyPoint \/
    exists b e body, opens b /\ closes e /\ fsim (map OEv body) /\
      forall idx, map OEv (gevents multi idx g) = wrapped b e body idx.
  Proof.
    induction g using geom_ind'; intros K; try discriminate K; [|now left|..]; right.
    - exists PointBegin, PointEnd, [ev_coord multi 0 c]. repeat split; try boundary. apply coord_sim.
    - exists (MultiPointBegin (length l)), MultiPointEnd, (ev_coords multi l).
      split; [boundary|split; [boundary|split; [apply coords_sim|]]]. intros idx. cbn [gevents]. apply wrapped_events.
    - exists (LineStringBegin true (length l)), (LineStringEnd true), (ev_coords multi l).
      split; [boundary|split; [boundary|split; [apply coords_sim|]]]. intros idx. cbn [gevents]. apply wrapped_events.
    - exists (MultiLineStringBegin (length l)), MultiLineStringEnd, (flat_mapi (ev_line multi false) 0 l).
      split; [boundary|split; [boundary|split; [apply flat_sim; intros; apply line_sim|]]].
      intros idx. cbn [gevents]. apply wrapped_events.
    - exists (PolygonBegin true (length l)), (PolygonEnd true), (flat_mapi (ev_line multi false) 0 l).
      split; [boundary|split; [boundary|split; [apply flat_sim; intros; apply line_sim|]]].
      intros idx. cbn [gevents]. apply wrapped_events.
    - exists (MultiPolygonBegin (length l)), MultiPolygonEnd, (flat_mapi (ev_polygon multi false) 0 l).
      split; [boundary|split; [boundary|split; [apply flat_sim; intros; apply polygon_sim|]]].
      intros idx. cbn [gevents]. apply wrapped_events.
    - exists (CollectionBegin (length l)), CollectionEnd, (flat_mapi (gevents multi) 0 l).
      split; [boundary|split; [boundary|split; [|intros idx; rewrite collection_events; apply wrapped_events]]].
      apply flat_sim. intros k a Ha. rewrite Forall_forall in H. cbn [geojson_kind] in K.
      rewrite forallb_forall in K. destruct (H a Ha (K a Ha)) as [->|(b & e & body & B & E & S & ->)].
      + intros n out. cbn [gevents map feed p_step geojson_line_writer geojson_writer gjl_step].
        unfold line_begin, lw_inner. cbn [fst snd gj_step]. unfold end_context. cbn [fst snd Nat.eqb Nat.ltb Nat.leb andb].
        destruct k; reflexivity.
      + now apply wrap_inside.
  Qed.
  Lemma geom_sim : forall g idx, geojson_kind g = true -> fsim (map OEv (gevents multi idx g)).
  Proof.
    intros g idx K. destruct (geom_frame g K) as [->|(b & e & body & B & E & S & ->)]; [|now apply wrap_inside].
    intros n out. cbn [gevents map feed p_step geojson_line_writer geojson_writer gjl_step].
    unfold line_begin, lw_inner. cbn [fst snd gj_step]. unfold end_context. cbn [fst snd Nat.eqb Nat.ltb Nat.leb andb].
    destruct idx; reflexivity.
  Qed.

  Definition text_alone (it : item) : string := fst (feed W (item_obs multi (alone it)) "").
  Lemma alone_text : forall it, feed W (item_obs multi (alone it)) "" = (text_alone it, Ok tt).
  Proof. intros. rewrite feed_appends. reflexivity. Qed.

  Lemma feature_line : forall i f out, item_kind (IFeature i f) = true ->
    feed L (feature_obs multi i 0 f) (0, out) =
    ((0, fst (feed W (feature_obs multi 0 0 f) out) ++ nl), Ok tt).
  Proof.
    intros i f out K. unfold feature_obs.
    set (body := (match f_props f with
      | Some l => OEv PropertiesBegin :: map prop_obs l ++ [OEv PropertiesEnd] | None => [] end ++
      match f_geom f with
      | Some g => OEv GeometryBegin :: map OEv (gevents multi 0 g) ++ [OEv GeometryEnd] | None => [] end)%list).
    assert (S : fsim body).
    { apply fsim_app.
      - destruct (f_props f); [|apply fsim_nil].
        change (OEv PropertiesBegin :: map prop_obs l ++ [OEv PropertiesEnd])%list
          with ([OEv PropertiesBegin] ++ map prop_obs l ++ [OEv PropertiesEnd])%list.
        repeat apply fsim_app; try apply fsim_props; apply fsim_pass; intros s; reflexivity.
      - cbn [item_kind] in K. destruct (f_geom f) as [g|]; [|apply fsim_nil].
        change (OEv GeometryBegin :: map OEv (gevents multi 0 g) ++ [OEv GeometryEnd])%list
          with ([OEv GeometryBegin] ++ map OEv (gevents multi 0 g) ++ [OEv GeometryEnd])%list.
        repeat apply fsim_app; try (now apply geom_sim); apply fsim_pass; intros s; reflexivity. }
    rewrite !(app_assoc (match f_props f with Some _ => _ | None => _ end)). fold body.
    cbn [feed p_step geojson_line_writer geojson_writer gjl_step gj_step]. unfold lw_inner. cbn [fst snd gj_step].
    rewrite !feed_app, S, feed_appends. cbn [fst snd].
    cbn [feed p_step geojson_line_writer geojson_writer gjl_step gj_step]. unfold line_end, lw_inner.
    cbn [fst snd gj_step]. unfold end_context. cbn [fst snd Nat.eqb]. reflexivity.
  Qed.
  Lemma item_line : forall it out, item_kind it = true ->
    feed L (item_obs multi it) (0, out) = ((0, out ++ text_alone it ++ nl), Ok tt).
  Proof.
    intros [i f|i g] out K; unfold text_alone; cbn [item_obs alone].
    - rewrite feature_line by exact K. rewrite feed_appends. cbn [fst]. now rewrite sapp_assoc.
    - cbn [item_kind] in K. destruct (geom_frame g K) as [->|(b & e & body & B & E & S & X)].
      + cbn [gevents map feed p_step geojson_line_writer geojson_writer gjl_step].
        unfold line_begin, lw_inner. cbn [fst snd gj_step]. unfold end_context.
        cbn [fst snd Nat.eqb Nat.ltb Nat.leb andb gj_comma]. now rewrite sapp_assoc.
      + rewrite !X, (wrap_outside _ _ _ _ _ B E S), feed_appends. cbn [fst]. now rewrite sapp_assoc.
  Qed.
  Fixpoint concat_all (l : list string) : string :=
    match l with [] => "" | t :: r => t ++ concat_all r end.
  Lemma items_lines : forall l out, forallb item_kind l = true ->
    feed L (flat_map (item_obs multi) l) (0, out) =
    ((0, out ++ concat_all (map (fun it => text_alone it ++ nl) l)), Ok tt).
  Proof.
    induction l as [|it l IH]; intros out K; cbn [flat_map map concat_all].
    - cbn. now rewrite sapp_nil.
    - cbn [forallb] in K. apply andb_true_iff in K. rewrite feed_app, item_line, IH by apply K.
      now rewrite !sapp_assoc.
  Qed.

  (** no newline inside *)
  Hypothesis N32 : forall x, has_newline (fmt32 x) = false.
  Hypothesis N64 : forall x, has_newline (fmt x) = false.
  Lemma newline_app : forall a b, has_newline (a ++ b) = has_newline a || has_newline b.
  Proof. induction a as [|c a IH]; intros b; cbn; [reflexivity|]. rewrite IH. now rewrite orb_assoc. Qed.
  Lemma newline_int : forall z, has_newline (show_z z) = false.
  Proof.
    intros z. pose proof (int_number z) as J. unfold json_number in J. revert J. generalize (show_z z), NStart.
    induction s as [|c s IH]; intros st J; [reflexivity|]. cbn [num_run has_newline] in *.
    destruct (num_step st c) as [st'|] eqn:E; [|discriminate]. rewrite (IH st' J), orb_false_r.
    apply num_char in E. destruct (Ascii.eqb c (ascii_of_N 10)) eqn:Q; [|reflexivity].
    apply Ascii.eqb_eq in Q. subst c. discriminate E.
  Qed.
  Lemma newline_escape : forall s, has_newline (escape s) = has_newline s.
  Proof.
    induction s as [|c s IH]; [reflexivity|]. cbn [escape has_newline].
    destruct (Ascii.eqb c """") eqn:Q; [apply Ascii.eqb_eq in Q; subst c|]; cbn; now rewrite IH.
  Qed.
  Definition quiet_obs (o : obs) : Prop :=
    match o with
    | OEv (DatasetBegin _) => False
    | OEv (FeatureBegin i) => i = 0
    | OEv _ => True
    | OProp _ n v => has_newline n = false /\
        match v with CString s | CDateTime s | CJson s => has_newline s = false | _ => True end
    end.
  Lemma quiet_step : forall o out, quiet_obs o ->
    has_newline (fst (feed W [o] out)) = has_newline out.
  Proof.
    intros [e|i n v] out Q.
    - cbn [feed p_step geojson_writer]. rewrite step_appends. cbn [fst]. rewrite newline_app.
      replace (has_newline (fst (gj_step fmt "" e))) with false; [now rewrite orb_false_r|].
      destruct e; cbn [quiet_obs] in Q; try contradiction; subst; try reflexivity;
        cbn [gj_step default_step fst]; unfold gj_comma; try destruct (Nat.ltb 0 _); try destruct tagged; try (destruct z); unfold kind_open;
        rewrite ?newline_app, ?N64; reflexivity.
    - cbn [feed p_prop geojson_writer]. rewrite prop_appends. cbn [fst]. rewrite newline_app.
      replace (has_newline (fst (gj_prop fmt32 fmt "" i n v))) with false; [now rewrite orb_false_r|].
      destruct Q as [Q1 Q2]. unfold gj_prop, name_text, dq.
      destruct v; cbn [fst show_colval]; rewrite ?newline_app, ?newline_escape, ?Q1, ?Q2, ?N64, ?N32, ?newline_int;
        try (destruct v); destruct (Nat.ltb 0 i); reflexivity.
  Qed.
  Lemma quiet_feed : forall l out, Forall quiet_obs l -> has_newline (fst (feed W l out)) = has_newline out.
  Proof.
    induction l as [|o l IH]; intros out Q; [reflexivity|]. inversion Q as [|? ? Q1 Q2]; subst.
    change (o :: l) with ([o] ++ l)%list. rewrite feed_app, feed_appends, IH by exact Q2.
    pose proof (quiet_step o out Q1) as H. rewrite feed_appends in H. exact H.
  Qed.
  Lemma geom_quiet : forall k g, Forall quiet_obs (map OEv (gevents multi k g)).
  Proof.
    intros. apply Forall_map. apply gevents_all. intros e E. destruct e; try exact I; discriminate E.
  Qed.
  Lemma single_text : forall it, single_line it -> has_newline (text_alone it) = false.
  Proof.
    intros it S. unfold text_alone. rewrite quiet_feed; [reflexivity|].
    destruct it as [i f|i g]; cbn [alone item_obs]; [|apply geom_quiet].
    unfold feature_obs. constructor; [reflexivity|]. cbn [single_line] in S.
    repeat (apply Forall_app; split).
    - destruct (f_props f); [|constructor]. constructor; [exact I|]. apply Forall_app. split; [|repeat constructor].
      apply Forall_map. eapply Forall_impl; [|exact S]. intros [[k n] v] H. exact H.
    - destruct (f_geom f); [|constructor]. constructor; [exact I|]. apply Forall_app. split; [apply geom_quiet|repeat constructor].
    - repeat constructor.
  Qed.
End Lines.
