(** Lemmas behind C84: geometries and attributes do not mix. *)
From Coq Require Import String Ascii.
From Coq Require Import List NArith ZArith Lia Bool.
From Verif Require Import Base BaseLemmas Float Event ProcModel Claims TraceSpec TraceTop ApartSpec.
From Verif Require WktModel CsvModel GeoModel MvtModel.
Import ListNotations.
Local Open Scope list_scope.

(** what is seen of the state follows from the callbacks selected *)
Lemma determined : forall S V (p : proc S) (I : S -> Prop) (sel : obs -> bool) (view : S -> V) (vstep : V -> obs -> V),
  (forall o s s', I s -> one p o s = (s', Ok tt) -> I s' /\ view s' = if sel o then vstep (view s) o else view s) ->
  forall l s, I s -> snd (feed p l s) = Ok tt -> view (fst (feed p l s)) = fold_left vstep (filter sel l) (view s).
Proof.
  intros S V p I sel view vstep H. induction l as [|o l IH]; intros s Hi E; [reflexivity|].
  rewrite feed_cons in *. destruct (one p o s) as [s' [[]|x]] eqn:E1; [|discriminate E].
  destruct (H o s s' Hi E1) as [Hi' Hv]. rewrite (IH s' Hi' E), Hv. cbn [filter]. destruct (sel o); reflexivity.
Qed.
Lemma agree_by : forall S V W (p : proc S) s0 (I : S -> Prop) (sel : obs -> bool) (view : S -> V) (vstep : V -> obs -> V) (look : S -> W) (f : V -> W),
  (forall s, look s = f (view s)) -> I s0 ->
  (forall o s s', I s -> one p o s = (s', Ok tt) -> I s' /\ view s' = if sel o then vstep (view s) o else view s) ->
  agree p s0 look (fun l l' => filter sel l = filter sel l').
Proof.
  intros S V W p s0 I sel view vstep look f F H0 H l l' E A B. rewrite !F. f_equal.
  rewrite (determined S V p I sel view vstep H l s0 H0 A), (determined S V p I sel view vstep H l' s0 H0 B), E. reflexivity.
Qed.
Lemma one_ok : forall S (p : proc S) e s s', one p (OEv e) s = (s', Ok tt) -> p_step p s e = (s', Ok tt).
Proof. intros S p e s s' H. unfold one in H. cbn in H. destruct (p_step p s e) as [a [[]|x]]; [exact H|discriminate H]. Qed.
Lemma one_prop_ok : forall S (p : proc S) i n v s s', one p (OProp i n v) s = (s', Ok tt) -> exists b, p_prop p s i n v = (s', Ok b).
Proof.
  intros S p i n v s s' H. unfold one in H. cbn in H. destruct (p_prop p s i n v) as [a [b|x]]; [|discriminate H].
  injection H as <-. exists b. reflexivity.
Qed.

(** ** geo-types features *)
Theorem features_geometry : forall debug, agree (GeoModel.feature_writer debug) GeoModel.gf_init feature_geometries same_geometry.
Proof.
  intros debug.
  apply (agree_by _ (GeoModel.gw * list GeoModel.gt) _ _ _ (fun _ => True) _ (fun s => (GeoModel.f_writer s, map fst (GeoModel.f_features s)))
    (fun v o => match o with
      | OEv (FeatureEnd _) => match GeoModel.take_geometry (fst v) with (w, Some g) => (w, snd v ++ [g]) | (w, None) => (w, snd v) end
      | OEv (FeatureBegin _) | OEv GeometryBegin | OEv (DatasetBegin _) | OEv DatasetEnd | OEv PropertiesBegin | OEv PropertiesEnd | OEv GeometryEnd => v
      | OEv e => (fst (GeoModel.geo_step debug (fst v) e), snd v)
      | _ => v
      end) _ snd); [reflexivity|exact I|].
  intros [e|i n v] s s' _ E; (split; [exact I|]).
  - apply one_ok in E. cbn [p_step GeoModel.feature_writer] in E. cbn [is_property negb fst snd].
    destruct e; cbn [GeoModel.feature_step] in E;
      try (destruct (GeoModel.geo_step debug (GeoModel.f_writer s) _) as [w r] eqn:G; injection E as <- ->; cbn [fst snd GeoModel.f_writer GeoModel.f_features]; reflexivity);
      try (injection E as <-; reflexivity).
    + unfold GeoModel.f_assert in E. destruct (debug && _); [discriminate E|]. destruct (debug && _); [discriminate E|]. injection E as <-. reflexivity.
    + destruct (GeoModel.take_geometry (GeoModel.f_writer s)) as [w [g|]]; [|discriminate E]. destruct (GeoModel.f_props s); [|discriminate E].
      injection E as <-. cbn. rewrite map_app. reflexivity.
    + unfold GeoModel.f_assert in E. destruct (debug && _); [discriminate E|]. injection E as <-. reflexivity.
  - apply one_prop_ok in E. destruct E as [b E]. cbn [p_prop GeoModel.feature_writer] in E. unfold GeoModel.feature_prop in E.
    destruct (GeoModel.f_props s); [|discriminate E]. injection E as <- <-. reflexivity.
Qed.
Theorem features_attributes : forall debug, agree (GeoModel.feature_writer debug) GeoModel.gf_init feature_attributes same_attributes.
Proof.
  intros debug.
  apply (agree_by _ (option GeoModel.props * list GeoModel.props) _ _ _ (fun _ => True) _ (fun s => (GeoModel.f_props s, map snd (GeoModel.f_features s)))
    (fun v o => match o with
      | OEv (FeatureEnd _) => match fst v with Some p => (None, snd v ++ [p]) | None => v end
      | OEv (FeatureBegin _) => (Some [], snd v)
      | OProp _ n c => (match fst v with Some p => Some (GeoModel.put p n c) | None => None end, snd v)
      | _ => v
      end) _ snd); [reflexivity|exact I|].
  intros [e|i n v] s s' _ E; (split; [exact I|]).
  - apply one_ok in E. cbn [p_step GeoModel.feature_writer] in E.
    destruct e; cbn [GeoModel.feature_step] in E;
      try (destruct (GeoModel.geo_step debug (GeoModel.f_writer s) _) as [w r] eqn:G; injection E as <- ->; reflexivity);
      try (injection E as <-; reflexivity).
    + unfold GeoModel.f_assert in E. destruct (debug && _); [discriminate E|]. destruct (debug && _); [discriminate E|]. injection E as <-. reflexivity.
    + destruct (GeoModel.take_geometry (GeoModel.f_writer s)) as [w [g|]]; [|discriminate E]. cbn. destruct (GeoModel.f_props s); [|discriminate E].
      injection E as <-. cbn. rewrite map_app. reflexivity.
    + unfold GeoModel.f_assert in E. destruct (debug && _); [discriminate E|]. injection E as <-. reflexivity.
  - apply one_prop_ok in E. destruct E as [b E]. cbn [p_prop GeoModel.feature_writer] in E. unfold GeoModel.feature_prop in E.
    cbn. destruct (GeoModel.f_props s); [|discriminate E]. injection E as <- <-. reflexivity.
Qed.

(** ** CSV *)
Lemma fields_all : forall l o, fold_left CsvModel.csv_write_field l o =
  CsvModel.mkCsvOut (CsvModel.o_fields o ++ l) (CsvModel.o_records o) (CsvModel.o_count o).
Proof.
  induction l as [|f l IH]; intros o; cbn [fold_left]; [destruct o; cbn; rewrite app_nil_r; reflexivity|]. rewrite IH. cbn. rewrite <- app_assoc. reflexivity.
Qed.
Lemma record_ok : forall o l o', CsvModel.csv_write_record o l = (o', Ok tt) ->
  CsvModel.o_records o' = CsvModel.o_records o ++ [CsvModel.o_fields o ++ l] /\ CsvModel.o_fields o' = [].
Proof.
  intros o l o' E. unfold CsvModel.csv_write_record in E. rewrite fields_all in E. cbn in E.
  destruct (CsvModel.o_count o) as [k|]; [destruct (Nat.eqb k _); [|discriminate E]|]; injection E as <-; split; reflexivity.
Qed.
Lemma assert_ok : forall debug b (s s' : CsvModel.csvst) r, CsvModel.csv_assert debug b s = (s', r) -> s' = s.
Proof. intros debug b s s' r E. unfold CsvModel.csv_assert in E. destruct (debug && negb b); injection E as <- _; reflexivity. Qed.
Lemma assert_state : forall debug b (s : CsvModel.csvst), fst (CsvModel.csv_assert debug b s) = s.
Proof. intros debug b s. destruct (CsvModel.csv_assert debug b s) as [s' r] eqn:E. exact (assert_ok _ _ _ _ _ E). Qed.
Definition csv_inv (s : CsvModel.csvst) : Prop :=
  CsvModel.o_fields (CsvModel.cs_csv s) = [] /\ hd_error (CsvModel.cs_headers s) = Some "geometry"%string.
Lemma feature_end_ok : forall s s', csv_inv s -> CsvModel.csv_feature_end s = (s', Ok tt) ->
  csv_inv s' /\ CsvModel.cs_headers s' = CsvModel.cs_headers s /\ CsvModel.cs_written s' = true /\ CsvModel.cs_row s' = [] /\
  CsvModel.cs_wkt s' = WktModel.mkWktSt (WktModel.k_srid (CsvModel.cs_wkt s)) (WktModel.k_first (CsvModel.cs_wkt s)) (WktModel.k_sizes (CsvModel.cs_wkt s)) ""%string /\
  CsvModel.o_records (CsvModel.cs_csv s') = CsvModel.o_records (CsvModel.cs_csv s) ++
    (if CsvModel.cs_written s then [] else [CsvModel.cs_headers s]) ++ [WktModel.k_out (CsvModel.cs_wkt s) :: CsvModel.cs_row s].
Proof.
  intros s s' [F Hh] E. unfold CsvModel.csv_feature_end in E.
  set (r := if CsvModel.cs_written s then (CsvModel.cs_csv s, Ok tt) else CsvModel.csv_write_record (CsvModel.cs_csv s) (CsvModel.cs_headers s)) in E.
  assert (R : forall o, r = (o, Ok tt) -> CsvModel.o_fields o = [] /\
    CsvModel.o_records o = CsvModel.o_records (CsvModel.cs_csv s) ++ (if CsvModel.cs_written s then [] else [CsvModel.cs_headers s])).
  { intros o Er. unfold r in Er. destruct (CsvModel.cs_written s).
    - injection Er as <-. rewrite app_nil_r. split; [exact F|reflexivity].
    - destruct (record_ok _ _ _ Er) as [A B]. rewrite F in A. split; [exact B|exact A]. }
  destruct r as [o [[]|x]]; [|discriminate E]. destruct (R o eq_refl) as [A B].
  destruct (CsvModel.csv_write_record _ []) as [o2 [[]|x]] eqn:E2; [|discriminate E]. apply record_ok in E2. rewrite fields_all in E2. cbn in E2.
  rewrite A in E2. cbn in E2. destruct E2 as [E2 E3]. injection E as <-. cbn. rewrite E2, B, app_nil_r, <- app_assoc.
  repeat split; try reflexivity; try exact Hh. exact E3.
Qed.
Theorem csv_geometry_column : forall fmt32 fmt debug d, agree (CsvModel.csv_writer fmt32 fmt debug d) CsvModel.csv_init csv_geometries same_geometry.
Proof.
  intros fmt32 fmt debug d.
  apply (agree_by _ (WktModel.wktst * bool * list (option string)) _ _ _ csv_inv _
    (fun s => (CsvModel.cs_wkt s, CsvModel.cs_written s, csv_geometries s))
    (fun v o => match o with
      | OEv (FeatureEnd _) => let w := fst (fst v) in
          (WktModel.mkWktSt (WktModel.k_srid w) (WktModel.k_first w) (WktModel.k_sizes w) ""%string, true,
           snd v ++ (if snd (fst v) then [] else [Some "geometry"%string]) ++ [Some (WktModel.k_out w)])
      | OEv e => (CsvModel.cs_wkt (fst (CsvModel.csv_step fmt debug d (CsvModel.mkCsv CsvModel.csv_out_init [] true [] (fst (fst v))) e)), snd (fst v), snd v)
      | _ => v
      end) _ snd); [reflexivity|split; reflexivity|].
  intros [e|i n v] s s' Hi E.
  - apply one_ok in E. cbn [p_step CsvModel.csv_writer] in E. cbn [is_property negb fst snd]. destruct s as [o h wr r w].
    destruct e; cbn [CsvModel.csv_step] in E |- *;
      try (unfold CsvModel.csv_wkt in *; cbn [CsvModel.cs_wkt CsvModel.cs_csv CsvModel.cs_headers CsvModel.cs_written CsvModel.cs_row] in *;
           unfold CsvModel.offset_geom_idx, CsvModel.geometry_started in *; cbn [CsvModel.cs_wkt] in *;
           destruct (WktModel.wkt_step fmt (WktModel.mkWktCfg d WktModel.PlainWkt) w _) as [w' q]; injection E as <- ->; split; [exact Hi|reflexivity]);
      try (rewrite assert_state; apply assert_ok in E; subst s'; split; [exact Hi|reflexivity]);
      try (injection E as <-; split; [exact Hi|reflexivity]).
    + injection E as <-. split; [split; [exact (proj1 Hi)|reflexivity]|reflexivity].
    + pose proof Hi as Hi'. apply feature_end_ok in E; [|exact Hi]. destruct E as (A & B & C & D & F & G). split; [exact A|].
      unfold csv_geometries. rewrite F, C, G, !map_app. cbn. destruct wr; cbn; [reflexivity|]. destruct Hi' as [_ Hh]. cbn in Hh. rewrite Hh. reflexivity.
  - apply one_prop_ok in E. destruct E as [b E]. cbn [p_prop CsvModel.csv_writer] in E. unfold CsvModel.csv_prop in E. cbn [is_property negb].
    destruct s as [o h wr r w]. cbn in E. destruct wr.
    + destruct (nth_error h (i + 1)); [|discriminate E]. destruct (String.eqb n s); [|discriminate E]. injection E as <- <-. split; [exact Hi|reflexivity].
    + injection E as <- <-. split; [|reflexivity]. destruct Hi as [A B]. split; [exact A|]. cbn in *. destruct h; [discriminate B|exact B].
Qed.
Theorem csv_attribute_columns : forall fmt32 fmt debug d, agree (CsvModel.csv_writer fmt32 fmt debug d) CsvModel.csv_init csv_attributes same_attributes.
Proof.
  intros fmt32 fmt debug d.
  apply (agree_by _ (list string * bool * list string * list (list string)) _ _ _ csv_inv _
    (fun s => (CsvModel.cs_headers s, CsvModel.cs_written s, CsvModel.cs_row s, csv_attributes s))
    (fun v o => match v with (h, wr, r, rs) => match o with
      | OEv (FeatureEnd _) => (h, true, [], rs ++ (if wr then [] else [tl h]) ++ [r])
      | OEv DatasetEnd => (["geometry"%string], wr, r, rs)
      | OProp _ n c => (if wr then h else h ++ [n], wr, r ++ [show_colval fmt32 fmt c], rs)
      | _ => v
      end end) _ snd); [reflexivity|split; reflexivity|].
  intros [e|i n v] s s' Hi E.
  - apply one_ok in E. cbn [p_step CsvModel.csv_writer] in E. destruct s as [o h wr r w].
    destruct e; cbn [CsvModel.csv_step] in E |- *;
      try (unfold CsvModel.csv_wkt in *; cbn [CsvModel.cs_wkt CsvModel.cs_csv CsvModel.cs_headers CsvModel.cs_written CsvModel.cs_row] in *;
           destruct (WktModel.wkt_step fmt (WktModel.mkWktCfg d WktModel.PlainWkt) w _) as [w' q]; injection E as <- ->; split; [exact Hi|reflexivity]);
      try (apply assert_ok in E; subst s'; split; [exact Hi|reflexivity]);
      try (injection E as <-; split; [exact Hi|reflexivity]).
    + injection E as <-. split; [split; [exact (proj1 Hi)|reflexivity]|reflexivity].
    + apply feature_end_ok in E; [|exact Hi]. destruct E as (A & B & C & D & F & G). split; [exact A|].
      unfold csv_attributes. cbn [is_frame is_property is_dataset is_properties is_geometry is_feature orb]. rewrite B, C, D, G, !map_app. cbn. destruct wr; reflexivity.
  - apply one_prop_ok in E. destruct E as [b E]. cbn [p_prop CsvModel.csv_writer] in E. unfold CsvModel.csv_prop in E.
    destruct s as [o h wr r w]. cbn in E. destruct wr.
    + destruct (nth_error h (i + 1)); [|discriminate E]. destruct (String.eqb n s); [|discriminate E]. injection E as <- <-. split; [exact Hi|reflexivity].
    + injection E as <- <-. split; [|reflexivity]. destruct Hi as [A B]. split; [exact A|]. cbn in *. destruct h; [discriminate B|exact B].
Qed.

(** ** MVT *)
Definition tile_bare (s : MvtModel.mw) : MvtModel.mw :=
  MvtModel.mkMw [] [] (MvtModel.mw_geoms s) (MvtModel.mw_coll s) (MvtModel.mw_polys s) (MvtModel.mw_lines s) (MvtModel.mw_coords s).
Definition ends_feature (e : event) : bool := match e with FeatureEnd _ => true | _ => false end.
Definition starts_feature (e : event) : bool := match e with FeatureBegin _ => true | _ => false end.
Lemma tile_step_bare : forall gsize debug c e s, ends_feature e = false ->
  tile_bare (fst (MvtModel.mvt_step gsize debug c s e)) = tile_bare (fst (MvtModel.mvt_step gsize debug c (tile_bare s) e)) /\
  MvtModel.mw_features (fst (MvtModel.mvt_step gsize debug c s e)) = MvtModel.mw_features s /\
  MvtModel.mw_props (fst (MvtModel.mvt_step gsize debug c s e)) = if starts_feature e then [] else MvtModel.mw_props s.
Proof.
  intros gsize debug c e s H. destruct s as [f p g co po li cs].
  destruct e; cbn [MvtModel.mvt_step starts_feature]; try discriminate H;
      unfold MvtModel.m_xy, MvtModel.massert, MvtModel.mreserve, MvtModel.mfinish, MvtModel.mtake, tile_bare;
      cbn [MvtModel.mw_features MvtModel.mw_props MvtModel.mw_geoms MvtModel.mw_coll MvtModel.mw_polys MvtModel.mw_lines MvtModel.mw_coords
           MvtModel.mset_polys MvtModel.mset_lines MvtModel.mset_coords MvtModel.mset_coll MvtModel.mset_geoms MvtModel.mset_props];
      repeat (match goal with
              | |- context[match ?k with _ => _ end] => destruct k eqn:?
              end; cbn [fst snd]; try (repeat split; reflexivity));
      try (repeat split; reflexivity).
Qed.
Theorem tile_geometry : forall gsize base64 debug c, agree (MvtModel.mvt_writer gsize base64 debug c) MvtModel.mw_init tile_geometries same_geometry.
Proof.
  intros gsize base64 debug c.
  apply (agree_by _ (MvtModel.mw * list MvtModel.tgeom) _ _ _ (fun _ => True) _ (fun s => (tile_bare s, tile_geometries s))
    (fun v o => match o with
      | OEv (FeatureEnd _) => match MvtModel.mtake (fst v) with (w, Some g) => (w, snd v ++ [g]) | (w, None) => (w, snd v) end
      | OEv e => (tile_bare (fst (MvtModel.mvt_step gsize debug c (fst v) e)), snd v)
      | _ => v
      end) _ snd); [reflexivity|exact I|].
  intros [e|i n v] s s' _ E; (split; [exact I|]).
  - apply one_ok in E. cbn [p_step MvtModel.mvt_writer] in E. cbn [is_property negb fst snd].
    destruct (ends_feature e) eqn:H.
    + destruct e; try discriminate H. cbn [MvtModel.mvt_step] in E. destruct s as [f p g co po li cs]. unfold tile_bare, tile_geometries.
      destruct g as [|g0 [|g1 g]]; injection E as <-; cbn; rewrite ?map_app; reflexivity.
    + destruct (tile_step_bare gsize debug c e s H) as (A & B & _). rewrite E in A, B. cbn [fst] in A, B. unfold tile_geometries. rewrite A, B.
      destruct e; try discriminate H; reflexivity.
  - apply one_prop_ok in E. destruct E as [b E]. cbn in E. injection E as <- <-. reflexivity.
Qed.
Definition attr_step base64 (v : list (string * MvtModel.mval) * list (list (string * MvtModel.mval))) (o : obs) :=
  match o with
  | OEv (FeatureBegin _) => ([], snd v)
  | OEv (FeatureEnd _) => ([], snd v ++ [fst v])
  | OProp _ n c => (fst v ++ [(n, MvtModel.mvt_value base64 c)], snd v)
  | _ => v
  end.
Lemma tile_count : forall gsize base64 debug c l s, snd (feed (MvtModel.mvt_writer gsize base64 debug c) l s) = Ok tt ->
  length (MvtModel.mw_features (fst (feed (MvtModel.mvt_writer gsize base64 debug c) l s))) <= length (MvtModel.mw_features s) + ended l.
Proof.
  intros gsize base64 debug c. induction l as [|o l IH]; intros s E; [cbn; lia|]. rewrite feed_cons in *.
  destruct (one (MvtModel.mvt_writer gsize base64 debug c) o s) as [s' [[]|x]] eqn:E1; [|discriminate E]. specialize (IH s' E).
  enough (length (MvtModel.mw_features s') <= length (MvtModel.mw_features s) + if is_feature_end o then 1 else 0)
    by (unfold ended in *; cbn [filter]; destruct (is_feature_end o); cbn [length]; lia).
  destruct o as [e|i n v].
  - apply one_ok in E1. cbn [p_step MvtModel.mvt_writer] in E1. destruct (ends_feature e) eqn:H.
    + destruct e; try discriminate H. cbn [MvtModel.mvt_step] in E1. destruct s as [f p g co po li cs].
      destruct g as [|g0 [|g1 g]]; injection E1 as <-; cbn; rewrite ?app_length; cbn; lia.
    + destruct (tile_step_bare gsize debug c e s H) as (_ & B & _). rewrite E1 in B. cbn [fst] in B. rewrite B. lia.
  - apply one_prop_ok in E1. destruct E1 as [b E1]. cbn in E1. injection E1 as <- <-. cbn. lia.
Qed.
Lemma tile_attrs : forall gsize base64 debug c l s, let f := feed (MvtModel.mvt_writer gsize base64 debug c) l s in
  snd f = Ok tt -> length (MvtModel.mw_features (fst f)) = length (MvtModel.mw_features s) + ended l ->
  (MvtModel.mw_props (fst f), tile_attributes (fst f)) = fold_left (attr_step base64) (filter is_frame l) (MvtModel.mw_props s, tile_attributes s).
Proof.
  intros gsize base64 debug c. induction l as [|o l IH]; intros s f E L; subst f; [reflexivity|]. rewrite feed_cons in *.
  destruct (one (MvtModel.mvt_writer gsize base64 debug c) o s) as [s' [[]|x]] eqn:E1; [|discriminate E].
  pose proof (tile_count gsize base64 debug c l s' E) as Hc.
  assert (Hn : length (MvtModel.mw_features s') = length (MvtModel.mw_features s) + (if is_feature_end o then 1 else 0) /\
    (MvtModel.mw_props s', tile_attributes s') = if is_frame o then attr_step base64 (MvtModel.mw_props s, tile_attributes s) o else (MvtModel.mw_props s, tile_attributes s)).
  { destruct o as [e|i n v].
    - apply one_ok in E1. cbn [p_step MvtModel.mvt_writer] in E1. destruct (ends_feature e) eqn:H.
      + destruct e; try discriminate H. cbn [MvtModel.mvt_step] in E1. destruct s as [f p g co po li cs]. unfold tile_attributes, ended in *. cbn [filter is_feature_end length] in L.
        destruct g as [|g0 [|g1 g]]; injection E1 as <-; cbn in *; rewrite ?map_app, ?app_length in *; cbn in *; [lia| |]; (split; [lia|reflexivity]).
      + destruct (tile_step_bare gsize debug c e s H) as (_ & B & C). rewrite E1 in B, C. cbn [fst] in B, C. unfold tile_attributes. rewrite B, C.
        destruct e; try discriminate H; cbn; (split; [lia|reflexivity]).
    - apply one_prop_ok in E1. destruct E1 as [b E1]. cbn in E1. injection E1 as <- <-. cbn. split; [lia|reflexivity]. }
  destruct Hn as [Hn Hv]. rewrite (IH s' E).
  - rewrite Hv. cbn [filter]. destruct (is_frame o); reflexivity.
  - unfold ended in *. cbn [filter] in L. destruct (is_feature_end o); cbn [length] in L; lia.
Qed.
Theorem tile_attribute : forall gsize base64 debug c l l', let w := MvtModel.mvt_writer gsize base64 debug c in
  same_attributes l l' ->
  snd (feed w l MvtModel.mw_init) = Ok tt -> snd (feed w l' MvtModel.mw_init) = Ok tt ->
  length (MvtModel.mw_features (fst (feed w l MvtModel.mw_init))) = ended l ->
  length (MvtModel.mw_features (fst (feed w l' MvtModel.mw_init))) = ended l' ->
  tile_attributes (fst (feed w l MvtModel.mw_init)) = tile_attributes (fst (feed w l' MvtModel.mw_init)).
Proof.
  intros gsize base64 debug c l l' w H A B C D.
  pose proof (tile_attrs gsize base64 debug c l MvtModel.mw_init A C) as P. pose proof (tile_attrs gsize base64 debug c l' MvtModel.mw_init B D) as Q.
  rewrite H in P. rewrite <- Q in P. exact (f_equal snd P).
Qed.
Theorem tile_attribute_refuted : forall gsize base64 debug c,
  ~ agree (MvtModel.mvt_writer gsize base64 debug c) MvtModel.mw_init tile_attributes same_attributes.
Proof.
  intros gsize base64 debug c H.
  specialize (H [OEv (FeatureBegin 0); OProp 0 "a" (CBool true); OEv (MultiPointBegin 0 0); OEv (MultiPointEnd 0); OEv (FeatureEnd 0)]
                [OEv (FeatureBegin 0); OProp 0 "a" (CBool true); OEv (FeatureEnd 0)] eq_refl).
  cbn in H. unfold MvtModel.massert, MvtModel.mreserve in H. cbn in H. destruct debug; cbn in H; discriminate (H eq_refl eq_refl).
Qed.
