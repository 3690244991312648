(** What `geozero` leaves in the destination. *)
From Coq Require Import String Ascii.
From Coq Require Import List NArith ZArith Lia Bool.
From Verif Require Import Base BaseLemmas Float Event EventLemmas Claims Geom FeatureSpec ProcModel ProcSpec ProcTop
  WktModel WktSpec WktTop CsvModel CsvSpec CsvTop JsonSpec GeoJsonModel GeoJsonSpec GeoJsonRead GeoJsonTop GeoJsonMore XmlSpec SvgModel SvgSpec SvgTop
  CliModel CliSpec CliTop.
Import ListNotations.
Local Open Scope list_scope.
Local Open Scope string_scope.

(** ** Numbering *)
(** every geometry is delivered with number 0 *)
Lemma at_zero : forall multi gi l i,
  (forall k f, nth_error l k = Some f -> f_geom f <> None -> gi (i + k)%nat = 0%nat) ->
  flat_mapi (fun i f => feature_obs multi i (gi i) f) i l = flat_mapi (fun i f => feature_obs multi i 0 f) i l.
Proof.
  intros multi gi. induction l as [|f l IH]; intros i H; cbn [flat_mapi]; [reflexivity|]. f_equal.
  - unfold feature_obs. destruct (f_geom f) as [g|] eqn:E; [|reflexivity].
    specialize (H 0%nat f eq_refl). rewrite Nat.add_0_r in H. rewrite H by (rewrite E; discriminate). reflexivity.
  - apply IH. intros k f' K N. replace (S i + k)%nat with (i + S k)%nat by lia. exact (H (S k) f' K N).
Qed.
Lemma dataset_zero : forall multi gi name l,
  (forall k f, nth_error l k = Some f -> f_geom f <> None -> gi k = 0%nat) ->
  dataset_at multi gi name l = dataset_obs multi name l.
Proof. intros. unfold dataset_at, dataset_obs. rewrite (at_zero multi gi l 0); [reflexivity|exact H]. Qed.

Section Conv.
  Variables (w : world) (a : args) (ext : option extent) (f : fs) (i : input_format) (text : string).
  Hypothesis (R : ready w a f i text) (D : disk_ok w) (X : extent_given w a ext).
  Let dest := w_resolve w (a_dest a).
  Let f1 := update f dest "".

  Lemma input_kept : i = InHttp \/ f1 (w_resolve w (a_input a)) = Some text.
  Proof using R.
    destruct R as (_ & [E|(N & T)]); [left; exact E|right]. unfold f1, dest. rewrite update_other by exact N. exact T.
  Qed.
  Lemma ends_save : forall st out f', main w a f = (f', st) -> f' = update f1 dest out -> ends_with w a f st out.
  Proof using.
    intros st out f' M E. exists f'. split; [exact M|]. subst f'. split; [apply update_same|].
    intros n N. unfold f1. rewrite !update_other by exact N. reflexivity.
  Qed.
  Lemma main_process : main w a f = (let (f', r) := process w a ext f in (f', status r)).
  Proof using X. unfold main. rewrite (extent_parsed _ _ _ X). reflexivity. Qed.
  Lemma created : negb (w_creatable w dest) = false.
  Proof using R. destruct R as (C & _). unfold dest. rewrite C. reflexivity. Qed.
  Lemma saved : forall t r, save w a f1 (t, r) = (update f1 dest t, r).
  Proof using D. intros. unfold save. cbn [fst snd]. rewrite D. reflexivity. Qed.

  Lemma process_json : forall e, In e ["json"; "geojson"] -> dest_is a e ->
    process w a ext f = save w a f1 (exec (geojson_writer (w_fmt32 w) (w_fmt w) xy_dims) (transform w a ext f1 xy_dims) "").
  Proof using R.
    intros e Ie E. unfold process. fold dest. rewrite created. cbn zeta. fold f1. rewrite (extension_of _ _ E), !has_some.
    destruct Ie as [<-|[<-|[]]]; reflexivity.
  Qed.
  Lemma process_csv : dest_is a "csv" ->
    process w a ext f =
    (let (s, r) := exec (csv_writer (w_fmt32 w) (w_fmt w) (w_debug w) xy_dims) (transform w a ext f1 xy_dims) csv_init in
     save w a f1 (w_csv_text w (cs_csv s), r)).
  Proof using R.
    intros E. unfold process. fold dest. rewrite created. cbn zeta. fold f1. rewrite (extension_of _ _ E), !has_some. reflexivity.
  Qed.
  Lemma process_wkt : dest_is a "wkt" ->
    process w a ext f =
    (let (s, r) := exec (wkt_writer (w_fmt w) (mkWktCfg xy_dims PlainWkt)) (transform w a ext f1 xy_dims) (wkt_init None) in
     save w a f1 (k_out s, r)).
  Proof using R.
    intros E. unfold process. fold dest. rewrite created. cbn zeta. fold f1. rewrite (extension_of _ _ E), !has_some. reflexivity.
  Qed.
  Lemma process_svg : dest_is a "svg" ->
    process w a ext f =
    match get_extent w a ext f1 with
    | Err e => (f1, Err e)
    | Ok e => save w a f1 (exec (svg_writer (w_fmt w) (set_dimensions (set_style (svg_new true) (a_style a))
                       (e_minx e) (e_miny e) (e_maxx e) (e_maxy e) 800%N 600%N)) (transform w a ext f1 xy_dims) "")
    end.
  Proof using R.
    intros E. unfold process. fold dest. rewrite created. cbn zeta. fold f1. rewrite (extension_of _ _ E), !has_some. reflexivity.
  Qed.
  Lemma process_fgb : dest_is a "fgb" ->
    process w a ext f =
    match w_fgb_new w with
    | Err e => (f1, Err e)
    | Ok s =>
        match exec (w_fgb_writer w) (transform w a ext f1 (p_dims (w_fgb_writer w))) s with
        | (s, Ok _) => save w a f1 (w_fgb_bytes w s)
        | (_, Err e) => (f1, Err e)
        end
    end.
  Proof using R.
    intros E. unfold process. fold dest. rewrite created. cbn zeta. fold f1. rewrite (extension_of _ _ E), !has_some. reflexivity.
  Qed.

  Section Dataset.
    Variables (name : option string) (gi : nat -> nat) (l : list feature).
    Hypothesis (I : input_is a i) (H : holds w a ext text i name gi l).
    Lemma source : delivers_obs (transform w a ext f1) (fun multi => dataset_at multi gi name l) (Ok tt).
    Proof using R I H. exact (input_delivers w a ext f1 text i name gi l I input_kept H). Qed.

    Lemma to_json_file : forall num32 num e, In e ["json"; "geojson"] -> dest_is a e ->
      (forall k f, nth_error l k = Some f -> f_geom f <> None -> gi k = 0%nat) ->
      json_format finite32 (w_fmt32 w) num32 -> json_format finite (w_fmt w) num ->
      safe_name name -> Forall (safe_feature false) l ->
      exists out j, ends_with w a f 0 out /\ parse_json out = Some j /\ dataset_json num32 num false name l j.
    Proof using R D X I H.
      intros num32 num e Ie E Z F32 F N S.
      destruct (dataset_written (w_fmt32 w) (w_fmt w) xy_dims num32 num F32 F name l N S) as (out & j & O & P & J).
      exists out, j. split; [|split; [exact P|exact J]].
      assert (Ex : exec (geojson_writer (w_fmt32 w) (w_fmt w) xy_dims) (transform w a ext f1 xy_dims) "" = (out, Ok tt)).
      { pose proof (source string (geojson_writer (w_fmt32 w) (w_fmt w) xy_dims) "") as Q. cbn beta in Q.
        change (p_dims (geojson_writer (w_fmt32 w) (w_fmt w) xy_dims)) with xy_dims in Q.
        rewrite Q, (dataset_zero _ _ _ _ Z), O. reflexivity. }
      eapply ends_save; [|reflexivity]. rewrite main_process, (process_json e Ie E), Ex, saved. reflexivity.
    Qed.
    Lemma to_csv_file : forall ns, dest_is a "csv" -> Forall (has_columns ns) l ->
      exists o, ends_with w a f 0 (w_csv_text w o) /\ is_table (w_fmt32 w) (w_fmt w) false ns l (o_records o) /\ o_fields o = [].
    Proof using R D X I H.
      intros ns E C.
      destruct (csv_table (w_fmt32 w) (w_fmt w) (w_debug w) xy_dims unit _ gi name ns l tt source C) as (s & Ex & T & O).
      exists (cs_csv s). split; [|split; [exact T|exact O]].
      eapply ends_save; [|reflexivity]. rewrite main_process, (process_csv E), Ex, saved. reflexivity.
    Qed.
  End Dataset.
End Conv.

(** ** SVG *)
Lemma svg_accepts : forall fmt c l s t, feed (svg_writer fmt c) l s = (t, Ok tt) -> existsb is_empty_point l = false.
Proof.
  intros fmt c. induction l as [|o l IH]; intros s t H; [reflexivity|].
  destruct o as [e|i n v].
  - destruct e; try discriminate H; cbn in H |- *; eapply IH; exact H.
  - cbn in H |- *. eapply IH; exact H.
Qed.
Lemma positions_app : forall a b, ProcSpec.positions (a ++ b)%list = (ProcSpec.positions a ++ ProcSpec.positions b)%list.
Proof. induction a as [|o a IH]; intros b; [reflexivity|]. destruct o as [[]|]; cbn; rewrite ?IH; reflexivity. Qed.
Lemma idx_free : forall g i, ProcSpec.positions (map OEv (gevents false i g)) = ProcSpec.positions (map OEv (gevents false 0 g)).
Proof.
  destruct g; intros i; try reflexivity; cbn [gevents]; unfold ev_line, ev_arc, ev_polygon, ev_triangle, ev_compound, ev_curvepolygon;
    cbn [map ProcSpec.positions]; rewrite !map_app, !positions_app; reflexivity.
Qed.
Lemma props_positions : forall l, ProcSpec.positions (map FeatureSpec.prop_obs l) = [].
Proof. induction l as [|q l IH]; [reflexivity|exact IH]. Qed.
Lemma feature_positions : forall i k f, ProcSpec.positions (feature_obs false i k f) =
  ProcSpec.positions (map OEv (flat_map (gevents false 0) (geometries [f]))).
Proof.
  intros i k f. unfold feature_obs, geometries. cbn [flat_map]. rewrite app_nil_r.
  cbn [ProcSpec.positions]. rewrite !positions_app.
  assert (P : ProcSpec.positions match f_props f with
     | Some l => OEv PropertiesBegin :: map FeatureSpec.prop_obs l ++ [OEv PropertiesEnd] | None => [] end%list = []).
  { destruct (f_props f); [|reflexivity]. cbn [ProcSpec.positions]. rewrite positions_app, props_positions. reflexivity. }
  rewrite P. cbn [app]. cbn [ProcSpec.positions]. rewrite app_nil_r.
  destruct (f_geom f) as [g|]; [|reflexivity]. cbn [ProcSpec.positions flat_map]. rewrite positions_app, app_nil_r. cbn.
  rewrite app_nil_r. apply idx_free.
Qed.
Lemma dataset_positions : forall gi name l, ProcSpec.positions (dataset_at false gi name l) = positions_of l.
Proof.
  intros gi name l. unfold dataset_at, positions_of. cbn [ProcSpec.positions]. rewrite positions_app. cbn [ProcSpec.positions].
  rewrite app_nil_r.
  assert (G : forall i, ProcSpec.positions (flat_mapi (fun i f => feature_obs false i (gi i) f) i l) =
    ProcSpec.positions (map OEv (flat_map (gevents false 0) (geometries l)))); [|apply G].
  induction l as [|f l IH]; intros i; [reflexivity|].
  cbn [flat_mapi]. rewrite positions_app, IH, feature_positions. rewrite <- positions_app, <- map_app.
  f_equal. f_equal. unfold geometries. cbn [flat_map]. rewrite app_nil_r, flat_map_app. reflexivity.
Qed.
Lemma delivered_extent : forall w a ext f gi name l,
  delivers_obs (transform w a ext f) (fun multi => dataset_at multi gi name l) (Ok tt) ->
  existsb is_empty_point (dataset_at false gi name l) = false -> first_is_number (positions_of l) ->
  exists e, get_extent w a ext f = Ok e /\ match ext with Some x => e = x | None => is_extent (positions_of l) e end.
Proof.
  intros w a ext f gi name l D E N. unfold get_extent. destruct ext as [x|]; [exists x; split; reflexivity|].
  pose proof (D _ bounds_proc None) as Q. cbn beta in Q. change (p_dims bounds_proc) with xy_dims in Q.
  destruct (bounds_exact _ E) as (b & B & Z & P). rewrite dataset_positions in Z, P.
  rewrite Q. change (multi_dim xy_dims) with false. rewrite B.
  destruct (positions_of l) as [|[x y] r] eqn:L.
  - rewrite (proj2 Z eq_refl). eexists. split; reflexivity.
  - destruct N as [N1 N2]. destruct (P x y r eq_refl N1 N2) as (b' & -> & P1 & P2 & P3 & P4 & _).
    eexists. split; [reflexivity|]. cbn [is_extent e_minx e_miny e_maxx e_maxy]. auto.
Qed.
Lemma to_svg_file : forall w a ext f text i name gi l,
  ready w a f i text -> disk_ok w -> extent_given w a ext -> input_is a i -> holds w a ext text i name gi l ->
  dest_is a "svg" -> (forall x, xml_plain (w_fmt w x) = true) -> plain_option name -> plain_style (a_style a) ->
  Forall (fun f => match f_geom f with Some g => no_empty_point g = true | None => True end) l ->
  first_is_number (positions_of l) ->
  exists e out, match ext with Some x => e = x | None => is_extent (positions_of l) e end /\
    ends_with w a f 0 out /\
    parse_xml out = Some (document (w_fmt w)
      (mkSvg true (Some (e_minx e, f64_neg (e_maxy e), e_maxx e, f64_neg (e_miny e))) (a_style a) (Some (800, 600)%N)) name l).
Proof.
  intros w a ext f text i name gi l R D X I H E F N S G P.
  pose proof (source w a ext f i text R name gi l I H) as Src.
  destruct (svg_dataset (w_fmt w) (set_style (svg_new true) (a_style a)) gi name l F N S G) as (t0 & A & _).
  destruct (delivered_extent _ _ _ _ _ _ _ Src (svg_accepts _ _ _ _ _ A) P) as (e & Ge & Ee).
  set (c := set_dimensions (set_style (svg_new true) (a_style a)) (e_minx e) (e_miny e) (e_maxx e) (e_maxy e) 800%N 600%N).
  destruct (svg_dataset (w_fmt w) c gi name l F N S G) as (t & T & Q).
  exists e, t. split; [exact Ee|]. split; [|exact Q].
  pose proof (Src _ (svg_writer (w_fmt w) c) "") as Ex. cbn beta in Ex.
  change (p_dims (svg_writer (w_fmt w) c)) with xy_dims in Ex. change (multi_dim xy_dims) with false in Ex.
  unfold dataset_at in Ex. rewrite T in Ex.
  eapply ends_save; [|reflexivity]. rewrite (main_process w a ext f X), (process_svg w a ext f i text R E), Ge.
  fold c. rewrite Ex, (saved w a f D). reflexivity.
Qed.

(** ** WKT *)
Lemma wkt_props : forall fmt c l r s, feed (wkt_writer fmt c) (map FeatureSpec.prop_obs l ++ r)%list s = feed (wkt_writer fmt c) r s.
Proof. intros fmt c. induction l as [|q l IH]; intros r s; [reflexivity|]. cbn. apply IH. Qed.
Lemma wkt_feature : forall fmt c multi i k f r s,
  feed (wkt_writer fmt c) (feature_obs multi i k f ++ r)%list s =
  feed (wkt_writer fmt c) (map OEv (match f_geom f with Some g => gevents multi k g | None => [] end) ++ r)%list s.
Proof.
  intros. unfold feature_obs. cbn [app]. cbn [feed p_step wkt_writer wkt_step default_step]. rewrite <- !app_assoc.
  assert (P : forall t s, feed (wkt_writer fmt c) (match f_props f with
     | Some l => OEv PropertiesBegin :: map FeatureSpec.prop_obs l ++ [OEv PropertiesEnd] | None => [] end ++ t)%list s = feed (wkt_writer fmt c) t s).
  { intros t u. destruct (f_props f); [|reflexivity]. cbn [app]. rewrite <- app_assoc.
    cbn [feed p_step wkt_writer wkt_step default_step]. exact (wkt_props fmt c l ([OEv PropertiesEnd] ++ t)%list u). }
  etransitivity; [exact (P _ s)|]. destruct (f_geom f) as [g|].
  - cbn [app]. rewrite <- app_assoc. cbn [feed p_step wkt_writer wkt_step default_step].
    change (mkProc (k_dims c) (wkt_step fmt c) default_prop) with (wkt_writer fmt c).
    rewrite !feed_app. destruct (feed _ (map OEv (gevents multi k g)) s) as [u [[]|x]]; reflexivity.
  - reflexivity.
Qed.
Lemma wkt_silent : forall fmt c multi gi l i r s, geometries l = [] ->
  feed (wkt_writer fmt c) (flat_mapi (fun i f => feature_obs multi i (gi i) f) i l ++ r)%list s = feed (wkt_writer fmt c) r s.
Proof.
  intros fmt c multi gi. induction l as [|f l IH]; intros i r s H; [reflexivity|]. cbn [flat_mapi]. rewrite <- app_assoc, wkt_feature.
  unfold geometries in H. cbn [flat_map] in H. apply app_eq_nil in H. destruct H as [H1 H2].
  destruct (f_geom f); [discriminate|]. cbn [map app]. apply IH. exact H2.
Qed.
Lemma wkt_single : forall fmt c multi gi g l i r s, geometries l = [g] ->
  (forall k f, nth_error l k = Some f -> f_geom f <> None -> gi (i + k)%nat = 0%nat) ->
  feed (wkt_writer fmt c) (flat_mapi (fun i f => feature_obs multi i (gi i) f) i l ++ r)%list s =
  feed (wkt_writer fmt c) (map OEv (gevents multi 0 g) ++ r)%list s.
Proof.
  intros fmt c multi gi g. induction l as [|f l IH]; intros i r s H Z; [discriminate H|].
  cbn [flat_mapi]. rewrite <- app_assoc, wkt_feature. unfold geometries in H. cbn [flat_map] in H.
  destruct (f_geom f) as [h|] eqn:E.
  - cbn [app] in H. injection H as -> H. specialize (Z 0%nat f eq_refl). rewrite Nat.add_0_r in Z.
    rewrite Z by (rewrite E; discriminate). rewrite !feed_app.
    destruct (feed _ (map OEv (gevents multi 0 g)) s) as [u [[]|x]]; [|reflexivity].
    apply wkt_silent. exact H.
  - cbn [app map] in H |- *. apply IH; [exact H|]. intros k f' K N.
    replace (S i + k)%nat with (i + S k)%nat by lia. exact (Z (S k) f' K N).
Qed.
Lemma wkt_run : forall fmt g, exists s, run (wkt_writer fmt (mkWktCfg xy_dims PlainWkt)) (gevents false 0 g) (wkt_init None) = (s, Ok tt) /\
  k_out s = wkt_text fmt false false g.
Proof.
  intros fmt g.
  pose proof (to_wkt_any unit (fun d => ok_calls (gevents (multi_dim d) 0 g)) [] PlainWkt xy_dims None fmt g tt
    (delivers_calls _ (fun multi => gevents multi 0 g) (fun d => eq_refl))) as T.
  unfold to_wkt_with_opts, ok_calls in T. rewrite exec_calls in T. change (multi_dim xy_dims) with false in T.
  destruct (run _ (gevents false 0 g) (wkt_init None)) as [s [[]|x]]; [|discriminate T].
  exists s. split; [reflexivity|]. injection T as T. exact T.
Qed.
Lemma to_wkt_file : forall w a ext f text i name gi l g,
  ready w a f i text -> disk_ok w -> extent_given w a ext -> input_is a i -> holds w a ext text i name gi l ->
  dest_is a "wkt" -> geometries l = [g] ->
  (forall k f, nth_error l k = Some f -> f_geom f <> None -> gi k = 0%nat) ->
  ends_with w a f 0 (wkt_text (w_fmt w) false false g).
Proof.
  intros w a ext f text i name gi l g R D X I H E G Z.
  pose proof (source w a ext f i text R name gi l I H _ (wkt_writer (w_fmt w) (mkWktCfg xy_dims PlainWkt)) (wkt_init None)) as Src.
  cbn beta in Src. change (p_dims (wkt_writer (w_fmt w) (mkWktCfg xy_dims PlainWkt))) with xy_dims in Src.
  change (multi_dim xy_dims) with false in Src.
  destruct (wkt_run (w_fmt w) g) as (s & Rn & O).
  assert (F : feed (wkt_writer (w_fmt w) (mkWktCfg xy_dims PlainWkt)) (dataset_at false gi name l) (wkt_init None) = (s, Ok tt)).
  { unfold dataset_at. etransitivity; [exact (wkt_single (w_fmt w) _ false gi g l 0 [OEv DatasetEnd] (wkt_init None) G Z)|].
    rewrite feed_app, feed_run, Rn. reflexivity. }
  rewrite F in Src.
  eapply ends_save; [|reflexivity]. rewrite (main_process w a ext f X), (process_wkt w a ext f i text R E), Src, O, (saved w a f D). reflexivity.
Qed.
