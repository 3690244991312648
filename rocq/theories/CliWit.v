(** Frame, failures and counterexamples of `geozero`. *)
From Coq Require Import String Ascii.
From Coq Require Import List NArith ZArith Lia Bool.
From Verif Require Import Base BaseLemmas Float Event EventLemmas Claims Geom FeatureSpec ProcModel ProcSpec ProcTop
  WktModel WktSpec WkbSpec WktWrite WktParse WktTop CsvModel CsvSpec CsvTop JsonSpec GeoJsonModel GeoJsonSpec GeoJsonRead GeoJsonTop GeoJsonMore XmlSpec SvgModel SvgSpec SvgTop
  CliModel CliSpec CliTop CliMore.
Import ListNotations.
Local Open Scope list_scope.
Local Open Scope string_scope.

(** ** Frame *)
Lemma save_other : forall w a f r n, n <> w_resolve w (a_dest a) -> fst (save w a f r) n = f n.
Proof. intros. unfold save. cbn [fst]. apply update_other. exact H. Qed.
Lemma only_dest : forall w a f n, n <> w_resolve w (a_dest a) -> fst (main w a f) n = f n.
Proof.
  intros w a f n N. unfold main. destruct (parse_extent_option w (a_extent a)) as [ext|e]; [|reflexivity].
  assert (P : fst (process w a ext f) n = f n).
  { unfold process. destruct (negb _); [reflexivity|]. cbn zeta.
    set (f1 := update f (w_resolve w (a_dest a)) "").
    assert (F : f1 n = f n) by (apply update_other; exact N).
    destruct (has _ "csv"); [destruct (exec _ _ csv_init); rewrite save_other by exact N; exact F|].
    destruct (has _ "wkt"); [destruct (exec _ _ (wkt_init None)); rewrite save_other by exact N; exact F|].
    destruct (_ || _); [rewrite save_other by exact N; exact F|].
    destruct (has _ "fgb").
    { destruct (w_fgb_new w) as [s|e]; [|exact F]. destruct (exec _ _ s) as [u [x|e]]; [|exact F].
      rewrite save_other by exact N. exact F. }
    destruct (has _ "svg"); [|exact F]. destruct (get_extent w a ext f1); [|exact F].
    rewrite save_other by exact N. exact F. }
  destruct (process w a ext f) as [f' r]. exact P.
Qed.

(** ** Extents *)
Lemma concat_split : forall l, l <> [] -> forallb (fun x => negb (contains "," x)) l = true ->
  split_on "," (String.concat "," l) = l.
Proof.
  induction l as [|x l IH]; intros N C; [contradiction|]. cbn [forallb] in C. apply andb_true_iff in C. destruct C as [C1 C2].
  apply negb_true_iff in C1. destruct l as [|y l]; [cbn; apply split_none; exact C1|].
  change (String.concat "," (x :: y :: l)) with (x ++ String "," (String.concat "," (y :: l))).
  rewrite split_app, (split_none _ _ C1), IH by (try discriminate; exact C2). reflexivity.
Qed.
Lemma floats_ok : forall w l xs, Forall2 (fun s x => w_num w s = Some x) l xs -> floats w l = Ok xs.
Proof. intros w l xs H. induction H as [|s x l xs E H IH]; [reflexivity|]. cbn [floats]. rewrite E, IH. reflexivity. Qed.
Lemma floats_length : forall w l xs, floats w l = Ok xs -> length xs = length l.
Proof.
  intros w. induction l as [|s l IH]; intros xs H; cbn [floats] in H; [injection H as <-; reflexivity|].
  destruct (w_num w s); [|discriminate]. destruct (floats w l) as [t|]; [|discriminate]. injection H as <-.
  cbn. rewrite (IH t eq_refl). reflexivity.
Qed.
Lemma floats_bad : forall w l, Exists (fun s => w_num w s = None) l -> floats w l = Err EPanic.
Proof.
  intros w l H. induction H as [s l E|s l H IH]; cbn [floats]; [rewrite E; reflexivity|]. rewrite IH. destruct (w_num w s); reflexivity.
Qed.
Lemma floats_err : forall w l e, floats w l = Err e -> e = EPanic.
Proof.
  intros w [|s l] e H; cbn [floats] in H; [discriminate|]. destruct (w_num w s); [destruct (floats w l)|]; congruence.
Qed.
Lemma bad_extent : forall w a f t l, a_extent a = Some t -> values t l ->
  Exists (fun s => w_num w s = None) l \/ (length l < 4)%nat -> main w a f = (f, 101%N).
Proof.
  intros w a f t l A (-> & N & C) B. unfold main. rewrite A. cbn [parse_extent_option]. unfold parse_extent.
  rewrite (concat_split l N C). destruct (floats w l) as [xs|e] eqn:E.
  - destruct B as [B|B]; [rewrite (floats_bad w l B) in E; discriminate|].
    apply floats_length in E. rewrite <- E in B. destruct xs as [|x [|y [|z [|u xs]]]]; cbn in B; [reflexivity..|lia].
  - rewrite (floats_err w l e E). reflexivity.
Qed.
(** further values do not matter *)
Lemma more_values : forall w a f t l x0 x1 x2 x3 more, a_extent a = Some t -> values t l ->
  Forall2 (fun s x => w_num w s = Some x) l (x0 :: x1 :: x2 :: x3 :: more) ->
  exists t', values t' (firstn 4 l) /\ main w a f = main w (with_extent a (Some t')) f.
Proof.
  intros w a f t l x0 x1 x2 x3 more A (-> & N & C) F.
  inversion F as [|s0 ? l0 ? F0 R0]; subst. inversion R0 as [|s1 ? l1 ? F1 R1]; subst.
  inversion R1 as [|s2 ? l2 ? F2 R2]; subst. inversion R2 as [|s3 ? l3 ? F3 R3]; subst.
  exists (String.concat "," [s0; s1; s2; s3]). assert (V : values (String.concat "," [s0; s1; s2; s3]) [s0; s1; s2; s3]).
  { split; [reflexivity|split; [discriminate|]]. cbn [forallb] in C |- *. rewrite !andb_true_iff in C |- *. tauto. }
  split; [exact V|]. unfold main. rewrite A. cbn [parse_extent_option with_extent a_extent]. unfold parse_extent.
  rewrite (concat_split _ N C), (floats_ok w _ _ F).
  destruct V as (_ & N4 & C4). rewrite (concat_split _ N4 C4), (floats_ok w [s0; s1; s2; s3] [x0; x1; x2; x3]) by (repeat constructor; assumption).
  reflexivity.
Qed.

(** ** Failures after the destination was created *)
Lemma ends_created : forall w a f st, main w a f = (update f (w_resolve w (a_dest a)) "", st) -> ends_with w a f st "".
Proof.
  intros w a f st M. eexists. split; [exact M|]. split; [apply update_same|]. intros n N. apply update_other. exact N.
Qed.
Lemma ends_emptied : forall w a f st,
  main w a f = (update (update f (w_resolve w (a_dest a)) "") (w_resolve w (a_dest a)) "", st) -> ends_with w a f st "".
Proof.
  intros w a f st M. eexists. split; [exact M|]. split; [apply update_same|]. intros n N. rewrite !update_other by exact N. reflexivity.
Qed.
Lemma has_not : forall e l, ~ In e l -> forall x, In x l -> has (Some e) x = false.
Proof. intros e l N x I. cbn. apply String.eqb_neq. intros ->. contradiction. Qed.
Lemma unknown_output : forall w a ext f e, w_creatable w (w_resolve w (a_dest a)) = true -> extent_given w a ext ->
  dest_is a e -> ~ In e known_outputs -> ends_with w a f 101 "".
Proof.
  intros w a ext f e C X E N. apply ends_created. rewrite (main_process w a ext f X). unfold process. rewrite C. cbn [negb]. cbn zeta.
  rewrite (extension_of _ _ E). unfold known_outputs in N.
  rewrite !(has_not e _ N) by (cbn; tauto). reflexivity.
Qed.
(** a source that fails at once *)
Lemma fails_at_once : forall w a ext f x e, disk_ok w -> w_creatable w (w_resolve w (a_dest a)) = true -> extent_given w a ext ->
  dest_is a e -> In e ["wkt"; "json"; "geojson"; "svg"] ->
  (forall d, transform w a ext (update f (w_resolve w (a_dest a)) "") d = pfail x) ->
  ends_with w a f (status (Err x)) "".
Proof.
  intros w a ext f x e D C X E I T.
  assert (M : main w a f = (let (f', r) := process w a ext f in (f', status r))) by (apply main_process; exact X).
  unfold process in M. rewrite C in M. cbn [negb] in M. cbn zeta in M. rewrite (extension_of _ _ E), !has_some in M.
  destruct I as [<-|[<-|[<-|[<-|[]]]]]; cbn [String.eqb Ascii.eqb Bool.eqb orb] in M; rewrite ?T in M.
  - unfold save in M. cbn [exec pfail fst snd] in M. cbn in M. rewrite D in M. apply ends_emptied. exact M.
  - unfold save in M. cbn in M. rewrite D in M. apply ends_emptied. exact M.
  - unfold save in M. cbn in M. rewrite D in M. apply ends_emptied. exact M.
  - unfold get_extent in M. rewrite T in M. destruct ext as [b|].
    + unfold save in M. cbn in M. rewrite D in M. apply ends_emptied. exact M.
    + cbn in M. apply ends_created. exact M.
Qed.
Lemma missing_input : forall w a ext f e, disk_ok w -> w_creatable w (w_resolve w (a_dest a)) = true -> extent_given w a ext ->
  dest_is a e -> In e ["wkt"; "json"; "geojson"; "svg"] -> local (a_input a) ->
  w_resolve w (a_input a) <> w_resolve w (a_dest a) -> f (w_resolve w (a_input a)) = None ->
  ends_with w a f 1 "".
Proof.
  intros w a ext f e D C X E I L N F. change 1%N with (status (Err EIo)). eapply fails_at_once; eauto.
  intros d. unfold transform. cbn zeta. rewrite (local_path _ L), update_other by exact N. rewrite F. reflexivity.
Qed.
Lemma unknown_input : forall w a ext f e text x, disk_ok w -> w_creatable w (w_resolve w (a_dest a)) = true -> extent_given w a ext ->
  dest_is a e -> In e ["wkt"; "json"; "geojson"; "svg"] -> local (a_input a) ->
  w_resolve w (a_input a) <> w_resolve w (a_dest a) -> f (w_resolve w (a_input a)) = Some text ->
  ends_in (a_input a) x -> ~ In x known_inputs -> ends_with w a f 101 "".
Proof.
  intros w a ext f e text x D C X E I L N F Ex Nx. change 101%N with (status (Err EPanic)). eapply fails_at_once; eauto.
  intros d. unfold transform. cbn zeta. rewrite (local_path _ L), update_other by exact N. rewrite F, (extension_of _ _ Ex).
  unfold known_inputs in Nx. rewrite !(has_not x _ Nx) by (cbn; tauto). reflexivity.
Qed.
Lemma bare_output : forall w a ext f, w_creatable w (w_resolve w (a_dest a)) = true -> extent_given w a ext ->
  no_extension (a_dest a) -> ends_with w a f 101 "".
Proof.
  intros w a ext f C X E. apply ends_created. rewrite (main_process w a ext f X). unfold process. rewrite C. cbn [negb]. cbn zeta.
  rewrite !(extension_none _ _ E) by discriminate. reflexivity.
Qed.
Lemma bare_input : forall w a ext f e text, disk_ok w -> w_creatable w (w_resolve w (a_dest a)) = true -> extent_given w a ext ->
  dest_is a e -> In e ["wkt"; "json"; "geojson"; "svg"] ->
  (url (a_input a) \/ local (a_input a) /\ w_resolve w (a_input a) <> w_resolve w (a_dest a) /\ f (w_resolve w (a_input a)) = Some text) ->
  no_extension (a_input a) -> ends_with w a f 101 "".
Proof.
  intros w a ext f e text D C X E I L Ex. change 101%N with (status (Err EPanic)). eapply fails_at_once; eauto.
  intros d. unfold transform. cbn zeta. rewrite !(extension_none _ _ Ex) by discriminate.
  destruct L as [U|(L & N & F)]; [rewrite (remote_path _ U); reflexivity|].
  rewrite (local_path _ L), update_other by exact N. rewrite F. reflexivity.
Qed.
Lemma no_column : forall w a ext f e text, disk_ok w -> extent_given w a ext -> ready w a f InCsv text ->
  dest_is a e -> In e ["wkt"; "json"; "geojson"; "svg"] -> input_is a InCsv -> a_column a = None -> ends_with w a f 101 "".
Proof.
  intros w a ext f e text D X R E I Is A. change 101%N with (status (Err EPanic)). eapply fails_at_once; eauto; [exact (proj1 R)|].
  intros d. rewrite (chosen w a ext _ InCsv text Is (input_kept w a f InCsv text R)). rewrite A. reflexivity.
Qed.
Lemma remote_other : forall w a ext f e x, disk_ok w -> w_creatable w (w_resolve w (a_dest a)) = true -> extent_given w a ext ->
  dest_is a e -> In e ["wkt"; "json"; "geojson"; "svg"] -> url (a_input a) -> ends_in (a_input a) x -> x <> "fgb" ->
  ends_with w a f 101 "".
Proof.
  intros w a ext f e x D C X E I U Ex N. change 101%N with (status (Err EPanic)). eapply fails_at_once; eauto.
  intros d. unfold transform. cbn zeta. rewrite (remote_path _ U), (extension_of _ _ Ex), has_some.
  apply String.eqb_neq in N. rewrite N. reflexivity.
Qed.
Lemma not_creatable : forall w a ext f, w_creatable w (w_resolve w (a_dest a)) = false -> extent_given w a ext -> main w a f = (f, 1%N).
Proof. intros w a ext f C X. rewrite (main_process w a ext f X). unfold process. rewrite C. reflexivity. Qed.

(** ** The extent is not used *)
Lemma chosen_any : forall w a f t ext ext' i, input_is a i -> In i [InCsv; InJson; InLines; InWkt] ->
  forall d, transform w a ext f d = transform w (with_extent a t) ext' f d.
Proof.
  intros w a f t ext ext' i Is Ii d. destruct (f (w_resolve w (a_input a))) as [text|] eqn:F.
  - rewrite (chosen w a ext f i text Is (or_intror F)).
    rewrite (chosen w (with_extent a t) ext' f i text Is (or_intror F)).
    destruct Ii as [<-|[<-|[<-|[<-|[]]]]]; reflexivity.
  - unfold transform. cbn [a_input with_extent]. cbn zeta. rewrite F. destruct Is as (L & _).
    destruct Ii as [<-|[<-|[<-|[<-|[]]]]]; rewrite (local_path _ L); reflexivity.
Qed.
Lemma extent_unused : forall w a t ext ext' f i e, extent_given w a ext -> extent_given w (with_extent a t) ext' ->
  input_is a i -> In i [InCsv; InJson; InLines; InWkt] -> dest_is a e -> In e ["csv"; "wkt"; "json"; "geojson"; "fgb"] ->
  main w (with_extent a t) f = main w a f.
Proof.
  intros w a t ext ext' f i e X X' Is Ii E Ie. rewrite (main_process w a ext f X), (main_process w _ ext' f X').
  pose proof (fun f => chosen_any w a f t ext ext' i Is Ii) as T.
  unfold process. cbn [a_dest with_extent]. destruct (negb _); [reflexivity|]. cbn zeta. rewrite (extension_of _ _ E), !has_some.
  destruct Ie as [<-|[<-|[<-|[<-|[<-|[]]]]]]; cbn [String.eqb Ascii.eqb Bool.eqb orb]; rewrite <- T; reflexivity.
Qed.

(** ** Input and output are one file *)
Lemma same_transform : forall w a ext f g d, w_resolve w (a_input a) = w_resolve w (a_dest a) ->
  transform w a ext (update f (w_resolve w (a_dest a)) "") d = transform w a ext (update g (w_resolve w (a_dest a)) "") d.
Proof.
  intros w a ext f g d E. unfold transform. cbn zeta. rewrite E, !update_same. reflexivity.
Qed.
Lemma same_file : forall w a ext f g, w_resolve w (a_input a) = w_resolve w (a_dest a) ->
  w_creatable w (w_resolve w (a_dest a)) = true -> extent_given w a ext ->
  snd (main w a f) = snd (main w a g) /\ fst (main w a f) (w_resolve w (a_dest a)) = fst (main w a g) (w_resolve w (a_dest a)).
Proof.
  intros w a ext f g E C X. rewrite !(main_process w a ext _ X).
  assert (T : forall d, transform w a ext (update f (w_resolve w (a_dest a)) "") d = transform w a ext (update g (w_resolve w (a_dest a)) "") d)
    by (intros; apply same_transform; exact E).
  assert (G : get_extent w a ext (update f (w_resolve w (a_dest a)) "") = get_extent w a ext (update g (w_resolve w (a_dest a)) ""))
    by (unfold get_extent; destruct ext; [reflexivity|]; rewrite T; reflexivity).
  assert (P : snd (process w a ext f) = snd (process w a ext g) /\
    fst (process w a ext f) (w_resolve w (a_dest a)) = fst (process w a ext g) (w_resolve w (a_dest a))).
  { unfold process. rewrite C. cbn [negb]. cbn zeta. rewrite <- !T, <- G.
    destruct (has _ "csv"); [destruct (exec _ _ csv_init); unfold save; cbn [fst snd]; rewrite !update_same; split; reflexivity|].
    destruct (has _ "wkt"); [destruct (exec _ _ (wkt_init None)); unfold save; cbn [fst snd]; rewrite !update_same; split; reflexivity|].
    destruct (_ || _); [unfold save; cbn [fst snd]; rewrite !update_same; split; reflexivity|].
    destruct (has _ "fgb").
    { destruct (w_fgb_new w) as [s|e]; [|cbn [fst snd]; rewrite !update_same; split; reflexivity].
      destruct (exec _ _ s) as [u [x|e]]; unfold save; cbn [fst snd]; rewrite !update_same; split; reflexivity. }
    destruct (has _ "svg"); [|cbn [fst snd]; rewrite !update_same; split; reflexivity].
    destruct (get_extent w a ext _); unfold save; cbn [fst snd]; rewrite !update_same; split; reflexivity. }
  destruct (process w a ext f) as [f' r], (process w a ext g) as [g' r']. cbn [fst snd] in *. destruct P as [-> P]. split; [reflexivity|exact P].
Qed.

(** ** A single geometry *)
Section Bare.
  Variables (w : world) (a : args) (ext : option extent) (f : fs) (i : input_format) (text : string) (g : geom).
  Hypothesis (R : ready w a f i text) (D : disk_ok w) (X : extent_given w a ext) (I : input_is a i) (B : bare w text i g).
  Let dest := w_resolve w (a_dest a).
  Let f1 := update f dest "".
  Lemma bare_source : forall S (p : proc S) s, exec p (transform w a ext f1 (p_dims p)) s = run p (gevents (multi_dim (p_dims p)) 0 g) s.
  Proof using R I B.
    intros S p s. rewrite (chosen w a ext f1 i text I (input_kept w a f i text R)).
    destruct B as [q h P G|j h P G].
    - rewrite <- feed_run. pose proof (read_play (w_wkt w) (multi_dim (p_dims p)) text h) as Pl.
      exact (Pl (ex_intro _ q (conj P G)) S p s).
    - rewrite P, <- feed_run. exact (proj1 (bare_geometry (w_ser w) (multi_dim (p_dims p)) j h G) S p s).
  Qed.
  Lemma bare_json_file : forall num e, In e ["json"; "geojson"] -> dest_is a e -> json_format finite (w_fmt w) num ->
    geojson_kind g = true -> finite_geom false g ->
    exists out j, ends_with w a f 0 out /\ parse_json out = Some j /\ geometry_of num j = Some (kept_geom false g).
  Proof using R D X I B.
    intros num e Ie E F K G. destruct (geometry_written (w_fmt32 w) (w_fmt w) xy_dims num F g K G) as (out & j & O & P & J).
    exists out, j. split; [|split; [exact P|exact J]]. eapply ends_save; [|reflexivity].
    rewrite (main_process w a ext f X), (process_json w a ext f i text R e Ie E).
    change xy_dims with (p_dims (geojson_writer (w_fmt32 w) (w_fmt w) xy_dims)) at 2. fold dest. fold f1.
    rewrite bare_source. change (p_dims _) with xy_dims. rewrite O. unfold f1, dest. rewrite (saved w a f D). reflexivity.
  Qed.
  Lemma bare_wkt_file : dest_is a "wkt" -> ends_with w a f 0 (wkt_text (w_fmt w) false false g).
  Proof using R D X I B.
    intros E. destruct (wkt_run (w_fmt w) g) as (s & Rn & O). eapply ends_save; [|reflexivity].
    rewrite (main_process w a ext f X), (process_wkt w a ext f i text R E).
    change xy_dims with (p_dims (wkt_writer (w_fmt w) (mkWktCfg xy_dims PlainWkt))) at 2. fold dest. fold f1.
    rewrite bare_source. change (p_dims _) with xy_dims. change (multi_dim xy_dims) with false. rewrite Rn, O. unfold f1, dest. rewrite (saved w a f D). reflexivity.
  Qed.
  (** a CSV file without records *)
  Lemma bare_csv_file : dest_is a "csv" -> ends_with w a f 0 (w_csv_text w csv_out_init).
  Proof using R D X I B.
    intros E. eapply ends_save; [|reflexivity].
    rewrite (main_process w a ext f X), (process_csv w a ext f i text R E).
    change xy_dims with (p_dims (csv_writer (w_fmt32 w) (w_fmt w) (w_debug w) xy_dims)) at 2. fold dest. fold f1.
    rewrite bare_source, geometry_run by reflexivity. unfold f1, dest. rewrite (saved w a f D). reflexivity.
  Qed.
  (** a drawing without the svg element *)
  Lemma bare_svg_file : dest_is a "svg" -> no_empty_point g = true -> (forall x, xml_plain (w_fmt w x) = true) ->
    exists out, ends_with w a f 0 out /\ parse_xml out = Some (SvgSpec.drawing (w_fmt w) true g).
  Proof using R D X I B.
    intros E N F. set (t := show_nodes (SvgSpec.drawing (w_fmt w) true g)). exists t.
    assert (Q : forall c, sv_invert c = true -> exec (svg_writer (w_fmt w) c) (transform w a ext f1 xy_dims) "" = (t, Ok tt)).
    { intros c C. change xy_dims with (p_dims (svg_writer (w_fmt w) c)). rewrite bare_source. change (multi_dim _) with false.
      rewrite (SvgTop.geom_emit (w_fmt w) c g 0 N). unfold t. rewrite C. reflexivity. }
    split.
    - eapply ends_save; [|reflexivity]. rewrite (main_process w a ext f X), (process_svg w a ext f i text R E). fold dest. fold f1.
      assert (G : exists e, get_extent w a ext f1 = Ok e).
      { pose proof (bare_source _ bounds_proc None) as BS. change (p_dims bounds_proc) with xy_dims in BS. change (multi_dim xy_dims) with false in BS.
        assert (Gx : ext = None \/ exists b, ext = Some b) by (destruct ext; [right; eexists|left]; reflexivity).
        unfold get_extent. destruct Gx as [Gx|[b Gx]]; [|exists b; rewrite Gx; reflexivity]. rewrite BS, Gx.
        assert (Em : existsb is_empty_point (map OEv (gevents false 0 g)) = false).
        { apply (svg_accepts (w_fmt w) (svg_new true) _ "" t). rewrite feed_run, (SvgTop.geom_emit (w_fmt w) (svg_new true) g 0 N). reflexivity. }
        destruct (bounds_exact _ Em) as (b & Bb & _). rewrite feed_run in Bb. rewrite Bb. destruct b; eexists; reflexivity. }
      destruct G as (e & ->). rewrite Q by reflexivity. unfold f1, dest. rewrite (saved w a f D). reflexivity.
    - apply stands_parse. exact (fine_drawing (w_fmt w) (svg_new true) F g).
  Qed.
End Bare.

(** ** Several geometries *)
Lemma wkt_texts : forall fmt gi l i r s,
  feed (wkt_writer fmt (mkWktCfg xy_dims PlainWkt)) (flat_mapi (fun i f => feature_obs false i (gi i) f) i l ++ r)%list s =
  feed (wkt_writer fmt (mkWktCfg xy_dims PlainWkt)) r (put s (texts fmt gi i l)).
Proof.
  intros fmt gi. induction l as [|f l IH]; intros i r s; [cbn [flat_mapi app texts]; rewrite put_empty; reflexivity|].
  cbn [flat_mapi]. rewrite <- app_assoc, wkt_feature. cbn [texts]. destruct (f_geom f) as [g|].
  - rewrite feed_app, feed_run.
    assert (E : run (wkt_writer fmt (mkWktCfg xy_dims PlainWkt)) (gevents false (gi i) g) s =
      (put s ((match gi i with O => "" | _ => "," end) ++ wkt_text fmt false false g), Ok tt)).
    { apply (WktWrite.geom_emit fmt (mkWktCfg xy_dims PlainWkt) false false); [split; reflexivity|discriminate|left; reflexivity]. }
    rewrite E, IH, put_put, sapp_assoc. reflexivity.
  - cbn [map app append]. apply IH.
Qed.
Lemma to_wkt_texts : forall w a ext f text i name gi l,
  ready w a f i text -> disk_ok w -> extent_given w a ext -> input_is a i -> holds w a ext text i name gi l ->
  dest_is a "wkt" -> ends_with w a f 0 (texts (w_fmt w) gi 0 l).
Proof.
  intros w a ext f text i name gi l R D X I H E.
  pose proof (source w a ext f i text R name gi l I H _ (wkt_writer (w_fmt w) (mkWktCfg xy_dims PlainWkt)) (wkt_init None)) as Src.
  cbn beta in Src. change (p_dims (wkt_writer (w_fmt w) (mkWktCfg xy_dims PlainWkt))) with xy_dims in Src.
  change (multi_dim xy_dims) with false in Src.
  assert (F : feed (wkt_writer (w_fmt w) (mkWktCfg xy_dims PlainWkt)) (dataset_at false gi name l) (wkt_init None) =
    (put (wkt_init None) (texts (w_fmt w) gi 0 l), Ok tt)).
  { unfold dataset_at. etransitivity; [exact (wkt_texts (w_fmt w) gi l 0 [OEv DatasetEnd] (wkt_init None))|]. reflexivity. }
  rewrite F in Src.
  eapply ends_save; [|reflexivity]. rewrite (main_process w a ext f X), (process_wkt w a ext f i text R E), Src, (saved w a f D). reflexivity.
Qed.
(** a comma after the first geometry: no WKT *)
Lemma comma_no_wkt : forall fmt num g t, formats fmt num -> exactly false false g ->
  parse_wkt num false false (wkt_text fmt false false g ++ "," ++ t) = None.
Proof.
  intros fmt num g t F G. unfold parse_wkt.
  assert (L : (coll_depth g < String.length (wkt_text fmt false false g ++ "," ++ t))%nat).
  { rewrite slength_app. pose proof (depth_bound fmt false false g). lia. }
  rewrite (parses_geom fmt num false false F g _ G L ("," ++ t) eq_refl). reflexivity.
Qed.
Lemma two_texts : forall w a ext f text i name gi f1 f2 l g1 g2 num,
  ready w a f i text -> disk_ok w -> extent_given w a ext -> input_is a i -> holds w a ext text i name gi (f1 :: f2 :: l) ->
  dest_is a "wkt" -> f_geom f1 = Some g1 -> f_geom f2 = Some g2 -> gi 0%nat = 0%nat -> gi 1%nat <> 0%nat ->
  formats (w_fmt w) num -> exactly false false g1 ->
  exists out, ends_with w a f 0 out /\ parse_wkt num false false out = None.
Proof.
  intros w a ext f text i name gi f1 f2 l g1 g2 num R D X I H E G1 G2 Z0 Z1 F G.
  eexists. split; [exact (to_wkt_texts w a ext f text i name gi _ R D X I H E)|].
  cbn [texts]. rewrite G1, G2, Z0. destruct (gi 1%nat) as [|n] eqn:Gn; [congruence|]. cbn [append].
  exact (comma_no_wkt _ _ _ _ F G).
Qed.
(** ** A GeoJSON collection *)
Lemma collection_json : forall w a ext f text e, ready w a f InJson text -> disk_ok w -> extent_given w a ext -> input_is a InJson ->
  In e ["json"; "geojson"] -> dest_is a e -> w_json w text = Ok (GjFeatures [empty_multipoint; empty_multipoint]) ->
  exists out, ends_with w a f 0 out /\ parse_json out = None.
Proof.
  intros w a ext f text e R D X I Ie E J. destruct (second_feature_text (w_ser w) (w_fmt32 w) (w_fmt w) xy_dims) as (out & O & P).
  exists out. split; [|exact P]. eapply ends_save; [|reflexivity].
  rewrite (main_process w a ext f X), (process_json w a ext f InJson text R e Ie E), (chosen w a ext _ InJson text I (input_kept w a f InJson text R)).
  rewrite J. cbn [read_geojson]. rewrite O, (saved w a f D). reflexivity.
Qed.
(** ** Errors when the file is closed *)
Lemma disk_full : forall w a ext f i text g, ready w a f i text -> (forall t, w_drop w t = "") -> extent_given w a ext -> input_is a i ->
  bare w text i g -> dest_is a "wkt" -> ends_with w a f 0 "".
Proof.
  intros w a ext f i text g R D X I B E. destruct (wkt_run (w_fmt w) g) as (s & Rn & O).
  apply ends_emptied. rewrite (main_process w a ext f X), (process_wkt w a ext f i text R E).
  change xy_dims with (p_dims (wkt_writer (w_fmt w) (mkWktCfg xy_dims PlainWkt))) at 2.
  rewrite (bare_source w a ext f i text g R I B). change (p_dims _) with xy_dims. change (multi_dim xy_dims) with false. rewrite Rn.
  unfold save. rewrite D. reflexivity.
Qed.

(** ** FlatGeobuf *)
Lemma to_fgb_file : forall w a ext f i text name gi l s0,
  ready w a f i text -> disk_ok w -> extent_given w a ext -> input_is a i -> holds w a ext text i name gi l ->
  dest_is a "fgb" -> w_fgb_new w = Ok s0 ->
  let end_state := feed (w_fgb_writer w) (dataset_at (multi_dim (p_dims (w_fgb_writer w))) gi name l) s0 in
  match snd end_state with
  | Ok _ => ends_with w a f (status (snd (w_fgb_bytes w (fst end_state)))) (fst (w_fgb_bytes w (fst end_state)))
  | Err e => ends_with w a f (status (Err e)) ""
  end.
Proof.
  intros w a ext f i text name gi l s0 R D X I H E N.
  pose proof (source w a ext f i text R name gi l I H _ (w_fgb_writer w) s0) as Src. cbn beta in Src. cbn zeta.
  pose proof (process_fgb w a ext f i text R E) as P. rewrite N, Src in P.
  destruct (feed _ _ s0) as [s [[]|x]]; cbn [fst snd].
  - eapply ends_save; [|reflexivity]. rewrite (main_process w a ext f X), P. destruct (w_fgb_bytes w s) as [out r].
    rewrite (saved w a f D). reflexivity.
  - apply ends_created. rewrite (main_process w a ext f X), P. reflexivity.
Qed.

(** ** A world, to show that the hypotheses can be met *)
Definition nothing_to_do : dims -> prog unit := fun _ => pret tt.
Definition sample_point : geom := GPoint (mkC 0%N 0%N None None).
Definition sample_collection : list gjfeature :=
  [mkGjFeature (Some (GjPoint [1%N; 2%N])) None; mkGjFeature (Some (GjPoint [3%N; 4%N])) None].
Definition sample_world (fmt : f64 -> string) (drop : string -> string) : world :=
  mkWorld show_num fmt read_num true origin_parse
    (fun t => if String.eqb t "two" then Ok (GjFeatures sample_collection)
              else if String.eqb t "empty" then Ok (GjFeatures [empty_multipoint; empty_multipoint])
              else if String.eqb t "one" then Ok (GjGeometry (GjPoint [0%N; 0%N])) else Err EGeometry)
    (fun _ => []) (fun _ => "null")
    (fun _ => (Ok ["name"; "geom"], map Ok [["A"; "POINT(0 0)"]; ["B"; "POINT(0 0)"]]))
    (fun o => String.concat "," (concat (o_records o)))
    (fun _ _ => nothing_to_do) (fun _ _ => nothing_to_do) (fun _ _ => nothing_to_do)
    unit (Ok tt) (mkProc xy_dims default_step default_prop) (fun _ => ("", Ok tt))
    (fun p => p) (fun p => negb (String.eqb p "readonly.wkt")) drop.
Definition sample_args (input dest : string) (e : option string) : args := mkArgs (Some "geom") e input dest None.
Definition sample_files : fs := fun n =>
  if String.eqb n "in/data.csv" then Some "name,geom" else if String.eqb n "two.geojson" then Some "two"
  else if String.eqb n "empty.json" then Some "empty" else if String.eqb n "one.json" then Some "one"
  else if String.eqb n "a.wkt" then Some "POINT(0 0)" else if String.eqb n "out.svg" then Some "precious"
  else if String.eqb n "data.shp" then Some "shapes" else None.
Definition sample_features : list feature :=
  [mkFeature (Some [(0%nat, "name", CString "A")]) (Some sample_point);
   mkFeature (Some [(0%nat, "name", CString "B")]) (Some sample_point)].
Lemma sample_extent : forall fmt drop i o,
  extent_given (sample_world fmt drop) (sample_args i o (Some "1,2,3,4")) (Some (mkExtent 1%N 2%N 3%N 4%N)).
Proof. intros. exists "1", "2", "3", "4". repeat split. Qed.
Lemma ends : forall dir stem e, (dir = "" \/ exists up, dir = up ++ "/") -> stem <> "" -> contains "/" stem = false ->
  contains "/" e = false -> contains "." e = false -> e <> "" -> ends_in (dir ++ stem ++ "." ++ e) e.
Proof. intros. exists dir, stem. repeat split; assumption. Qed.
Lemma local_start : forall c p, c <> "h"%char -> local (String c p).
Proof.
  intros c p N. split; [intros (t & [H|H]); inversion H; congruence|]. split; intros H; inversion H; congruence.
Qed.
Lemma sample_holds_csv : forall fmt drop o,
  holds (sample_world fmt drop) (sample_args "in/data.csv" o None) None "name,geom" InCsv None (fun _ => 0%nat) sample_features.
Proof.
  intros. apply holds_csv with (column := "geom") (headers := ["name"; "geom"]) (gi := 1%nat)
    (rs := [["A"; "POINT(0 0)"]; ["B"; "POINT(0 0)"]]); [reflexivity|reflexivity| |].
  - split; [reflexivity|]. intros [H|[]]; inversion H.
  - repeat constructor; cbn [f_geom].
    + eexists. split; [reflexivity|]. split; [intros H; inversion H|]. eexists. split; reflexivity.
    + eexists. split; [reflexivity|]. split; [intros H; inversion H|]. eexists. split; reflexivity.
Qed.
Lemma sample_input_csv : forall o e, input_is (sample_args "in/data.csv" o e) InCsv.
Proof.
  intros. split; [apply local_start; discriminate|]. exists "csv". split; [left; reflexivity|].
  apply (ends "in/" "data" "csv"); try reflexivity; try discriminate. right. exists "in". reflexivity.
Qed.
Lemma sample_holds_two : forall fmt drop o, exists l,
  holds (sample_world fmt drop) (sample_args "two.geojson" o None) None "two" InJson None (fun i => i) l /\
  map f_geom l = [Some (GPoint (mkC 1%N 2%N None None)); Some (GPoint (mkC 3%N 4%N None None))].
Proof.
  intros. eexists [mkFeature None _; mkFeature None _]. split; [|reflexivity].
  apply holds_collection with (ps := sample_collection); [reflexivity|]. repeat constructor.
Qed.
