(** Compressed lines of SpatiaLite blobs and the writers (helper lemmas for C67). *)
From Coq Require Import String Ascii.
From Coq Require Import List NArith ZArith Lia Bool.
From Coq Require Import Init.Byte.
From Verif Require Import Base BaseLemmas Event EventLemmas Claims Geom WkbModel WkbSpec WkbClaims WkbShape WkbTop DbModel
  OrdSpec ReencSpec ReencTop SlipSpec.
From Verif Require WktTop FloatOk ChainSpec ChainTop WktSpec GeoJsonSpec.
From Verif Require WktModel GeoJsonModel GeoModel SvgModel CsvModel MvtModel TessModel ProcModel GdalModel GdalSpec.
Import ListNotations.
Local Open Scope list_scope.

Lemma first_run : forall S (p : proc S), first_only p -> forall l l', Forall2 same_place l l' ->
  forall s, run p l s = run p l' s.
Proof.
  intros S p F l l' H. induction H as [|e e' l l' E _ IH]; intros s; [reflexivity|]. cbn [run].
  rewrite (F e e' E s). destruct (p_step p s e') as [s1 [u|x]]; [apply IH|reflexivity].
Qed.
Lemma same_all : forall l, Forall2 same_place l l.
Proof. induction l; constructor; [constructor|assumption]. Qed.
Lemma doubled_cons : forall e l, ~ doubled (e :: l) -> ~ doubled l.
Proof.
  intros e l N (b & t & k & x & y & z & m & a & E & X & Y). apply N. exists (e :: b), t, k, x, y, z, m, a.
  split; [rewrite E; reflexivity|split; assumption].
Qed.
Lemma doubled_app : forall k l, ~ doubled (k ++ l) -> ~ doubled l.
Proof. induction k as [|e k IH]; intros l N; [exact N|]. apply IH. exact (doubled_cons e _ N). Qed.
Lemma mapi_two : forall A B (f : nat -> A -> B) l k i, mapi f i (l ++ k) = mapi f i l ++ mapi f (i + length l) k.
Proof.
  induction l as [|a l IH]; intros k i; cbn [app mapi length]; [now rewrite Nat.add_0_r|].
  rewrite IH. cbn [app]. do 3 f_equal. lia.
Qed.
Lemma slips_places : forall l l', slips true l l' -> ~ doubled l -> Forall2 same_place l l'.
Proof.
  intros l l' H. induction H as [|e l l' H IH|t k c0 cs cl l l' H IH|t k c c' l l' H IH]; intros N.
  - constructor.
  - constructor; [constructor|]. apply IH. exact (doubled_cons e l N).
  - unfold ev_line. cbn [app]. constructor; [replace (length (c0 :: cs ++ [cl])) with (2 + length cs)%nat by (cbn [length]; rewrite app_length; cbn; lia); constructor|].
    rewrite <- app_assoc. unfold ev_coords. rewrite (app_comm_cons cs [cl] c0), mapi_two, <- app_assoc.
    apply Forall2_app; [apply same_all|]. cbn [length]. rewrite Nat.add_0_l. cbn [mapi app].
    constructor; [unfold ev_coord; constructor|]. constructor; [constructor|]. apply IH.
    apply (doubled_app (LineStringBegin t (2 + length cs) k :: mapi (ev_coord true) 0 (c0 :: cs) ++ [ev_coord true (2 + length cs) cl; LineStringEnd t k])).
    intros X. apply N. cbn [app] in *. rewrite <- app_assoc in X. exact X.
  - exfalso. apply N. exists [], t, k, (ev_coord true 0 c), (ev_coord true 1 c'), (cx c, cy c), (cx c', cy c'), (LineStringEnd t k :: l).
    split; [reflexivity|]. unfold ev_coord. cbn. split; right; eauto.
Qed.
Lemma place_shadow : forall e e', same_place e e' -> same_place (shadow e) (shadow e').
Proof. intros e e' []; cbn; constructor. Qed.
Lemma places_shadow : forall l l', Forall2 same_place l l' -> Forall2 same_place (map shadow l) (map shadow l').
Proof. induction 1; cbn; constructor; [now apply place_shadow|assumption]. Qed.

Theorem spatialite_places : forall dl b l, makes (bytes_source dl b xyzm_dims) l (Ok tt) -> ~ doubled l ->
  exists srid g, sound g /\
    forall S (p : proc S), first_only p -> forall s,
    exec p (bytes_source dl b (p_dims p)) s = run p (Srid srid :: gevents (multi_dim (p_dims p)) 0 g) s.
Proof.
  intros dl b l H N. destruct (bytes_calls dl b xyzm_dims l H) as (rest & E).
  destruct (gen_process_read dl xyzm_dims b) as (l' & r' & E' & G). rewrite E in E'. apply calls_inj in E'.
  destruct E' as [<- <-]. destruct G as (srid & g & [C L] & Sl). exists srid, g. split.
  { split; [|exact L]. revert C. apply WktTop.on_geom_weaken. intros c [X|(X1 & X2 & X3 & X4)]; [exact X|].
    destruct X1 as (a1 & b1 & X1), X2 as (a2 & b2 & X2). repeat split; [rewrite X1; apply FloatOk.add_ok|rewrite X2; apply FloatOk.add_ok| |exact X4].
    destruct (cz c) as [z|]; [|exact I]. destruct X3 as (a3 & b3 & ->). apply FloatOk.add_ok. }
  intros S p F s. pose proof (slips_places _ _ Sl N) as P.
  rewrite (wide_source _ _ _ _ E (p_dims p)), exec_calls.
  assert (Q : Forall2 same_place (stream_of l (multi_dim (p_dims p))) (Srid srid :: gevents (multi_dim (p_dims p)) 0 g)).
  { destruct (multi_dim (p_dims p)); cbn [stream_of].
    - exact P.
    - apply places_shadow in P. cbn [map shadow multi_dim xyzm_dims] in P. rewrite shadow_gevents in P. exact P. }
  rewrite (first_run S p F _ _ Q s). destruct (run p _ s) as [s' [[]|x]]; reflexivity.
Qed.

(** ** Which writers are such *)
Ltac blind := intros e e' []; intros; reflexivity.
Lemma wkb_first : forall c, first_only (wkb_writer c). Proof. intros c. blind. Qed.
Lemma wkt_first : forall fmt c, first_only (WktModel.wkt_writer fmt c). Proof. intros fmt c. blind. Qed.
Lemma geo_first : forall d, first_only (GeoModel.geo_writer d). Proof. intros d. blind. Qed.
Lemma bounds_first : first_only ProcModel.bounds_proc. Proof. blind. Qed.
Lemma geojson_first : forall f32 fmt d, first_only (GeoJsonModel.geojson_writer f32 fmt d). Proof. intros f32 fmt d. blind. Qed.
Lemma lines_first : forall f32 fmt, first_only (GeoJsonModel.geojson_line_writer f32 fmt). Proof. intros f32 fmt. blind. Qed.
Lemma svg_first : forall fmt c, first_only (SvgModel.svg_writer fmt c). Proof. intros fmt c. blind. Qed.
Lemma csv_first : forall f32 fmt b d, first_only (CsvModel.csv_writer f32 fmt b d). Proof. intros f32 fmt b d. blind. Qed.
Lemma mvt_first : forall n b64 b c, first_only (MvtModel.mvt_writer n b64 b c). Proof. intros n b64 b c. blind. Qed.
Lemma tess_first : forall n ly, first_only (TessModel.tessellator n ly). Proof. intros n ly. blind. Qed.

(** ** The conversions *)
Definition told (srid : option Z) (g : geom) (d : dims) : prog unit := ok_calls (Srid srid :: gevents (multi_dim d) 0 g).
Lemma told_says : forall srid g, says (told srid g) srid g.
Proof. intros srid g. apply delivers_calls. intros d. reflexivity. Qed.
Theorem spatialite_outputs : forall dl b l, makes (bytes_source dl b xyzm_dims) l (Ok tt) -> ~ doubled l ->
  exists srid g src, sound g /\ says src srid g /\
    (forall S (p : proc S), first_only p -> forall s,
       exec p (bytes_source dl b (p_dims p)) s = exec p (src (p_dims p)) s) /\
    (forall dl' d s env, to_wkb_dialect (bytes_source dl b) dl' d s env = to_wkb_dialect src dl' d s env) /\
    (forall fmt w d s, WktModel.to_wkt_with_opts fmt (bytes_source dl b) w d s = WktModel.to_wkt_with_opts fmt src w d s) /\
    (forall f32 fmt, GeoJsonModel.to_json f32 fmt (bytes_source dl b) = GeoJsonModel.to_json f32 fmt src) /\
    (forall fmt, SvgModel.to_svg fmt (bytes_source dl b) = SvgModel.to_svg fmt src) /\
    (forall debug, GeoModel.to_geo debug (bytes_source dl b) = GeoModel.to_geo debug src) /\
    (forall n b64 debug, MvtModel.to_mvt_unscaled n b64 debug (bytes_source dl b) = MvtModel.to_mvt_unscaled n b64 debug src).
Proof.
  intros dl b l H N. destruct (spatialite_places dl b l H N) as (srid & g & C & E).
  exists srid, g, (told srid g). split; [exact C|]. split; [apply told_says|].
  assert (Q : forall S (p : proc S), first_only p -> forall s,
    exec p (bytes_source dl b (p_dims p)) s = exec p (told srid g (p_dims p)) s).
  { intros S p F s. rewrite (E S p F s), (told_says srid g S p s). destruct (run p _ s) as [s' [[]|x]]; reflexivity. }
  split; [exact Q|].
  split; [intros dl' d s env; unfold to_wkb_dialect|]. 
  { pose proof (Q _ _ (wkb_first (with_opts dl' d s env))) as X. cbn [p_dims wkb_writer] in X.
    change (w_read_dims (with_opts dl' d s env)) with d in X. rewrite X. reflexivity. }
  repeat split; intros.
  - unfold WktModel.to_wkt_with_opts. match goal with |- context [WktModel.wkt_writer fmt ?c] =>
      pose proof (Q _ _ (wkt_first fmt c)) as X end. cbn [p_dims WktModel.wkt_writer] in X. rewrite X. reflexivity.
  - unfold GeoJsonModel.to_json. match goal with |- context [GeoJsonModel.geojson_writer ?a ?b ?c] =>
      pose proof (Q _ _ (geojson_first a b c)) as X end. cbn [p_dims GeoJsonModel.geojson_writer] in X. rewrite X. reflexivity.
  - unfold SvgModel.to_svg. match goal with |- context [SvgModel.svg_writer ?a ?b] =>
      pose proof (Q _ _ (svg_first a b)) as X end. cbn [p_dims SvgModel.svg_writer] in X. rewrite X. reflexivity.
  - unfold GeoModel.to_geo. pose proof (Q _ _ (geo_first debug)) as X. cbn [p_dims GeoModel.geo_writer] in X. rewrite X. reflexivity.
  - unfold MvtModel.to_mvt_unscaled. destruct (MvtModel.mvt_unscaled 4096) as [c|x]; [|reflexivity].
    pose proof (Q _ _ (mvt_first n b64 debug c)) as X. cbn [p_dims MvtModel.mvt_writer] in X. rewrite X. reflexivity.
Qed.

(** ** Corollaries *)
Theorem spatialite_reencoded : forall dl b l, makes (bytes_source dl b xyzm_dims) l (Ok tt) -> ~ doubled l ->
  exists srid g, sound g /\ (forall S (p : proc S), first_only p -> forall s,
       exec p (bytes_source dl b (p_dims p)) s = run p (Srid srid :: gevents (multi_dim (p_dims p)) 0 g) s) /\
    (no_empty g -> forall dl' d s env, srid_ok dl' s -> env_ok dl' xy_dims env -> (dl' = SpatiaLite -> spatialite_safe g) ->
     exists w, to_wkb_dialect (bytes_source dl b) dl' d s env = Ok w /\
       says (bytes_source dl' w) (reported_srid dl' s) (retained (dz d) (dm d) g) /\
       (conforming (dz d) (dm d) g -> says (bytes_source dl' w) (reported_srid dl' s) g)).
Proof.
  intros dl b l H N. destruct (spatialite_places dl b l H N) as (srid & g & C & E). exists srid, g.
  split; [exact C|]. split; [exact E|]. intros Ne dl' d s env Hs He Hp.
  destruct (reencoded (told srid g) srid g C (told_says srid g) Ne dl' d s env Hs He Hp) as (w & W & R1 & R2 & _).
  exists w. split; [|split; assumption]. rewrite <- W. unfold to_wkb_dialect.
  pose proof (E _ _ (wkb_first (with_opts dl' d s env)) wst_init) as X.
  pose proof (told_says srid g _ (wkb_writer (with_opts dl' d s env)) wst_init) as Y.
  cbn [p_dims wkb_writer] in X, Y. change (w_read_dims (with_opts dl' d s env)) with d in X, Y.
  cbv zeta. change (w_read_dims (with_opts dl' d s env)) with d.
  fold (wkb_writer (with_opts dl' d s env)) in *.
  rewrite X, Y. destruct (run _ _ _) as [s' [[]|x]]; reflexivity.
Qed.
Section Chain.
  Variable c : ChainSpec.crates.
  Lemma convert_told : forall src src', (forall S (p : proc S), first_only p -> forall s, exec p (src (p_dims p)) s = exec p (src' (p_dims p)) s) ->
    forall f, ChainSpec.convert c f src = ChainSpec.convert c f src'.
  Proof.
    intros src src' Q [dl d s env| | |d]; cbn [ChainSpec.convert].
    - pose proof (Q _ _ (wkb_first (with_opts dl d s env)) wst_init) as X. cbn [p_dims wkb_writer] in X.
      unfold to_wkb_dialect. change (w_read_dims (with_opts dl d s env)) with d in *. cbv zeta. rewrite X. reflexivity.
    - unfold WktModel.to_wkt_ndim, WktModel.to_wkt_with_opts.
      match goal with |- context [WktModel.wkt_writer ?f ?k] => pose proof (Q _ _ (wkt_first f k)) as X end.
      cbn in X. rewrite X. reflexivity.
    - unfold GeoModel.to_geo. pose proof (Q _ _ (geo_first (ChainSpec.c_debug c))) as X. cbn [p_dims GeoModel.geo_writer] in X. rewrite X. reflexivity.
    - match goal with |- context [GeoJsonModel.geojson_writer ?a ?b ?k] => pose proof (Q _ _ (geojson_first a b k)) as X end.
      cbn [p_dims GeoJsonModel.geojson_writer] in X. rewrite X. reflexivity.
  Qed.
  Theorem spatialite_chain : forall wnum jnum,
    WktSpec.formats (ChainSpec.c_wkt_format c) wnum -> ChainSpec.wkt_crate c wnum ->
    GeoJsonSpec.json_format GeoJsonSpec.finite (ChainSpec.c_format c) jnum -> ChainSpec.geojson_crate c jnum ->
    forall dl b l, makes (bytes_source dl b xyzm_dims) l (Ok tt) -> ~ doubled l ->
    exists srid g, sound g /\ (forall S (p : proc S), first_only p -> forall s,
         exec p (bytes_source dl b (p_dims p)) s = run p (Srid srid :: gevents (multi_dim (p_dims p)) 0 g) s) /\
      forall f fs, Forall (ChainSpec.suits c g) (f :: fs) -> exists src, ChainSpec.chain c (f :: fs) (bytes_source dl b) = Ok src /\
        delivers src (fun multi => map Srid (ChainSpec.finally [srid] (f :: fs)) ++ gevents multi 0 g) (Ok tt).
  Proof.
    intros wnum jnum H1 H2 H3 H4 dl b l H N. destruct (spatialite_places dl b l H N) as (srid & g & C & E). exists srid, g.
    split; [exact C|]. split; [exact E|]. intros f fs Hf.
    destruct (ChainTop.chained c wnum jnum H1 H2 H3 H4 (f :: fs) (told srid g) [srid] g Hf (told_says srid g)) as (src & X & Y).
    exists src. split; [|exact Y]. rewrite <- X. cbn [ChainSpec.chain]. f_equal.
    apply convert_told. intros S p F s. rewrite (E S p F s), (told_says srid g S p s). destruct (run p _ s) as [s' [[]|x]]; reflexivity.
  Qed.
End Chain.
