(** Proofs behind claim C70. *)
From Coq Require Import String Ascii.
From Coq Require Import List NArith ZArith Lia Bool.
From Coq Require Import Init.Byte.
From Verif Require Import Base BaseLemmas Event EventLemmas Claims Geom WkbModel WkbSpec WkbClaims WkbReadTop WkbInv WkbShape WkbTop WktModel WktSpec WktTop
  JsonSpec GeoJsonModel GeoJsonSpec GeoJsonTop SvgModel DbModel ReencSpec ReencTop ChainTop FromModel FromSpec.
From Verif Require GeoJsonRead GeoModel GeoSpec GeoTop MvtModel GeosModel GdalModel.
Import ListNotations.
Local Open Scope list_scope.

Definition finished {S A B} (fin : S -> res B) (x : S * res A) : res B :=
  match x with (s, Ok _) => fin s | (_, Err e) => Err e end.
Lemma forms : forall w t, exists S (p : proc S) (s0 : S) (fin : S -> res (value t)),
  (forall src, to_value w t src = finished fin (exec p (src (p_dims p)) s0)) /\
  (forall dl b, from_wkb w t dl b = finished fin (exec p (process_wkb_type_geom dl (p_dims p) b) s0)) /\
  (t <> AsEwkt -> t <> AsWkt -> t <> AsGeos -> deaf p).
Proof.
  intros w t. destruct t; cbn [value to_value from_wkb].
  - exists _, (GeoModel.geo_writer (w_debug w)), GeoModel.gw_init,
      (fun s => match snd (GeoModel.take_geometry s) with Some g => Ok g | None => Err EGeometry end).
    repeat split.
  - exists _, (wkt_writer (w_format w) (mkWktCfg xy_dims PlainWkt)), (wkt_init None), (fun s => Ok (k_out s)).
    repeat split; congruence.
  - exists _, (wkt_writer (w_format w) (mkWktCfg xyzm_dims Ewkt)), (wkt_init None), (fun s => Ok (k_out s)).
    repeat split; congruence.
  - exists _, (geojson_writer (w_format32 w) (w_format w) xy_dims), EmptyString, (fun s => Ok s). repeat split.
  - exists _, (svg_writer (w_format w) (svg_new false)), EmptyString, (fun s => Ok s). repeat split.
  - eexists _, (MvtModel.mvt_writer (w_gsize w) (w_base64 w) (w_debug w) _), MvtModel.mw_init, MvtModel.into_feature.
    repeat split.
  - exists _, (GeosModel.geos_writer (w_geos w)), GeosModel.gs_init, (fun s => Ok (GeosModel.s_geom s)). repeat split. congruence.
  - exists _, (GdalModel.gdal_writer xy_dims), (GdalModel.gw_with xy_dims), (fun s => Ok (GdalModel.g_geom s)).
    repeat split.
Qed.

Lemma exec_drop : forall S (p : proc S) A (g : prog A) s,
  exec p (pbind g (fun _ => pret tt)) s = match exec p g s with (s', Ok _) => (s', Ok tt) | (s', Err e) => (s', Err e) end.
Proof.
  intros S p A g. induction g as [r|e k IH|e k IH|i n v k IH]; intros s; cbn [pbind exec].
  - destruct r; reflexivity.
  - destruct (p_step p s e) as [s' [u|x]]; [apply IH|reflexivity].
  - destruct (p_step p s e) as [s' r]. apply IH.
  - destruct (p_prop p s i n v) as [s' [u|x]]; [apply IH|reflexivity].
Qed.

Lemma from_is_to : forall w t dl b, from_wkb w t dl b = to_value w t (bytes_source dl b).
Proof.
  intros w t dl b. destruct (forms w t) as (S & p & s0 & fin & T & F & _). rewrite T, F.
  unfold bytes_source, wkb_source. cbn [so_process]. rewrite exec_drop.
  destruct (exec p (process_wkb_type_geom dl (p_dims p) b) s0) as [s [u|e]]; reflexivity.
Qed.

Lemma calls_err : forall S (p : proc S) A l (e : error) s, exists s' e', exec p (calls l (Done (A := A) (Err e))) s = (s', Err e').
Proof.
  intros S p A. induction l as [|x l IH]; intros e s; cbn [calls exec]; [eauto|].
  destruct (p_step p s x) as [s' [u|y]]; [apply IH|eauto].
Qed.
Lemma accepted_only : forall w t dl b x, from_wkb w t dl b = Ok x -> accepted dl b.
Proof.
  intros w t dl b x H. destruct (forms w t) as (S & p & s0 & fin & _ & F & _). rewrite F in H.
  destruct (lin_process dl (p_dims p) b) as (l & r & E). rewrite E in H.
  destruct r as [[u rest]|e].
  - exists (p_dims p), l. unfold bytes_source, wkb_source. cbn [so_process]. rewrite E, pbind_calls.
    apply (makes_of_calls _ l (Ok tt)).
  - destruct (calls_err S p (unit * list byte) l e s0) as (s' & e' & Q). rewrite Q in H. discriminate.
Qed.

Lemma alike_sources : forall w t src src' l g,
  delivers src (fun multi => map Srid l ++ gevents multi 0 g) (Ok tt) ->
  delivers src' (fun multi => map Srid l ++ gevents multi 0 g) (Ok tt) -> to_value w t src = to_value w t src'.
Proof.
  intros w t src src' l g H H'. destruct (forms w t) as (S & p & s0 & fin & T & _ & _). now rewrite !T, H, H'.
Qed.

Lemma any_srid : forall w t src src' l l' g, t <> AsEwkt -> t <> AsGeos ->
  delivers src (fun multi => map Srid l ++ gevents multi 0 g) (Ok tt) ->
  delivers src' (fun multi => map Srid l' ++ gevents multi 0 g) (Ok tt) -> to_value w t src = to_value w t src'.
Proof.
  intros w t src src' l l' g N N' H H'.
  assert (D : t = AsWkt \/ t <> AsWkt) by (destruct t; ((left; reflexivity) || (right; discriminate))).
  destruct D as [-> | A].
  - cbn [to_value]. unfold to_wkt. rewrite (to_wkt_any _ src l _ _ _ _ g tt H), (to_wkt_any _ src' l' _ _ _ _ g tt H'). reflexivity.
  - destruct (forms w t) as (S & p & s0 & fin & T & _ & P). specialize (P N A N'). rewrite !T.
    now rewrite (deaf_same S p src l g s0 P H), (deaf_same S p src' l' g s0 P H').
Qed.

Lemma decoded_as_converted : forall w dl b srid g src l, says (bytes_source dl b) srid g ->
  delivers src (fun multi => map Srid l ++ gevents multi 0 g) (Ok tt) ->
  forall t, (t <> AsEwkt /\ t <> AsGeos) \/ l = [srid] -> from_wkb w t dl b = to_value w t src.
Proof.
  intros w dl b srid g src l H D t [[N N']| ->]; rewrite from_is_to.
  - exact (any_srid w t (bytes_source dl b) src [srid] l g N N' H D).
  - exact (alike_sources w t (bytes_source dl b) src [srid] g H D).
Qed.

Lemma meaning : forall w num, json_format GeoJsonSpec.finite (w_format w) num -> forall dl b, dl <> SpatiaLite -> accepted dl b ->
  exists srid g, sound g /\ says (bytes_source dl b) srid g /\
    from_wkb w AsWkt dl b = Ok (wkt_text (w_format w) false false g) /\
    from_wkb w AsEwkt dl b = Ok (srid_prefix None [srid] ++ wkt_text (w_format w) true true g)%string /\
    (GeoSpec.plain g = true -> GeoSpec.small g -> from_wkb w AsGeo dl b = Ok (GeoSpec.value_of g)) /\
    (geojson_kind g = true -> finite_geom false g ->
     exists text j, from_wkb w AsGeoJson dl b = Ok text /\ parse_json text = Some j /\
       geometry_of num j = Some (kept_geom false g)).
Proof.
  intros w num F dl b N A. destruct (reads_a_geometry dl b N A) as (srid & g & G & H). exists srid, g.
  split; [exact G|]. split; [exact H|]. rewrite !from_is_to. cbn [to_value]. split; [|split; [|split]].
  - exact (to_wkt_any _ (bytes_source dl b) [srid] PlainWkt xy_dims None _ g tt H).
  - exact (to_wkt_any _ (bytes_source dl b) [srid] Ewkt xyzm_dims None _ g tt H).
  - intros P Q. transitivity (GeoModel.to_geo (w_debug w) (said g)).
    + exact (any_srid w AsGeo (bytes_source dl b) (said g) [srid] [] g ltac:(discriminate) ltac:(discriminate) H (said_delivers g)).
    + exact (GeoTop.to_geo_delivers (w_debug w) (said g) g tt P Q (said_delivers g)).
  - intros K Q. destruct (geometry_written (w_format32 w) (w_format w) xy_dims num F g K Q) as (out & j & R & P & E).
    exists out, j. split; [|now split].
    transitivity (to_json (w_format32 w) (w_format w) (said g)).
    + exact (any_srid w AsGeoJson (bytes_source dl b) (said g) [srid] [] g ltac:(discriminate) ltac:(discriminate) H (said_delivers g)).
    + unfold to_json. pose proof (said_delivers g _ (geojson_writer (w_format32 w) (w_format w) xy_dims) EmptyString) as X.
      cbn [p_dims geojson_writer] in X.
      change (mkProc xy_dims (gj_step (w_format w)) (gj_prop (w_format32 w) (w_format w)))
        with (geojson_writer (w_format32 w) (w_format w) xy_dims) in X. rewrite X, R. reflexivity.
Qed.

Lemma debug_text : forall fmt v l g, delivers (so_process v) (fun multi => map Srid l ++ gevents multi 0 g) (Ok tt) ->
  encode_debug fmt v = wkt_text fmt false false g.
Proof.
  intros fmt v l g H. unfold encode_debug, to_wkt.
  now rewrite (to_wkt_any _ (so_process v) l PlainWkt xy_dims None fmt g tt H).
Qed.
Lemma debug_unknown : forall fmt v st e, delivers (so_process v) st (Err e) -> encode_debug fmt v = "<unknown geometry>"%string.
Proof.
  intros fmt v st e H. unfold encode_debug, to_wkt, to_wkt_with_opts.
  pose proof (H _ (wkt_writer fmt (mkWktCfg xy_dims PlainWkt)) (wkt_init None)) as E. cbn [p_dims wkt_writer k_dims] in E.
  rewrite E. destruct (run _ _ _) as [s [u|x]]; reflexivity.
Qed.
Lemma refused_source : forall dl b, ~ accepted dl b -> forall fmt, encode_debug fmt (wkb_source dl b) = "<unknown geometry>"%string.
Proof.
  intros dl b N fmt. unfold encode_debug. destruct (to_wkt fmt (so_process (wkb_source dl b))) as [t|e] eqn:E; [|reflexivity].
  exfalso. apply N. apply (accepted_only (mkOutside false (fun _ => EmptyString) fmt 0 (fun _ => EmptyString)
    (GeosModel.mkLib (fun _ => true) (fun _ => true) (fun _ _ => true) EGeometry 0 0)) AsWkt dl b t).
  rewrite from_is_to. exact E.
Qed.

(** ** An example *)
Definition from_geojson_text : string :=
  "{""type"": ""LineString"", ""coordinates"": [[0,4],[8,8]]}".
Lemma from_met : forall debug f32 gsize b64 lib,
  let w := mkOutside debug f32 GeoJsonRead.show_num gsize b64 lib in
  let b := std Ewkb xyz_dims (Some 4326%Z) [] xy_dims false false little (GLineString [mkC 0%N 4%N (Some 5%N) None; mkC 8%N 8%N (Some 8%N) None]) in
  json_format GeoJsonSpec.finite (w_format w) GeoJsonRead.read_num /\ accepted Ewkb b /\
  from_wkb w AsWkt Ewkb b = Ok "LINESTRING(0 4,8 8)"%string /\
  from_wkb w AsEwkt Ewkb b = Ok "SRID=4326;LINESTRING(0 4 5,8 8 8)"%string /\
  from_wkb w AsGeoJson Ewkb b = Ok (from_geojson_text) /\
  encode_debug GeoJsonRead.show_num (wkb_source Ewkb b) = "LINESTRING(0 4,8 8)"%string /\
  encode_debug GeoJsonRead.show_num (wkb_source Ewkb (tl b)) = "<unknown geometry>"%string.
Proof.
  intros debug f32 gsize b64 lib w b. split; [apply GeoJsonRead.show_num_ok|]. split.
  - eexists xy_dims, [Srid (Some 4326%Z); LineStringBegin true 2 0; Xy 0%N 4%N 0; Xy 8%N 8%N 1; LineStringEnd true 0].
    vm_compute. reflexivity.
  - repeat split; vm_compute; reflexivity.
Qed.
