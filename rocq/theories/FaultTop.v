(** Lemmas behind C85: the errors of the writers. *)
From Coq Require Import String Ascii.
From Coq Require Import List NArith ZArith Lia Bool.
From Verif Require Import Base BaseLemmas Float Event ProcModel Claims TraceTop FaultSpec.
From Verif Require WkbModel WktModel GeoJsonModel CsvModel SvgModel GeoModel MvtModel GeosModel GdalModel TessModel.
Import ListNotations.
Local Open Scope list_scope.

Lemma only_inv : forall S (p : proc S) s0 ways (I : S -> Prop), I s0 ->
  (forall o s s', I s -> one p o s = (s', Ok tt) -> I s') ->
  (forall o s s' x, I s -> one p o s = (s', Err x) -> In x (ways o)) -> fails_only p s0 ways.
Proof.
  intros S p s0 ways I H0 Hk Hf l o x E F.
  assert (K : forall l s, I s -> snd (feed p l s) = Ok tt -> I (fst (feed p l s))).
  { clear - Hk. induction l as [|o l IH]; intros s Hs E; [exact Hs|]. rewrite feed_cons in *.
    destruct (one p o s) as [s' [[]|x]] eqn:E1; [|discriminate E]. exact (IH s' (Hk _ _ _ Hs E1) E). }
  specialize (K l s0 H0 E). rewrite feed_app in F. destruct (feed p l s0) as [s [[]|y]]; [|discriminate E]. cbn [fst] in K.
  fold (one p o s) in F. destruct (one p o s) as [s' r] eqn:E1. cbn in F. subst r. exact (Hf _ _ _ _ K E1).
Qed.
Lemma only_any : forall S (p : proc S) s0 ways,
  (forall e s s' x, p_step p s e = (s', Err x) -> In x (ways (OEv e))) ->
  (forall i n v s s' x, p_prop p s i n v = (s', Err x) -> In x (ways (OProp i n v))) -> fails_only p s0 ways.
Proof.
  intros S p s0 ways He Hp. apply (only_inv S p s0 ways (fun _ => True)); [exact I|trivial|].
  intros [e|i n v] s s' x _ E; unfold one in E; cbn [feed] in E.
  - destruct (p_step p s e) as [t [u|y]] eqn:F; [discriminate E|]. injection E as _ <-. exact (He _ _ _ _ F).
  - destruct (p_prop p s i n v) as [t [u|y]] eqn:F; [discriminate E|]. injection E as _ <-. exact (Hp _ _ _ _ _ _ F).
Qed.
Lemma default_fails : forall S (s s' : S) e x, default_step s e = (s', Err x) -> x = EGeometry /\ exists i, e = EmptyPoint i.
Proof. intros S s s' e x E. destruct e; try discriminate E. injection E as _ <-. split; [reflexivity|]. eexists. reflexivity. Qed.

Ltac split_in E := repeat match type of E with context[match ?k with _ => _ end] => destruct k eqn:? end; try discriminate E.
Ltac at_once l := exists l; split; reflexivity.

Theorem bounds_fails : fails_as bounds_proc None no_empty_point.
Proof.
  split.
  - apply only_any; [|discriminate]. intros e s s' x E. destruct e; try discriminate E. injection E as _ <-. left. reflexivity.
  - intros o x H. destruct o as [e|]; [|destruct H]. destruct e; try (destruct H; fail). destruct H as [<-|[]]. at_once (@nil obs).
Qed.
Theorem svg_fails : forall fmt c, fails_as (SvgModel.svg_writer fmt c) ""%string no_empty_point.
Proof.
  intros fmt c. split.
  - apply only_any; [|discriminate]. intros e s s' x E. destruct e; try discriminate E. injection E as _ <-. left. reflexivity.
  - intros o x H. destruct o as [e|]; [|destruct H]. destruct e; try (destruct H; fail). destruct H as [<-|[]]. at_once (@nil obs).
Qed.
Theorem json_fails : forall fmt32 fmt d, fails_as (GeoJsonModel.geojson_writer fmt32 fmt d) ""%string never.
Proof.
  intros fmt32 fmt d. split; [|intros o x []]. apply only_any.
  - intros e s s' x E. destruct e; cbn in E; try discriminate E.
  - intros i n v s s' x E. destruct v; cbn in E; discriminate E.
Qed.
Lemma inner_fine : forall fmt s e s' x, GeoJsonModel.lw_inner fmt s e = (s', Err x) -> False.
Proof. intros fmt s e s' x E. unfold GeoJsonModel.lw_inner in E. destruct e; discriminate E. Qed.
Theorem lines_fails : forall fmt32 fmt, fails_as (GeoJsonModel.geojson_line_writer fmt32 fmt) (0, ""%string) lines_ways.
Proof.
  intros fmt32 fmt. split.
  - apply only_any.
    + intros e s s' x E. cbn [p_step GeoJsonModel.geojson_line_writer] in E.
      assert (En : forall t, GeoJsonModel.end_context t = (s', Err x) -> x = EPanic)
        by (intros t; unfold GeoJsonModel.end_context; destruct (fst t); [intros Q; injection Q as _ <-; reflexivity|discriminate]).
      assert (L : forall t e, GeoJsonModel.line_end fmt t e = (s', Err x) -> x = EPanic).
      { intros t f. unfold GeoJsonModel.line_end. destruct (GeoJsonModel.lw_inner fmt t f) as [t' [u|y]] eqn:F; [apply En|].
        destruct (inner_fine _ _ _ _ _ F). }
      destruct e; cbn [GeoJsonModel.gjl_step] in E; cbn [lines_ways];
        try (left; symmetry; exact (L _ _ E)); try discriminate E; try (destruct (inner_fine _ _ _ _ _ E)).
    + intros i n v s s' x E. cbn in E. unfold GeoJsonModel.gjl_prop in E. destruct v; discriminate E.
  - intros o x H. destruct o as [e|]; [|destruct H]. destruct e; try (destruct H; fail); destruct H as [<-|[]]; at_once (@nil obs).
Qed.
Theorem wkt_fails : forall fmt c srid, fails_as (WktModel.wkt_writer fmt c) (WktModel.wkt_init srid) wkt_ways.
Proof.
  intros fmt c srid. split.
  - apply only_any; [|discriminate]. intros e s s' x E. cbn [p_step WktModel.wkt_writer] in E.
    assert (G : forall t, WktModel.geom_end t = (s', Err x) -> x = EPanic)
      by (intros t; unfold WktModel.geom_end; destruct (WktModel.k_sizes t); [intros Q; injection Q as _ <-; reflexivity|discriminate]).
    destruct e; cbn [WktModel.wkt_step] in E; cbn [wkt_ways]; try (left; symmetry; exact (G _ E)); try discriminate E.
  - intros o x H. destruct o as [e|]; [|destruct H]. destruct e; try (destruct H; fail); destruct H as [<-|[]]; at_once (@nil obs).
Qed.

(** ** WKB *)
Lemma header_err : forall c s t s' x, WkbModel.write_header c s t = (s', Err x) ->
  WkbModel.w_first s = true /\ WkbModel.w_dialect c = WkbModel.MySQL /\ In x (bad_srid c).
Proof.
  intros c s t s' x E. unfold WkbModel.write_header in E. unfold bad_srid. destruct (WkbModel.w_dialect c); try discriminate E.
  destruct (WkbModel.w_first s); [|discriminate E]. unfold WkbModel.write_mysql_header in E.
  destruct (WkbModel.w_srid c) as [v|]; [|discriminate E]. destruct (v <? 0)%Z; [|discriminate E]. injection E as _ <-.
  repeat split. left. reflexivity.
Qed.
Definition mysql_inv (c : WkbModel.wcfg) (s : WkbModel.wst) : Prop :=
  WkbModel.w_dialect c = WkbModel.MySQL -> WkbModel.w_state s = WkbModel.MultiPointGeom -> WkbModel.w_first s = false.
Lemma wkb_header_kept : forall c s t, WkbModel.w_first (WkbModel.write_wkb_header c s t) = WkbModel.w_first s /\
  WkbModel.w_state (WkbModel.write_wkb_header c s t) = WkbModel.w_state s.
Proof. intros c s t. split; reflexivity. Qed.
Lemma header_ok : forall c s t s', WkbModel.write_header c s t = (s', Ok tt) -> WkbModel.w_dialect c = WkbModel.MySQL -> WkbModel.w_first s' = false.
Proof.
  intros c s t s' E D. unfold WkbModel.write_header in E. rewrite D in E. destruct (WkbModel.w_first s) eqn:F.
  - destruct (WkbModel.write_mysql_header c s) as [q [u|y]]; [|discriminate E]. injection E as <-. exact (proj1 (wkb_header_kept _ _ _)).
  - injection E as <-. exact F.
Qed.
Lemma size_ok : forall c s t n s', WkbModel.header_size c s t n = (s', Ok tt) -> WkbModel.w_dialect c = WkbModel.MySQL -> WkbModel.w_first s' = false.
Proof.
  intros c s t n s' E D. unfold WkbModel.header_size in E. destruct (WkbModel.write_header c s t) as [q [[]|y]] eqn:F; [|discriminate E].
  injection E as <-. exact (header_ok _ _ _ _ F D).
Qed.
Lemma state_ok : forall g c s t n s', WkbModel.then_state g (WkbModel.header_size c s t n) = (s', Ok tt) -> WkbModel.w_dialect c = WkbModel.MySQL -> WkbModel.w_first s' = false.
Proof.
  intros g c s t n s' E D. unfold WkbModel.then_state in E. destruct (WkbModel.header_size c s t n) as [q [[]|y]] eqn:F; [|discriminate E].
  injection E as <-. exact (size_ok _ _ _ _ _ F D).
Qed.
Lemma size_err : forall c s t n s' x, WkbModel.header_size c s t n = (s', Err x) -> In x (bad_srid c).
Proof.
  intros c s t n s' x E. unfold WkbModel.header_size in E. destruct (WkbModel.write_header c s t) as [q [[]|y]] eqn:F; [discriminate E|].
  injection E as _ <-. exact (proj2 (proj2 (header_err _ _ _ _ _ F))).
Qed.
Lemma state_err : forall g c s t n s' x, WkbModel.then_state g (WkbModel.header_size c s t n) = (s', Err x) -> In x (bad_srid c).
Proof.
  intros g c s t n s' x E. unfold WkbModel.then_state in E. destruct (WkbModel.header_size c s t n) as [q [[]|y]] eqn:F; [discriminate E|].
  injection E as _ <-. exact (size_err _ _ _ _ _ _ F).
Qed.
Lemma footer_mysql : forall c s, WkbModel.w_dialect c = WkbModel.MySQL -> WkbModel.write_footer c s = (s, Ok tt).
Proof. intros c s D. unfold WkbModel.write_footer. rewrite D. reflexivity. Qed.
Lemma footer_fine : forall c s s' x, WkbModel.write_footer c s = (s', Err x) -> False.
Proof. intros c s s' x E. unfold WkbModel.write_footer in E. destruct (WkbModel.w_dialect c); try destruct (Nat.eqb _ _); discriminate E. Qed.
Lemma decr_err : forall s k s' x, WkbModel.nest_decr s k = (s', Err x) -> (forall q, k q <> (s', Err x)) -> x = EPanic.
Proof.
  intros s k s' x E H. unfold WkbModel.nest_decr in E. destruct (WkbModel.w_nest s); [injection E as _ <-; reflexivity|]. destruct (H _ E).
Qed.
Lemma coordinate_err : forall c s a b z m s' x, WkbModel.write_coordinate c s a b z m = (s', Err x) -> mysql_inv c s -> False.
Proof.
  intros c s a b z m s' x E H. unfold WkbModel.write_coordinate in E. destruct (WkbModel.w_state s) eqn:G; try discriminate E.
  destruct (WkbModel.write_header c s WkbModel.TPoint) as [q [[]|y]] eqn:F; [discriminate E|].
  destruct (header_err _ _ _ _ _ F) as (A & B & _). rewrite (H B G) in A. discriminate A.
Qed.
Lemma coordinate_inv : forall c s a b z m s', WkbModel.write_coordinate c s a b z m = (s', Ok tt) -> WkbModel.w_dialect c = WkbModel.MySQL ->
  WkbModel.w_first s' = false \/ WkbModel.w_first s' = WkbModel.w_first s /\ WkbModel.w_state s' = WkbModel.w_state s.
Proof.
  intros c s a b z m s' E D. unfold WkbModel.write_coordinate in E. destruct (WkbModel.w_state s) eqn:G.
  all: try (injection E as <-; right; destruct (dz (WkbModel.w_dims c)), (dm (WkbModel.w_dims c)); cbn; (split; [reflexivity|exact G])).
  destruct (WkbModel.write_header c s WkbModel.TPoint) as [q [[]|y]] eqn:F; [|discriminate E]. left.
  pose proof (header_ok _ _ _ _ F D) as A. injection E as <-. destruct (dz (WkbModel.w_dims c)), (dm (WkbModel.w_dims c)); exact A.
Qed.
Lemma wkb_keeps : forall c e s s', mysql_inv c s -> WkbModel.wkb_step c s e = (s', Ok tt) -> mysql_inv c s'.
Proof.
  intros c e s s' H E D. specialize (H D).
  destruct e; cbn [WkbModel.wkb_step] in E; unfold WkbModel.nest_decr in E; rewrite ?(footer_mysql c _ D) in E;
    try (intros _; first [exact (header_ok _ _ _ _ E D)|exact (size_ok _ _ _ _ _ E D)|exact (state_ok _ _ _ _ _ _ E D)]);
    try (injection E as <-; exact H); try (injection E as <-; discriminate); try discriminate E;
    try (destruct (WkbModel.w_nest s) as [|k]; [discriminate E|]; rewrite ?(footer_mysql c _ D) in E; injection E as <-; first [exact H|discriminate]).
  - intros Q. destruct (coordinate_inv _ _ _ _ _ _ _ E D) as [A|[A B]]; [exact A|]. rewrite A. apply H. rewrite <- B. exact Q.
  - intros Q. destruct (coordinate_inv _ _ _ _ _ _ _ E D) as [A|[A B]]; [exact A|]. rewrite A. apply H. rewrite <- B. exact Q.
  - destruct (WkbModel.w_state s) eqn:G; try (intros _; exact (size_ok _ _ _ _ _ E D)). injection E as <-. cbn. rewrite G. discriminate.
Qed.
Theorem wkb_fails : forall c, fails_as (WkbModel.wkb_writer c) WkbModel.wst_init (wkb_ways c).
Proof.
  intros c. split.
  - apply (only_inv _ _ _ _ (mysql_inv c)); [intros _; discriminate| |].
    + intros [e|i n v] s s' H E; unfold one in E; cbn [feed p_step p_prop WkbModel.wkb_writer default_prop] in E; [|injection E as <-; exact H].
      destruct (WkbModel.wkb_step c s e) as [q [[]|x]] eqn:F; [|discriminate E]. injection E as <-. exact (wkb_keeps _ _ _ _ H F).
    + intros [e|i n v] s s' x H E; unfold one in E; cbn [feed p_step p_prop WkbModel.wkb_writer default_prop] in E; [|discriminate E].
      destruct (WkbModel.wkb_step c s e) as [q [u|y]] eqn:F; [discriminate E|]. injection E as <- <-.
      assert (Df : forall g, WkbModel.nest_decr s (fun t => WkbModel.write_footer c (g t)) = (q, Err y) -> EPanic = y)
        by (intros g Q; symmetry; apply (decr_err _ _ _ _ Q); intros t W; exact (footer_fine _ _ _ _ W)).
      destruct e; cbn [WkbModel.wkb_step] in F; cbn [wkb_ways];
        try (destruct (footer_fine _ _ _ _ F)); try (destruct (coordinate_err _ _ _ _ _ _ _ _ F H)); try discriminate F;
        try (exact (proj2 (proj2 (header_err _ _ _ _ _ F)))); try (exact (size_err _ _ _ _ _ _ F)); try (exact (state_err _ _ _ _ _ _ _ F));
        try (left; first [exact (Df (fun t => t) F)|exact (Df (fun t => WkbModel.set_state t WkbModel.Normal) F)]).
      * injection F as _ <-. left. reflexivity.
      * destruct (WkbModel.w_state s); try (exact (size_err _ _ _ _ _ _ F)). discriminate F.
  - assert (B : forall x, In x (bad_srid c) -> forall s t, WkbModel.w_first s = true -> snd (WkbModel.write_header c s t) = Err x).
    { intros x H s t F. unfold bad_srid in H. unfold WkbModel.write_header, WkbModel.write_mysql_header. rewrite F.
      destruct (WkbModel.w_dialect c); try (destruct H; fail). destruct (WkbModel.w_srid c); [|destruct H]. destruct (z <? 0)%Z; [|destruct H].
      destruct H as [<-|[]]. reflexivity. }
    assert (B2 : forall x, In x (bad_srid c) -> forall s t n, WkbModel.w_first s = true -> snd (WkbModel.header_size c s t n) = Err x).
    { intros x H s t n F. unfold WkbModel.header_size. specialize (B x H s t F). destruct (WkbModel.write_header c s t) as [q [u|y]]; [discriminate B|exact B]. }
    assert (B3 : forall x, In x (bad_srid c) -> forall s t n g, WkbModel.w_first s = true -> snd (WkbModel.then_state g (WkbModel.header_size c s t n)) = Err x).
    { intros x H s t n g F. unfold WkbModel.then_state. specialize (B2 x H s t n F). destruct (WkbModel.header_size c s t n) as [q [u|y]]; [discriminate B2|exact B2]. }
    intros o x H. exists []. split; [reflexivity|]. destruct o as [e|]; [|destruct H].
    assert (P : snd (WkbModel.wkb_step c WkbModel.wst_init e) = Err x).
    { destruct e; cbn [wkb_ways] in H; try (destruct H; fail); try (destruct H as [<-|[]]; reflexivity); cbn [WkbModel.wkb_step];
        first [apply B; [exact H|reflexivity]|apply B2; [exact H|reflexivity]|apply B3; [exact H|reflexivity]]. }
    cbn [app feed p_step WkbModel.wkb_writer]. destruct (WkbModel.wkb_step c WkbModel.wst_init e) as [q [u|y]]; [discriminate P|exact P].
Qed.

(** ** geo-types and tiles *)
Lemma vec_size : forall elt n, GeoModel.bounded_vec elt (N.of_nat n) = if too_many elt n then Err EGeometry else Ok (N.of_nat n).
Proof.
  intros elt n. unfold GeoModel.bounded_vec, GeoModel.validate_capacity, GeoModel.saturating_mul, GeoModel.max_prealloc_bytes, too_many.
  destruct (N.ltb_spec (16 * 1024 * 1024) (N.of_nat n * elt)); destruct (N.ltb_spec (16 * 1024 * 1024) (N.min (N.of_nat n * elt) (2 ^ 64 - 1))); try reflexivity; exfalso; lia.
Qed.
Lemma reserve_err : forall A elt n s (set : GeoModel.gw -> option (list A) -> GeoModel.gw) s' x, GeoModel.reserve elt n s set = (s', Err x) ->
  In x (given (too_many elt n) EGeometry).
Proof.
  intros A elt n s set s' x E. unfold GeoModel.reserve in E. rewrite vec_size in E. destruct (too_many elt n); [|discriminate E].
  injection E as _ <-. left. reflexivity.
Qed.
Lemma assert_err : forall debug b (s : GeoModel.gw) k s' x, GeoModel.debug_assert debug b s k = (s', Err x) ->
  In x (given debug EPanic) \/ k = (s', Err x).
Proof.
  intros debug b s k s' x E. unfold GeoModel.debug_assert in E. destruct debug; [|right; exact E]. destruct b; [right; exact E|].
  injection E as _ <-. left. left. reflexivity.
Qed.
Lemma finish_fine : forall s g s' x, GeoModel.finish_geometry s g = (s', Err x) -> False.
Proof. intros s g s' x E. unfold GeoModel.finish_geometry in E. split_in E. Qed.
Lemma geo_err : forall debug e s s' x, GeoModel.geo_step debug s e = (s', Err x) -> In x (geo_ways debug (OEv e)).
Proof.
  intros debug e s s' x E.
  destruct e; cbn [GeoModel.geo_step] in E; cbn [geo_ways]; try discriminate E;
    try (apply assert_err in E; apply in_or_app; destruct E as [E|E]; [left; exact E|right; exact (reserve_err _ _ _ _ _ _ _ E)]).
  - unfold GeoModel.g_xy in E. destruct (GeoModel.g_coords s); [discriminate E|]. injection E as _ <-. left. reflexivity.
  - injection E as _ <-. left. reflexivity.
  - apply assert_err in E. destruct E as [E|E]; [exact E|discriminate E].
  - destruct (GeoModel.g_coords s) as [l|]; [|injection E as _ <-; left; reflexivity]. right. apply assert_err in E. destruct E as [E|E].
    + destruct debug; [exact E|destruct E].
    + destruct l; [injection E as _ <-; left; reflexivity|destruct (finish_fine _ _ _ _ E)].
  - destruct (GeoModel.g_coords s) as [l|]; [destruct (finish_fine _ _ _ _ E)|]. injection E as _ <-. left. reflexivity.
  - destruct (GeoModel.g_coords s) as [l|]; [|injection E as _ <-; left; reflexivity].
    destruct tagged; [destruct (finish_fine _ _ _ _ E)|]. destruct (GeoModel.g_lines _); [discriminate E|]. injection E as _ <-. left. reflexivity.
  - destruct (GeoModel.g_lines s) as [l|]; [destruct (finish_fine _ _ _ _ E)|]. injection E as _ <-. left. reflexivity.
  - destruct (GeoModel.g_lines s) as [l|]; [|injection E as _ <-; left; reflexivity].
    destruct tagged; [destruct (finish_fine _ _ _ _ E)|]. destruct (GeoModel.g_polys _); [discriminate E|]. injection E as _ <-. left. reflexivity.
  - destruct (GeoModel.g_polys s) as [l|]; [destruct (finish_fine _ _ _ _ E)|]. injection E as _ <-. left. reflexivity.
  - rewrite vec_size in E. destruct (too_many _ _) eqn:T; [|discriminate E]. injection E as _ <-.
    unfold GeoModel.geometry_size in T. try rewrite T. left. reflexivity.
  - destruct (GeoModel.g_coll s) as [|l r]; [|destruct (finish_fine _ _ _ _ E)]. injection E as _ <-. left. reflexivity.
Qed.
(** what to do first so that the callback fails *)
Definition open_first (e : event) : list event :=
  match e with
  | PointBegin _ | MultiPointBegin _ _ | LineStringBegin _ _ _ | PointEnd _ => [PointBegin 0]
  | MultiLineStringBegin _ _ | PolygonBegin _ _ _ => [PolygonBegin true 0 0]
  | MultiPolygonBegin _ _ => [MultiPolygonBegin 0 0]
  | _ => []
  end.
Lemma given_in : forall b x y, In y (given b x) -> b = true /\ y = x.
Proof. intros [|] x y H; [destruct H as [<-|[]]; split; reflexivity|destruct H]. Qed.
Lemma geo_each : forall debug e x, In x (geo_ways debug (OEv e)) -> exists l,
  snd (feed (GeoModel.geo_writer debug) (map OEv l) GeoModel.gw_init) = Ok tt /\
  snd (feed (GeoModel.geo_writer debug) (map OEv l ++ [OEv e]) GeoModel.gw_init) = Err x /\
  forallb (fun q => match q with PointBegin _ | PolygonBegin _ _ _ | MultiPolygonBegin _ _ => true | _ => false end) l = true.
Proof.
  intros debug e x H.
  destruct e; cbn [geo_ways] in H; try (destruct H; fail); try (destruct H as [<-|[]]; exists []; repeat split; reflexivity);
    try (apply in_app_or in H; destruct H as [H|H]; apply given_in in H; destruct H as [Hb ->];
         [subst debug; match goal with |- context[OEv ?f] => exists (open_first f) end; repeat split; reflexivity|]; exists []; split; [reflexivity|]; split; [|reflexivity];
         cbn; unfold GeoModel.debug_assert, GeoModel.reserve; cbn [GeoModel.is_none GeoModel.gw_init GeoModel.g_coords GeoModel.g_lines GeoModel.g_polys negb]; rewrite andb_false_r, vec_size;
         unfold GeoModel.coord_size, GeoModel.linestring_size, GeoModel.polygon_size; rewrite Hb; reflexivity).
  - apply given_in in H. destruct H as [-> ->]. exists [PointBegin 0]. repeat split; reflexivity.
  - destruct H as [<-|[<-|[]]]; [exists []; repeat split; reflexivity|]. exists [PointBegin 0]. destruct debug; repeat split; reflexivity.
  - apply given_in in H. destruct H as [T ->]. exists []. split; [reflexivity|]. split; [|reflexivity].
    cbn. rewrite vec_size. unfold GeoModel.geometry_size. rewrite T. reflexivity.
Qed.
Theorem geo_fails : forall debug, fails_as (GeoModel.geo_writer debug) GeoModel.gw_init (geo_ways debug).
Proof.
  intros debug. split.
  - apply only_any; [|discriminate]. intros e s s' x E. exact (geo_err _ _ _ _ _ E).
  - intros o x H. destruct o as [e|]; [|destruct H]. destruct (geo_each _ _ _ H) as (l & A & B & _). exists (map OEv l). split; assumption.
Qed.

(** ** Features *)
Definition framing (e : event) : bool :=
  match e with
  | DatasetBegin _ | DatasetEnd | FeatureBegin _ | FeatureEnd _ | PropertiesBegin | PropertiesEnd | GeometryBegin | GeometryEnd => true
  | _ => false
  end.
Lemma feature_inner : forall debug s e, framing e = false -> GeoModel.feature_step debug s e =
  let (w, r) := GeoModel.geo_step debug (GeoModel.f_writer s) e in (GeoModel.mkGf w (GeoModel.f_props s) (GeoModel.f_features s), r).
Proof. intros debug s e H. destruct e; try discriminate H; reflexivity. Qed.
Lemma features_inner : forall debug l s, forallb (fun e => negb (framing e)) l = true ->
  snd (feed (GeoModel.feature_writer debug) (map OEv l) s) = snd (feed (GeoModel.geo_writer debug) (map OEv l) (GeoModel.f_writer s)).
Proof.
  intros debug. induction l as [|e l IH]; intros s H; [reflexivity|]. cbn [forallb] in H. apply andb_prop in H. destruct H as [H1 H2].
  cbn [map feed p_step GeoModel.feature_writer GeoModel.geo_writer]. rewrite feature_inner by (destruct (framing e); [discriminate H1|reflexivity]).
  destruct (GeoModel.geo_step debug (GeoModel.f_writer s) e) as [w [u|x]]; [|reflexivity]. exact (IH (GeoModel.mkGf w (GeoModel.f_props s) (GeoModel.f_features s)) H2).
Qed.
Lemma f_assert_err : forall debug b (s : GeoModel.gf) k s' x, GeoModel.f_assert debug b s k = (s', Err x) ->
  In x (given debug EPanic) \/ k = (s', Err x).
Proof.
  intros debug b s k s' x E. unfold GeoModel.f_assert in E. destruct debug; [|right; exact E]. destruct b; [right; exact E|].
  injection E as _ <-. left. left. reflexivity.
Qed.
Theorem features_fail : forall debug, fails_as (GeoModel.feature_writer debug) GeoModel.gf_init (features_ways debug).
Proof.
  intros debug. split.
  - apply only_any.
    + intros e s s' x E. cbn [p_step GeoModel.feature_writer] in E. destruct (framing e) eqn:F.
      * destruct e; try discriminate F; cbn [GeoModel.feature_step] in E; cbn [features_ways]; try discriminate E.
        -- apply f_assert_err in E. destruct E as [E|E]; [exact E|]. apply f_assert_err in E. destruct E as [E|E]; [exact E|discriminate E].
        -- destruct (GeoModel.take_geometry _) as [w [g|]]; [|injection E as _ <-; left; reflexivity].
           destruct (GeoModel.f_props s); [discriminate E|]. injection E as _ <-. right. left. reflexivity.
        -- apply f_assert_err in E. destruct E as [E|E]; [exact E|discriminate E].
      * rewrite feature_inner in E by exact F. destruct (GeoModel.geo_step debug (GeoModel.f_writer s) e) as [w r] eqn:G. injection E as _ ->.
        pose proof (geo_err _ _ _ _ _ G) as P. destruct e; try discriminate F; exact P.
    + intros i n v s s' x E. cbn in E. unfold GeoModel.feature_prop in E. destruct (GeoModel.f_props s); [discriminate E|]. injection E as _ <-. left. reflexivity.
  - intros [e|i n v] x H; [|destruct H as [<-|[]]; at_once (@nil obs)]. destruct (framing e) eqn:F.
    + destruct e; try discriminate F; cbn [features_ways geo_ways] in H; try (destruct H; fail).
      * apply given_in in H. destruct H as [-> ->]. at_once [OEv (FeatureBegin 0)].
      * destruct H as [<-|[<-|[]]]; [at_once (@nil obs)|]. exists [OEv (MultiPointBegin 0 0); OEv (MultiPointEnd 0)]. destruct debug; split; reflexivity.
      * apply given_in in H. destruct H as [-> ->]. at_once [OEv (MultiPointBegin 0 0); OEv (MultiPointEnd 0)].
    + assert (P : In x (geo_ways debug (OEv e))) by (destruct e; try discriminate F; exact H).
      destruct (geo_each _ _ _ P) as (l & A & B & C). exists (map OEv l).
      assert (Q : forallb (fun e => negb (framing e)) l = true).
      { clear - C. induction l as [|q l IH]; [reflexivity|]. cbn [forallb] in *. apply andb_prop in C. destruct C as [C1 C2].
        rewrite (IH C2). destruct q; try discriminate C1; reflexivity. }
      split; [rewrite features_inner by exact Q; exact A|].
      change [OEv e] with (map OEv [e]) in *. rewrite <- map_app in *. rewrite features_inner; [exact B|]. rewrite forallb_app, Q. cbn. rewrite F. reflexivity.
Qed.

(** ** CSV *)
Lemma wkt_err : forall fmt c e s s' x, WktModel.wkt_step fmt c s e = (s', Err x) -> In x (wkt_ways (OEv e)).
Proof.
  intros fmt c e s s' x E.
  assert (G : forall t, WktModel.geom_end t = (s', Err x) -> x = EPanic)
    by (intros t; unfold WktModel.geom_end; destruct (WktModel.k_sizes t); [intros Q; injection Q as _ <-; reflexivity|discriminate]).
  destruct e; cbn [WktModel.wkt_step] in E; cbn [wkt_ways]; try (left; symmetry; exact (G _ E)); discriminate E.
Qed.
Lemma csv_wkt_err : forall fmt d e s s' x, CsvModel.csv_wkt fmt d s e = (s', Err x) -> In x (wkt_ways (OEv e)).
Proof.
  intros fmt d e s s' x E. unfold CsvModel.csv_wkt in E. destruct (WktModel.wkt_step fmt _ _ e) as [w r] eqn:F. injection E as _ ->.
  exact (wkt_err _ _ _ _ _ _ F).
Qed.
Lemma record_err : forall o l o' x, CsvModel.csv_write_record o l = (o', Err x) -> x = EDataset.
Proof.
  intros o l o' x E. unfold CsvModel.csv_write_record in E. split_in E. injection E as _ <-. reflexivity.
Qed.
Lemma csv_assert_err : forall debug b s s' x, CsvModel.csv_assert debug b s = (s', Err x) -> In x (given debug EPanic).
Proof. intros [|] [|] s s' x E; try discriminate E. injection E as _ <-. left. reflexivity. Qed.
Theorem csv_fails : forall fmt32 fmt debug d, fails_as (CsvModel.csv_writer fmt32 fmt debug d) CsvModel.csv_init (csv_ways debug).
Proof.
  intros fmt32 fmt debug d. split.
  - apply only_any.
    + intros e s s' x E. cbn [p_step CsvModel.csv_writer] in E.
      destruct e; cbn [CsvModel.csv_step] in E; cbn [csv_ways]; try discriminate E; try (exact (csv_wkt_err _ _ _ _ _ _ E)); try (exact (csv_assert_err _ _ _ _ _ E)).
      unfold CsvModel.csv_feature_end in E.
      destruct (if CsvModel.cs_written s then _ else _) as [o [u|y]] eqn:F.
      * destruct (CsvModel.csv_write_record _ []) as [o2 [u2|y]] eqn:G; [discriminate E|]. injection E as _ <-. left. symmetry. exact (record_err _ _ _ _ G).
      * injection E as _ <-. destruct (CsvModel.cs_written s); [discriminate F|]. left. symmetry. exact (record_err _ _ _ _ F).
    + intros i n v s s' x E. cbn in E. unfold CsvModel.csv_prop in E. split_in E; injection E as _ <-; left; reflexivity.
  - intros [e|i n v] x H.
    + destruct e; cbn [csv_ways wkt_ways] in H; try (destruct H; fail); try (destruct H as [<-|[]]; at_once (@nil obs));
        try (apply given_in in H; destruct H as [-> ->]; at_once [OProp 0 "a" (CBool true)]).
      * destruct H as [<-|[]]. at_once [OProp 0 "a" (CBool true); OEv (FeatureEnd 0)].
      * apply given_in in H. destruct H as [-> ->]. at_once [OEv (PointBegin 0)].
    + destruct H as [<-|[]]. exists [OEv (FeatureEnd 0)]. split; [reflexivity|]. cbn.
      unfold CsvModel.csv_prop. cbn. replace (i + 1) with (Datatypes.S i) by lia. cbn. destruct i; reflexivity.
Qed.

(** ** Tiles *)
Lemma mreserve_err : forall A elt n s (set : MvtModel.mw -> option (list A) -> MvtModel.mw) s' x, MvtModel.mreserve elt n s set = (s', Err x) ->
  In x (given (too_many elt n) EGeometry).
Proof.
  intros A elt n s set s' x E. unfold MvtModel.mreserve in E. rewrite vec_size in E. destruct (too_many elt n); [|discriminate E].
  injection E as _ <-. left. reflexivity.
Qed.
Lemma massert_err : forall debug b (s : MvtModel.mw) k s' x, MvtModel.massert debug b s k = (s', Err x) ->
  In x (given debug EPanic) \/ k = (s', Err x).
Proof.
  intros debug b s k s' x E. unfold MvtModel.massert in E. destruct debug; [|right; exact E]. destruct b; [right; exact E|].
  injection E as _ <-. left. left. reflexivity.
Qed.
Lemma mfinish_fine : forall s g s' x, MvtModel.mfinish s g = (s', Err x) -> False.
Proof. intros s g s' x E. unfold MvtModel.mfinish in E. split_in E. Qed.
Theorem mvt_fails : forall gsize base64 debug c, fails_as (MvtModel.mvt_writer gsize base64 debug c) MvtModel.mw_init (mvt_ways gsize debug).
Proof.
  intros gsize base64 debug c. split.
  - apply only_any; [|discriminate]. intros e s s' x E. cbn [p_step MvtModel.mvt_writer] in E.
    destruct e; cbn [MvtModel.mvt_step] in E; cbn [mvt_ways]; try discriminate E;
      try (apply massert_err in E; apply in_or_app; destruct E as [E|E]; [left; exact E|right; exact (mreserve_err _ _ _ _ _ _ _ E)]).
    + unfold MvtModel.m_xy in E. destruct (MvtModel.mw_coords s); [discriminate E|]. injection E as _ <-. left. reflexivity.
    + injection E as _ <-. left. reflexivity.
    + apply massert_err in E. destruct E as [E|E]; [exact E|discriminate E].
    + split_in E; try (destruct (mfinish_fine _ _ _ _ E)); injection E as _ <-; left; reflexivity.
    + split_in E; try (destruct (mfinish_fine _ _ _ _ E)); injection E as _ <-; left; reflexivity.
    + destruct (MvtModel.mw_coords s); [|injection E as _ <-; left; reflexivity]. destruct tagged.
      * destruct (Nat.ltb _ 2); [injection E as _ <-; right; left; reflexivity|destruct (mfinish_fine _ _ _ _ E)].
      * destruct (MvtModel.mw_lines _); [discriminate E|]. injection E as _ <-. left. reflexivity.
    + destruct (MvtModel.mw_lines s); [|injection E as _ <-; left; reflexivity].
      destruct (existsb _ _); [injection E as _ <-; right; left; reflexivity|destruct (mfinish_fine _ _ _ _ E)].
    + destruct (MvtModel.mw_lines s) as [[|r q]|]; [injection E as _ <-; right; left; reflexivity| |injection E as _ <-; left; reflexivity].
      destruct (existsb _ _); [injection E as _ <-; right; left; reflexivity|].
      destruct tagged; [destruct (mfinish_fine _ _ _ _ E)|]. destruct (MvtModel.mw_polys _); [discriminate E|]. injection E as _ <-. left. reflexivity.
    + split_in E; try (destruct (mfinish_fine _ _ _ _ E)); injection E as _ <-; left; reflexivity.
    + rewrite vec_size in E. destruct (too_many _ _) eqn:T; [|discriminate E]. injection E as _ <-. try rewrite T. left. reflexivity.
    + split_in E; try (destruct (mfinish_fine _ _ _ _ E)); injection E as _ <-; left; reflexivity.
    + split_in E.
  - intros o x H. destruct o as [e|]; [|destruct H].
    destruct e; cbn [mvt_ways] in H; try (destruct H; fail); try (destruct H as [<-|[]]; at_once (@nil obs));
      try (apply in_app_or in H; destruct H as [H|H]; apply given_in in H; destruct H as [Hb ->];
           [subst debug; match goal with |- context[OEv ?f] => exists (map OEv (open_first f)) end; split; reflexivity|]; exists []; split; [reflexivity|];
           cbn; unfold MvtModel.massert, MvtModel.mreserve; cbn [GeoModel.is_none MvtModel.mw_init MvtModel.mw_coords MvtModel.mw_lines MvtModel.mw_polys negb]; rewrite andb_false_r, vec_size;
           unfold MvtModel.tcoord_size, GeoModel.linestring_size, GeoModel.polygon_size; rewrite Hb; reflexivity).
    + apply given_in in H. destruct H as [-> ->]. at_once [OEv (PointBegin 0)].
    + destruct H as [<-|H]; [at_once (@nil obs)|]. apply given_in in H. destruct H as [-> ->].
      exists [OEv (PointBegin 0)]. destruct debug; split; reflexivity.
    + destruct H as [<-|[<-|[]]]; [at_once (@nil obs)|].
      exists [OEv (MultiLineStringBegin 0 0); OEv (PointBegin 0); OEv (LineStringEnd false 0)]. destruct debug; split; reflexivity.
    + destruct H as [<-|[<-|[]]]; [at_once (@nil obs)|]. exists [OEv (PolygonBegin true 0 0)]. destruct debug; split; reflexivity.
    + apply given_in in H. destruct H as [T ->]. exists []. split; [reflexivity|]. cbn. rewrite vec_size, T. reflexivity.
Qed.
Theorem tile_feature_fails : forall s x, MvtModel.into_feature s = Err x <-> MvtModel.mw_geoms s = [] /\ x = EGeometry.
Proof.
  intros s x. unfold MvtModel.into_feature, MvtModel.mtake. destruct (MvtModel.mw_geoms s) as [|g [|h r]]; split.
  - intros E. injection E as <-. split; reflexivity.
  - intros [_ ->]. reflexivity.
  - discriminate.
  - intros [H _]. discriminate H.
  - discriminate.
  - intros [H _]. discriminate H.
Qed.
