(** Proofs for C75. *)
From Coq Require Import String Ascii.
From Coq Require Import List NArith ZArith Lia Bool.
From Verif Require Import Base Event DrivenSpec.
From Verif Require WkbModel WktModel GeoJsonModel SvgModel GeosModel GeoModel.
Import ListNotations.

Lemma count_cons : forall f e l, count f (e :: l) = (if f e then 1 else 0) + count f l.
Proof. intros f e l. unfold count. cbn [filter]. now destruct (f e). Qed.

(** a counter that starts at [d] *)
Definition dips (begins ends : event -> bool) (d : nat) (l : list event) : Prop :=
  exists now later, l = now ++ later /\ d + count begins now < count ends now.

Lemma dips_nil : forall b f d, ~ dips b f d [].
Proof. intros b f d (now & later & H & K). destruct now; [|discriminate]. cbn in K. lia. Qed.

Section Dips.
  Variables begins ends : event -> bool.
  Lemma dips_begin : forall d e l, begins e = true -> ends e = false ->
    (dips begins ends d (e :: l) <-> dips begins ends (S d) l).
  Proof.
    intros d e l B E. split; intros (now & later & H & K).
    - destruct now as [|a now]; [cbn in K; lia|]. injection H as <- ->.
      exists now, later. split; [reflexivity|]. rewrite !count_cons, B, E in K. lia.
    - subst. exists (e :: now), later. split; [reflexivity|]. rewrite !count_cons, B, E. lia.
  Qed.
  Lemma dips_end : forall d e l, begins e = false -> ends e = true ->
    (dips begins ends d (e :: l) <-> d = 0 \/ exists d', d = S d' /\ dips begins ends d' l).
  Proof.
    intros d e l B E. split.
    - intros (now & later & H & K). destruct d as [|d]; [now left|right]. exists d. split; [reflexivity|].
      destruct now as [|a now]; [cbn in K; lia|]. injection H as <- ->.
      exists now, later. split; [reflexivity|]. rewrite !count_cons, B, E in K. lia.
    - intros [->|(d' & -> & now & later & -> & K)].
      + exists [e], l. split; [reflexivity|]. rewrite !count_cons, B, E. cbn. lia.
      + exists (e :: now), later. split; [reflexivity|]. rewrite !count_cons, B, E. lia.
  Qed.
  Lemma dips_other : forall d e l, begins e = false -> ends e = false ->
    (dips begins ends d (e :: l) <-> dips begins ends d l).
  Proof.
    intros d e l B E. split; intros (now & later & H & K).
    - destruct now as [|a now]; [cbn in K; lia|]. injection H as <- ->.
      exists now, later. split; [reflexivity|]. rewrite !count_cons, B, E in K. lia.
    - subst. exists (e :: now), later. split; [reflexivity|]. rewrite !count_cons, B, E. lia.
  Qed.

  Context {S : Type} (p : proc S) (depth : S -> nat) (other : event -> error -> Prop).
  (** the depth follows the callbacks, and ending at depth zero is the only panic *)
  Definition follows : Prop := forall s e,
    (begins e = true -> ends e = false) /\
    match p_step p s e with
    | (s', Ok _) => if begins e then depth s' = Datatypes.S (depth s)
                    else if ends e then depth s = Datatypes.S (depth s')
                    else depth s' = depth s
    | (_, Err x) => other e x \/ (x = EPanic /\ ends e = true /\ depth s = 0)
    end.
  Hypothesis F : follows.
  Lemma follow_errors : forall l s x, snd (run p l s) = Err x ->
    (exists e, In e l /\ other e x) \/ (x = EPanic /\ dips begins ends (depth s) l).
  Proof.
    induction l as [|e l IH]; intros s x R; [discriminate R|]. cbn in R. destruct (F s e) as (BE & M).
    destruct (p_step p s e) as [s' [u|y]] eqn:St; cbn in R.
    - destruct (IH s' x R) as [(a & I & O)|(-> & D)]; [left; exists a; split; [now right|exact O]|right].
      split; [reflexivity|]. destruct (begins e) eqn:B.
      + apply dips_begin; [exact B|now apply BE|]. now rewrite <- M.
      + destruct (ends e) eqn:E.
        * apply dips_end; [exact B|exact E|]. right. now exists (depth s').
        * apply dips_other; [exact B|exact E|]. now rewrite <- M.
    - injection R as <-. destruct M as [M|(-> & E & Z)]; [left; exists e; split; [now left|exact M]|right].
      split; [reflexivity|].
      destruct (begins e) eqn:B; [rewrite (BE eq_refl) in E; discriminate|].
      apply dips_end; [exact B|exact E|now left].
  Qed.
  Lemma follow_dips : forall l s, dips begins ends (depth s) l -> exists x, snd (run p l s) = Err x.
  Proof.
    induction l as [|e l IH]; intros s D; [now apply dips_nil in D|]. cbn. destruct (F s e) as (BE & M).
    destruct (p_step p s e) as [s' [u|y]] eqn:St; cbn; [|now exists y].
    apply IH. destruct (begins e) eqn:B.
    + apply dips_begin in D; [now rewrite M|exact B|now apply BE].
    + destruct (ends e) eqn:E.
      * apply dips_end in D; [|exact B|exact E]. destruct D as [Z|(d & Z & D)]; [lia|].
        replace (depth s') with d by lia. exact D.
      * apply dips_other in D; [now rewrite M|exact B|exact E].
  Qed.
End Dips.

Lemma overdrawn_dips : forall b f l, overdrawn b f l <-> dips b f 0 l.
Proof. intros b f l. unfold overdrawn, dips. split; intros (n & r & H & K); exists n, r; (split; [exact H|lia]). Qed.

Local Ltac wend s := unfold WktModel.geom_end; destruct (WktModel.k_sizes s) as [|n r] eqn:K;
  [right; now rewrite ?K|destruct (Nat.ltb 0 n); unfold WktModel.put; cbn; reflexivity].
(** ** WKT *)
Lemma wkt_follows : forall fmt c,
  follows begins_geometry ends_geometry (WktModel.wkt_writer fmt c) (fun s => length (WktModel.k_sizes s)) (fun _ _ => False).
Proof.
  intros fmt c s e.
  assert (C : forall s i, WktModel.k_sizes (WktModel.wkt_comma s i) = WktModel.k_sizes s).
  { intros s0 i. unfold WktModel.wkt_comma, WktModel.put. now destruct (Nat.ltb 0 i). }
  assert (H0 : forall s, WktModel.k_sizes (WktModel.wkt_header c s) = WktModel.k_sizes s).
  { intros s0. unfold WktModel.wkt_header, WktModel.put. destruct (WktModel.k_first s0); [|reflexivity].
    destruct (WktModel.k_dialect c); [reflexivity|]. cbn. now destruct (WktModel.k_srid s0) as [[| |]|]. }
  assert (P : forall s t, WktModel.k_sizes (WktModel.put s t) = WktModel.k_sizes s) by reflexivity.
  assert (G : forall s tag t n i, length (WktModel.k_sizes (WktModel.geom_begin c s tag t n i)) =
                                  Datatypes.S (length (WktModel.k_sizes s))).
  { intros s0 tag t n i. unfold WktModel.geom_begin. cbv zeta.
    destruct (Nat.eqb n 0), t; rewrite ?P; cbn [WktModel.k_sizes length]; rewrite ?P, C, H0; reflexivity. }
  split; [destruct e; intros H; try discriminate H; reflexivity|].
  unfold WktModel.wkt_writer. cbn [p_step]. unfold WktModel.wkt_step.
  destruct e; cbn [begins_geometry ends_geometry default_step WktModel.k_sizes length]; try reflexivity; try apply G; try solve [wend s].
  - destruct (f64_is_nan x && f64_is_nan y); cbv beta iota zeta; rewrite P, C; reflexivity.
  - match goal with |- context [if ?b then _ else _] => destruct b end; cbv beta iota zeta; [rewrite P, C; reflexivity|].
    destruct z, m; rewrite ?P, C; reflexivity.
  - specialize (G s "POINT"%string true 0 idx). unfold WktModel.geom_end.
    destruct (WktModel.k_sizes (WktModel.geom_begin c s "POINT" true 0 idx)) as [|n r] eqn:K; cbn in G; [discriminate|].
    injection G as G. destruct (Nat.ltb 0 n); unfold WktModel.put; cbn; exact G.
Qed.

(** no other error: an exact answer *)
Lemma follow_exact : forall begins ends S (p : proc S) depth, follows begins ends p depth (fun _ _ => False) ->
  forall s l, depth s = 0 ->
  (overdrawn begins ends l -> snd (run p l s) = Err EPanic) /\
  (~ overdrawn begins ends l -> snd (run p l s) = Ok tt).
Proof.
  intros begins ends S p depth F s l Z. split; intros O.
  - assert (D : dips begins ends (depth s) l) by (rewrite Z; apply (proj1 (overdrawn_dips _ _ _)); exact O).
    destruct (follow_dips _ _ _ _ _ F l s D) as (x & E).
    destruct (follow_errors _ _ _ _ _ F l s x E) as [(e & _ & [])|(-> & _)]. exact E.
  - destruct (snd (run p l s)) as [[]|x] eqn:R; [reflexivity|]. exfalso.
    destruct (follow_errors _ _ _ _ _ F l s x R) as [(e & _ & [])|(-> & D)]. apply O, (proj2 (overdrawn_dips _ _ _)). now rewrite <- Z.
Qed.
Lemma wkt_exact : forall fmt c srid l,
  (overdrawn begins_geometry ends_geometry l ->
     snd (run (WktModel.wkt_writer fmt c) l (WktModel.wkt_init srid)) = Err EPanic) /\
  (~ overdrawn begins_geometry ends_geometry l ->
     snd (run (WktModel.wkt_writer fmt c) l (WktModel.wkt_init srid)) = Ok tt).
Proof. intros fmt c srid l. apply (follow_exact _ _ _ _ _ (wkt_follows fmt c)). reflexivity. Qed.

(** ** WKB *)
Lemma header_nest : forall c s t, WkbModel.w_nest (fst (WkbModel.write_header c s t)) = WkbModel.w_nest s.
Proof.
  intros c s t. unfold WkbModel.write_header, WkbModel.write_wkb_header, WkbModel.write_ewkb_header, WkbModel.write_gpkg_header,
    WkbModel.write_mysql_header, WkbModel.write_spatialite_header, WkbModel.set_first, WkbModel.out_app.
  destruct (WkbModel.w_dialect c), (WkbModel.w_first s) eqn:E; cbn; try reflexivity;
    try (destruct (WkbModel.w_srid c) as [v|]; [destruct (v <? 0)%Z|]; cbn; rewrite ?E; reflexivity);
    rewrite ?E; destruct (WkbModel.w_srid c); reflexivity.
Qed.
Lemma header_errors : forall c s t x, snd (WkbModel.write_header c s t) = Err x ->
  exists v, WkbModel.w_dialect c = WkbModel.MySQL /\ WkbModel.w_srid c = Some v /\ (v < 0)%Z /\ x = ESrid v.
Proof.
  intros c s t x. unfold WkbModel.write_header.
  destruct (WkbModel.w_dialect c); cbn; try discriminate.
  destruct (WkbModel.w_first s); [|discriminate]. unfold WkbModel.write_mysql_header.
  destruct (WkbModel.w_srid c) as [v|]; [|discriminate]. destruct (v <? 0)%Z eqn:E; [|discriminate].
  intros H. injection H as <-. exists v. apply Z.ltb_lt in E. now repeat split.
Qed.
Definition wkb_other (c : WkbModel.wcfg) (e : event) (x : error) : Prop :=
  (x = EGeometry /\ exists i, e = EmptyPoint i) \/
  (exists v, WkbModel.w_dialect c = WkbModel.MySQL /\ WkbModel.w_srid c = Some v /\ (v < 0)%Z /\ x = ESrid v).
Lemma footer_ok : forall c s, exists s', WkbModel.write_footer c s = (s', Ok tt) /\ WkbModel.w_nest s' = WkbModel.w_nest s.
Proof.
  intros c s. unfold WkbModel.write_footer.
  destruct (WkbModel.w_dialect c); try (exists s; split; reflexivity).
  destruct (Nat.eqb (WkbModel.w_nest s) 0); [|exists s; split; reflexivity].
  exists (WkbModel.out_app s (WkbModel.w_u8 0xFE)). split; reflexivity.
Qed.
Lemma wkb_follows : forall c,
  follows begins_multi ends_multi (WkbModel.wkb_writer c) WkbModel.w_nest (wkb_other c).
Proof.
  intros c s e. split; [destruct e; intros H; try discriminate H; reflexivity|].
  assert (H : forall s t, match WkbModel.write_header c s t with
              | (s', Ok _) => WkbModel.w_nest s' = WkbModel.w_nest s
              | (_, Err x) => wkb_other c e x end).
  { intros s0 t. generalize (header_nest c s0 t) (header_errors c s0 t).
    destruct (WkbModel.write_header c s0 t) as [s' [u|x]]; cbn; intros A B; [exact A|right; now apply B]. }
  assert (Z : forall s t n, match WkbModel.header_size c s t n with
              | (s', Ok _) => WkbModel.w_nest s' = WkbModel.w_nest s
              | (_, Err x) => wkb_other c e x end).
  { intros s0 t n. unfold WkbModel.header_size. specialize (H s0 t).
    destruct (WkbModel.write_header c s0 t) as [s' [u|x]]; exact H. }
  assert (W : forall s x y z m, match WkbModel.write_coordinate c s x y z m with
              | (s', Ok _) => WkbModel.w_nest s' = WkbModel.w_nest s
              | (_, Err x) => wkb_other c e x end).
  { intros s0 x y z m. unfold WkbModel.write_coordinate. specialize (H s0 WkbModel.TPoint).
    destruct (WkbModel.w_state s0), (dz (WkbModel.w_dims c)), (dm (WkbModel.w_dims c));
      destruct (WkbModel.write_header c s0 WkbModel.TPoint) as [s' [u|e']]; cbn; try exact H; reflexivity. }
  assert (FO : forall s, exists s', WkbModel.write_footer c s = (s', Ok tt) /\ WkbModel.w_nest s' = WkbModel.w_nest s)
    by apply footer_ok.
  unfold WkbModel.wkb_writer. cbn [p_step]. unfold WkbModel.wkb_step, WkbModel.then_state, WkbModel.nest_decr.
  destruct e; cbn [begins_multi ends_multi default_step];
    try reflexivity;
    try (left; left; split; [reflexivity|eexists; reflexivity]);
    try (match goal with |- context [WkbModel.write_footer c ?a] => destruct (FO a) as (s1 & -> & N1); exact N1 end);
    try (match goal with |- context [WkbModel.write_coordinate c s ?a ?b ?k ?l] => specialize (W s a b k l);
           destruct (WkbModel.write_coordinate c s a b k l) as [s1 [u|er]]; [exact W|left; exact W] end);
    try (match goal with |- context [WkbModel.header_size c ?a ?b ?k] => generalize (Z a b k);
           destruct (WkbModel.header_size c a b k) as [s1 [u|er]]; cbn; intros ZZ; [exact ZZ|left; exact ZZ] end);
    try (match goal with |- context [WkbModel.write_header c s ?t] => specialize (H s t);
           destruct (WkbModel.write_header c s t) as [s1 [u|er]]; [exact H|left; exact H] end);
    try (destruct (WkbModel.w_nest s) as [|n] eqn:D; [right; repeat split|
    match goal with |- context [WkbModel.write_footer c ?a] => destruct (FO a) as (s1 & -> & N1); cbn in N1 |- *; now rewrite N1 end]).
  generalize (Z s WkbModel.TLineString size).
  destruct (WkbModel.w_state s); try reflexivity;
    destruct (WkbModel.header_size c s WkbModel.TLineString size) as [s1 [u|er]]; intros ZZ; try exact ZZ; left; exact ZZ.
Qed.

Lemma wkb_errors : forall c l x, snd (run (WkbModel.wkb_writer c) l WkbModel.wst_init) = Err x ->
  (x = EGeometry /\ exists i, In (EmptyPoint i) l) \/
  (exists v, WkbModel.w_dialect c = WkbModel.MySQL /\ WkbModel.w_srid c = Some v /\ (v < 0)%Z /\ x = ESrid v) \/
  (x = EPanic /\ overdrawn begins_multi ends_multi l).
Proof.
  intros c l x R. destruct (follow_errors _ _ _ _ _ (wkb_follows c) l _ x R) as [(e & I & O)|(-> & D)].
  - destruct O as [(-> & i & ->)|O]; [left; split; [reflexivity|now exists i]|right; left; exact O].
  - right. right. split; [reflexivity|]. apply (proj2 (overdrawn_dips _ _ _)). exact D.
Qed.
Lemma wkb_overdrawn : forall c l, overdrawn begins_multi ends_multi l ->
  exists x, snd (run (WkbModel.wkb_writer c) l WkbModel.wst_init) = Err x.
Proof.
  intros c l O. apply (follow_dips _ _ _ _ _ (wkb_follows c)). apply (proj1 (overdrawn_dips _ _ _)). exact O.
Qed.

(** ** GeoJSON and SVG *)
Lemma gj_ok : forall fmt out e, snd (GeoJsonModel.gj_step fmt out e) = Ok tt.
Proof. intros fmt out e. destruct e; reflexivity. Qed.
Lemma gj_run : forall fmt32 fmt d l out, snd (run (GeoJsonModel.geojson_writer fmt32 fmt d) l out) = Ok tt.
Proof.
  intros fmt32 fmt d. induction l as [|e l IH]; intros out; [reflexivity|]. cbn.
  generalize (gj_ok fmt out e). destruct (GeoJsonModel.gj_step fmt out e) as [o [[]|x]]; cbn; intros H; [apply IH|discriminate].
Qed.
Lemma gjl_follows : forall fmt32 fmt,
  follows begins_json ends_json (GeoJsonModel.geojson_line_writer fmt32 fmt) fst (fun _ _ => False).
Proof.
  intros fmt32 fmt [n out] e. split; [destruct e; intros H; try discriminate H; reflexivity|].
  assert (I : forall s e, exists o, GeoJsonModel.lw_inner fmt s e = ((fst s, o), Ok tt)).
  { intros s a. unfold GeoJsonModel.lw_inner. generalize (gj_ok fmt (snd s) a).
    destruct (GeoJsonModel.gj_step fmt (snd s) a) as [o [[]|x]]; cbn; intros H; [now exists o|discriminate]. }
  unfold GeoJsonModel.geojson_line_writer. cbn [p_step].
  unfold GeoJsonModel.gjl_step, GeoJsonModel.line_begin, GeoJsonModel.line_end.
  destruct e; cbn [begins_json ends_json default_step]; try reflexivity;
    match goal with |- context [GeoJsonModel.lw_inner fmt ?s ?a] => destruct (I s a) as (o & ->) end; cbn; try reflexivity;
    unfold GeoJsonModel.end_context; cbn [fst]; destruct n; cbn; try reflexivity; right; repeat split.
Qed.
Lemma gjl_exact : forall fmt32 fmt out l,
  (overdrawn begins_json ends_json l ->
     snd (run (GeoJsonModel.geojson_line_writer fmt32 fmt) l (0, out)) = Err EPanic) /\
  (~ overdrawn begins_json ends_json l ->
     snd (run (GeoJsonModel.geojson_line_writer fmt32 fmt) l (0, out)) = Ok tt).
Proof. intros fmt32 fmt out l. apply (follow_exact _ _ _ _ _ (gjl_follows fmt32 fmt)). reflexivity. Qed.
Lemma svg_exact : forall fmt c l out,
  snd (run (SvgModel.svg_writer fmt c) l out) = if existsb is_empty_point l then Err EGeometry else Ok tt.
Proof.
  intros fmt c. induction l as [|e l IH]; intros out; [reflexivity|]. cbn.
  destruct e; cbn; try apply IH; reflexivity.
Qed.

(** ** geo-types, without debug assertions *)
Definition since_begin (l : list event) : Prop :=
  exists a e k, l = a ++ e :: k /\ takes_positions e = true /\ existsb is_xy k = false.
Lemma since_more : forall l e, since_begin l -> is_xy e = false -> since_begin (l ++ [e]).
Proof.
  intros l e (a & b & k & -> & T & K) E. exists a, b, (k ++ [e]).
  rewrite <- app_assoc, existsb_app, K. cbn. rewrite E. now repeat split.
Qed.
Lemma since_new : forall l e, takes_positions e = true -> since_begin (l ++ [e]).
Proof. intros l e T. exists l, e, []. now repeat split. Qed.
Lemma bounded_no_panic : forall elt n x, GeoModel.bounded_vec elt n = Err x -> x = EGeometry.
Proof.
  intros elt n x. unfold GeoModel.bounded_vec, GeoModel.validate_capacity.
  repeat match goal with |- context [if ?b then _ else _] => destruct b end; intros H; now inversion H.
Qed.
Lemma geo_step_empty : forall s e h, (GeoModel.g_coords s = Some [] -> since_begin h) ->
  match GeoModel.geo_step false s e with
  | (s', Ok _) => GeoModel.g_coords s' = Some [] -> since_begin (h ++ [e])
  | (_, Err x) => x = EPanic -> since_begin h /\ exists i, e = PointEnd i
  end.
Proof.
  intros s e h H. unfold GeoModel.geo_step, GeoModel.debug_assert, GeoModel.g_xy, GeoModel.reserve, GeoModel.finish_geometry.
  cbn [andb].
  assert (M : is_xy e = false -> GeoModel.g_coords s = Some [] -> since_begin (h ++ [e])) by (intros A B; apply since_more; auto).
  destruct e; cbn [default_step]; try (intros; apply M; [reflexivity|assumption]); try (intros _; apply since_new; reflexivity);
    try (intros; discriminate);
    repeat match goal with |- context [match ?x with _ => _ end] =>
      lazymatch x with context [match _ with _ => _ end] => fail | _ => destruct x eqn:? end end; cbn;
    try (intros; discriminate); try (intros _; apply since_new; reflexivity);
    try (intros ->; match goal with B : GeoModel.bounded_vec _ _ = Err _ |- _ => apply bounded_no_panic in B; discriminate B end);
    try (intros; apply M; [reflexivity|assumption]).
  - intros K. injection K as K. destruct l; discriminate K.
  - intros _. split; [now apply H|now exists idx].
Qed.
Lemma geo_run_empty : forall l s h, (GeoModel.g_coords s = Some [] -> since_begin h) ->
  snd (run (GeoModel.geo_writer false) l s) = Err EPanic ->
  exists a i b, l = a ++ PointEnd i :: b /\ since_begin (h ++ a).
Proof.
  induction l as [|e l IH]; intros s h H R; [discriminate R|]. cbn in R. generalize (geo_step_empty s e h H).
  destruct (GeoModel.geo_step false s e) as [s' [u|x]]; cbn in R.
  - intros H'. destruct (IH s' (h ++ [e]) H' R) as (a & i & b & -> & B). exists (e :: a), i, b.
    split; [reflexivity|]. now rewrite <- app_assoc in B.
  - intros K. injection R as ->. destruct (K eq_refl) as (B & i & ->). exists [], i, l. now rewrite app_nil_r.
Qed.
Lemma geo_panics : forall l, snd (run (GeoModel.geo_writer false) l GeoModel.gw_init) = Err EPanic ->
  exists a e k i b, l = a ++ e :: k ++ PointEnd i :: b /\ takes_positions e = true /\ existsb is_xy k = false.
Proof.
  intros l R. destruct (geo_run_empty l GeoModel.gw_init [] ltac:(discriminate) R) as (a & i & b & -> & a' & e & k & E & T & K).
  cbn in E. subst a. exists a', e, k, i, b. rewrite <- app_assoc. now repeat split.
Qed.

Lemma geo_bare_point : forall debug i j,
  snd (run (GeoModel.geo_writer debug) [PointBegin i; PointEnd j] GeoModel.gw_init) = Err EPanic.
Proof. intros [|] i j; reflexivity. Qed.

(** ** Cases *)
Lemma enough : forall b f l, (forall n, count f (firstn n l) <= count b (firstn n l)) -> ~ overdrawn b f l.
Proof.
  intros b f l H (now & later & -> & K). specialize (H (length now)).
  rewrite firstn_app, firstn_all, Nat.sub_diag, firstn_O, app_nil_r in H. lia.
Qed.
Lemma wkt_met : overdrawn begins_geometry ends_geometry [PointBegin 0; PointEnd 0; PointEnd 0] /\
  ~ overdrawn begins_geometry ends_geometry [PointBegin 0; LineStringEnd true 3; TinBegin 2 9].
Proof.
  split; [exists [PointBegin 0; PointEnd 0; PointEnd 0], []; split; [reflexivity|cbn; lia]|].
  apply enough. intros [|[|[|[|n]]]]; cbn; lia.
Qed.
Lemma wkb_met : overdrawn begins_multi ends_multi [CollectionBegin 1 0; CollectionEnd 0; MultiCurveEnd 0] /\
  ~ overdrawn begins_multi ends_multi [PointEnd 0; PolygonEnd true 1; LineStringEnd false 0].
Proof.
  split; [exists [CollectionBegin 1 0; CollectionEnd 0; MultiCurveEnd 0], []; split; [reflexivity|cbn; lia]|].
  apply enough. intros [|[|[|[|n]]]]; cbn; lia.
Qed.
Lemma lines_met : overdrawn begins_json ends_json [FeatureBegin 0; FeatureEnd 0; PointEnd 0] /\
  ~ overdrawn begins_json ends_json [TinEnd 0; FeatureBegin 0; GeometryEnd; PolygonEnd true 0].
Proof.
  split; [exists [FeatureBegin 0; FeatureEnd 0; PointEnd 0], []; split; [reflexivity|cbn; lia]|].
  apply enough. intros [|[|[|[|[|n]]]]]; cbn; lia.
Qed.

(** ** Which errors *)
Lemma geo_kinds : forall s e x, snd (GeoModel.geo_step false s e) = Err x ->
  x = EGeometry \/ (x = EPanic /\ exists i, e = PointEnd i).
Proof.
  intros s e x. unfold GeoModel.geo_step, GeoModel.debug_assert, GeoModel.g_xy, GeoModel.reserve, GeoModel.finish_geometry.
  cbn [andb].
  destruct e; cbn [default_step snd]; try discriminate;
    repeat match goal with |- context [match ?x with _ => _ end] =>
      lazymatch x with context [match _ with _ => _ end] => fail | _ => destruct x eqn:? end end; cbn;
    intros H; try discriminate H; injection H as <-; try (left; reflexivity);
    try (left; match goal with B : GeoModel.bounded_vec _ _ = Err _ |- _ => exact (bounded_no_panic _ _ _ B) end).
  right. split; [reflexivity|now exists idx].
Qed.
Lemma geos_kinds : forall lib s e x, snd (GeosModel.geos_step lib s e) = Err x ->
  x = EGeometry \/ x = GeosModel.geos_error \/ (x = GeosModel.out_of_range lib /\ exists a b i, e = Xy a b i) \/
  (x = EPanic /\ exists size idx, (e = MultiLineStringBegin size idx /\ huge (GeosModel.seq_bytes lib) size) \/
    ((exists tagged, e = PolygonBegin tagged size idx) /\ huge (GeosModel.seq_bytes lib) size) \/
    (e = MultiPolygonBegin size idx /\ huge (GeosModel.geom_bytes lib) size)).
Proof.
  intros lib s e x. unfold GeosModel.geos_step.
  assert (C : forall b n, GeosModel.capacity_ok b n = false -> huge b n).
  { intros b n H. unfold GeosModel.capacity_ok in H. apply N.ltb_ge in H. exact H. }
  destruct e; cbn; try discriminate;
    repeat match goal with |- context [match ?x with _ => _ end] => destruct x eqn:?; cbn; try discriminate end;
    intros H; injection H as <-; try (left; reflexivity); try (right; left; reflexivity);
    try (right; right; left; split; [reflexivity|repeat eexists]; fail);
    right; right; right; (split; [reflexivity|]); exists size, idx; auto.
  right. left. split; [now exists tagged|auto].
Qed.
