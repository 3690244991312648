(** Proofs behind claim C67: re-encoding whatever a WKB reader accepts. *)
From Coq Require Import String Ascii.
From Coq Require Import List NArith ZArith Lia Bool.
From Coq Require Import Init.Byte.
From Verif Require Import Base BaseLemmas Event EventLemmas Claims Geom WkbModel WkbSpec WkbClaims WkbRead WkbReadTop
  WkbInv WkbShape WkbTop WkbWriteTop DbModel OrdSpec OrdTop OrdSame ReencSpec.
Import ListNotations.
Local Open Scope nat_scope.
Local Open Scope list_scope.

(** ** The callbacks with and without the extra dimensions *)
Section Shadow.
  Let sh := map shadow.
  Lemma shadow_coords : forall l, sh (ev_coords true l) = ev_coords false l.
  Proof.
    unfold sh, ev_coords. intros l. generalize 0 as i.
    induction l as [|c l IH]; intros i; cbn [mapi map]; [reflexivity|]. now rewrite IH.
  Qed.
  Lemma shadow_mapi : forall A (f f' : nat -> A -> list event), (forall k a, sh (f k a) = f' k a) ->
    forall l i, sh (flat_mapi f i l) = flat_mapi f' i l.
  Proof.
    intros A f f' H. induction l as [|a l IH]; intros i; cbn [flat_mapi]; [reflexivity|].
    unfold sh in *. now rewrite map_app, H, IH.
  Qed.
  Lemma shadow_line : forall t k l, sh (ev_line true t k l) = ev_line false t k l.
  Proof. intros. unfold ev_line, sh. cbn [map shadow]. rewrite map_app. fold sh. now rewrite shadow_coords. Qed.
  Lemma shadow_arc : forall k l, sh (ev_arc true k l) = ev_arc false k l.
  Proof. intros. unfold ev_arc, sh. cbn [map shadow]. rewrite map_app. fold sh. now rewrite shadow_coords. Qed.
  Ltac mem H := unfold sh; cbn [map shadow]; rewrite map_app; fold sh; rewrite (shadow_mapi _ _ _ H); reflexivity.
  Lemma shadow_polygon : forall t k l, sh (ev_polygon true t k l) = ev_polygon false t k l.
  Proof. intros. unfold ev_polygon. mem (shadow_line false). Qed.
  Lemma shadow_triangle : forall t k l, sh (ev_triangle true t k l) = ev_triangle false t k l.
  Proof. intros. unfold ev_triangle. mem (shadow_line false). Qed.
  Lemma shadow_segment : forall k s, sh (ev_segment true k s) = ev_segment false k s.
  Proof. intros k [l|l]; [apply shadow_line|apply shadow_arc]. Qed.
  Lemma shadow_compound : forall k l, sh (ev_compound true k l) = ev_compound false k l.
  Proof. intros. unfold ev_compound. mem shadow_segment. Qed.
  Lemma shadow_curve : forall k s, sh (ev_curve true k s) = ev_curve false k s.
  Proof. intros k [l|l|l]; [apply shadow_line|apply shadow_arc|apply shadow_compound]. Qed.
  Lemma shadow_curvepolygon : forall k l, sh (ev_curvepolygon true k l) = ev_curvepolygon false k l.
  Proof. intros. unfold ev_curvepolygon. mem shadow_curve. Qed.
  Lemma shadow_surface : forall k s, sh (ev_surface true k s) = ev_surface false k s.
  Proof. intros k [l|l]; [apply shadow_polygon|apply shadow_curvepolygon]. Qed.
  Lemma shadow_gevents : forall g k, map shadow (gevents true k g) = gevents false k g.
  Proof.
    change (forall g k, sh (gevents true k g) = gevents false k g).
    induction g using geom_ind'; intros k; try reflexivity.
    all: try (cbn [gevents]; first [apply shadow_line|apply shadow_arc|apply shadow_polygon|apply shadow_triangle
                                   |apply shadow_compound|apply shadow_curvepolygon]).
    all: try (cbn [gevents]; first [mem (shadow_line false)|mem (shadow_polygon false)|mem (shadow_triangle false)
                                   |mem shadow_curve|mem shadow_surface]).
    - cbn [gevents]. unfold sh. cbn [map shadow]. rewrite map_app. fold sh. now rewrite shadow_coords.
    - rewrite !gevents_collection. unfold sh. cbn [map shadow]. rewrite map_app. fold sh.
      do 2 f_equal. revert H. generalize 0 as i. intros i H. revert i.
      induction H; intros i; cbn [flat_mapi]; [reflexivity|]. unfold sh in *. rewrite map_app, H. now rewrite IHForall.
  Qed.
End Shadow.

Lemma alike_calls : forall A l l' (r r' : res A), alike eq (calls l (Done r)) (calls l' (Done r')) ->
  map shadow l = map shadow l' /\ r = r'.
Proof.
  induction l as [|e l IH]; intros [|e' l'] r r' H; cbn [calls] in H; inversion H; subst; try (split; congruence).
  match goal with X : alike _ (calls _ _) (calls _ _) |- _ => apply IH in X; destruct X as [X1 X2] end.
  split; [|exact X2]. cbn [map]. congruence.
Qed.

Lemma only_calls : forall A P l (r : res A), only P (calls l (Done r)) -> Forall P l.
Proof. induction l as [|e l IH]; intros r H; constructor; destruct H; eauto. Qed.
Lemma shadow_flat : forall l, Forall (form false) l -> map shadow l = l.
Proof.
  induction 1 as [|e l [H _] _ IH]; [reflexivity|]. cbn [map]. rewrite IH. f_equal.
  destruct e; try reflexivity. discriminate H.
Qed.

(** ** One reading for every processor *)
Definition stream_of (l : list event) (multi : bool) : list event := if multi then l else map shadow l.

Lemma bytes_calls : forall dl b d l, makes (bytes_source dl b d) l (Ok tt) ->
  exists rest, process_wkb_type_geom dl d b = calls l (Done (Ok (tt, rest))).
Proof.
  intros dl b d l H. destruct (lin_process dl d b) as (l' & r' & E).
  unfold bytes_source, wkb_source in H. cbn [so_process] in H. rewrite E, pbind_calls in H.
  destruct r' as [[[] rest]|x].
  - exists rest. rewrite E. change (pbind (Done (Ok (tt, rest))) (fun _ => pret tt)) with (Done (Ok tt)) in H.
    pose proof (makes_of_calls _ l' (Ok tt)) as H'. unfold makes in *. rewrite H' in H.
    injection H as H. now rewrite (map_OEv_inj _ _ H).
  - change (pbind (Done (Err x)) (fun _ : unit * list byte => pret tt)) with (Done (A := unit) (Err x)) in H.
    pose proof (makes_of_calls _ l' (Err (A := unit) x)) as H'. unfold makes in *. rewrite H' in H. discriminate H.
Qed.

Lemma same_multi : forall dl d d' b, multi_dim d = multi_dim d' -> process_wkb_type_geom dl d b = process_wkb_type_geom dl d' b.
Proof. intros dl d d' b H. unfold process_wkb_type_geom. now rewrite H. Qed.

Lemma all_multi : forall dl d b l rest, multi_dim d = true -> process_wkb_type_geom dl d b = calls l (Done (Ok (tt, rest))) ->
  forall d', process_wkb_type_geom dl d' b = calls (stream_of l (multi_dim d')) (Done (Ok (tt, rest))).
Proof.
  intros dl d b l rest Hm H d'. destruct (multi_dim d') eqn:E.
  - rewrite (same_multi dl d' d) by congruence. exact H.
  - destruct (lin_process dl d' b) as (l' & r' & E').
    pose proof (wkb_alike dl d d' b) as Ha. rewrite H, E' in Ha. apply alike_calls in Ha. destruct Ha as [Ha <-].
    pose proof (wkb_only dl b d') as Ho. rewrite E', E in Ho. apply only_calls, shadow_flat in Ho.
    rewrite E'. cbn [stream_of]. now rewrite <- Ho, Ha.
Qed.

Lemma accepted_wide : forall dl b, accepted dl b ->
  exists l rest, process_wkb_type_geom dl xyzm_dims b = calls l (Done (Ok (tt, rest))).
Proof.
  intros dl b (d & l & H). apply bytes_calls in H. destruct H as [rest H].
  destruct (lin_process dl xyzm_dims b) as (l' & r' & E).
  pose proof (wkb_alike dl d xyzm_dims b) as Ha. rewrite H, E in Ha. apply alike_calls in Ha.
  destruct Ha as [_ <-]. eauto.
Qed.

Lemma wide_source : forall dl b l rest, process_wkb_type_geom dl xyzm_dims b = calls l (Done (Ok (tt, rest))) ->
  forall d, bytes_source dl b d = calls (stream_of l (multi_dim d)) (Done (Ok tt)).
Proof.
  intros dl b l rest H d. unfold bytes_source, wkb_source. cbn [so_process].
  rewrite (all_multi dl xyzm_dims b l rest eq_refl H d), pbind_calls. reflexivity.
Qed.

Theorem accepted_for_all : forall dl b, accepted dl b -> forall d, exists l, makes (bytes_source dl b d) l (Ok tt).
Proof.
  intros dl b H d. destruct (accepted_wide dl b H) as (l & rest & E). eexists.
  rewrite (wide_source dl b l rest E d). apply makes_of_calls.
Qed.

Theorem reads_a_geometry : forall dl b, dl <> SpatiaLite -> accepted dl b ->
  exists srid g, sound g /\ says (bytes_source dl b) srid g.
Proof.
  intros dl b Hd H. destruct (accepted_wide dl b H) as (l & rest & E).
  destruct (gen_process dl xyzm_dims Hd b) as (l' & r' & E' & G). rewrite E in E'. apply calls_inj in E'.
  destruct E' as [<- <-]. destruct G as (srid & g & G & ->). exists srid, g. split; [exact G|].
  apply delivers_calls. intros d. rewrite (wide_source _ _ _ _ E d). f_equal.
  destruct (multi_dim d); [reflexivity|]. cbn [stream_of map shadow multi_dim xyzm_dims]. f_equal. apply shadow_gevents.
Qed.

(** ** What is written, and what it is read as *)
Lemma map_id_on : forall A (f : A -> A) l, Forall (fun a => f a = a) l -> map f l = l.
Proof. induction 1; cbn [map]; congruence. Qed.

Section Bytes.
  Variable hdr : endian -> N -> list byte.
  Variable cb : endian -> coord -> list byte.
  Variable f : coord -> coord.
  Hypothesis Hf : forall e c, cb e (f c) = cb e c.
  Variable o : list nat -> endian.
  Lemma line_same : forall e l, line_bytes cb e (map f l) = line_bytes cb e l.
  Proof.
    intros e l. unfold line_bytes. rewrite map_length. f_equal.
    induction l as [|c l IH]; cbn [map flat_map]; [reflexivity|]. now rewrite Hf, IH.
  Qed.
  Lemma rings_same : forall e l, rings_bytes cb e (map (map f) l) = rings_bytes cb e l.
  Proof.
    intros e l. unfold rings_bytes. rewrite map_length. f_equal.
    induction l as [|c l IH]; cbn [map flat_map]; [reflexivity|]. now rewrite line_same, IH.
  Qed.
  Lemma members_same : forall A (g : A -> A) (h : list nat -> A -> list byte) p l,
    (forall q a, h q (g a) = h q a) -> members o p h (map g l) = members o p h l.
  Proof.
    intros A g h p l H. unfold members. rewrite map_length. f_equal. generalize 0 as i.
    induction l as [|c l IH]; intros i; cbn [map flat_mapi]; [reflexivity|]. now rewrite H, IH.
  Qed.
  Lemma point_same : forall q c, point_bytes hdr cb o q (f c) = point_bytes hdr cb o q c.
  Proof. intros. unfold point_bytes. now rewrite Hf. Qed.
  Lemma linestring_same : forall q l, linestring_bytes hdr cb o q (map f l) = linestring_bytes hdr cb o q l.
  Proof. intros. unfold linestring_bytes. now rewrite line_same. Qed.
  Lemma arc_same : forall q l, arc_bytes hdr cb o q (map f l) = arc_bytes hdr cb o q l.
  Proof. intros. unfold arc_bytes. now rewrite line_same. Qed.
  Lemma polygon_same : forall q l, polygon_bytes hdr cb o q (map (map f) l) = polygon_bytes hdr cb o q l.
  Proof. intros. unfold polygon_bytes. now rewrite rings_same. Qed.
  Lemma triangle_same : forall q l, triangle_bytes hdr cb o q (map (map f) l) = triangle_bytes hdr cb o q l.
  Proof. intros. unfold triangle_bytes. now rewrite rings_same. Qed.
  Lemma segment_same : forall q s, segment_bytes hdr cb o q (map_segment f s) = segment_bytes hdr cb o q s.
  Proof. intros q [l|l]; [apply linestring_same|apply arc_same]. Qed.
  Lemma curve_same : forall q s, curve_bytes hdr cb o q (map_curve f s) = curve_bytes hdr cb o q s.
  Proof.
    intros q [l|l|l]; [apply linestring_same|apply arc_same|]. cbn [map_curve curve_bytes].
    now rewrite (members_same _ _ _ _ _ segment_same).
  Qed.
  Lemma surface_same : forall q s, surface_bytes hdr cb o q (map_surface f s) = surface_bytes hdr cb o q s.
  Proof.
    intros q [l|l]; [apply polygon_same|]. cbn [map_surface surface_bytes].
    now rewrite (members_same _ _ _ _ _ curve_same).
  Qed.
  Lemma kind_same : forall g, kind_code (map_geom GPoint f g) = kind_code g.
  Proof. intros []; reflexivity. Qed.
  Lemma body_same : forall g p, body hdr cb o p (map_geom GPoint f g) = body hdr cb o p g.
  Proof.
    induction g using geom_ind'; intros p; cbn [map_geom body];
      try reflexivity; try apply Hf; try apply line_same; try apply rings_same;
      try (apply members_same; first [exact point_same|exact linestring_same|exact polygon_same|exact triangle_same
                                     |exact segment_same|exact curve_same|exact surface_same]).
    rewrite map_length. f_equal. generalize 0 as i.
    induction H as [|a l H _ IH]; intros i; cbn [map]; [reflexivity|].
    rewrite kind_same, H. f_equal. apply IH.
  Qed.
End Bytes.

Lemma retained_full : forall z m g, no_empty (retained z m g) -> retained z m g = map_geom GPoint (stored z m) g.
Proof.
  unfold no_empty, retained. intros z m g. induction g using geom_ind'; cbn [map_geom]; try reflexivity.
  - unfold point_or_empty. destruct (all_nanb _); [intros []|reflexivity].
  - rewrite on_geom_collection. intros [_ H2]. f_equal.
    induction H; [reflexivity|]. cbn [map] in *. inversion H2; subst. f_equal; auto.
Qed.
Lemma coord_stored : forall z m e c, coord_bytes z m e (stored z m c) = coord_bytes z m e c.
Proof. intros [] [] e []; reflexivity. Qed.
Lemma std_retained : forall dl d srid env ed ext emp o g, no_empty (retained (dz d) (dm d) g) ->
  std dl d srid env ed ext emp o (retained (dz d) (dm d) g) = std dl d srid env ed ext emp o g.
Proof.
  intros dl d srid env ed ext emp o g H. rewrite (retained_full _ _ _ H).
  unfold std, enc_gpkg, enc_mysql, enc_wkb, enc_ewkb, enc_spatialite.
  destruct dl; rewrite kind_same, body_same by apply coord_stored; reflexivity.
Qed.

Lemma safe_retained : forall z m g, spatialite_safe g -> spatialite_safe (retained z m g).
Proof.
  intros z m [c| |l|l|l|r|l|l|l|l|l|l|l|r|l|l] H; try exact I; try (destruct H; fail);
    try (destruct l; [exact I|destruct H]); try (destruct r; [exact I|destruct H]).
  unfold retained. cbn [map_geom]. unfold point_or_empty. destruct (all_nanb _); exact I.
Qed.
Lemma says_std : forall src srid g, says src srid g -> forall dl d s env, srid_ok dl s -> no_empty g ->
  (dl = SpatiaLite -> spatialite_safe g) ->
  to_wkb_dialect src dl d s env = Ok (std dl d s env xy_dims false false little g).
Proof.
  intros src srid g H dl d s env Hs He Hf.
  apply (to_wkb_std src [Srid srid] dl d s env g tt); try assumption. constructor; [eauto|constructor].
Qed.
Lemma std_says : forall dl d s env g, sound g -> srid_ok dl s -> env_ok dl xy_dims env ->
  says (bytes_source dl (std dl d s env xy_dims false false little g)) (reported_srid dl s) (retained (dz d) (dm d) g).
Proof.
  intros dl d s env g [Hg Hl] Hs He. apply delivers_calls. intros dr. unfold bytes_source, wkb_source. cbn [so_process].
  pose proof (reads_std dl dr d s env xy_dims false false little g [] (decoded_encodable g Hg) Hl Hs He) as R.
  assert (Ho : order_ok dl little) by (destruct dl; exact I || reflexivity).
  specialize (R Ho). unfold reads in R. rewrite app_nil_r in R. rewrite R, pbind_calls. reflexivity.
Qed.

Theorem reencoded : forall src srid g, sound g -> says src srid g -> no_empty g ->
  forall dl d s env, srid_ok dl s -> env_ok dl xy_dims env -> (dl = SpatiaLite -> spatialite_safe g) ->
  exists w, to_wkb_dialect src dl d s env = Ok w /\
    says (bytes_source dl w) (reported_srid dl s) (retained (dz d) (dm d) g) /\
    (conforming (dz d) (dm d) g -> says (bytes_source dl w) (reported_srid dl s) g) /\
    (no_empty (retained (dz d) (dm d) g) -> to_wkb_dialect (bytes_source dl w) dl d s env = Ok w).
Proof.
  intros src srid g Hg H He dl d s env Hs Hv Hf.
  exists (std dl d s env xy_dims false false little g).
  pose proof (std_says dl d s env g Hg Hs Hv) as R.
  split; [exact (says_std src srid g H dl d s env Hs He Hf)|]. split; [exact R|]. split.
  - intros Hc. rewrite (retained_conforming _ _ _ Hc) in R. exact R.
  - intros He'. rewrite (says_std _ _ _ R dl d s env Hs He'); [now rewrite std_retained|].
    intros E. apply safe_retained. auto.
Qed.

(** ** Equal readings, equal outcomes *)
Lemma skip_srid : forall S (p : proc S) s l st, (forall st x, p_step p st (Srid x) = (st, Ok tt)) ->
  run p (Srid s :: l) st = run p l st.
Proof. intros S p s l st H. cbn [run]. now rewrite H. Qed.
Theorem read_alike : forall dl1 b1 dl2 b2 d s1 s2 l, multi_dim d = true ->
  makes (bytes_source dl1 b1 d) (Srid s1 :: l) (Ok tt) -> makes (bytes_source dl2 b2 d) (Srid s2 :: l) (Ok tt) ->
  forall S (p : proc S) st, (forall st x, p_step p st (Srid x) = (st, Ok tt)) ->
  exec p (bytes_source dl1 b1 (p_dims p)) st = exec p (bytes_source dl2 b2 (p_dims p)) st.
Proof.
  intros dl1 b1 dl2 b2 d s1 s2 l Hm H1 H2 S p st Hp.
  apply bytes_calls in H1, H2. destruct H1 as [r1 H1], H2 as [r2 H2].
  rewrite (same_multi _ d xyzm_dims) in H1 by (rewrite Hm; reflexivity).
  rewrite (same_multi _ d xyzm_dims) in H2 by (rewrite Hm; reflexivity).
  rewrite (wide_source _ _ _ _ H1), (wide_source _ _ _ _ H2), !exec_calls.
  destruct (multi_dim (p_dims p)); cbn [stream_of map shadow]; rewrite !skip_srid by exact Hp; reflexivity.
Qed.
Theorem canonical : forall dl1 b1 dl2 b2 d s1 s2 l, multi_dim d = true ->
  makes (bytes_source dl1 b1 d) (Srid s1 :: l) (Ok tt) -> makes (bytes_source dl2 b2 d) (Srid s2 :: l) (Ok tt) ->
  forall dl d' s env, to_wkb_dialect (bytes_source dl1 b1) dl d' s env = to_wkb_dialect (bytes_source dl2 b2) dl d' s env.
Proof.
  intros dl1 b1 dl2 b2 d s1 s2 l Hm H1 H2 dl d' s env. unfold to_wkb_dialect.
  change (w_read_dims (with_opts dl d' s env)) with (p_dims (wkb_writer (with_opts dl d' s env))).
  rewrite (read_alike dl1 b1 dl2 b2 d s1 s2 l Hm H1 H2); [reflexivity|]. reflexivity.
Qed.

(** ** Empty points are refused *)
Definition no_mark (e : event) : Prop := match e with EmptyPoint _ => False | _ => True end.
Lemma on_line_any : forall l, on_line (fun _ => True) (fun _ => True) l.
Proof. intros l. split; [exact I|]. apply Forall_forall. intros; exact I. Qed.
Lemma on_rings_any : forall l, on_rings (fun _ => True) (fun _ => True) l.
Proof. intros l. split; [exact I|]. apply Forall_forall. intros; apply on_line_any. Qed.
Lemma on_segment_any : forall l, on_segment (fun _ => True) (fun _ => True) l.
Proof. intros [l|l]; apply on_line_any. Qed.
Lemma on_curve_any : forall l, on_curve (fun _ => True) (fun _ => True) l.
Proof.
  intros [l|l|l]; try apply on_line_any. split; [exact I|]. apply Forall_forall. intros; apply on_segment_any.
Qed.
Lemma on_surface_any : forall l, on_surface (fun _ => True) (fun _ => True) l.
Proof.
  intros [l|l]; try apply on_rings_any. split; [exact I|]. apply Forall_forall. intros; apply on_curve_any.
Qed.
Lemma marks_no_empty : forall multi g k, Forall no_mark (gevents multi k g) -> no_empty g.
Proof.
  unfold no_empty. intros multi g. induction g using geom_ind'; intros k Hk;
    try (cbn [on_geom]; repeat split; apply on_line_any || apply on_rings_any);
    try (split; [exact I|]; apply Forall_forall; intros;
         first [exact I|apply on_line_any|apply on_rings_any|apply on_segment_any|apply on_curve_any|apply on_surface_any]).
  - inversion Hk as [|e l He _]; subst. destruct He.
  - apply on_geom_collection. split; [exact I|]. rewrite gevents_collection in Hk. inversion Hk as [|e l0 _ Hl]; subst.
    apply Forall_app in Hl. destruct Hl as [Hl _]. clear Hk. revert Hl. generalize 0 as i.
    induction H as [|a r Ha _ IH]; intros i Hl; constructor; cbn [flat_mapi] in Hl; apply Forall_app in Hl; destruct Hl; eauto.
Qed.
Lemma run_ok_marks : forall c l st st', run (wkb_writer c) l st = (st', Ok tt) -> Forall no_mark l.
Proof.
  induction l as [|e l IH]; intros st st' H; [constructor|]. cbn [run] in H.
  destruct (p_step (wkb_writer c) st e) as [s1 [[]|x]] eqn:E; [|discriminate H].
  constructor; [|eauto]. destruct e; try exact I. discriminate E.
Qed.
Theorem empty_refused : forall src srid g, says src srid g -> forall dl d s env w,
  to_wkb_dialect src dl d s env = Ok w -> no_empty g.
Proof.
  intros src srid g H dl d s env w E. unfold to_wkb_dialect in E.
  specialize (H wst (wkb_writer (with_opts dl d s env)) wst_init).
  change (p_dims (wkb_writer (with_opts dl d s env))) with d in H.
  change (w_read_dims (with_opts dl d s env)) with d in E. rewrite H in E.
  destruct (run _ _ _) as [st [[]|x]] eqn:R; [|discriminate E].
  apply run_ok_marks in R. inversion R as [|e l _ R']. now apply marks_no_empty in R'.
Qed.
