(** Helper lemmas for C42. *)
From Coq Require Import String Ascii.
From Coq Require Import List NArith ZArith Lia Bool.
From Verif Require Import Base BaseLemmas Event EventLemmas Claims Geom WkbModel GeoJsonRead GpxModel GpxSpec.
Import ListNotations.
Local Open Scope list_scope.

(** ** The machine accepts every geometry *)
Lemma announced_app : forall a b st, announced_run st (a ++ b) =
  match announced_run st a with Some st' => announced_run st' b | None => None end.
Proof.
  induction a as [|e a IH]; intros b st; cbn [app announced_run]; [reflexivity|].
  destruct (announced_step st e); [apply IH|reflexivity].
Qed.
Definition more (n : nat) (f : frame) : frame := mkFrame (fr_kind f) (fr_size f) (fr_index f) (n + fr_seen f).
(** [l] adds [n] members to a container that has [k] *)
Definition adds (k n : nat) (l : list event) : Prop :=
  forall f st, fr_seen f = k -> announced_run (f :: st) l = Some (more n f :: st).
Lemma adds_nil : forall k, adds k 0 [].
Proof. intros k f st E. destruct f. reflexivity. Qed.
Lemma adds_app : forall k a b l m, adds k a l -> adds (a + k) b m -> adds k (b + a) (l ++ m).
Proof.
  intros k a b l m H1 H2 f st E. rewrite announced_app, (H1 f st E), H2 by (cbn; lia).
  unfold more. cbn. now rewrite Nat.add_assoc.
Qed.
Lemma adds_leaf : forall e k, leaf e = Some k -> adds k 1 [e].
Proof. intros e k L f st E. cbn. rewrite L, E, Nat.eqb_refl. destruct f; cbn in *; now subst. Qed.
Lemma adds_wrap : forall b e l kd n k, leaf b = None -> leaf e = None -> opens e = None ->
  opens b = Some (kd, n, k) -> closes e = Some (kd, k) -> adds 0 n l -> adds k 1 (b :: l ++ [e]).
Proof.
  intros b e l kd n k L1 L2 O2 O C H f st E. cbn [announced_run announced_step]. rewrite L1, O, E, Nat.eqb_refl.
  rewrite announced_app, (H (mkFrame kd n k 0) (one_more f :: st) eq_refl). cbn [announced_run announced_step].
  rewrite L2, O2, C. cbn [more fr_kind fr_size fr_index fr_seen]. destruct (kind_dec kd kd); [|congruence].
  rewrite Nat.add_0_r, !Nat.eqb_refl. cbn. destruct f; cbn in *; now subst.
Qed.
Lemma adds_mapi : forall A (f : nat -> A -> event) l k, (forall j a, leaf (f j a) = Some j) ->
  adds k (length l) (mapi f k l).
Proof.
  induction l as [|a l IH]; intros k H; cbn [mapi length]; [apply adds_nil|].
  rewrite <- Nat.add_1_r. apply (adds_app k 1 (length l) [f k a]); [now apply adds_leaf|]. now apply IH.
Qed.
Lemma adds_flat : forall A (f : nat -> A -> list event) l k, (forall j a, In a l -> adds j 1 (f j a)) ->
  adds k (length l) (flat_mapi f k l).
Proof.
  induction l as [|a l IH]; intros k H; cbn [flat_mapi length]; [apply adds_nil|].
  rewrite <- Nat.add_1_r. apply (adds_app k 1 (length l)); [apply H; now left|]. apply IH. intros; apply H; now right.
Qed.
Section Grammar.
  Variable multi : bool.
  Lemma coord_leaf : forall j c, leaf (ev_coord multi j c) = Some j.
  Proof. intros. unfold ev_coord. now destruct multi. Qed.
  Lemma coords_adds : forall l, adds 0 (length l) (ev_coords multi l).
  Proof. intros. apply adds_mapi. intros; apply coord_leaf. Qed.
  Ltac wrap := eapply adds_wrap; [reflexivity|reflexivity|reflexivity|reflexivity|reflexivity|].
  Lemma line_adds : forall t k l, adds k 1 (ev_line multi t k l).
  Proof. intros. wrap. apply coords_adds. Qed.
  Lemma arc_adds : forall k l, adds k 1 (ev_arc multi k l).
  Proof. intros. wrap. apply coords_adds. Qed.
  Lemma polygon_adds : forall t k l, adds k 1 (ev_polygon multi t k l).
  Proof. intros. wrap. apply adds_flat. intros; apply line_adds. Qed.
  Lemma triangle_adds : forall t k l, adds k 1 (ev_triangle multi t k l).
  Proof. intros. wrap. apply adds_flat. intros; apply line_adds. Qed.
  Lemma segment_adds : forall k s, adds k 1 (ev_segment multi k s).
  Proof. intros k []; [apply line_adds|apply arc_adds]. Qed.
  Lemma compound_adds : forall k l, adds k 1 (ev_compound multi k l).
  Proof. intros. wrap. apply adds_flat. intros; apply segment_adds. Qed.
  Lemma curve_adds : forall k c, adds k 1 (ev_curve multi k c).
  Proof. intros k []; [apply line_adds|apply arc_adds|apply compound_adds]. Qed.
  Lemma curvepolygon_adds : forall k l, adds k 1 (ev_curvepolygon multi k l).
  Proof. intros. wrap. apply adds_flat. intros; apply curve_adds. Qed.
  Lemma surface_adds : forall k c, adds k 1 (ev_surface multi k c).
  Proof. intros k []; [apply polygon_adds|apply curvepolygon_adds]. Qed.
  Lemma gevents_adds : forall g k, adds k 1 (gevents multi k g).
  Proof.
    induction g using geom_ind'; intros k.
    8: { rewrite GeoJsonWrite.collection_events. wrap. apply adds_flat. rewrite Forall_forall in H. auto. }
    all: cbn [gevents]; try apply line_adds; try apply polygon_adds; try apply arc_adds; try apply compound_adds;
      try apply curvepolygon_adds; try apply triangle_adds.
    - apply (adds_wrap (PointBegin k) (PointEnd k) [ev_coord multi 0 c] KPoint 1 k); try reflexivity.
      apply adds_leaf, coord_leaf.
    - now apply adds_leaf.
    - wrap. apply coords_adds.
    - wrap. apply adds_flat. intros; apply line_adds.
    - wrap. apply adds_flat. intros; apply polygon_adds.
    - wrap. apply adds_flat. intros; apply curve_adds.
    - wrap. apply adds_flat. intros; apply surface_adds.
    - wrap. apply adds_flat. intros; apply polygon_adds.
    - wrap. apply adds_flat. intros; apply triangle_adds.
  Qed.
End Grammar.
Lemma grammar_announced : forall multi g, well_announced (gevents multi 0 g).
Proof. intros multi g f st E. now rewrite (gevents_adds multi g 0 f st E). Qed.

(** ** The callbacks of the reader *)
Definition line_events (i : nat) (l : list waypoint) : list event :=
  match l with [] => [] | _ => ev_line false false i (map point_of l) end.
Definition lines_events (i : nat) (l : list (list waypoint)) : list event :=
  match l with
  | [] => []
  | _ => MultiLineStringBegin (length l) i :: flat_mapi line_events 0 l ++ [MultiLineStringEnd i]
  end.
Definition gpx_events (g : gpx) : list event :=
  CollectionBegin (length (gpx_waypoints g) + length (gpx_tracks g) + length (gpx_routes g)) 0 ::
  flat_mapi (fun i p => gevents false i (GPoint (point_of p))) 0 (gpx_waypoints g) ++
  flat_mapi lines_events (length (gpx_waypoints g)) (gpx_tracks g) ++
  lines_events (length (gpx_waypoints g) + length (gpx_tracks g)) (gpx_routes g) ++ [CollectionEnd 0].

Lemma points_calls : forall l i, pfor (fun i p => pcall (Xy (fst p) (snd p) i)) i l
  = ok_calls (mapi (ev_coord false) i (map point_of l)).
Proof.
  induction l as [|p l IH]; intros i; cbn [pfor mapi map]; [reflexivity|].
  rewrite IH, pcall_calls, pthen_calls. reflexivity.
Qed.
Lemma line_calls : forall i l, gpx_line i l = ok_calls (line_events i l).
Proof.
  intros i l. unfold gpx_line, line_events. destruct l as [|p l]; [reflexivity|].
  unfold gpx_points. rewrite points_calls, !pcall_calls, !pthen_calls. unfold ev_line. now rewrite map_length.
Qed.
Lemma lines_calls : forall i l, gpx_track i l = ok_calls (lines_events i l).
Proof.
  intros i l. unfold gpx_track, lines_events. destruct l as [|p l]; [reflexivity|].
  rewrite (pfor_calls _ _ line_events) by (intros; apply line_calls). now rewrite !pcall_calls, !pthen_calls.
Qed.
Lemma read_calls : forall g, read_gpx (Some g) = ok_calls (gpx_events g).
Proof.
  intros g. unfold read_gpx, gpx_top_waypoints, gpx_events.
  change (gpx_routes_at ?i ?l) with (gpx_track i l).
  rewrite (pfor_calls _ _ (fun i p => gevents false i (GPoint (point_of p)))).
  2: { intros. unfold gpx_wrapped. now rewrite !pcall_calls, !pthen_calls. }
  rewrite (pfor_calls _ _ lines_events) by (intros; apply lines_calls). rewrite lines_calls.
  now rewrite !pcall_calls, !pthen_calls.
Qed.

(** ** Tidy documents *)
Lemma lines_whole : forall l i, l <> [] -> Forall (fun s => s <> []) l ->
  lines_events i l = gevents false i (GMultiLineString (map (map point_of) l)).
Proof.
  intros l i N H. unfold lines_events. destruct l as [|a l]; [congruence|]. cbn [gevents]. rewrite map_length. f_equal. f_equal.
  clear N. revert H. generalize (a :: l) 0%nat. clear. induction l as [|a l IH]; intros k H; cbn [flat_mapi map]; [reflexivity|].
  inversion H as [|? ? H1 H2]; subst. rewrite IH by assumption. f_equal. unfold line_events. destruct a; [congruence|reflexivity].
Qed.
Lemma flat_mapi_app : forall A B (f : nat -> A -> list B) a b i,
  flat_mapi f i (a ++ b) = flat_mapi f i a ++ flat_mapi f (i + length a) b.
Proof.
  induction a as [|x a IH]; intros b i; cbn [app flat_mapi length]; [now rewrite Nat.add_0_r|].
  rewrite IH, <- app_assoc, Nat.add_succ_r. reflexivity.
Qed.
Lemma flat_mapi_map : forall A B C (h : A -> B) (f : nat -> B -> list C) l i,
  flat_mapi f i (map h l) = flat_mapi (fun i a => f i (h a)) i l.
Proof. induction l as [|x l IH]; intros i; cbn; [reflexivity|now rewrite IH]. Qed.
Lemma tidy_events : forall g, tidy g -> gpx_events g = gevents false 0 (gpx_geom g).
Proof.
  intros g (HT & HR & L). unfold gpx_geom. rewrite GeoJsonWrite.collection_events, !flat_mapi_app, !flat_mapi_map.
  unfold gpx_events. rewrite !app_length, !map_length, <- !app_assoc. cbn [Nat.add]. f_equal.
  - f_equal. destruct (gpx_routes g) as [|r [|s l]]; cbn in *; lia.
  - f_equal. f_equal.
    + clear - HT. generalize (length (gpx_waypoints g)). induction HT as [|t ts [H1 H2] HT IH]; intros k; cbn [flat_mapi]; [reflexivity|].
      rewrite IH. f_equal. now apply lines_whole.
    + f_equal. destruct (gpx_routes g) as [|r l] eqn:E; [reflexivity|]. rewrite lines_whole by (assumption || discriminate).
      cbn [flat_mapi]. now rewrite List.app_nil_r.
Qed.
Lemma read_tidy : forall g, tidy g ->
  delivers (fun _ => read_gpx (Some g)) (fun _ => gevents false 0 (gpx_geom g)) (Ok tt).
Proof. intros g T. apply delivers_calls. intros _. now rewrite read_calls, tidy_events. Qed.
Lemma read_any : forall g, delivers (fun _ => read_gpx (Some g)) (fun _ => gpx_events g) (Ok tt).
Proof. intros g. apply delivers_calls. intros _. apply read_calls. Qed.

(** ** The others *)
(** [l] adds [n] members, or is rejected *)
Definition atmost (n : nat) (l : list event) : Prop :=
  forall f st r, announced_run (f :: st) l = Some r -> r = more n f :: st.
Definition never (l : list event) : Prop := forall f st, announced_run (f :: st) l = None.
Lemma more_more : forall a b f, more b (more a f) = more (a + b) f.
Proof. intros. unfold more. cbn. f_equal. lia. Qed.
Lemma atmost_app : forall a b l m, atmost a l -> atmost b m -> atmost (a + b) (l ++ m).
Proof.
  intros a b l m H1 H2 f st r. rewrite announced_app. destruct (announced_run (f :: st) l) as [s|] eqn:E; [|discriminate].
  apply H1 in E. subst s. intros H. apply H2 in H. now rewrite more_more in H.
Qed.
Lemma never_app : forall a l m, atmost a l -> never m -> never (l ++ m).
Proof.
  intros a l m H1 H2 f st. rewrite announced_app. destruct (announced_run (f :: st) l) as [s|] eqn:E; [|reflexivity].
  apply H1 in E. subst s. apply H2.
Qed.
Lemma never_first : forall l m, never l -> never (l ++ m).
Proof. intros l m H f st. now rewrite announced_app, H. Qed.
Lemma atmost_nil : atmost 0 [].
Proof. intros f st r H. cbn in H. injection H as <-. now destruct f. Qed.
Lemma atmost_wrap : forall b e l kd n m k, leaf b = None -> leaf e = None -> opens e = None ->
  opens b = Some (kd, n, k) -> closes e = Some (kd, k) -> atmost m l ->
  (if Nat.eqb m n then atmost 1 (b :: l ++ [e]) else never (b :: l ++ [e])).
Proof.
  intros b e l kd n m k L1 L2 O2 O C H.
  assert (X : forall f st, announced_run (f :: st) (b :: l ++ [e]) = None \/
     (m = n /\ announced_run (f :: st) (b :: l ++ [e]) = Some (one_more f :: st))).
  { intros f st. cbn [announced_run announced_step]. rewrite L1, O. destruct (Nat.eqb k (fr_seen f)); [|now left].
    rewrite announced_app. destruct (announced_run _ l) as [s|] eqn:E; [|now left]. apply H in E. subst s.
    cbn [announced_run announced_step]. rewrite L2, O2, C. cbn [more fr_kind fr_size fr_index fr_seen].
    destruct (kind_dec kd kd); [|now left]. rewrite Nat.eqb_refl, Nat.add_0_r. cbn [andb].
    destruct (Nat.eqb_spec m n); [right; auto|now left]. }
  destruct (Nat.eqb_spec m n) as [E|N].
  - intros f st r R. destruct (X f st) as [X'|[_ X']]; rewrite X' in R; [discriminate|]. injection R as <-. reflexivity.
  - intros f st. destruct (X f st) as [X'|[X' _]]; [exact X'|contradiction].
Qed.
Lemma adds_atmost : forall n l, (forall k, adds k n l \/ never l) -> atmost n l.
Proof.
  intros n l H f st r R. destruct (H (fr_seen f)) as [A|A].
  - rewrite (A f st eq_refl) in R. now injection R.
  - rewrite A in R. discriminate R.
Qed.
Lemma filter_length_le : forall A (f : A -> bool) l, (length (filter f l) <= length l)%nat.
Proof. induction l as [|a l IH]; cbn; [lia|]. destruct (f a); cbn; lia. Qed.
Definition full {A} (l : list (list A)) : nat := length (filter (fun s => match s with [] => false | _ => true end) l).
Lemma full_all : forall A (l : list (list A)), full l = length l -> Forall (fun s => s <> []) l.
Proof.
  unfold full. induction l as [|a l IH]; intros H; [constructor|]. cbn [filter length] in H. destruct a as [|x a].
  - exfalso. pose proof (filter_length_le _ (fun s : list A => match s with [] => false | _ => true end) l). lia.
  - constructor; [discriminate|]. apply IH. cbn in H. lia.
Qed.
Lemma gevents_atmost : forall g i, atmost 1 (gevents false i g).
Proof.
  intros g i f st r R. destruct (Nat.eqb_spec i (fr_seen f)) as [E|N].
  - rewrite (gevents_adds false g i f st) in R by auto. now injection R.
  - exfalso. revert R.
    assert (X : forall e l, (match leaf e, opens e with Some j, _ => j = i | _, Some (_, _, j) => j = i | _, _ => False end) ->
       announced_run (f :: st) (e :: l) = None).
    { intros e l H. cbn [announced_run announced_step]. destruct (leaf e) as [j|].
      - subst j. destruct (Nat.eqb_spec i (fr_seen f)); [contradiction|reflexivity].
      - destruct (opens e) as [[[kd n] j]|]; [|destruct H]. subst j.
        destruct (Nat.eqb_spec i (fr_seen f)); [contradiction|reflexivity]. }
    destruct g; try rewrite GeoJsonWrite.collection_events; cbn [gevents];
      unfold ev_line, ev_polygon, ev_arc, ev_compound, ev_curvepolygon, ev_triangle; rewrite X; cbn; auto; discriminate.
Qed.
Lemma line_atmost : forall i l, atmost (match l with [] => 0 | _ => 1 end) (line_events i l).
Proof.
  intros i [|p l]; [apply atmost_nil|]. unfold line_events.
  pose proof (atmost_wrap (LineStringBegin false (length (map point_of (p :: l))) i) (LineStringEnd false i)
    (ev_coords false (map point_of (p :: l))) (KLine false) _ (length (map point_of (p :: l))) i
    eq_refl eq_refl eq_refl eq_refl eq_refl) as W.
  rewrite Nat.eqb_refl in W. apply W. clear W.
  assert (C : forall l k, atmost (length l) (mapi (ev_coord false) k l)).
  { clear. induction l as [|c l IH]; intros k; [apply atmost_nil|]. cbn [mapi length].
    apply (atmost_app 1 (length l) [_]); [|apply IH]. intros f st r. cbn.
    destruct (Nat.eqb k (fr_seen f)); [|discriminate]. intros H. now injection H as <-. }
  apply C.
Qed.
Lemma flat_atmost : forall l i, atmost (full l) (flat_mapi line_events i l).
Proof.
  unfold full. induction l as [|a l IH]; intros i; [apply atmost_nil|]. cbn [flat_mapi filter].
  destruct a; cbn [length].
  - cbn [line_events app]. apply IH.
  - apply (atmost_app 1); [apply (line_atmost i (w :: a))|apply IH].
Qed.
Lemma lines_atmost : forall i l, l <> [] ->
  if Nat.eqb (full l) (length l) then atmost 1 (lines_events i l) else never (lines_events i l).
Proof.
  intros i l N. unfold lines_events. destruct l as [|a l]; [congruence|].
  apply (atmost_wrap (MultiLineStringBegin (length (a :: l)) i) (MultiLineStringEnd i) _ KMultiLine _ _ i); try reflexivity.
  apply flat_atmost.
Qed.
Lemma tracks_atmost : forall l i,
  (atmost (full l) (flat_mapi lines_events i l) /\ Forall (fun t => t <> [] -> Forall (fun s => s <> []) t) l) \/
  never (flat_mapi lines_events i l).
Proof.
  induction l as [|a l IH]; intros i; cbn [flat_mapi].
  - left. split; [apply atmost_nil|constructor].
  - destruct a as [|s a].
    + cbn [lines_events app]. destruct (IH (S i)) as [[H1 H2]|H]; [left|right; exact H].
      split; [exact H1|]. constructor; [congruence|exact H2].
    + pose proof (lines_atmost i (s :: a)) as L. destruct (Nat.eqb_spec (full (s :: a)) (length (s :: a))) as [E|N].
      * specialize (L ltac:(discriminate)). destruct (IH (S i)) as [[H1 H2]|H].
        -- left. split; [apply (atmost_app 1 (full l)); assumption|]. constructor; [intros _; now apply full_all|exact H2].
        -- right. now apply (never_app 1).
      * right. apply never_first. apply L. discriminate.
Qed.
Lemma waypoints_atmost : forall l i, atmost (length l) (flat_mapi (fun i p => gevents false i (GPoint (point_of p))) i l).
Proof.
  induction l as [|a l IH]; intros i; [apply atmost_nil|]. cbn [flat_mapi length].
  apply (atmost_app 1 (length l)); [apply gevents_atmost|apply IH].
Qed.
Lemma announced_tidy : forall g, well_announced (gpx_events g) -> tidy g.
Proof.
  intros g W. specialize (W (mkFrame KPoint 1 0 0) [] eq_refl). unfold gpx_events in W.
  cbn [announced_run announced_step leaf opens Nat.eqb fr_seen] in W.
  rewrite announced_app in W. destruct (announced_run _ (flat_mapi _ 0 (gpx_waypoints g))) as [s|] eqn:E1; [|discriminate].
  apply waypoints_atmost in E1. subst s. rewrite announced_app in W.
  destruct (announced_run _ (flat_mapi lines_events _ _)) as [s|] eqn:E2; [|discriminate].
  destruct (tracks_atmost (gpx_tracks g) (length (gpx_waypoints g))) as [[T1 T2]|T]; [|rewrite T in E2; discriminate].
  apply T1 in E2. subst s. rewrite announced_app in W.
  destruct (announced_run _ (lines_events _ _)) as [s|] eqn:E3; [|discriminate].
  assert (R : s = more (match gpx_routes g with [] => 0 | _ => 1 end)
       (more (full (gpx_tracks g)) (more (length (gpx_waypoints g)) (mkFrame KCollection
          (length (gpx_waypoints g) + length (gpx_tracks g) + length (gpx_routes g)) 0 0))) ::
       [one_more (mkFrame KPoint 1 0 0)] /\ Forall (fun s => s <> []) (gpx_routes g)).
  { destruct (gpx_routes g) as [|r l] eqn:ER.
    - cbn in E3. injection E3 as <-. split; [reflexivity|constructor].
    - pose proof (lines_atmost (length (gpx_waypoints g) + length (gpx_tracks g)) (r :: l) ltac:(discriminate)) as L.
      destruct (Nat.eqb_spec (full (r :: l)) (length (r :: l))) as [E|N].
      + apply L in E3. subst s. split; [reflexivity|now apply full_all].
      + rewrite L in E3. discriminate. }
  destruct R as [-> R].
  cbn [announced_run announced_step leaf opens closes more fr_seen fr_size fr_index fr_kind kind_dec] in W.
  destruct (kind_dec KCollection KCollection); [|congruence]. cbn [Nat.eqb andb] in W.
  match type of W with context [Nat.eqb ?a ?b] => destruct (Nat.eqb_spec a b) as [E|]; [|discriminate] end.
  assert (F : (full (gpx_tracks g) <= length (gpx_tracks g))%nat) by apply filter_length_le.
  assert (Q : ((match gpx_routes g with [] => 0 | _ => 1 end) <= length (gpx_routes g))%nat).
  { destruct (gpx_routes g); cbn; lia. }
  assert (F1 : full (gpx_tracks g) = length (gpx_tracks g)) by lia.
  split; [|split; [exact R|destruct (gpx_routes g) as [|? [|? ?]]; cbn in *; lia]].
  apply full_all in F1. clear - F1 T2. induction F1; constructor; inversion T2; subst; auto.
Qed.
Lemma tidy_iff : forall g, well_announced (gpx_events g) <-> tidy g.
Proof.
  intros g. split; [apply announced_tidy|]. intros T. rewrite (tidy_events g T). apply grammar_announced.
Qed.
(** a geometry is delivered exactly for tidy documents *)
Lemma geometry_iff : forall g,
  (exists t, delivers (fun _ => read_gpx (Some g)) (fun multi => gevents false 0 t) (Ok tt)) <-> tidy g.
Proof.
  intros g. split.
  - intros [t H]. apply tidy_iff. pose proof (delivers_events _ _ _ _ _ H (read_any g)) as E. cbn beta in E.
    rewrite <- E. apply grammar_announced.
  - intros T. exists (gpx_geom g). now apply read_tidy.
Qed.
Lemma stream_iff : forall g l, delivers (fun _ => read_gpx (Some g)) (fun _ => l) (Ok tt) -> well_announced l <-> tidy g.
Proof.
  intros g l H. pose proof (delivers_events _ _ _ _ _ H (read_any g)) as E. cbn beta in E. rewrite E. apply tidy_iff.
Qed.
Lemma gpx_error : delivers (fun _ => read_gpx None) (fun _ => []) (Err EGeometry).
Proof. intros S p s. reflexivity. Qed.

(** ** Two routes, converted to WKB *)
Definition two_routes : gpx := mkGpx [] [] [[(0%N, 0%N)]; [(0%N, 0%N)]].
Lemma two_routes_wkb : exists b,
  WkbModel.to_wkb_dialect (fun _ => read_gpx (Some two_routes)) WkbModel.Wkb xy_dims None [] = Ok b /\
  snd (observe (WkbModel.process_wkb_type_geom WkbModel.Wkb xy_dims b)) = Err EIo.
Proof. eexists. split; [vm_compute; reflexivity|vm_compute; reflexivity]. Qed.
Definition hike : gpx :=
  mkGpx [(1%N, 2%N); (3%N, 4%N)] [[[(5%N, 6%N); (7%N, 8%N)]; [(0%N, 0%N)]]] [[(1%N, 1%N)]].
Lemma hike_tidy : tidy hike.
Proof. repeat split; repeat constructor; discriminate. Qed.
