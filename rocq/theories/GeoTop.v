(** Proofs about the geo-types conversions. *)
From Coq Require Import String Ascii.
From Coq Require Import List NArith ZArith Lia Bool.
From Verif Require Import Base BaseLemmas Float Event EventLemmas Claims Geom ProcModel ProcSpec ProcTop GeoModel GeoSpec.
Import ListNotations.
Local Open Scope N_scope.
Local Open Scope list_scope.

(** ** Capacity *)
Lemma validate_spec : forall elt n, n < 2 ^ 64 ->
  (validate_capacity elt n = Ok tt <-> n * elt <= 16777216) /\
  (validate_capacity elt n = Err EGeometry <-> 16777216 < n * elt).
Proof.
  intros elt n H. unfold validate_capacity, saturating_mul, max_prealloc_bytes.
  change (16 * 1024 * 1024) with 16777216.
  destruct (N.ltb_spec 16777216 (N.min (n * elt) (2 ^ 64 - 1))) as [L|L];
    split; split; intros X; try discriminate; try reflexivity; try lia.
Qed.
Lemma bounded_spec : forall elt n r, bounded_vec elt n = Ok r -> r = n /\ r * elt <= 16777216.
Proof.
  intros elt n r. unfold bounded_vec, validate_capacity, saturating_mul, max_prealloc_bytes.
  change (16 * 1024 * 1024) with 16777216.
  destruct (N.ltb_spec 16777216 (N.min (n * elt) (2 ^ 64 - 1))); [discriminate|].
  intros E. injection E as <-. split; [reflexivity|lia].
Qed.
Lemma fits_vec : forall A elt (l : list A), fits elt l -> bounded_vec elt (N.of_nat (length l)) = Ok (N.of_nat (length l)).
Proof.
  intros A elt l H. unfold fits in H. unfold bounded_vec, validate_capacity, saturating_mul, max_prealloc_bytes.
  change (16 * 1024 * 1024) with 16777216.
  destruct (N.ltb_spec 16777216 (N.min (N.of_nat (length l) * elt) (2 ^ 64 - 1))); [lia|reflexivity].
Qed.

(** ** The writer on documented streams *)
Section Write.
  Variable debug : bool.
  (** the writer is given positions by [xy]: it does not ask for z and m *)
  Local Notation multi := false.
  Notation W := (geo_writer debug).

  Lemma assert_none : forall s k, debug_assert debug true s k = k.
  Proof. intros s k. unfold debug_assert. rewrite andb_false_r. reflexivity. Qed.

  Lemma step_coord : forall G C P L K i c,
    p_step W (mkGw G C P L (Some K)) (ev_coord multi i c) = (mkGw G C P L (Some (K ++ [xy_of c])), Ok tt).
  Proof. intros. reflexivity. Qed.
  Lemma run_coords : forall l i G C P L K,
    run W (mapi (ev_coord multi) i l) (mkGw G C P L (Some K)) = (mkGw G C P L (Some (K ++ map xy_of l)), Ok tt).
  Proof.
    induction l as [|c l IH]; intros i G C P L K; cbn [mapi run map].
    - rewrite app_nil_r. reflexivity.
    - rewrite step_coord, IH, <- app_assoc. reflexivity.
  Qed.

  Lemma step_line : forall tagged (l : line) idx G C P L, fits 16 l ->
    p_step W (mkGw G C P L None) (LineStringBegin tagged (length l) idx) = (mkGw G C P L (Some []), Ok tt).
  Proof.
    intros. cbn. rewrite assert_none. unfold reserve, coord_size. rewrite (fits_vec _ 16 l) by assumption.
    reflexivity.
  Qed.
  Lemma run_line : forall l idx G C P L, fits 16 l ->
    run W (ev_line multi false idx l) (mkGw G C P (Some L) None) = (mkGw G C P (Some (L ++ [line_of l])) None, Ok tt).
  Proof.
    intros l idx G C P L H. unfold ev_line, ev_coords. cbn [run app]. rewrite step_line by exact H.
    rewrite run_app, run_coords. reflexivity.
  Qed.
  Lemma run_lines : forall r i G C P L, Forall (fits 16) r ->
    run W (flat_mapi (ev_line multi false) i r) (mkGw G C P (Some L) None) =
    (mkGw G C P (Some (L ++ map line_of r)) None, Ok tt).
  Proof.
    induction r as [|l r IH]; intros i G C P L H; cbn [flat_mapi run map].
    - rewrite app_nil_r. reflexivity.
    - inversion H; subst. rewrite run_app, run_line by assumption. rewrite IH by assumption.
      rewrite <- app_assoc. reflexivity.
  Qed.

  Lemma ring_close : forall l, close (line_of l) = ring_of l.
  Proof.
    intros l. unfold close, ring_of, is_closed, pos_eqb. destruct (line_of l); [reflexivity|].
    destruct (_ && _); reflexivity.
  Qed.
  Definition built (r : list lstr) : poly :=
    match r with [] => polygon_new [] [] | e :: i => polygon_new e i end.
  Lemma built_of : forall r, built (map line_of r) = poly_of r.
  Proof.
    intros [|e i]; [reflexivity|]. cbn [map built poly_of]. unfold polygon_new. rewrite ring_close, map_map.
    f_equal. apply map_ext. intros x. apply ring_close.
  Qed.
  Lemma step_poly : forall tagged (r : rings) idx G C P K, fits 24 r ->
    p_step W (mkGw G C P None K) (PolygonBegin tagged (length r) idx) = (mkGw G C P (Some []) K, Ok tt).
  Proof.
    intros. cbn. rewrite assert_none. unfold reserve, linestring_size. rewrite (fits_vec _ 24 r) by assumption.
    reflexivity.
  Qed.
  Lemma run_poly : forall tagged r idx G C P, small_rings r ->
    run W (ev_polygon multi tagged idx r) (mkGw G C P None None) =
    (if tagged then finish_geometry (mkGw G C P None None) (TPolygon (poly_of r))
     else match P with
          | None => (mkGw G C P None None, Err EGeometry)
          | Some ps => (mkGw G C (Some (ps ++ [poly_of r])) None None, Ok tt)
          end).
  Proof.
    intros tagged r idx G C P [H1 H2]. unfold ev_polygon. cbn [run app]. rewrite step_poly by exact H1.
    rewrite run_app, run_lines by exact H2. cbn [app run p_step W geo_writer geo_step g_lines].
    change (match map line_of r with [] => polygon_new [] [] | e :: i => polygon_new e i end)
      with (built (map line_of r)). rewrite built_of.
    unfold set_lines. cbn. destruct tagged; [|destruct P; reflexivity].
    destruct C; reflexivity.
  Qed.
  Lemma run_polys : forall l i G C P, Forall small_rings l ->
    run W (flat_mapi (ev_polygon multi false) i l) (mkGw G C (Some P) None None) =
    (mkGw G C (Some (P ++ map poly_of l)) None None, Ok tt).
  Proof.
    induction l as [|r l IH]; intros i G C P H; cbn [flat_mapi run map].
    - rewrite app_nil_r. reflexivity.
    - inversion H; subst. rewrite run_app, run_poly by assumption. rewrite IH by assumption.
      rewrite <- app_assoc. reflexivity.
  Qed.

  Definition go_events := fix go (i : nat) (l : list geom) : list event :=
    match l with [] => [] | a :: r => gevents multi i a ++ go (S i) r end.
  Lemma go_flat : forall l i, go_events i l = flat_mapi (gevents multi) i l.
  Proof. induction l; intros i; cbn; [reflexivity|]. rewrite <- IHl. reflexivity. Qed.

  Lemma written : forall g, plain g = true -> small g -> forall idx G C,
    run W (gevents multi idx g) (mkGw G C None None None) =
    finish_geometry (mkGw G C None None None) (value_of g).
  Proof.
    induction g as [c| |l|l|l|r|l|l IH|l|l|l|l|l|l|l|l] using geom_ind'; intros PL SM idx G C; try discriminate PL;
      cbn [small] in SM.
    - cbn [gevents]. cbn [run]. cbn [p_step W geo_writer geo_step is_none g_coords]. rewrite assert_none.
      unfold set_coords. cbn [g_geoms g_coll g_polys g_lines].
      change (geo_step debug) with (p_step W). rewrite step_coord.
      cbn. rewrite assert_none. destruct C; reflexivity.
    - cbn [gevents]. cbn [run app]. cbn [p_step W geo_writer geo_step is_none g_coords]. rewrite assert_none.
      unfold reserve, coord_size. rewrite (fits_vec _ 16 l) by exact SM. unfold set_coords.
      cbn [g_geoms g_coll g_polys g_lines]. unfold ev_coords. rewrite run_app.
      rewrite run_coords. cbn. destruct C; reflexivity.
    - cbn [gevents]. unfold ev_line, ev_coords. cbn [run app]. rewrite step_line by exact SM.
      rewrite run_app, run_coords. cbn. destruct C; reflexivity.
    - destruct SM as [S1 S2]. cbn [gevents]. cbn [run app].
      cbn [p_step W geo_writer geo_step is_none g_lines]. rewrite assert_none.
      unfold reserve, linestring_size. rewrite (fits_vec _ 24 l) by exact S1. unfold set_lines.
      cbn [g_geoms g_coll g_polys g_coords]. rewrite run_app, run_lines by exact S2. cbn.
      destruct C; reflexivity.
    - cbn [gevents]. rewrite run_poly by exact SM. reflexivity.
    - destruct SM as [S1 S2]. cbn [gevents]. cbn [run app].
      cbn [p_step W geo_writer geo_step is_none g_polys]. rewrite assert_none.
      unfold reserve, polygon_size. rewrite (fits_vec _ 48 l) by exact S1. unfold set_polys.
      cbn [g_geoms g_coll g_lines g_coords]. rewrite run_app, run_polys by exact S2. cbn.
      destruct C; reflexivity.
    - destruct SM as [S1 S2]. cbn [gevents]. change (fix go (i : nat) (l0 : list geom) {struct l0} : list event :=
        match l0 with [] => [] | a :: r => gevents multi i a ++ go (S i) r end) with go_events.
      cbn [run app]. cbn [p_step W geo_writer geo_step]. unfold geometry_size.
      rewrite (fits_vec _ 56 l) by exact S1. unfold set_coll. cbn [g_geoms g_coll g_polys g_lines g_coords].
      assert (M : forall c i, run W (go_events i l) (mkGw G (c :: C) None None None) =
                  (mkGw G ((c ++ map value_of l) :: C) None None None, Ok tt)).
      { clear S1. cbn [plain] in PL. induction l as [|a r IHr]; intros c i; cbn [go_events run map].
        - rewrite app_nil_r. reflexivity.
        - inversion IH as [|? ? Ha Hr]; subst. cbn in PL. apply andb_prop in PL. destruct PL as [P1 P2].
          destruct S2 as [Sa Sr]. change (gevents multi i a ++ _) with (gevents multi i a ++ go_events (S i) r).
          rewrite run_app, Ha by assumption. cbn. unfold set_coll. cbn.
          rewrite (IHr Hr P2 Sr), <- app_assoc. reflexivity. }
      rewrite run_app, M. cbn. destruct C; reflexivity.
  Qed.

  Lemma written_list : forall l i G, forallb plain l = true -> Forall small l ->
    run W (flat_mapi (gevents multi) i l) (mkGw G [] None None None) =
    (mkGw (G ++ map value_of l) [] None None None, Ok tt).
  Proof.
    induction l as [|g l IH]; intros i G P S; cbn [flat_mapi run map].
    - rewrite app_nil_r. reflexivity.
    - cbn in P. apply andb_prop in P. destruct P as [P1 P2]. inversion S; subst.
      rewrite run_app, written by assumption. cbn [finish_geometry g_coll g_geoms g_polys g_lines g_coords].
      rewrite IH by assumption. rewrite <- app_assoc. reflexivity.
  Qed.
End Write.

Lemma take_joined : forall l, l <> [] ->
  take_geometry (mkGw (map value_of l) [] None None None) = (gw_init, Some (joined l)).
Proof. intros [|a [|b l]] H; [contradiction|reflexivity|reflexivity]. Qed.

(** several top level geometries in a row *)
Lemma collected_geo : forall debug l, forallb plain l = true -> Forall small l -> l <> [] ->
  exists s, run (geo_writer debug) (flat_mapi (gevents false) 0 l) gw_init = (s, Ok tt) /\
            take_geometry s = (gw_init, Some (joined l)).
Proof.
  intros debug l P S H. eexists. split.
  - exact (written_list debug l 0 [] P S).
  - apply take_joined. exact H.
Qed.

Lemma to_geo_delivers : forall debug src g r, plain g = true -> small g ->
  delivers src (fun multi => gevents multi 0 g) (Ok r) ->
  to_geo debug src = Ok (value_of g).
Proof.
  intros debug src g r P S D. unfold to_geo. change (src xy_dims) with (src (p_dims (geo_writer debug))).
  rewrite D. unfold gw_init. rewrite written by assumption. reflexivity.
Qed.

Lemma to_geo_several : forall debug src l r, forallb plain l = true -> Forall small l -> l <> [] ->
  delivers src (fun multi => flat_mapi (gevents multi) 0 l) (Ok r) ->
  to_geo debug src = Ok (joined l).
Proof.
  intros debug src l r P S N D. unfold to_geo. change (src xy_dims) with (src (p_dims (geo_writer debug))).
  rewrite D. destruct (collected_geo debug l P S N) as (s & H & T).
  change (multi_dim (p_dims (geo_writer debug))) with false.
  rewrite H, T. reflexivity.
Qed.

(** with an SRID callback in front, as the WKB readers make *)
Lemma to_geo_srid : forall debug src z g r, plain g = true -> small g ->
  delivers src (fun multi => Srid z :: gevents multi 0 g) (Ok r) ->
  to_geo debug src = Ok (value_of g).
Proof.
  intros debug src z g r P S D. unfold to_geo. change (src xy_dims) with (src (p_dims (geo_writer debug))).
  rewrite D. cbn [run p_step geo_writer geo_step default_step].
  change (geo_step debug) with (p_step (geo_writer debug)).
  unfold gw_init. rewrite written by assumption. reflexivity.
Qed.

(** ** The reader *)
Section GtInd.
  Variable P : gt -> Prop.
  Hypothesis HPoint : forall p, P (TPoint p).
  Hypothesis HLine : forall a b, P (TLine a b).
  Hypothesis HLineString : forall l, P (TLineString l).
  Hypothesis HPolygon : forall p, P (TPolygon p).
  Hypothesis HMultiPoint : forall l, P (TMultiPoint l).
  Hypothesis HMultiLineString : forall l, P (TMultiLineString l).
  Hypothesis HMultiPolygon : forall l, P (TMultiPolygon l).
  Hypothesis HCollection : forall l, Forall P l -> P (TCollection l).
  Hypothesis HRect : forall a b, P (TRect a b).
  Hypothesis HTriangle : forall a b c, P (TTriangle a b c).
  Fixpoint gt_ind' (g : gt) : P g :=
    match g with
    | TPoint p => HPoint p
    | TLine a b => HLine a b
    | TLineString l => HLineString l
    | TPolygon p => HPolygon p
    | TMultiPoint l => HMultiPoint l
    | TMultiLineString l => HMultiLineString l
    | TMultiPolygon l => HMultiPolygon l
    | TCollection l =>
        HCollection l ((fix go (l : list gt) : Forall P l :=
          match l with [] => Forall_nil P | a :: r => Forall_cons a (gt_ind' a) (go r) end) l)
    | TRect a b => HRect a b
    | TTriangle a b c => HTriangle a b c
    end.
End GtInd.

Section Read.
  Variable rect : pos -> pos -> poly.
  Variable tri : pos -> pos -> pos -> poly.
  Variable multi : bool.

  Lemma coord_calls : forall idx p, t_coord multi idx p = ok_calls [ev_coord multi idx (at_xy p)].
  Proof. intros idx p. unfold t_coord, ev_coord. destruct multi; reflexivity. Qed.
  Lemma mapi_map : forall A B C (f : nat -> B -> C) (g : A -> B) l i,
    mapi f i (map g l) = mapi (fun i a => f i (g a)) i l.
  Proof. induction l; intros; cbn; [reflexivity|]. rewrite IHl. reflexivity. Qed.
  Lemma flat_mapi_map : forall A B C (f : nat -> B -> list C) (g : A -> B) l i,
    flat_mapi f i (map g l) = flat_mapi (fun i a => f i (g a)) i l.
  Proof. induction l; intros; cbn; [reflexivity|]. rewrite IHl. reflexivity. Qed.
  Lemma coords_calls : forall l i, pfor (t_coord multi) i l = ok_calls (mapi (ev_coord multi) i (map at_xy l)).
  Proof.
    intros l i. rewrite mapi_map.
    apply (pfor_mapi _ (t_coord multi) (fun i p => ev_coord multi i (at_xy p))).
    intros. apply coord_calls.
  Qed.
  Lemma line_calls : forall tagged idx l, t_linestring multi tagged idx l = ok_calls (ev_line multi tagged idx (tree_line l)).
  Proof.
    intros tagged idx l. unfold t_linestring, ev_line, ev_coords, tree_line. rewrite coords_calls, !pcall_calls, !pthen_calls.
    rewrite map_length. reflexivity.
  Qed.
  Lemma shift_lines : forall l i,
    flat_mapi (fun i l => ev_line multi false (i + 1) (tree_line l)) i l =
    flat_mapi (ev_line multi false) (S i) (map tree_line l).
  Proof.
    induction l as [|a l IH]; intros i; cbn; [reflexivity|]. rewrite IH, Nat.add_1_r. reflexivity.
  Qed.
  Lemma poly_calls : forall tagged idx p, t_polygon multi tagged idx p = ok_calls (ev_polygon multi tagged idx (tree_poly p)).
  Proof.
    intros tagged idx [e l]. unfold t_polygon, ev_polygon, tree_poly. cbn [fst snd length flat_mapi].
    rewrite line_calls.
    rewrite (pfor_calls _ _ (fun i l => ev_line multi false (i + 1) (tree_line l))) by (intros; apply line_calls).
    rewrite !pcall_calls, !pthen_calls, shift_lines, map_length, Nat.add_1_r, <- app_assoc. reflexivity.
  Qed.
  Lemma geom_calls : forall g idx, t_geom rect tri multi idx g = ok_calls (gevents multi idx (tree rect tri g)).
  Proof.
    induction g as [p|a b|l|p|l|l|l|l IH|a b|a b c] using gt_ind'; intros idx; cbn [t_geom tree gevents].
    - rewrite coord_calls, !pcall_calls, !pthen_calls. reflexivity.
    - rewrite !coord_calls, !pcall_calls, !pthen_calls. reflexivity.
    - apply line_calls.
    - apply poly_calls.
    - rewrite coords_calls, !pcall_calls, !pthen_calls, map_length. reflexivity.
    - rewrite (pfor_calls _ _ (fun i l => ev_line multi false i (tree_line l))) by (intros; apply line_calls).
      rewrite !pcall_calls, !pthen_calls, flat_mapi_map, map_length. reflexivity.
    - rewrite (pfor_calls _ _ (fun i l => ev_polygon multi false i (tree_poly l))) by (intros; apply poly_calls).
      rewrite !pcall_calls, !pthen_calls, flat_mapi_map, map_length. reflexivity.
    - match goal with |- pthen _ (pthen (?f 0%nat l) _) = _ => set (F := f) end.
      match goal with |- context [(?f 0%nat (map _ l)) ++ _] => set (E := f) end.
      assert (M : forall i, F i l = ok_calls (E i (map (tree rect tri) l))).
      { induction l as [|a r IHr]; intros i; [reflexivity|]. inversion IH; subst.
        change (F i (a :: r)) with (pthen (t_geom rect tri multi i a) (F (S i) r)).
        rewrite H1, IHr by assumption. rewrite pthen_calls. reflexivity. }
      rewrite M, !pcall_calls, !pthen_calls, map_length. reflexivity.
    - apply poly_calls.
    - apply poly_calls.
  Qed.

  Lemma line_back : forall l, line_of (tree_line l) = l.
  Proof. intros l. unfold line_of, tree_line. rewrite map_map. induction l as [|[x y] l IH]; cbn; [reflexivity|]. rewrite IH. reflexivity. Qed.
  Lemma ring_back : forall l, closed_ring l -> ring_of (tree_line l) = l.
  Proof.
    intros l H. unfold ring_of. rewrite line_back. destruct l as [|a l]; [reflexivity|].
    destruct H as [H1 H2]. rewrite H1, H2. reflexivity.
  Qed.
  Lemma poly_back : forall p, closed_poly p -> poly_of (tree_poly p) = p.
  Proof.
    intros [e l] [H1 H2]. cbn [fst snd] in *. unfold tree_poly, poly_of. cbn [fst snd]. rewrite ring_back by exact H1. f_equal.
    rewrite map_map. induction H2 as [|a r Ha Hr IH]; [reflexivity|]. cbn. rewrite ring_back by exact Ha. rewrite IH. reflexivity.
  Qed.
  Lemma value_back : forall g, closed rect tri g -> value_of (tree rect tri g) = normal rect tri g.
  Proof.
    induction g as [p|a b|l|p|l|l|l|l IH|a b|a b c] using gt_ind'; intros H; cbn [tree value_of normal].
    - destruct p; reflexivity.
    - rewrite line_back. reflexivity.
    - rewrite line_back. reflexivity.
    - rewrite poly_back by exact H. reflexivity.
    - rewrite map_map. f_equal. induction l as [|[x y] l IH]; cbn; [reflexivity|]. rewrite IH by exact I. reflexivity.
    - rewrite map_map. f_equal. induction l as [|x l IH]; cbn; [reflexivity|]. rewrite IH by exact I. rewrite line_back. reflexivity.
    - rewrite map_map. f_equal. cbn in H. induction H as [|x r Hx Hr IH]; [reflexivity|]. cbn [map]. rewrite IH, poly_back by exact Hx. reflexivity.
    - rewrite map_map. f_equal. cbn [closed] in H. induction l as [|a r IHr]; [reflexivity|]. inversion IH; subst. destruct H as [Ha Hr].
      cbn. rewrite H2 by exact Ha. rewrite IHr by assumption. reflexivity.
    - rewrite poly_back by exact H. reflexivity.
    - rewrite poly_back by exact H. reflexivity.
  Qed.
  Lemma tree_plain : forall g, plain (tree rect tri g) = true.
  Proof.
    induction g as [p|a b|l|p|l|l|l|l IH|a b|a b c] using gt_ind'; try reflexivity. cbn.
    induction IH; cbn; [reflexivity|]. rewrite H. assumption.
  Qed.
End Read.

Lemma geo_delivers : forall rect tri g,
  delivers (geo_process rect tri g) (fun multi => gevents multi 0 (tree rect tri g)) (Ok tt).
Proof.
  intros rect tri g S p s. unfold geo_process. rewrite geom_calls. unfold ok_calls. rewrite exec_calls.
  destruct (run p _ s) as [s' [[]|x]]; reflexivity.
Qed.

Lemma geo_round_trip : forall rect tri debug g, closed rect tri g -> small (tree rect tri g) ->
  to_geo debug (geo_process rect tri g) = Ok (normal rect tri g).
Proof.
  intros rect tri debug g C S. rewrite <- (value_back rect tri g C).
  exact (to_geo_delivers debug _ _ tt (tree_plain rect tri g) S (geo_delivers rect tri g)).
Qed.

(** ** Features *)
Section Features.
  Variable debug : bool.
  (** the writer is given positions by [xy]: it does not ask for z and m *)
  Local Notation multi := false.
  Notation FW := (feature_writer debug).

  Definition geom_event (e : event) : bool := negb (is_feature (OEv e)).
  Lemma geo_delegates : forall l w ps fs, forallb geom_event l = true ->
    feed FW (map OEv l) (mkGf w ps fs) =
    (mkGf (fst (run (geo_writer debug) l w)) ps fs, snd (run (geo_writer debug) l w)).
  Proof.
    induction l as [|e l IH]; intros w ps fs H; [reflexivity|]. cbn [forallb] in H. apply andb_prop in H. destruct H as [H1 H2].
    cbn [map feed run].
    assert (X : p_step FW (mkGf w ps fs) e =
                (mkGf (fst (geo_step debug w e)) ps fs, snd (geo_step debug w e))).
    { destruct e; try discriminate H1; cbn [p_step FW feature_writer feature_step f_writer f_props f_features];
        destruct (geo_step _ _ _); reflexivity. }
    rewrite X. cbn [p_step geo_writer]. destruct (geo_step debug w e) as [w' [[]|x]]; cbn [fst snd]; [apply IH; exact H2|reflexivity].
  Qed.

  Lemma mapi_geom : forall l i, forallb geom_event (mapi (ev_coord multi) i l) = true.
  Proof. induction l; intros i; cbn; [reflexivity|]. rewrite IHl. reflexivity. Qed.
  Lemma flat_geom : forall A (f : nat -> A -> list event) l i, (forall i a, forallb geom_event (f i a) = true) ->
    forallb geom_event (flat_mapi f i l) = true.
  Proof. intros A f l i H. revert i. induction l; intros i; cbn; [reflexivity|]. rewrite forallb_app, H, IHl. reflexivity. Qed.
  Lemma line_geom : forall t i l, forallb geom_event (ev_line multi t i l) = true.
  Proof. intros. unfold ev_line, ev_coords. cbn. rewrite forallb_app, mapi_geom. reflexivity. Qed.
  Lemma poly_geom : forall t i l, forallb geom_event (ev_polygon multi t i l) = true.
  Proof. intros. unfold ev_polygon. cbn. rewrite forallb_app, flat_geom by (intros; apply line_geom). reflexivity. Qed.
  Lemma plain_geom : forall g i, plain g = true -> forallb geom_event (gevents multi i g) = true.
  Proof.
    induction g as [c| |l|l|l|r|l|l IH|l|l|l|l|l|l|l|l] using geom_ind'; intros i PL; try discriminate PL; cbn [gevents].
    - reflexivity.
    - cbn. unfold ev_coords. rewrite forallb_app, mapi_geom. reflexivity.
    - apply line_geom.
    - cbn. rewrite forallb_app, flat_geom by (intros; apply line_geom). reflexivity.
    - apply poly_geom.
    - cbn. rewrite forallb_app, flat_geom by (intros; apply poly_geom). reflexivity.
    - cbn [plain] in PL. cbn. rewrite forallb_app. change (forallb geom_event [CollectionEnd i]) with true. rewrite andb_true_r.
      match goal with |- forallb _ (?f _ _) = _ => set (E := f) end. generalize 0%nat.
      induction l as [|a r IHr]; intros k; [reflexivity|]. inversion IH; subst. cbn in PL. apply andb_prop in PL. destruct PL.
      change (E k (a :: r)) with (gevents multi k a ++ E (S k) r). rewrite forallb_app, H1, IHr by assumption. reflexivity.
  Qed.

  Lemma put_get : forall m k v n, get (put m k v) n = if String.eqb n k then Some v else get m n.
  Proof.
    induction m as [|[k' v'] m IH]; intros k v n; cbn.
    - destruct (String.eqb n k); reflexivity.
    - destruct (String.eqb_spec k k') as [->|N]; cbn.
      + destruct (String.eqb n k'); reflexivity.
      + rewrite IH. destruct (String.eqb_spec n k'), (String.eqb_spec n k); try reflexivity. congruence.
  Qed.
  Lemma put_keys : forall m k v q, In q (map fst (put m k v)) <-> q = k \/ In q (map fst m).
  Proof.
    induction m as [|[k' v'] m IH]; intros k v q; cbn.
    - intuition.
    - destruct (String.eqb_spec k k') as [->|N]; cbn; [intuition|]. rewrite IH. intuition.
  Qed.
  Lemma put_nodup : forall m k v, NoDup (map fst m) -> NoDup (map fst (put m k v)).
  Proof.
    induction m as [|[k' v'] m IH]; intros k v H; cbn.
    - constructor; [intros []|constructor].
    - inversion H; subst. destruct (String.eqb_spec k k') as [->|N]; cbn; constructor; auto.
      rewrite put_keys. intros [->|X]; [congruence|contradiction].
  Qed.
  Definition put_all (l : list (nat * string * colval)) (m : props) : props :=
    fold_left (fun m q => put m (snd (fst q)) (snd q)) l m.
  Lemma put_all_get : forall l m n, get (put_all l m) n =
    match last_value l n with Some v => Some v | None => get m n end.
  Proof.
    unfold last_value. induction l as [|q l IH] using rev_ind; intros m n; [reflexivity|].
    unfold put_all. rewrite fold_left_app. cbn [fold_left]. rewrite put_get, rev_app_distr. cbn [rev app find].
    rewrite String.eqb_sym. destruct (String.eqb (snd (fst q)) n); [reflexivity|]. apply IH.
  Qed.
  Lemma put_all_nodup : forall l m, NoDup (map fst m) -> NoDup (map fst (put_all l m)).
  Proof. induction l; intros m H; cbn; [exact H|]. apply IHl, put_nodup, H. Qed.

  Lemma feed_props : forall l w m fs,
    feed FW (map (fun q => OProp (fst (fst q)) (snd (fst q)) (snd q)) l) (mkGf w (Some m) fs) =
    (mkGf w (Some (put_all l m)) fs, Ok tt).
  Proof. induction l as [|q l IH]; intros; [reflexivity|]. cbn. apply IH. Qed.

  Definition made (f : ftr) : gt * props := (joined (snd f), put_all (fst f) []).

  Lemma feed_feature : forall i f fs, forallb plain (snd f) = true -> Forall small (snd f) -> snd f <> [] ->
    feed FW (feature_obs multi i f) (mkGf gw_init None fs) = (mkGf gw_init None (fs ++ [made f]), Ok tt).
  Proof.
    intros i [pl gl] fs P S N. cbn [fst snd] in *. unfold feature_obs. cbn [fst snd].
    cbn [feed]. cbn [p_step FW feature_writer feature_step no_geoms f_writer gw_init g_geoms f_props is_none].
    unfold f_assert. rewrite !andb_false_r. cbn [feed f_writer f_features]. cbn [p_step FW feature_writer feature_step].
    change (mkGw [] [] None None None) with gw_init.
    rewrite feed_app, feed_props. cbn [feed]. cbn [p_step FW feature_writer feature_step no_geoms f_writer gw_init g_geoms f_props].
    unfold f_assert. rewrite andb_false_r. change (mkGw [] [] None None None) with gw_init.
    rewrite feed_app, geo_delegates.
    2:{ apply forallb_forall. intros e He. revert He. generalize 0%nat. clear N S. induction gl as [|g gl IH]; intros k He; [destruct He|].
        cbn in P. apply andb_prop in P. destruct P as [P1 P2]. cbn in He. apply in_app_or in He. destruct He as [He|He].
        - exact (proj1 (forallb_forall _ _) (plain_geom g k P1) e He).
        - exact (IH P2 _ He). }
    pose proof (written_list debug gl 0 [] P S) as Wr. change (mkGw [] [] None None None) with gw_init in Wr.
    rewrite Wr. cbn [fst snd app]. cbn [feed]. cbn [p_step FW feature_writer feature_step f_writer].
    rewrite take_joined by exact N. reflexivity.
  Qed.

  Definition good (f : ftr) : Prop := forallb plain (snd f) = true /\ Forall small (snd f) /\ snd f <> [].
  Lemma feed_features : forall l i fs, Forall good l ->
    feed FW (flat_mapi (feature_obs multi) i l) (mkGf gw_init None fs) = (mkGf gw_init None (fs ++ map made l), Ok tt).
  Proof.
    induction l as [|f l IH]; intros i fs H; cbn [flat_mapi map].
    - rewrite app_nil_r. reflexivity.
    - inversion H as [|? ? [A [B C]] Hl]; subst. rewrite feed_app, feed_feature by assumption.
      rewrite IH by assumption. rewrite <- app_assoc. reflexivity.
  Qed.
  Lemma feed_dataset : forall l name, Forall good l ->
    feed FW (dataset_obs multi name l) gf_init = (mkGf gw_init None (map made l), Ok tt).
  Proof.
    intros l name H. unfold dataset_obs. cbn [feed]. cbn [p_step FW feature_writer feature_step].
    unfold gf_init. rewrite feed_app, feed_features by exact H. reflexivity.
  Qed.
End Features.
