(** Proofs: exactly which geometries come back from GeoWriter. *)
From Coq Require Import String Ascii.
From Coq Require Import List NArith ZArith Lia Bool.
From Verif Require Import Base BaseLemmas Float Event EventLemmas Claims Geom ProcModel ProcSpec ProcTop GeoModel GeoSpec GeoTop.
Import ListNotations.
Local Open Scope N_scope.
Local Open Scope list_scope.

Definition N_le_dec (a b : N) : {a <= b} + {~ a <= b}.
Proof. destruct (a <=? b) eqn:E; [left|right]; [apply N.leb_le|apply N.leb_nle]; exact E. Defined.
Lemma fits_dec : forall A b (l : list A), {fits b l} + {~ fits b l}.
Proof. intros A b l. unfold fits. destruct (N_le_dec (N.of_nat (length l) * b) 16777216); [left|right]; assumption. Qed.
(** below 2^64 elements the reservation of a list that does not fit is refused; longer lists fail
    as well because the product saturates *)
Lemma unfit_vec : forall A elt (l : list A), ~ fits elt l -> bounded_vec elt (N.of_nat (length l)) = Err EGeometry.
Proof.
  intros A elt l H. unfold fits in H. unfold bounded_vec, validate_capacity, saturating_mul, max_prealloc_bytes.
  change (16 * 1024 * 1024) with 16777216. change (2 ^ 64 - 1) with 18446744073709551615.
  destruct (N.ltb_spec 16777216 (N.min (N.of_nat (length l) * elt) 18446744073709551615)); [reflexivity|lia].
Qed.

Section Refused.
  Variable debug : bool.
  (** the writer is given positions by [xy]: it does not ask for z and m *)
  Local Notation multi := false.
  Notation W := (geo_writer debug).
  Definition refused (r : gw * res unit) : Prop := snd r = Err EGeometry.

  Lemma refused_app : forall l l' s, refused (run W l s) -> refused (run W (l ++ l') s).
  Proof. intros l l' s H. unfold refused in *. rewrite run_app. destruct (run W l s) as [s' [[]|e]]; [discriminate|exact H]. Qed.
  Lemma refused_line : forall t l idx s, g_coords s = None -> ~ fits 16 l -> refused (run W (ev_line multi t idx l) s).
  Proof.
    intros t l idx s Hs H. unfold ev_line. cbn [run app]. cbn [p_step W geo_writer geo_step]. rewrite Hs. cbn [is_none].
    rewrite assert_none. unfold reserve, coord_size. rewrite unfit_vec by exact H. reflexivity.
  Qed.
  Lemma refused_lines : forall r i G C P L, ~ Forall (fits 16) r ->
    refused (run W (flat_mapi (ev_line multi false) i r) (mkGw G C P (Some L) None)).
  Proof.
    induction r as [|l r IH]; intros i G C P L H; [destruct H; constructor|]. cbn [flat_mapi].
    destruct (fits_dec _ 16 l) as [F|F].
    - rewrite run_app, run_line by exact F. apply IH. intros X. apply H. constructor; assumption.
    - apply refused_app, refused_line; [reflexivity|exact F].
  Qed.
  Lemma rings_dec : forall r : rings, {Forall (fits 16) r} + {~ Forall (fits 16) r}.
  Proof. intros r. apply Forall_dec. intros l. apply fits_dec. Qed.
  Lemma small_rings_dec : forall r, {small_rings r} + {~ small_rings r}.
  Proof.
    intros r. unfold small_rings. destruct (fits_dec _ 24 r) as [F|F]; [|right; tauto].
    destruct (rings_dec r); [left|right]; tauto.
  Qed.
  Lemma refused_poly : forall t r idx G C P, ~ small_rings r ->
    refused (run W (ev_polygon multi t idx r) (mkGw G C P None None)).
  Proof.
    intros t r idx G C P H. unfold ev_polygon. cbn [run app].
    destruct (fits_dec _ 24 r) as [F|F].
    - rewrite step_poly by exact F. apply refused_app, refused_lines. intros X. apply H. split; assumption.
    - cbn [p_step W geo_writer geo_step g_lines is_none]. rewrite assert_none. unfold reserve, linestring_size.
      rewrite unfit_vec by exact F. reflexivity.
  Qed.
  Lemma refused_polys : forall l i G C P, ~ Forall small_rings l ->
    refused (run W (flat_mapi (ev_polygon multi false) i l) (mkGw G C (Some P) None None)).
  Proof.
    induction l as [|r l IH]; intros i G C P H; [destruct H; constructor|]. cbn [flat_mapi].
    destruct (small_rings_dec r) as [F|F].
    - rewrite run_app, run_poly by exact F. apply IH. intros X. apply H. constructor; assumption.
    - apply refused_app, refused_poly. exact F.
  Qed.
  Lemma small_dec : forall g, {small g} + {~ small g}.
  Proof.
    fix IH 1. intros [c| |l|l|l|r|l|l|l|l|l|l|l|l|l|l]; cbn [small]; try (left; exact I).
    - apply fits_dec.
    - apply fits_dec.
    - destruct (fits_dec _ 24 l); [|right; tauto]. destruct (rings_dec l); [left|right]; tauto.
    - apply small_rings_dec.
    - destruct (fits_dec _ 48 l); [|right; tauto]. destruct (Forall_dec _ small_rings_dec l); [left|right]; tauto.
    - destruct (fits_dec _ 56 l) as [F|F]; [|right; tauto].
      assert (D : {(fix all l := match l with [] => True | a :: r => small a /\ all r end) l} +
                  {~ (fix all l := match l with [] => True | a :: r => small a /\ all r end) l}).
      { clear F. induction l as [|a r IHr]; [left; exact I|]. destruct (IH a), IHr; [left|right|right|right]; tauto. }
      destruct D; [left|right]; tauto.
  Defined.

  Lemma refused_geom : forall g, plain g = true -> ~ small g -> forall idx G C,
    refused (run W (gevents multi idx g) (mkGw G C None None None)).
  Proof.
    induction g as [c| |l|l|l|r|l|l IH|l|l|l|l|l|l|l|l] using geom_ind'; intros PL SM idx G C; try discriminate PL;
      cbn [small] in SM; cbn [gevents].
    - tauto.
    - cbn [run app]. cbn [p_step W geo_writer geo_step is_none g_coords]. rewrite assert_none.
      unfold reserve, coord_size. rewrite unfit_vec by exact SM. reflexivity.
    - apply refused_line; [reflexivity|exact SM].
    - cbn [run app]. cbn [p_step W geo_writer geo_step is_none g_lines]. rewrite assert_none.
      unfold reserve, linestring_size. destruct (fits_dec _ 24 l) as [F|F].
      + rewrite (fits_vec _ 24 l) by exact F. unfold set_lines. cbn [g_geoms g_coll g_polys g_coords].
        apply refused_app, refused_lines. tauto.
      + rewrite unfit_vec by exact F. reflexivity.
    - apply refused_poly. exact SM.
    - cbn [run app]. cbn [p_step W geo_writer geo_step is_none g_polys]. rewrite assert_none.
      unfold reserve, polygon_size. destruct (fits_dec _ 48 l) as [F|F].
      + rewrite (fits_vec _ 48 l) by exact F. unfold set_polys. cbn [g_geoms g_coll g_lines g_coords].
        apply refused_app, refused_polys. tauto.
      + rewrite unfit_vec by exact F. reflexivity.
    - change (fix go (i : nat) (l0 : list geom) {struct l0} : list event :=
        match l0 with [] => [] | a :: r => gevents multi i a ++ go (S i) r end) with go_events.
      cbn [run app]. cbn [p_step W geo_writer geo_step]. unfold geometry_size.
      destruct (fits_dec _ 56 l) as [F|F].
      2:{ rewrite unfit_vec by exact F. reflexivity. }
      rewrite (fits_vec _ 56 l) by exact F. unfold set_coll. cbn [g_geoms g_coll g_polys g_lines g_coords].
      apply refused_app.
      assert (SM' : ~ (fix all l := match l with [] => True | a :: r => small a /\ all r end) l) by tauto.
      clear SM F. cbn [plain] in PL. generalize 0%nat. generalize (@nil gt).
      induction l as [|a r IHr]; intros c k; [tauto|]. inversion IH as [|? ? Ha Hr]; subst.
      cbn in PL. apply andb_prop in PL. destruct PL as [P1 P2].
      change (go_events k (a :: r)) with (gevents multi k a ++ go_events (S k) r).
      destruct (small_dec a) as [F|F].
      + rewrite run_app, (written debug a P1 F). cbn [finish_geometry g_coll set_coll].
        unfold set_coll. cbn [g_geoms g_polys g_lines g_coords]. apply (IHr Hr P2). tauto.
      + apply refused_app, Ha; assumption.
  Qed.
End Refused.

(** the writer's answer for every geometry of the seven types *)
Lemma to_geo_all : forall debug src g r, plain g = true ->
  delivers src (fun multi => gevents multi 0 g) (Ok r) ->
  (small g /\ to_geo debug src = Ok (value_of g)) \/ (~ small g /\ to_geo debug src = Err EGeometry).
Proof.
  intros debug src g r P D. destruct (small_dec g) as [S|S].
  - left. split; [exact S|]. exact (to_geo_delivers debug src g r P S D).
  - right. split; [exact S|]. unfold to_geo. change (src xy_dims) with (src (p_dims (geo_writer debug))). rewrite D.
    pose proof (refused_geom debug g P S 0%nat [] []) as R. unfold refused in R.
    change (mkGw [] [] None None None) with gw_init in R. destruct (run _ _ _) as [s q]. cbn [snd] in R. rewrite R. reflexivity.
Qed.

Lemma ring_open : forall l, ring_of (tree_line l) = l -> closed_ring l.
Proof.
  intros l H. unfold ring_of in H. rewrite line_back in H. destruct l as [|a l]; [exact I|]. cbn [closed_ring].
  destruct (f64_eqb (fst a) (fst (last (a :: l) a))); cbn [andb] in H.
  - destruct (f64_eqb (snd a) (snd (last (a :: l) a))); [split; reflexivity|].
    apply (f_equal (@length _)) in H. rewrite app_length in H. cbn in H. lia.
  - apply (f_equal (@length _)) in H. rewrite app_length in H. cbn in H. lia.
Qed.
Lemma poly_open : forall p, poly_of (tree_poly p) = p -> closed_poly p.
Proof.
  intros [e l] H. unfold tree_poly, poly_of in H. cbn [fst snd] in H. injection H as H1 H2.
  split; [exact (ring_open _ H1)|]. cbn [snd]. rewrite map_map in H2. clear H1. induction l as [|a l IH]; [constructor|].
  cbn [map] in H2. injection H2 as H2 H3. constructor; [exact (ring_open _ H2)|exact (IH H3)].
Qed.
Lemma value_open : forall rect tri g, value_of (tree rect tri g) = normal rect tri g -> closed rect tri g.
Proof.
  intros rect tri. induction g as [p|a b|l|p|l|l|l|l IH|a b|a b c] using gt_ind'; intros H;
    cbn [tree value_of normal closed] in *; try exact I.
  - injection H as H. apply poly_open. exact H.
  - injection H as H. rewrite map_map in H. induction l as [|a l IH]; [constructor|]. cbn [map] in H. injection H as H1 H2.
    constructor; [exact (poly_open _ H1)|exact (IH H2)].
  - injection H as H. rewrite map_map in H. induction l as [|a l IHl]; [exact I|]. cbn [map] in H. injection H as H1 H2.
    inversion IH; subst. split; [auto|]. apply IHl; assumption.
  - injection H as H. apply poly_open. exact H.
  - injection H as H. apply poly_open. exact H.
Qed.

Lemma geo_round_trip_iff : forall rect tri debug g,
  to_geo debug (geo_process rect tri g) = Ok (normal rect tri g) <-> closed rect tri g /\ small (tree rect tri g).
Proof.
  intros rect tri debug g. split.
  - intros H. destruct (to_geo_all debug _ _ tt (tree_plain rect tri g) (geo_delivers rect tri g)) as [[S E]|[S E]].
    + split; [|exact S]. rewrite E in H. injection H as H. apply value_open. exact H.
    + rewrite E in H. discriminate.
  - intros [C S]. now apply geo_round_trip.
Qed.
