(** The documented callback sequence of a geometry is never a proper prefix of another one. *)
From Coq Require Import List NArith ZArith Lia Bool.
From Verif Require Import Base Event EventLemmas Geom GeoJsonWrite.
Import ListNotations.
Local Open Scope list_scope.

(** what follows the first complete geometry; [d]: containers open *)
Fixpoint cut (d : nat) (l : list event) : list event :=
  match l with
  | [] => []
  | e :: r =>
      match level_change e, d with
      | 1%Z, _ => cut (S d) r
      | (-1)%Z, S (S d') => cut (S d') r
      | (-1)%Z, _ => r
      | _, O => r
      | _, _ => cut d r
      end
  end.
(** the callbacks [l] leave the containers outside as they are *)
Definition skips (l : list event) : Prop := forall d r, cut (S d) (l ++ r) = cut (S d) r.
Definition whole (l : list event) : Prop := skips l /\ forall r, cut 0 (l ++ r) = r.

Lemma skips_app : forall l1 l2, skips l1 -> skips l2 -> skips (l1 ++ l2).
Proof. intros l1 l2 H1 H2 d r. now rewrite <- app_assoc, H1. Qed.
Lemma skips_flat : forall A (f : nat -> A -> list event) l i,
  (forall k a, In a l -> skips (f k a)) -> skips (flat_mapi f i l).
Proof.
  induction l as [|a l IH]; intros i H; cbn [flat_mapi]; [intros d r; reflexivity|].
  apply skips_app; [apply H; now left|]. apply IH. intros; apply H; now right.
Qed.
Lemma whole_wrap : forall b e l, level_change b = 1%Z -> level_change e = (-1)%Z -> skips l ->
  whole (b :: l ++ [e]).
Proof.
  intros b e l Hb He Hl. split.
  - intros d r. cbn [app cut]. rewrite Hb, <- app_assoc, Hl. cbn [app cut]. now rewrite He.
  - intros r. cbn [app cut]. rewrite Hb, <- app_assoc, Hl. cbn [app cut]. now rewrite He.
Qed.
Lemma skips_coord : forall multi k c, skips [ev_coord multi k c].
Proof. intros [] k c d r; reflexivity. Qed.
Lemma skips_coords : forall multi l, skips (ev_coords multi l).
Proof.
  intros. unfold ev_coords. generalize 0. induction l as [|c l IH]; intros i; cbn [mapi]; [intros d r; reflexivity|].
  apply (skips_app [_]); [apply skips_coord|apply IH].
Qed.

Section Grammar.
  Variable multi : bool.
  Ltac wrap := apply whole_wrap; [reflexivity|reflexivity|].
  Lemma line_whole : forall t k l, whole (ev_line multi t k l).
  Proof. intros. wrap. apply skips_coords. Qed.
  Lemma arc_whole : forall k l, whole (ev_arc multi k l).
  Proof. intros. wrap. apply skips_coords. Qed.
  Lemma polygon_whole : forall t k l, whole (ev_polygon multi t k l).
  Proof. intros. wrap. apply skips_flat. intros; apply line_whole. Qed.
  Lemma triangle_whole : forall t k l, whole (ev_triangle multi t k l).
  Proof. intros. wrap. apply skips_flat. intros; apply line_whole. Qed.
  Lemma segment_whole : forall k s, whole (ev_segment multi k s).
  Proof. intros k []; [apply line_whole|apply arc_whole]. Qed.
  Lemma compound_whole : forall k l, whole (ev_compound multi k l).
  Proof. intros. wrap. apply skips_flat. intros; apply segment_whole. Qed.
  Lemma curve_whole : forall k c, whole (ev_curve multi k c).
  Proof. intros k []; [apply line_whole|apply arc_whole|apply compound_whole]. Qed.
  Lemma curvepolygon_whole : forall k l, whole (ev_curvepolygon multi k l).
  Proof. intros. wrap. apply skips_flat. intros; apply curve_whole. Qed.
  Lemma surface_whole : forall k c, whole (ev_surface multi k c).
  Proof. intros k []; [apply polygon_whole|apply curvepolygon_whole]. Qed.

  Lemma gevents_whole : forall g k, whole (gevents multi k g).
  Proof.
    induction g using geom_ind'; intros k.
    8: { rewrite collection_events. wrap. apply skips_flat. rewrite Forall_forall in H. intros; now apply H. }
    all: cbn [gevents]; try apply line_whole; try apply polygon_whole; try apply arc_whole; try apply compound_whole;
      try apply curvepolygon_whole; try apply triangle_whole.
    - apply (whole_wrap (PointBegin k) (PointEnd k) [ev_coord multi 0 c]); try reflexivity. apply skips_coord.
    - split; [intros d r; reflexivity|reflexivity].
    - wrap. apply skips_coords.
    - wrap. apply skips_flat. intros; apply line_whole.
    - wrap. apply skips_flat. intros; apply polygon_whole.
    - wrap. apply skips_flat. intros; apply curve_whole.
    - wrap. apply skips_flat. intros; apply surface_whole.
    - wrap. apply skips_flat. intros; apply polygon_whole.
    - wrap. apply skips_flat. intros; apply triangle_whole.
  Qed.
End Grammar.

Lemma gevents_prefix : forall multi i j g h r r',
  gevents multi i g ++ r = gevents multi j h ++ r' -> r = r' /\ gevents multi i g = gevents multi j h.
Proof.
  intros multi i j g h r r' E.
  assert (r = r').
  { rewrite <- (proj2 (gevents_whole multi g i) r), E. apply gevents_whole. }
  subst r'. split; [reflexivity|]. now apply app_inv_tail in E.
Qed.
Lemma gevents_nonempty : forall multi i g, gevents multi i g <> [].
Proof. intros multi i []; discriminate. Qed.

(** a sequence of geometries is the sequence of one geometry only if it has one member *)
Lemma single : forall multi ts t, flat_mapi (gevents multi) 0 ts = gevents multi 0 t -> length ts = 1.
Proof.
  intros multi [|a [|b ts]] t E; cbn [flat_mapi] in E.
  - symmetry in E. now apply gevents_nonempty in E.
  - reflexivity.
  - rewrite <- (app_nil_r (gevents multi 0 t)) in E. apply gevents_prefix in E. destruct E as [E _].
    apply app_eq_nil in E. destruct E as [E _]. now apply gevents_nonempty in E.
Qed.
