(** The multiplexer and the geometry view on every sequence of callbacks (helper lemmas for C29, C31). *)
From Coq Require Import String Ascii.
From Coq Require Import List NArith ZArith Lia Bool.
From Verif Require Import Base Float Event EventLemmas Claims Geom ProcModel ProcSpec ProcTop ProcExactSpec.
Import ListNotations.
Local Open Scope list_scope.

Lemma before_full : forall l, existsb is_empty_point (before_empty l) = false.
Proof. induction l as [|o l IH]; cbn; [reflexivity|]. destruct (is_empty_point o) eqn:E; cbn; [reflexivity|]. now rewrite E. Qed.
Lemma before_same : forall l, existsb is_empty_point l = false -> before_empty l = l.
Proof. induction l as [|o l IH]; cbn; [reflexivity|]. destruct (is_empty_point o); [discriminate|]. intros H. f_equal. now apply IH. Qed.
Lemma before_split : forall l, existsb is_empty_point l = true ->
  exists i r, l = before_empty l ++ OEv (EmptyPoint i) :: r.
Proof.
  induction l as [|o l IH]; cbn; [discriminate|]. destruct (is_empty_point o) eqn:E.
  - intros _. destruct o as [[]|]; try discriminate E. cbn. eauto.
  - intros H. destruct (IH H) as (i & r & Hr). exists i, r. cbn. now rewrite <- Hr.
Qed.

Section Mux.
  Context {S1 S2 : Type}.
  Variable p1 : proc S1.
  Variable p2 : proc S2.
  Notation mx := (multiplexer p1 p2).
  Lemma mux_empty : forall l s, existsb is_empty_point l = true ->
    feed mx l s = match feed mx (before_empty l) s with (t, Ok _) => (t, Err EGeometry) | (t, Err x) => (t, Err x) end.
  Proof.
    intros l s H. destruct (before_split l H) as (i & r & E). rewrite E at 1. rewrite feed_app.
    destruct (feed mx (before_empty l) s) as [t [[]|x]]; reflexivity.
  Qed.
  Lemma mux_exact : forall l s1 s2 t1 t2,
    feed mx l (s1, s2) = ((t1, t2), Ok tt) <->
    existsb is_empty_point l = false /\
    feed p1 (filter passed l) s1 = (t1, Ok tt) /\ feed p2 (filter passed l) s2 = (t2, Ok tt).
  Proof.
    intros l s1 s2 t1 t2. destruct (existsb is_empty_point l) eqn:E.
    - split; [|intros [H _]; discriminate H]. rewrite (mux_empty l (s1, s2) E).
      destruct (feed mx (before_empty l) (s1, s2)) as [t [u|x]]; discriminate.
    - rewrite (mux_success p1 p2 l s1 s2 t1 t2 E). tauto.
  Qed.
  Lemma mux_errors : forall l s1 s2 t1 t2 x,
    feed mx l (s1, s2) = ((t1, t2), Err x) ->
    (exists l1 o l2 u1 u2, filter passed (before_empty l) = l1 ++ o :: l2 /\
      feed p1 l1 s1 = (u1, Ok tt) /\ feed p2 l1 s2 = (u2, Ok tt) /\
      ((feed p1 [o] u1 = (t1, Err x) /\ (t2 = u2 \/ t2 = fst (feed p2 [o] u2))) \/
       (feed p1 [o] u1 = (t1, Ok tt) /\ feed p2 [o] u2 = (t2, Err x)))) \/
    (x = EGeometry /\ existsb is_empty_point l = true /\
     feed p1 (filter passed (before_empty l)) s1 = (t1, Ok tt) /\ feed p2 (filter passed (before_empty l)) s2 = (t2, Ok tt)).
  Proof.
    intros l s1 s2 t1 t2 x. destruct (existsb is_empty_point l) eqn:E.
    - rewrite (mux_empty l (s1, s2) E). destruct (feed mx (before_empty l) (s1, s2)) as [[v1 v2] [[]|y]] eqn:F; intros H.
      + right. injection H as <- <- <-. split; [reflexivity|]. split; [reflexivity|].
        exact (proj1 (mux_success p1 p2 _ s1 s2 v1 v2 (before_full l)) F).
      + left. injection H as <- <- <-. exact (mux_failure p1 p2 _ s1 s2 v1 v2 y (before_full l) F).
    - rewrite (before_same l E). intros H. left. exact (mux_failure p1 p2 l s1 s2 t1 t2 x E H).
  Qed.
End Mux.

Lemma ds_exact : forall S (p : proc S) l s,
  feed (datasource_geom p) l s =
  match feed p (filter ds_passed (before_empty l)) s with
  | (s', Ok _) => (s', if existsb is_empty_point l then Err EGeometry else Ok tt)
  | (s', Err x) => (s', Err x)
  end.
Proof.
  intros S p l s. destruct (existsb is_empty_point l) eqn:E.
  - destruct (before_split l E) as (i & r & H). rewrite H at 1. rewrite feed_app, (ds_feed p _ s (before_full l)).
    destruct (feed p _ s) as [t [[]|x]]; reflexivity.
  - rewrite (before_same l E), (ds_feed p l s E). destruct (feed p _ s) as [t [[]|x]]; reflexivity.
Qed.
Lemma ds_source_exact : forall S (p : proc S) A (src : dims -> prog A) stream r s,
  delivers src stream r ->
  ds_process_geom p src s =
  match feed p (filter ds_passed (before_empty (map OEv (stream false)))) s with
  | (s', Ok _) => (s', if existsb is_empty_point (map OEv (stream false)) then Err EGeometry else r)
  | (s', Err x) => (s', Err x)
  end.
Proof.
  intros S p A src stream r s H. unfold ds_process_geom. rewrite H.
  change (multi_dim (p_dims (datasource_geom p))) with false.
  rewrite <- feed_run, ds_exact. destruct (feed p _ s) as [s' [u|x]]; [|reflexivity].
  destruct (existsb _ _); reflexivity.
Qed.
