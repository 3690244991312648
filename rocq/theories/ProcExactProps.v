(** Properties C29 and C31: the multiplexer and the geometry view on every sequence of callbacks.
    Specification vocabulary: Claims.v, ProcSpec.v, ProcExactSpec.v.  Model: ProcModel.v. *)
From Coq Require Import String Ascii.
From Coq Require Import List NArith ZArith Lia Bool.
From Verif Require Import Base Event Claims Geom ProcModel ProcSpec ProcTop ProcExactSpec ProcExact.
Import ListNotations.
Local Open Scope list_scope.

(** Success means: no empty point, and both processors succeed with what is passed on. *)
Theorem C29_exact : forall S1 S2 (p1 : proc S1) (p2 : proc S2) l s1 s2 t1 t2,
  feed (multiplexer p1 p2) l (s1, s2) = ((t1, t2), Ok tt) <->
  existsb is_empty_point l = false /\
  feed p1 (filter passed l) s1 = (t1, Ok tt) /\ feed p2 (filter passed l) s2 = (t2, Ok tt).
Proof. exact @mux_exact. Qed.
Print Assumptions C29_exact.
(** An error is that of one of the processors at the first callback one of them refuses, or an empty point
    before which both accepted everything. *)
Theorem C29_errors_exact : forall S1 S2 (p1 : proc S1) (p2 : proc S2) l s1 s2 t1 t2 x,
  feed (multiplexer p1 p2) l (s1, s2) = ((t1, t2), Err x) ->
  (exists l1 o l2 u1 u2, filter passed (before_empty l) = l1 ++ o :: l2 /\
    feed p1 l1 s1 = (u1, Ok tt) /\ feed p2 l1 s2 = (u2, Ok tt) /\
    ((feed p1 [o] u1 = (t1, Err x) /\ (t2 = u2 \/ t2 = fst (feed p2 [o] u2))) \/
     (feed p1 [o] u1 = (t1, Ok tt) /\ feed p2 [o] u2 = (t2, Err x)))) \/
  (x = EGeometry /\ existsb is_empty_point l = true /\
   feed p1 (filter passed (before_empty l)) s1 = (t1, Ok tt) /\ feed p2 (filter passed (before_empty l)) s2 = (t2, Ok tt)).
Proof. exact @mux_errors. Qed.
Print Assumptions C29_errors_exact.
Definition around : list obs :=
  [OEv (DatasetBegin None); OEv (CollectionBegin 2 0); OEv (PointBegin 0); OEv (Xy 1%N 2%N 0); OEv (PointEnd 0);
   OEv (EmptyPoint 1); OEv (CollectionEnd 0); OEv DatasetEnd].
Example C29_exact_met : forall d,
  feed (multiplexer (recorder d false) (recorder d false)) around ([], []) =
  (([OEv (DatasetBegin None); OEv (PointBegin 0); OEv (Xy 1%N 2%N 0); OEv (PointEnd 0)],
    [OEv (DatasetBegin None); OEv (PointBegin 0); OEv (Xy 1%N 2%N 0); OEv (PointEnd 0)]), Err EGeometry) /\
  exists t1 t2, feed (multiplexer (recorder d false) (recorder d false)) (before_empty around) ([], []) = ((t1, t2), Ok tt).
Proof. intros d. split; [reflexivity|]. eexists. eexists. reflexivity. Qed.

(** The geometry view gives the processor the geometry callbacks before the first empty point. *)
Theorem C31_exact : forall S (p : proc S) l s,
  feed (datasource_geom p) l s =
  match feed p (filter ds_passed (before_empty l)) s with
  | (s', Ok _) => (s', if existsb is_empty_point l then Err EGeometry else Ok tt)
  | (s', Err x) => (s', Err x)
  end.
Proof. exact ds_exact. Qed.
Print Assumptions C31_exact.
Theorem C31_source_exact : forall S (p : proc S) A (src : dims -> prog A) stream r s,
  delivers src stream r ->
  ds_process_geom p src s =
  match feed p (filter ds_passed (before_empty (map OEv (stream false)))) s with
  | (s', Ok _) => (s', if existsb is_empty_point (map OEv (stream false)) then Err EGeometry else r)
  | (s', Err x) => (s', Err x)
  end.
Proof. exact ds_source_exact. Qed.
Print Assumptions C31_source_exact.
Example C31_exact_met : forall d,
  feed (datasource_geom (recorder d false)) around [] =
  ([OEv (PointBegin 0); OEv (Xy 1%N 2%N 0); OEv (PointEnd 0)], Err EGeometry).
Proof. reflexivity. Qed.
