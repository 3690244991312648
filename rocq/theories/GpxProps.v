(** C42: GPX.  Read with: GpxSpec.v ([well_announced]: announced sizes are the numbers of members and
    members are numbered consecutively; [tidy]; [gpx_geom]), Claims.v ([delivers]). *)
From Coq Require Import List NArith ZArith Lia Bool.
From Verif Require Import Base Event Claims Geom WkbModel GpxModel GpxSpec GpxTop.
Import ListNotations.
Local Open Scope list_scope.

(** C42.  Documents without empty tracks, segments or routes and with at most one route are
    delivered as the collection of their waypoints, tracks and route. *)
Theorem C42_geometry_partial : forall g, tidy g ->
  delivers (fun _ => read_gpx (Some g)) (fun _ => gevents false 0 (gpx_geom g)) (Ok tt).
Proof. exact read_tidy. Qed.
Print Assumptions C42_geometry_partial.
Example C42_met : tidy hike.
Proof. exact hike_tidy. Qed.
(** Every geometry in the documented form is announced correctly, so the next theorem is about
    something the documented form grants. *)
Theorem C42_grammar : forall multi g, well_announced (gevents multi 0 g).
Proof. exact grammar_announced. Qed.
Print Assumptions C42_grammar.
(** For all other documents the announced sizes or the indices are wrong. *)
Theorem C42_exactly_tidy : forall g l,
  delivers (fun _ => read_gpx (Some g)) (fun _ => l) (Ok tt) -> (well_announced l <-> tidy g).
Proof. exact stream_iff. Qed.
Print Assumptions C42_exactly_tidy.
Example C42_exactly_tidy_met : forall g, delivers (fun _ => read_gpx (Some g)) (fun _ => gpx_events g) (Ok tt).
Proof. exact read_any. Qed.
Theorem C42_geometry_exactly_tidy : forall g,
  (exists t, delivers (fun _ => read_gpx (Some g)) (fun _ => gevents false 0 t) (Ok tt)) <-> tidy g.
Proof. exact geometry_iff. Qed.
Print Assumptions C42_geometry_exactly_tidy.
(** Two routes converted to WKB: the result cannot be read. *)
Theorem C42_two_routes_refuted : exists b,
  to_wkb_dialect (fun _ => read_gpx (Some two_routes)) Wkb xy_dims None [] = Ok b /\
  snd (observe (process_wkb_type_geom Wkb xy_dims b)) = Err EIo.
Proof. exact two_routes_wkb. Qed.
Print Assumptions C42_two_routes_refuted.
Theorem C42_syntax_error : delivers (fun _ => read_gpx None) (fun _ => []) (Err EGeometry).
Proof. exact gpx_error. Qed.
Print Assumptions C42_syntax_error.
