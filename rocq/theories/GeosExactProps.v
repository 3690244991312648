(** Property C54: what GeosWriter makes of every geometry.  Specification vocabulary: Claims.v, Geom.v,
    GeosSpec.v, GeosExactSpec.v.  Model: GeosModel.v. *)
From Coq Require Import String Ascii.
From Coq Require Import List NArith ZArith Lia Bool.
From Verif Require Import Base Event Claims Geom GeosModel GeosSpec GeosExactSpec GeosExact.
From Verif Require WkbModel WkbSpec WkbClaims.
Import ListNotations.
Local Open Scope N_scope.
Local Open Scope list_scope.

(** All kinds of geometry, nested to any depth: the value is the last part GEOS knows, or an empty
    point if there is none; an error exactly if a part is refused. *)
Theorem C54_exact : forall lib, sane lib -> forall src l g r,
  delivers src (fun multi => l ++ gevents multi 0 g) (Ok r) -> srids l -> Forall short_piece (pieces g) ->
  (pass lib None (pieces g) = true -> to_geos lib src = Ok (left_of (pieces g) (last_srid None l))) /\
  (pass lib None (pieces g) = false -> exists e, to_geos lib src = Err e /\
     (e = EGeometry \/ e = geos_error \/ e = out_of_range lib)).
Proof. exact geos_exact. Qed.
Print Assumptions C54_exact.
(** the same from WKB of any dialect *)
Theorem C54_from_wkb_exact : forall lib, sane lib -> forall dl d srid env ed ext emp o g tail,
  WkbSpec.encodable g -> (WkbSpec.levels g <= 128)%nat -> WkbClaims.srid_ok dl srid ->
  WkbClaims.env_ok dl ed env -> WkbClaims.order_ok dl o ->
  let g' := WkbSpec.retained (dz d) (dm d) g in Forall short_piece (pieces g') ->
  let r := geos_from_wkb lib dl (WkbClaims.std dl d srid env ed ext emp o g ++ tail) in
  (pass lib None (pieces g') = true -> r = Ok (left_of (pieces g') (WkbClaims.reported_srid dl srid))) /\
  (pass lib None (pieces g') = false -> exists e, r = Err e /\
     (e = EGeometry \/ e = geos_error \/ e = out_of_range lib)).
Proof. exact geos_wkb_exact. Qed.
Print Assumptions C54_from_wkb_exact.
(** the GEOS value of the geometry comes out exactly for these *)
Theorem C54_faithful_exact : forall lib, sane lib -> forall src l g r,
  delivers src (fun multi => l ++ gevents multi 0 g) (Ok r) -> srids l -> Forall short_piece (pieces g) ->
  ((exists v, to_geos lib src = Ok v /\ v_geom v = gvalue g) <-> simple g = true /\ accepted lib g = true).
Proof. exact geos_faithful. Qed.
Print Assumptions C54_faithful_exact.
Definition at_ (x y : f64) : coord := mkC x y None None.
(** an arc after a triangle passes and leaves no trace, one position more and it is refused *)
Example C54_exact_met :
  let tri := GTin [[[at_ 0 0; at_ 1 0; at_ 0 1; at_ 0 0]]] in
  let mixed n := GCollection [GPoint (at_ 5 6); GCollection [tri; GCircularString (repeat (at_ 7 8) n)]] in
  sane sample_lib /\ Forall short_piece (pieces (mixed 4%nat)) /\
  pass sample_lib None (pieces (mixed 4%nat)) = true /\
  left_of (pieces (mixed 4%nat)) (Some 7%Z) = mkVal (KPoint (Flat [(5, 6)])) 7%Z /\
  pass sample_lib None (pieces (mixed 5%nat)) = false.
Proof.
  cbn zeta. repeat split; try reflexivity; try (repeat constructor; reflexivity); unfold sane; cbn; try discriminate.
Qed.
