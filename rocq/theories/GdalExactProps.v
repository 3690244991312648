(** Property C56: what GdalWriter makes of every geometry.  Specification vocabulary: Claims.v, Geom.v,
    GdalSpec.v, GeosExactSpec.v (the parts of a geometry), GdalExactSpec.v.  Model: GdalModel.v. *)
From Coq Require Import String Ascii.
From Coq Require Import List NArith ZArith Lia Bool.
From Verif Require Import Base Event Claims Geom GdalModel GdalSpec GdalTop GeosExactSpec GdalExactSpec GdalExact.
From Verif Require WkbModel WkbSpec WkbClaims.
Import ListNotations.
Local Open Scope N_scope.
Local Open Scope list_scope.

(** All kinds of geometry, nested to any depth: the value is what is held after the last part. *)
Theorem C56_exact : forall src l g (r : unit), srids l -> Forall short_piece (pieces g) ->
  delivers src (fun multi => l ++ gevents multi 0 g) (Ok r) ->
  to_gdal src = match takes (pieces g) start with Ok h => Ok (held_value h) | Err e => Err e end.
Proof. exact gdal_exact. Qed.
Print Assumptions C56_exact.
Theorem C56_from_wkb_exact : forall dl d srid env ed ext emp o g tail,
  WkbSpec.encodable g -> (WkbSpec.levels g <= 128)%nat -> WkbClaims.srid_ok dl srid ->
  WkbClaims.env_ok dl ed env -> WkbClaims.order_ok dl o ->
  let g' := WkbSpec.retained (dz d) (dm d) g in Forall short_piece (pieces g') ->
  gdal_from_wkb dl (WkbClaims.std dl d srid env ed ext emp o g ++ tail) =
  match takes (pieces g') start with Ok h => Ok (held_value h) | Err e => Err e end.
Proof. exact gdal_wkb_exact. Qed.
Print Assumptions C56_from_wkb_exact.
(** no collection, curve, surface or TIN ever comes out *)
Theorem C56_kinds_exact : forall src l g (r : unit) v, srids l -> Forall short_piece (pieces g) ->
  delivers src (fun multi => l ++ gevents multi 0 g) (Ok r) -> to_gdal src = Ok v ->
  In (o_kind v) [OPoint; OMultiPoint; OLineString; OMultiLineString; OPolygon; OMultiPolygon].
Proof. exact gdal_kind. Qed.
Print Assumptions C56_kinds_exact.
Definition at_ (x y : f64) : coord := mkC x y None None.
(** the polygon of a surface and the ring of a curve polygon that follow a multi polygon become parts of it,
    and an arc then overwrites the beginning of that ring *)
Example C56_exact_met :
  let g := GCollection [GMultiPolygon [[[at_ 1 1; at_ 2 2]]];
             GCollection [GPolyhedralSurface [[[at_ 3 3]]]; GCurvePolygon [CvLine [at_ 4 4; at_ 5 5]; CvArc [at_ 6 6]]]] in
  Forall short_piece (pieces g) /\
  takes (pieces g) start = Ok (mkHeld (Some (GMultiPolygon [[[at_ 1 1; at_ 2 2]]; [[at_ 3 3]; [at_ 6 6; at_ 5 5]]])) (Ring 1 1)) /\
  delivers (said g) (fun multi => gevents multi 0 g) (Ok tt).
Proof.
  cbn zeta. split; [repeat constructor; unfold short; cbn; discriminate|]. split; [reflexivity|apply said_delivers].
Qed.
