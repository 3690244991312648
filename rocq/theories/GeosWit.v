(** Witnesses for the GEOS claims. *)
From Coq Require Import String Ascii.
From Coq Require Import List NArith ZArith Lia Bool.
From Coq Require Import Init.Byte.
From Verif Require Import Base Event Claims Geom GeosModel GeosSpec GeosTop GeosMore.
From Verif Require WkbModel GeoSpec.
Import ListNotations.
Local Open Scope N_scope.
Local Open Scope list_scope.

Definition some_value : gg :=
  KCollection [KPoint (Tall [(1, 2, 3)]); KMultiPoint [Flat [(4, 5)]; Flat [(6, 7)]];
               KPolygon (Flat [(0, 0); (1, 0); (1, 1); (0, 0)]) [Flat []]; KCollection []].
Lemma some_value_met : filled some_value /\ GeoSpec.small (gtree some_value) /\
  gtree some_value = GCollection [GPoint (mkC 1 2 (Some 3) None); GMultiPoint [mkC 4 5 None None; mkC 6 7 None None];
    GPolygon [[mkC 0 0 None None; mkC 1 0 None None; mkC 1 1 None None; mkC 0 0 None None]; []]; GCollection []].
Proof.
  split; [|split; [|reflexivity]].
  - cbn. split; [eexists; reflexivity|]. split; [|auto].
    constructor; [eexists; reflexivity|]. constructor; [eexists; reflexivity|constructor].
  - cbn. unfold GeoSpec.small_rings, GeoSpec.fits. cbn. repeat split; try lia; repeat (constructor; [cbn; lia|]); try constructor.
Qed.
Lemma empty_unreadable : exists b,
  WkbModel.to_wkb_dialect (geos_process empty_point) WkbModel.Wkb xy_dims None [] = Ok b /\ length b = 5%nat /\
  forall d, observe (WkbModel.process_wkb_type_geom WkbModel.Wkb d b) = ([OEv (Srid None)], Err EIo).
Proof.
  eexists. split; [vm_compute; reflexivity|]. split; [reflexivity|]. intros d. vm_compute. reflexivity.
Qed.
Definition measured : gg := KLineString (Flat [(0, 0); (1, 1)]).
Lemma measured_plain :
  ~ delivers (geos_process measured) (fun multi => gevents multi 0 (gtree measured)) (Ok tt).
Proof.
  intros H. specialize (H _ (recorder xym_dims false) []). vm_compute in H. discriminate H.
Qed.
Definition some_polygon : geom :=
  GPolygon [[mkC 0 0 None None; mkC 1 0 (Some 5) None; mkC 1 1 None None; mkC 0 0 None None]; []].
Lemma some_polygon_met : sane sample_lib /\ simple some_polygon = true /\ short_geom some_polygon /\
  accepted sample_lib some_polygon = true /\
  gvalue some_polygon = KPolygon (Flat [(0, 0); (1, 0); (1, 1); (0, 0)]) [Flat []] /\
  two_dim (gvalue some_polygon) /\ filled (gvalue some_polygon).
Proof.
  split; [unfold sane; cbn; lia|]. split; [reflexivity|].
  split; [cbn; unfold short_rings, short; cbn; split; [lia|repeat (constructor; [cbn; lia|]); constructor]|].
  split; [reflexivity|]. split; [reflexivity|]. split; [|exact I].
  cbn. split; [eexists; reflexivity|]. constructor; [eexists; reflexivity|constructor].
Qed.
Lemma capacity_panics : forall lib n i s, 2 ^ 63 <= N.of_nat n * seq_bytes lib ->
  geos_step lib s (MultiLineStringBegin n i) = (s, Err EPanic).
Proof.
  intros lib n i s H. cbn [geos_step]. unfold capacity_ok.
  destruct (N.ltb_spec (N.of_nat n * seq_bytes lib) (2 ^ 63)) as [L|L]; [exfalso; apply (N.lt_irrefl (2 ^ 63)); eapply N.le_lt_trans; eassumption|reflexivity].
Qed.
