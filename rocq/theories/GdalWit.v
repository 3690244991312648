(** Witnesses for the GDAL claims. *)
From Coq Require Import String Ascii.
From Coq Require Import List NArith ZArith Lia Bool.
From Coq Require Import Init.Byte.
From Verif Require Import Base Event Claims Geom GdalModel GdalSpec GdalTop GdalMore.
From Verif Require WkbModel WkbSpec WkbClaims GeoSpec.
Import ListNotations.
Local Open Scope N_scope.
Local Open Scope list_scope.

Definition oline (l : list pt) : og := Og OLineString true false l [].
Definition oarc (l : list pt) : og := Og OCircularString true false l [].
Definition some_og : og :=
  Og OCollection true false []
    [Og OPoint true false [(1, 2, 3)] []; Og OMultiPoint false false [] [Og OPoint false false [] []];
     Og OCurvePolygon true false [] [Og OCompoundCurve true false [] [oline [(0, 0, 0); (1, 0, 0)]; oarc [(1, 0, 0); (2, 1, 0); (0, 0, 0)]]];
     Og OTin true false [] [Og OTriangle true false [] [oline [(0, 0, 0); (1, 0, 0); (1, 1, 0); (0, 0, 0)]]]].
Definition p3 (x y z : f64) : coord := mkC x y (Some z) None.
Lemma some_og_met :
  tree (fill (7, 8, 0) some_og) = Some (GCollection [GPoint (p3 1 2 3); GMultiPoint [p3 7 8 0];
    GCurvePolygon [CvCompound [SegLine [p3 0 0 0; p3 1 0 0]; SegArc [p3 1 0 0; p3 2 1 0; p3 0 0 0]]];
    GTin [[[p3 0 0 0; p3 1 0 0; p3 1 1 0; p3 0 0 0]]]]).
Proof. reflexivity. Qed.
Definition plain_og : og := Og OPolygon false false [] [Og OLineString false false [(0, 0, 0); (1, 0, 0); (1, 1, 0); (0, 0, 0)] []].
Lemma plain_og_met : exists t, tree (fill zero_pt plain_og) = Some t /\ GeoSpec.plain t = true /\ GeoSpec.small t.
Proof.
  eexists. split; [reflexivity|]. split; [reflexivity|]. cbn. unfold GeoSpec.small_rings, GeoSpec.fits. cbn.
  split; [lia|]. constructor; [cbn; lia|constructor].
Qed.
(** a polygon with an arc as ring *)
Definition odd_og : og := Og OCollection false false [] [Og OPolygon false false [] [oarc [(0, 0, 0)]]].
Lemma odd_og_met : tree (fill zero_pt odd_og) = None /\ surfaces_ok odd_og.
Proof. split; [reflexivity|]. cbn. auto. Qed.
(** a line as patch of a polyhedral surface is delivered as a polygon without rings *)
Definition bad_surface : og := Og OPolyhedralSurface false false [] [Og OLineString false false [(0, 0, 0); (1, 1, 0)] []].
Lemma bad_surface_read : forall S (p : proc S) s,
  exec p (gdal_process zero_pt bad_surface (p_dims p)) s = run p (gevents (dz (p_dims p)) 0 (GPolyhedralSurface [[]])) s.
Proof.
  intros S p s. unfold gdal_process. cbn.
  destruct (p_step p s _) as [s1 [u|x]]; [|reflexivity]. destruct (p_step p s1 _) as [s2 [u2|x]]; [|reflexivity].
  destruct (p_step p s2 _) as [s3 [u3|x]]; [|reflexivity]. destruct (p_step p s3 _) as [s4 [[]|x]]; reflexivity.
Qed.
Lemma bad_surface_met : tree bad_surface = None.
Proof. reflexivity. Qed.
Lemma m_only_plain :
  ~ delivers (gdal_process zero_pt plain_og) (fun multi => gevents multi 0 (GPolygon [[p3 0 0 0; p3 1 0 0; p3 1 1 0; p3 0 0 0]])) (Ok tt).
Proof. intros H. specialize (H _ (recorder xym_dims false) []). vm_compute in H. discriminate H. Qed.

Definition some_geom : geom := GMultiPolygon [[[p3 0 0 5; p3 1 0 6; p3 1 1 7; p3 0 0 8]; []]; []].
Lemma some_geom_met : simple some_geom = true /\ short_geom some_geom /\ positions some_geom <> [] /\
  gvalue true some_geom = Og OMultiPolygon true true []
    [Og OPolygon true true [] [Og OLineString true true [(0, 0, 5); (1, 0, 6); (1, 1, 7); (0, 0, 8)] []; Og OLineString true true [] []];
     Og OPolygon true true [] []] /\
  delivers (said some_geom) (fun multi => gevents multi 0 some_geom) (Ok tt).
Proof.
  split; [reflexivity|]. split; [|split; [discriminate|split; [reflexivity|apply said_delivers]]].
  cbn. constructor; [|constructor; [|constructor]]; unfold short; repeat (constructor; [cbn; lia|]); constructor.
Qed.
Lemma measures_lost : gvalue true (GPoint (mkC 1 2 (Some 3) (Some 4))) = gvalue true (GPoint (mkC 1 2 (Some 3) None)).
Proof. reflexivity. Qed.
(** bytes with which reading uses freed memory, and bytes with which it panics *)
Definition p2 (x y : f64) : coord := mkC x y None None.
Definition bytes_of (g : geom) : list byte :=
  WkbClaims.std WkbModel.Wkb xy_dims None [] xy_dims false false WkbClaims.little g.
Lemma freed_bytes : exists b, gdal_from_wkb WkbModel.Wkb b = Err undefined /\
  b = bytes_of (dangling [[p2 0 0; p2 1 0; p2 1 1; p2 0 0]] (p2 3 3) []).
Proof. eexists. split; [|reflexivity]. vm_compute. reflexivity. Qed.
Lemma panic_bytes : exists b, gdal_from_wkb WkbModel.Wkb b = Err EPanic /\
  b = bytes_of (GCollection [GMultiPolygon []; GCompoundCurve [SegLine [p2 0 0; p2 1 0]]]).
Proof. eexists. split; [|reflexivity]. vm_compute. reflexivity. Qed.
