(** Closing lemmas and witnesses for C65 and C66. *)
From Coq Require Import String Ascii.
From Coq Require Import List NArith ZArith Lia Bool.
From Verif Require Import Base Event Geom ProcModel WkbModel WktModel GeoJsonModel SvgModel CsvModel GeoModel
  GeosModel GdalModel GpxModel MvtModel ShpModel ShpSpec ShpMore OrdSpec OrdTop OrdSame.
Import ListNotations.
Local Open Scope list_scope.

(** what arrives at a processor that asks for [d] and accepts everything *)
Definition arriving {A} (d : dims) (src : dims -> prog A) : list event :=
  received (recorder d true) (src d) [].
Lemma refused_form : forall A f (src : dims -> prog A) d, ~ Forall (form (f d)) (arriving d src) -> ~ gives f src.
Proof. intros A f src d H G. apply H. exact (G _ (recorder d true) []). Qed.

(** a processor that asks for times only *)
Definition t_dims : dims := mkDims false false true false.
(** a point with measure, a way point *)
Definition tall_point : gg := KPoint (GeosModel.Tall [(1, 2, 3)%N]).
Definition ogr_point : og := Og OPoint false true [(1, 2, 0)%N] [].
Definition stop_by : gpx := mkGpx [(1, 2)%N] [] [].

Lemma gpx_form_refuted : ~ gives multi_dim (fun _ => read_gpx (Some stop_by)).
Proof.
  apply (refused_form _ _ _ xyz_dims). intros H. vm_compute in H.
  inversion_clear H as [|? ? _ H1]. inversion_clear H1 as [|? ? _ H2]. inversion_clear H2 as [|? ? [H3 _] _]. discriminate H3.
Qed.
Lemma geos_form_refuted : ~ gives multi_dim (geos_process tall_point).
Proof.
  apply (refused_form _ _ _ xym_dims). intros H. vm_compute in H.
  inversion_clear H as [|? ? _ H1]. inversion_clear H1 as [|? ? [H3 _] _]. discriminate H3.
Qed.
Lemma gdal_form_refuted : forall missing, ~ gives multi_dim (gdal_process missing ogr_point).
Proof.
  intros missing. apply (refused_form _ _ _ xym_dims). intros H. vm_compute in H.
  inversion_clear H as [|? ? _ H1]. inversion_clear H1 as [|? ? [H3 _] _]. discriminate H3.
Qed.

Lemma only_weaken : forall A (P Q : event -> Prop) (g : prog A), (forall e, P e -> Q e) -> only P g -> only Q g.
Proof. intros A P Q g H. induction g as [r|e k IH|e k IH|i n v k IH]; cbn; intros; intuition. Qed.
Section Shp.
  Context {S : Type}.
  Variable ck : bool.
  Variable leftover : list Byte.byte -> list Byte.byte.
  Variable p : proc S.
  Notation d := (p_dims p).
  Lemma log_of_shapes : forall (P : event -> Prop) n it s, (forall e, shp_form d e -> P e) ->
    Forall P (snd (snd (fst (shapes ck leftover (logged p) n it (s, []))))).
  Proof.
    intros P n it s H. apply good_shapes; [|constructor].
    intros b. exact (only_weaken _ _ _ _ H (shape_only ck d b)).
  Qed.
  Lemma log_of_features : forall (P : event -> Prop) n it s, (forall e, shp_form d e -> P e) ->
    Forall P (snd (snd (fst (features ck leftover (logged p) n it (s, []))))).
  Proof.
    intros P n it s H. apply good_features; [| |constructor].
    - intros b. exact (only_weaken _ _ _ _ H (shape_only ck d b)).
    - intros e H1 H2. apply H, shp_other; assumption.
  Qed.
End Shp.

Lemma bounds_flat : flat_minded bounds_proc.
Proof. intros s x y z m t tm i. reflexivity. Qed.
Lemma shadows_flat : flat_minded shadows.
Proof. intros s x y z m t tm i. reflexivity. Qed.

(** what a processor asking for measures gets from a point with height and measure *)
Definition high_wkt : wkt := WPoint (Some (mkC 1 2 (Some 3) (Some 4)))%N.
Definition high_json : gjgeom := GjPoint [1; 2; 3]%N.
Lemma unasked_wkt : ~ Forall (modest xym_dims) (arriving xym_dims (process_wkt_geom high_wkt)).
Proof.
  intros H. apply Forall_forall with (x := Coord 1%N 2%N (Some 3)%N (Some 4)%N None None 0) in H; [|vm_compute; tauto].
  destruct H as [H _]. discriminate (H eq_refl).
Qed.
Lemma unasked_json : ~ Forall (modest xym_dims) (arriving xym_dims (fun d => read_geojson_geom (multi_dim d) (Ok (GjGeometry high_json)))).
Proof.
  intros H. apply Forall_forall with (x := Coord 1%N 2%N (Some 3)%N (None)%N None None 0) in H; [|vm_compute; tauto].
  destruct H as [H _]. discriminate (H eq_refl).
Qed.
