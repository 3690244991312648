(** C84: geometries and attributes do not mix.  Read with: ApartSpec.v ([agree], [same_geometry], [same_attributes] and
    what is looked at).  The streams are any two lists of callbacks that the writer accepts. *)
From Coq Require Import String Ascii.
From Coq Require Import List NArith ZArith Lia Bool.
From Verif Require Import Base Float Event ProcModel Claims ApartSpec ApartTop.
From Verif Require CsvModel GeoModel MvtModel.
Import ListNotations.
Local Open Scope list_scope.

(** The geometries of geo-types features do not depend on properties ... *)
Theorem C84_geo_geometry : forall debug,
  agree (GeoModel.feature_writer debug) GeoModel.gf_init feature_geometries same_geometry.
Proof. exact features_geometry. Qed.
Print Assumptions C84_geo_geometry.
(** with and without a property, which comes before the geometry *)
Example C84_geo_geometry_met : forall debug,
  let l := [OEv (FeatureBegin 0); OProp 0 "a" (CBool true); OEv (PointBegin 0); OEv (Xy 1%N 2%N 0); OEv (PointEnd 0); OEv (FeatureEnd 0)] in
  let l' := [OEv (FeatureBegin 0); OEv (PointBegin 0); OEv (Xy 1%N 2%N 0); OEv (PointEnd 0); OEv (FeatureEnd 0)] in
  same_geometry l l' /\ l <> l' /\
  snd (feed (GeoModel.feature_writer debug) l GeoModel.gf_init) = Ok tt /\
  snd (feed (GeoModel.feature_writer debug) l' GeoModel.gf_init) = Ok tt /\
  feature_geometries (fst (feed (GeoModel.feature_writer debug) l GeoModel.gf_init)) = [GeoModel.TPoint (1%N, 2%N)].
Proof. intros [|]; (repeat split; try reflexivity; discriminate). Qed.
(** ... and their attributes do not depend on geometries. *)
Theorem C84_geo_attributes : forall debug,
  agree (GeoModel.feature_writer debug) GeoModel.gf_init feature_attributes same_attributes.
Proof. exact features_attributes. Qed.
Print Assumptions C84_geo_attributes.
Example C84_geo_attributes_met : forall debug,
  let l := [OEv (FeatureBegin 0); OEv (PointBegin 0); OEv (Xy 1%N 2%N 0); OEv (PointEnd 0); OProp 0 "a" (CBool true); OEv (FeatureEnd 0)] in
  let l' := [OEv (FeatureBegin 0); OProp 0 "a" (CBool true); OEv (MultiPointBegin 0 0); OEv (MultiPointEnd 0); OEv (FeatureEnd 0)] in
  same_attributes l l' /\ l <> l' /\
  snd (feed (GeoModel.feature_writer debug) l GeoModel.gf_init) = Ok tt /\
  snd (feed (GeoModel.feature_writer debug) l' GeoModel.gf_init) = Ok tt /\
  feature_attributes (fst (feed (GeoModel.feature_writer debug) l GeoModel.gf_init)) = [[("a"%string, CBool true)]].
Proof. intros [|]; (repeat split; try reflexivity; discriminate). Qed.
(** The geometry column of CSV output does not depend on properties ... *)
Theorem C84_csv_geometry : forall fmt32 fmt debug d,
  agree (CsvModel.csv_writer fmt32 fmt debug d) CsvModel.csv_init csv_geometries same_geometry.
Proof. exact csv_geometry_column. Qed.
Print Assumptions C84_csv_geometry.
Example C84_csv_geometry_met : forall fmt32 fmt debug d,
  let l := [OEv (FeatureBegin 0); OProp 0 "a" (CBool true); OEv (CollectionBegin 0 0); OEv (CollectionEnd 0); OEv (FeatureEnd 0)] in
  let l' := [OEv (FeatureBegin 0); OEv (CollectionBegin 0 0); OEv (CollectionEnd 0); OEv (FeatureEnd 0)] in
  same_geometry l l' /\ l <> l' /\
  snd (feed (CsvModel.csv_writer fmt32 fmt debug d) l CsvModel.csv_init) = Ok tt /\
  snd (feed (CsvModel.csv_writer fmt32 fmt debug d) l' CsvModel.csv_init) = Ok tt /\
  length (csv_geometries (fst (feed (CsvModel.csv_writer fmt32 fmt debug d) l CsvModel.csv_init))) = 2.
Proof. intros fmt32 fmt [|] d; (repeat split; try reflexivity; discriminate). Qed.
(** ... and the other columns do not depend on geometries. *)
Theorem C84_csv_attributes : forall fmt32 fmt debug d,
  agree (CsvModel.csv_writer fmt32 fmt debug d) CsvModel.csv_init csv_attributes same_attributes.
Proof. exact csv_attribute_columns. Qed.
Print Assumptions C84_csv_attributes.
(** with an empty collection and without any geometry *)
Example C84_csv_attributes_met : forall fmt32 fmt debug d,
  let l := [OEv (FeatureBegin 0); OProp 0 "a" (CBool true); OEv (CollectionBegin 0 0); OEv (CollectionEnd 0); OEv (FeatureEnd 0)] in
  let l' := [OEv (FeatureBegin 0); OProp 0 "a" (CBool true); OEv (FeatureEnd 0)] in
  same_attributes l l' /\ l <> l' /\
  snd (feed (CsvModel.csv_writer fmt32 fmt debug d) l CsvModel.csv_init) = Ok tt /\
  snd (feed (CsvModel.csv_writer fmt32 fmt debug d) l' CsvModel.csv_init) = Ok tt /\
  csv_attributes (fst (feed (CsvModel.csv_writer fmt32 fmt debug d) l CsvModel.csv_init)) = [["a"]; ["true"]]%string.
Proof. intros fmt32 fmt [|] d; (repeat split; try reflexivity; discriminate). Qed.
(** The geometries of tile features do not depend on properties. *)
Theorem C84_mvt_geometry : forall gsize base64 debug c,
  agree (MvtModel.mvt_writer gsize base64 debug c) MvtModel.mw_init tile_geometries same_geometry.
Proof. exact tile_geometry. Qed.
Print Assumptions C84_mvt_geometry.
Example C84_mvt_geometry_met : forall gsize base64 debug c,
  let w := MvtModel.mvt_writer gsize base64 debug c in
  let l := [OEv (FeatureBegin 0); OProp 0 "a" (CBool true); OEv (MultiPointBegin 0 0); OEv (MultiPointEnd 0); OEv (FeatureEnd 0)] in
  let l' := [OEv (FeatureBegin 0); OEv (MultiPointBegin 0 0); OEv (MultiPointEnd 0); OEv (FeatureEnd 0)] in
  same_geometry l l' /\ l <> l' /\
  snd (feed w l MvtModel.mw_init) = Ok tt /\ snd (feed w l' MvtModel.mw_init) = Ok tt /\
  tile_geometries (fst (feed w l MvtModel.mw_init)) = [MvtModel.MMultiPoint []].
Proof. intros gsize base64 [|] c; (repeat split; try reflexivity; discriminate). Qed.
(** The attributes of tile features do not depend on geometries where every feature has one ... *)
Theorem C84_mvt_attributes : forall gsize base64 debug c l l', let w := MvtModel.mvt_writer gsize base64 debug c in
  same_attributes l l' ->
  snd (feed w l MvtModel.mw_init) = Ok tt -> snd (feed w l' MvtModel.mw_init) = Ok tt ->
  length (MvtModel.mw_features (fst (feed w l MvtModel.mw_init))) = ended l ->
  length (MvtModel.mw_features (fst (feed w l' MvtModel.mw_init))) = ended l' ->
  tile_attributes (fst (feed w l MvtModel.mw_init)) = tile_attributes (fst (feed w l' MvtModel.mw_init)).
Proof. exact tile_attribute. Qed.
Print Assumptions C84_mvt_attributes.
Example C84_mvt_attributes_met : forall gsize base64 debug c, let w := MvtModel.mvt_writer gsize base64 debug c in
  let l := [OEv (FeatureBegin 0); OProp 0 "a" (CBool true); OEv (MultiPointBegin 0 0); OEv (MultiPointEnd 0); OEv (FeatureEnd 0)] in
  let l' := [OEv (FeatureBegin 0); OEv (MultiPolygonBegin 0 0); OEv (MultiPolygonEnd 0); OProp 0 "a" (CBool true); OEv (FeatureEnd 0)] in
  same_attributes l l' /\ l <> l' /\
  snd (feed w l MvtModel.mw_init) = Ok tt /\ snd (feed w l' MvtModel.mw_init) = Ok tt /\
  length (MvtModel.mw_features (fst (feed w l MvtModel.mw_init))) = ended l /\
  length (MvtModel.mw_features (fst (feed w l' MvtModel.mw_init))) = ended l' /\
  tile_attributes (fst (feed w l MvtModel.mw_init)) = [[("a"%string, MvtModel.VBool true)]].
Proof. intros gsize base64 [|] c; (repeat split; try reflexivity; discriminate). Qed.
(** ... but a feature without a geometry is dropped, its attributes with it. *)
Theorem C84_mvt_attributes_refuted : forall gsize base64 debug c,
  ~ agree (MvtModel.mvt_writer gsize base64 debug c) MvtModel.mw_init tile_attributes same_attributes.
Proof. exact tile_attribute_refuted. Qed.
Print Assumptions C84_mvt_attributes_refuted.
