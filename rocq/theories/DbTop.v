(** Proofs about database columns (helper lemmas for C52). *)
From Coq Require Import String Ascii.
From Coq Require Import List NArith ZArith Lia Bool.
From Coq Require Import Init.Byte.
From Verif Require Import Base BaseLemmas Event EventLemmas Claims Geom WkbModel WkbSpec WkbClaims WkbReadTop WkbWriteTop WkbTop WkbMore.
From Verif Require Import ProcTop GeoModel GeoSpec GeoTop GeoWkb GeoSafe DbModel DbSpec.
Import ListNotations.
Local Open Scope N_scope.
Local Open Scope list_scope.

(** ** Writing *)
Lemma written_std : forall v g dl, said v g -> srid_ok dl (so_srid v) -> no_empty g -> dl <> SpatiaLite ->
  to_wkb_dialect (so_process v) dl (so_dims v) (so_srid v) [] =
  Ok (std dl (so_dims v) (so_srid v) [] xy_dims false false little g).
Proof.
  intros v g dl (s & r & D & F) R E N. apply (to_wkb_std _ s dl _ _ [] g r D F R E). intros H. contradiction.
Qed.

Lemma pg_column : forall v g, said v g -> srid_ok Ewkb (so_srid v) -> no_empty g ->
  let c := Some (std Ewkb (so_dims v) (so_srid v) [] xy_dims false false little g) in
  pg_sqlx_encode v = Ok c /\ pg_encode v = Ok c.
Proof.
  intros v g D R E c. unfold pg_sqlx_encode, pg_encode. rewrite (written_std v g Ewkb D R E) by discriminate.
  split; reflexivity.
Qed.
Lemma gpkg_column : forall v g, said v g -> srid_ok Geopackage (so_srid v) -> no_empty g ->
  gpkg_encode v = Ok (Some (std Geopackage (so_dims v) (so_srid v) [] xy_dims false false little g)).
Proof.
  intros v g D R E. unfold gpkg_encode. rewrite (written_std v g Geopackage D R E) by discriminate. reflexivity.
Qed.

(** ** Reading back *)
Section Back.
  Variable debug : bool.

  Lemma std_value : forall dl d srid g, dl <> SpatiaLite ->
    encodable g -> (levels g <= 128)%nat -> srid_ok dl srid ->
    plain (retained (dz d) (dm d) g) = true -> small (retained (dz d) (dm d) g) ->
    geo_from_wkb debug dl (std dl d srid [] xy_dims false false little g) = Ok (value_of (retained (dz d) (dm d) g)).
  Proof.
    intros dl d srid g N E L R P S.
    assert (Ho : order_ok dl little) by (destruct dl; reflexivity || exact I).
    assert (He : env_ok dl xy_dims []) by (destruct dl; cbn; auto).
    pose proof (from_wkb_value debug dl d srid [] xy_dims false false little g [] E L R He Ho P S) as H.
    rewrite app_nil_r in H. exact H.
  Qed.
  Lemma pg_back : forall v g, said v g -> srid_ok Ewkb (so_srid v) -> no_empty g ->
    encodable g -> (levels g <= 128)%nat ->
    let g' := retained (dz (so_dims v)) (dm (so_dims v)) g in plain g' = true -> small g' ->
    exists c, pg_sqlx_encode v = Ok c /\ pg_encode v = Ok c /\
      pg_sqlx_decode (geo_from_wkb debug) c = Ok (Some (value_of g')) /\
      pg_decode (geo_from_wkb debug) c = Ok (Some (value_of g')) /\
      pg_sqlx_macro_decode (geo_from_wkb debug) c = Ok (value_of g') /\
      pg_macro_decode (geo_from_wkb debug) c = Ok (value_of g').
  Proof.
    intros v g D R N E L g' P S. destruct (pg_column v g D R N) as [H1 H2].
    eexists. split; [exact H1|]. split; [exact H2|].
    unfold pg_sqlx_decode, pg_decode, pg_sqlx_macro_decode, pg_macro_decode.
    rewrite std_value by (assumption || discriminate). repeat split.
  Qed.
  Lemma gpkg_back : forall v g, said v g -> srid_ok Geopackage (so_srid v) -> no_empty g ->
    encodable g -> (levels g <= 128)%nat ->
    let g' := retained (dz (so_dims v)) (dm (so_dims v)) g in plain g' = true -> small g' ->
    exists c, gpkg_encode v = Ok c /\ gpkg_decode (geo_from_wkb debug) c = Ok (Some (value_of g')).
  Proof.
    intros v g D R N E L g' P S. eexists. split; [exact (gpkg_column v g D R N)|].
    unfold gpkg_decode. rewrite std_value by (assumption || discriminate). reflexivity.
  Qed.

  Lemma geo_said : forall rect tri x, said (geo_source rect tri x) (tree rect tri x).
  Proof. intros rect tri x. exists [], tt. split; [exact (geo_delivers rect tri x)|constructor]. Qed.
  Lemma geo_columns : forall rect tri x,
    let g := tree rect tri x in
    encodable g -> conforming false false g -> (levels g <= 128)%nat -> closed rect tri x -> small g ->
    (exists c, pg_sqlx_encode (geo_source rect tri x) = Ok c /\ pg_encode (geo_source rect tri x) = Ok c /\
       pg_sqlx_decode (geo_from_wkb debug) c = Ok (Some (normal rect tri x)) /\
       pg_decode (geo_from_wkb debug) c = Ok (Some (normal rect tri x))) /\
    (exists c, gpkg_encode (geo_source rect tri x) = Ok c /\
       gpkg_decode (geo_from_wkb debug) c = Ok (Some (normal rect tri x))).
  Proof.
    intros rect tri x g E F L C S.
    pose proof (retained_conforming _ _ _ F) as K. pose proof (conforming_no_empty _ _ _ F) as N.
    pose proof (value_back rect tri x C) as V. fold g in V.
    split.
    - destruct (pg_back (geo_source rect tri x) g (geo_said rect tri x) I N E L) as (c & A1 & A2 & A3 & A4 & _).
      + cbn [so_dims geo_source xy_dims dz dm]. rewrite K. apply tree_plain.
      + cbn [so_dims geo_source xy_dims dz dm]. rewrite K. exact S.
      + cbn [so_dims geo_source xy_dims dz dm] in *. rewrite K, V in *. exists c. auto.
    - destruct (gpkg_back (geo_source rect tri x) g (geo_said rect tri x) I N E L) as (c & A1 & A2).
      + cbn [so_dims geo_source xy_dims dz dm]. rewrite K. apply tree_plain.
      + cbn [so_dims geo_source xy_dims dz dm]. rewrite K. exact S.
      + cbn [so_dims geo_source xy_dims dz dm] in *. rewrite K, V in *. exists c. auto.
  Qed.
End Back.

(** ** Safety *)
Lemma decode_calm : forall debug v,
  pg_sqlx_decode (geo_from_wkb debug) v <> Err EPanic /\ pg_decode (geo_from_wkb debug) v <> Err EPanic /\
  gpkg_decode (geo_from_wkb debug) v <> Err EPanic /\ pg_sqlx_macro_decode (geo_from_wkb debug) v <> Err EPanic /\
  pg_macro_decode (geo_from_wkb debug) v <> Err EPanic /\ gpkg_macro_decode (geo_from_wkb debug) v <> Err EPanic.
Proof.
  intros debug [b|]; [|repeat split; discriminate].
  pose proof (proj1 (from_wkb_no_panic debug Ewkb b)) as He. pose proof (proj1 (from_wkb_no_panic debug Geopackage b)) as Hg.
  unfold pg_sqlx_decode, pg_decode, gpkg_decode, pg_sqlx_macro_decode, pg_macro_decode, gpkg_macro_decode.
  destruct (geo_from_wkb debug Ewkb b) as [x|e]; destruct (geo_from_wkb debug Geopackage b) as [y|e'];
    repeat split; try discriminate; try exact He; try (intros H; injection H; destruct e; discriminate || congruence);
    try (intros H; injection H; destruct e'; discriminate || congruence).
Qed.

(** ** The GeoPackage macros *)
(** "GP" read as EWKB is little endian with type code 0x50 *)
Lemma gp_header : forall f a rest,
  (exists i r, read_ewkb_header (x47 :: x50 :: x00 :: f :: a :: rest) = Done (Ok (i, r)) /\ i_type i = TUnknown) \/
  (exists e, read_ewkb_header (x47 :: x50 :: x00 :: f :: a :: rest) = Done (Err e)).
Proof.
  intros f a rest.
  set (n := le_val [x50; x00; f; a]).
  assert (T : type_of_code (N.land n 255) = TUnknown).
  { change 255 with (N.ones 8). rewrite N.land_ones.
    assert (E : n = 80 + (val f * 256 + val a * 65536) * 2 ^ 8).
    { unfold n. cbn [le_val]. change (val x50) with 80. change (val x00) with 0. change (2 ^ 8) with 256. lia. }
    rewrite E, N.mod_add by discriminate. reflexivity. }
  change (read_ewkb_header (x47 :: x50 :: x00 :: f :: a :: rest)) with
    (pbind ((if has_flag n 0x20000000 then rmap Some (r_i32 LE) else rret None) rest)
       (fun x => Done (Ok (mkInfo LE (type_of_code (N.land n 255)) (has_flag n 0x80000000) (has_flag n 0x40000000)
                             (fst x) [] false, snd x)))).
  destruct (has_flag n 0x20000000).
  - unfold rmap, r_i32, r_u32, rmap, rbind, rtake. destruct (Nat.ltb (length rest) 4).
    + right. eexists. reflexivity.
    + left. eexists _, _. split; [reflexivity|exact T].
  - left. eexists _, _. split; [reflexivity|exact T].
Qed.
Lemma gpkg_not_ewkb : forall d srid env ed ext emp o g tail S (p : proc S) s,
  exists s' e, exec p (process_wkb_type_geom Ewkb (p_dims p) (std Geopackage d srid env ed ext emp o g ++ tail)) s = (s', Err e).
Proof.
  intros d srid env ed ext emp o g tail S p s. unfold std, enc_gpkg, gpkg_header.
  set (f := byte_of (flag ext 32 + flag emp 16 + 2 * gpkg_env_code env (dz ed) (dm ed) + flag (endian_eqb (o []) LE) 1)).
  assert (L : exists a r, bytes_of (o []) 4 (i32_to_u32 (opt_default 0%Z srid)) = a :: r).
  { destruct (o []); cbn; eexists _, _; reflexivity. }
  destruct L as (a & r & ->). rewrite <- !app_assoc. cbn [app].
  match goal with |- context [x47 :: x50 :: x00 :: f :: a :: ?x] => generalize x end. intros rest.
  unfold process_wkb_type_geom, rbind at 1. change (read_header Ewkb) with read_ewkb_header.
  destruct (gp_header f a rest) as [(i & r' & -> & T)|(e & ->)].
  - cbn [pbind]. unfold rbind, rcall. cbn [pbind exec fst snd].
    destruct (p_step p s (Srid (i_srid i))) as [s1 [u|x]]; [|eexists _, _; reflexivity].
    cbn [pret pbind]. unfold geom_fuel. cbn [process_geom_n]. change (Nat.ltb max_nesting_depth 0) with false. rewrite T.
    eexists _, _. reflexivity.
  - eexists _, _. reflexivity.
Qed.
Lemma macro_fails : forall v g, said v g -> srid_ok Geopackage (so_srid v) -> no_empty g ->
  exists c, gpkg_encode v = Ok c /\
    forall debug, exists e, gpkg_macro_decode (geo_from_wkb debug) c = Err e.
Proof.
  intros v g D R N. eexists. split; [exact (gpkg_column v g D R N)|]. intros debug.
  unfold gpkg_macro_decode, geo_from_wkb.
  destruct (gpkg_not_ewkb (so_dims v) (so_srid v) [] xy_dims false false little g [] _ (geo_writer debug) gw_init) as (s' & e & H).
  rewrite app_nil_r in H. change (p_dims (geo_writer debug)) with xy_dims in H. rewrite H. eexists. reflexivity.
Qed.

(** ** Copying columns *)
Lemma copied : forall d srid g dl1 dl2 o,
  dl1 <> SpatiaLite -> dl1 <> MySQL ->
  encodable g -> conforming (dz d) (dm d) g -> (levels g <= 128)%nat -> srid_ok dl1 srid -> order_ok dl1 o ->
  dl2 <> SpatiaLite ->
  srid_ok dl2 (reported_srid dl1 srid) ->
  let v := wkb_source dl1 (std dl1 d srid [] xy_dims false false o g) in
  to_wkb_dialect (so_process v) dl2 (so_dims v) (so_srid v) [] =
  Ok (std dl2 (mkDims (dz d) (dm d) false false) (reported_srid dl1 srid) [] xy_dims false false little g).
Proof.
  intros d srid g dl1 dl2 o N1 N2 E C L R O N3 R2 v.
  assert (V : env_ok dl1 xy_dims []) by (destruct dl1; cbn; auto).
  destruct (wrapper_std dl1 d srid [] xy_dims false false o g R V O) as [W1 W2].
  unfold v, wkb_source. cbn [so_process so_dims so_srid]. rewrite W1, W2.
  apply transcode_standard; try assumption. intros H; contradiction.
Qed.
Lemma copy_pg_gpkg : forall d srid g o,
  encodable g -> conforming (dz d) (dm d) g -> (levels g <= 128)%nat -> srid_ok Ewkb srid ->
  gpkg_encode (wkb_source Ewkb (raw_decode (Some (std Ewkb d srid [] xy_dims false false o g)))) =
  Ok (Some (std Geopackage (mkDims (dz d) (dm d) false false) srid [] xy_dims false false little g)).
Proof.
  intros d srid g o E C L R. unfold gpkg_encode, raw_decode.
  rewrite (copied d srid g Ewkb Geopackage o) by (assumption || discriminate || exact I). reflexivity.
Qed.
Lemma copy_gpkg_pg : forall d srid g o,
  encodable g -> conforming (dz d) (dm d) g -> (levels g <= 128)%nat -> srid_ok Geopackage srid ->
  let c := Some (std Ewkb (mkDims (dz d) (dm d) false false) (Some (opt_default 0%Z srid)) [] xy_dims false false little g) in
  let v := wkb_source Geopackage (raw_decode (Some (std Geopackage d srid [] xy_dims false false o g))) in
  pg_sqlx_encode v = Ok c /\ pg_encode v = Ok c.
Proof.
  intros d srid g o E C L R c v. unfold pg_sqlx_encode, pg_encode, v, raw_decode.
  rewrite (copied d srid g Geopackage Ewkb o); try (assumption || discriminate || exact I); [split; reflexivity|].
  destruct srid; cbn in *; [exact R|]. unfold is_i32. lia.
Qed.

(** ** Witnesses *)
Definition empty_source : source := mkSource (fun _ => pcall (EmptyPoint 0)) xy_dims None.
Definition nan_point : gt := TPoint (0x7FF8000000000000, 0x7FF8000000000000).
Lemma nan_point_lost : forall debug rect tri, exists c,
  pg_sqlx_encode (geo_source rect tri nan_point) = Ok c /\ pg_sqlx_decode (geo_from_wkb debug) c = Err decode_error.
Proof. intros debug rect tri. eexists. split; [reflexivity|]. destruct debug; vm_compute; reflexivity. Qed.
Definition some_polygon : gt := TPolygon ([(0, 0); (1, 0); (1, 1); (0, 0)], []).
Lemma some_polygon_fine : forall rect tri, encodable (tree rect tri some_polygon) /\
  conforming false false (tree rect tri some_polygon) /\ (levels (tree rect tri some_polygon) <= 128)%nat /\
  closed rect tri some_polygon /\ small (tree rect tri some_polygon).
Proof.
  intros rect tri. split; [concrete|]. split; [concrete|]. split; [cbn; lia|]. split.
  - cbn. split; [split; reflexivity|constructor].
  - cbn. unfold small_rings, fits. cbn. split; [lia|]. repeat constructor; cbn; lia.
Qed.
Lemma minus_five : srid_ok Ewkb (Some (-5)%Z).
Proof. cbn. unfold is_i32. lia. Qed.

Lemma sqlx_error_panic e : sqlx_error e = EPanic <-> e = EPanic.
Proof. destruct e; cbn; split; intros H; try discriminate H; reflexivity. Qed.
Lemma reported : forall T (from_wkb : dialect -> list byte -> res T) b e,
  (from_wkb Ewkb b = Err e ->
   (exists e1, pg_sqlx_decode from_wkb (Some b) = Err e1 /\ (e1 = EPanic <-> e = EPanic)) /\
   (exists e2, pg_sqlx_macro_decode from_wkb (Some b) = Err e2 /\ (e2 = EPanic <-> e = EPanic)) /\
   pg_decode from_wkb (Some b) = Err e /\ pg_macro_decode from_wkb (Some b) = Err e /\
   (exists e3, gpkg_macro_decode from_wkb (Some b) = Err e3 /\ (e3 = EPanic <-> e = EPanic))) /\
  (from_wkb Geopackage b = Err e ->
   exists e1, gpkg_decode from_wkb (Some b) = Err e1 /\ (e1 = EPanic <-> e = EPanic)).
Proof.
  intros T f b e. split.
  - intros H. unfold pg_sqlx_decode, pg_sqlx_macro_decode, pg_decode, pg_macro_decode, gpkg_macro_decode.
    rewrite H. repeat split; try (eexists; split; [reflexivity|apply sqlx_error_panic]).
  - intros H. unfold gpkg_decode. rewrite H. eexists. split; [reflexivity|apply sqlx_error_panic].
Qed.
Lemma diesel_copies : forall b v c,
  raw_decode (diesel_to_sql b) = b /\
  (pg_encode v = Ok c -> diesel_to_sql (raw_decode c) = c) /\ (pg_sqlx_encode v = Ok c -> diesel_to_sql (raw_decode c) = c).
Proof.
  intros b v c. split; [reflexivity|]. unfold pg_encode, pg_sqlx_encode.
  destruct (to_wkb_dialect (so_process v) Ewkb (so_dims v) (so_srid v) []) as [w|e]; cbn [expect];
    split; intros E; try discriminate; injection E as <-; reflexivity.
Qed.
