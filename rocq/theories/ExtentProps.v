(** C04, C06, C07 and C47, how far the exceptions reach.  Vocabulary: ExtentSpec.v, WkbClaims.v ([std],
    [read_many]), Claims.v ([delivers]); model: WkbModel.v. *)
From Coq Require Import List NArith ZArith Lia Bool.
From Coq Require Import Init.Byte.
From Verif Require Import Base Event Claims Geom WkbModel WkbSpec WkbClaims WkbTop ExtentSpec ExtentTop.
Import ListNotations.
Local Open Scope N_scope.
Local Open Scope list_scope.

(** A SpatiaLite blob cut anywhere is refused after some of its callbacks, except for the one cut
    that takes exactly the end mark: then all callbacks are made and the read succeeds. *)
Theorem C06_spatialite_exact : forall d srid env ed ext emp o g p t,
  encodable g -> (levels g <= 128)%nat -> srid_ok SpatiaLite srid -> env_ok SpatiaLite ed env ->
  std SpatiaLite d srid env ed ext emp o g = p ++ t -> t <> [] ->
  forall S (q : proc S) s,
  exists l1 l2,
    Srid (reported_srid SpatiaLite srid) :: gevents (multi_dim (p_dims q)) 0 (retained (dz d) (dm d) g)
      = l1 ++ l2 /\
    (t = [xfe] -> l2 = []) /\
    exec q (process_wkb_type_geom SpatiaLite (p_dims q) p) s =
    match run q l1 s with
    | (s', Ok _) => (s', if Nat.eqb (length t) 1 then Ok (tt, []) else Err EIo)
    | (s', Err x) => (s', Err x)
    end.
Proof. exact cut_anywhere. Qed.
Print Assumptions C06_spatialite_exact.
Example C06_spatialite_exact_met :
  encodable sample /\ (levels sample <= 128)%nat /\ srid_ok SpatiaLite (Some 4326%Z) /\
  env_ok SpatiaLite xy_dims [] /\
  exists p t, std SpatiaLite xy_dims (Some 4326%Z) [] xy_dims false false little sample = p ++ t /\
    t <> [] /\ p <> [].
Proof.
  split; [exact sample_encodable|]. split; [exact sample_levels|]. split; [cbn; unfold is_i32; lia|].
  split; [split; [left; reflexivity|constructor]|].
  exists [x00]. eexists. split; [reflexivity|]. split; discriminate.
Qed.

(** Of concatenated SpatiaLite blobs only the first is read, whatever follows: the second read meets
    the end mark of the first and is refused. *)
Theorem C07_spatialite_exact : forall d srid env ed ext emp o g gs n tail,
  encodable g -> (levels g <= 128)%nat -> srid_ok SpatiaLite srid -> env_ok SpatiaLite ed env ->
  delivers (fun dr => read_many SpatiaLite dr (2 + n)
              (flat_map (std SpatiaLite d srid env ed ext emp o) (g :: gs) ++ tail))
           (fun multi => Srid (reported_srid SpatiaLite srid) :: gevents multi 0 (retained (dz d) (dm d) g))
           (Err EGeometryFormat).
Proof. exact only_the_first. Qed.
Print Assumptions C07_spatialite_exact.
Example C07_spatialite_exact_met :
  delivers (fun dr => read_many SpatiaLite dr 2
              (flat_map (std SpatiaLite xy_dims None [] xy_dims false false little) [sample; sample_line] ++ []))
           (fun multi => Srid None :: gevents multi 0 (retained false false sample))
           (Err EGeometryFormat).
Proof.
  apply (C07_spatialite_exact xy_dims None [] xy_dims false false little sample [sample_line] 0 []);
    [exact sample_encodable|exact sample_levels|exact I|split; [left; reflexivity|constructor]].
Qed.

(** The byte order of the outermost geometry in a GeoPackage blob is ignored in favour of the header's,
    whatever follows and whoever listens ... *)
Theorem C04_gpkg_order_exact : forall he ext emp ed srid env z m e t r,
  env_ok Geopackage ed env -> is_i32 srid ->
  let header := gpkg_header he ext emp (dz ed) (dm ed) srid env in
  forall S (q : proc S) s,
  exec q (process_wkb_type_geom Geopackage (p_dims q) (header ++ iso_header z m e (type_code t) ++ r)) s =
  exec q (process_wkb_type_geom Geopackage (p_dims q) (header ++ iso_header z m he (type_code t) ++ r)) s.
Proof. intros. unfold header. rewrite gpkg_order by assumption. reflexivity. Qed.
Print Assumptions C04_gpkg_order_exact.
(** ... so a point under a header of the other order has the bytes of its ordinates reversed. *)
Theorem C04_gpkg_mixed_point : forall he ext emp ed srid env z m c tail,
  env_ok Geopackage ed env -> is_i32 srid -> coord64 c ->
  delivers (fun d => process_wkb_type_geom Geopackage d
      (enc_gpkg z m (fun _ => other he) he ext emp (dz ed) (dm ed) srid env (GPoint c) ++ tail))
    (fun multi => Srid (Some srid) :: gevents multi 0 (retained z m (GPoint (reversed_coord c)))) (Ok (tt, tail)).
Proof. exact mixed_point. Qed.
Print Assumptions C04_gpkg_mixed_point.
Example C04_gpkg_mixed_point_met :
  env_ok Geopackage xyz_dims [one; one; two; two; 0; 0] /\ coord64 (mkC one two (Some one) None) /\
  reversed one <> one.
Proof. split; [split; [right; reflexivity|repeat constructor]|]. split; [concrete|]. vm_compute. discriminate. Qed.

(** Every type code is read as the one of the ISO range it leaves modulo 1000, in two dimensions if it
    is beyond the thousands 1 to 3. *)
Theorem C47_iso_range_exact : forall e n r, n < 2 ^ 32 -> forall S (q : proc S) s,
  exec q (process_wkb_type_geom Wkb (p_dims q) (order_byte e :: bytes_of e 4 n ++ r)) s =
  exec q (process_wkb_type_geom Wkb (p_dims q) (order_byte e :: bytes_of e 4 (seen_code n) ++ r)) s.
Proof. intros. rewrite seen_same by assumption. reflexivity. Qed.
Print Assumptions C47_iso_range_exact.
Example C47_iso_range_exact_met : seen_code 4001 = 1 /\ seen_code 3001 = 3001 /\ seen_code 0xFFFFFFFF = 295.
Proof. repeat split. Qed.
