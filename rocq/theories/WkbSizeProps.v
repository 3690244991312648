(** C80.  Read with: WkbSizeSpec.v ([headers], [counts], [positions], [content], [extra], [marks], [same_shape]);
    WkbSpec.v and WkbClaims.v ([no_empty], [marked], [spatialite_blob], [srid_ok], [std], [piece_events]). *)
From Coq Require Import String Ascii.
From Coq Require Import List NArith ZArith Lia Bool.
From Verif Require Import Base Event Claims Geom WkbModel WkbSpec WkbClaims WkbTop ChainTop WkbSizeSpec WkbSizeTop.
Import ListNotations.
Local Open Scope nat_scope.
Local Open Scope list_scope.

(** ** The size of what is written *)
(** Whatever is written has the size of the geometry that came. *)
Theorem C80_written : forall src l dl d srid env g w,
  delivers src (fun multi => map Srid l ++ gevents multi 0 g) (Ok tt) -> srid_ok dl srid ->
  to_wkb_dialect src dl d srid env = Ok w ->
  length w = extra dl srid env + content d g + marks dl g.
Proof. exact written_size. Qed.
Print Assumptions C80_written.
(** Geometries without empty points are written. *)
Theorem C80_accepted : forall src l dl d srid env g,
  delivers src (fun multi => map Srid l ++ gevents multi 0 g) (Ok tt) -> srid_ok dl srid -> no_empty g ->
  exists w, to_wkb_dialect src dl d srid env = Ok w /\ length w = extra dl srid env + content d g + marks dl g.
Proof. exact no_empty_written. Qed.
Print Assumptions C80_accepted.
(** a 3D polygon with a hole: 2 rings, 8 positions *)
Example C80_met :
  let ring := [mkC 0 0 None None; mkC 0 1 None None; mkC 1 1 None None; mkC 0 0 None None]%N in
  let src := fun d => calls (gevents (multi_dim d) 0 (GPolygon [ring; ring])) (Done (Ok tt)) in
  delivers src (fun multi => map Srid [] ++ gevents multi 0 (GPolygon [ring; ring])) (Ok tt) /\
  no_empty (GPolygon [ring; ring]) /\
  map (fun dl => match to_wkb_dialect src dl xyz_dims (Some 4326%Z) [] with Ok w => length w | Err _ => 0 end)
      [Wkb; Ewkb; Geopackage; MySQL; SpatiaLite] = [209; 213; 217; 213; 250] /\
  map (fun dl => extra dl (Some 4326%Z) [] + content xyz_dims (GPolygon [ring; ring]) + marks dl (GPolygon [ring; ring]))
      [Wkb; Ewkb; Geopackage; MySQL; SpatiaLite] = [209; 213; 217; 213; 250].
Proof.
  cbv zeta. split; [apply said_delivers|]. split; [concrete|]. split; vm_compute; reflexivity.
Qed.
(** The ordinates do not matter, nor which SRID and envelope they are. *)
Theorem C80_ordinates : forall src src' l l' dl d srid srid' env env' g g' w w',
  delivers src (fun multi => map Srid l ++ gevents multi 0 g) (Ok tt) ->
  delivers src' (fun multi => map Srid l' ++ gevents multi 0 g') (Ok tt) ->
  same_shape g g' -> srid_ok dl srid -> srid_ok dl srid' -> (srid = None <-> srid' = None) -> length env = length env' ->
  to_wkb_dialect src dl d srid env = Ok w -> to_wkb_dialect src' dl d srid' env' = Ok w' -> length w = length w'.
Proof. exact shape_size. Qed.
Print Assumptions C80_ordinates.
Example C80_ordinates_met : same_shape
  (GCollection [GPoint (mkC 0 0 None None); GLineString [mkC 0 1 None None]; GPolygon []]%N)
  (GCollection [GPoint (mkC 7 5 (Some 1) None); GLineString [mkC 3 1 None (Some 2)]; GPolygon []]%N).
Proof. constructor. repeat constructor. Qed.
(** A dimension costs 8 bytes a position, whether the source has it or not. *)
Theorem C80_dimensions : forall src l dl d d' srid env g w w',
  delivers src (fun multi => map Srid l ++ gevents multi 0 g) (Ok tt) -> srid_ok dl srid ->
  to_wkb_dialect src dl d srid env = Ok w -> to_wkb_dialect src dl d' srid env = Ok w' ->
  length w + position_size d' * positions g = length w' + position_size d * positions g.
Proof. exact dims_size. Qed.
Print Assumptions C80_dimensions.
(** With all options of the constructor, and any number of geometries through one writer; in SpatiaLite output each
    later geometry has an end mark of its own. *)
Theorem C80_several : forall dl d rd srid env ed ext emp q qs,
  srid_ok dl srid -> asks_for_all d rd -> Forall (fun q : piece => no_empty (snd q)) (q :: qs) ->
  exists w,
  write_all (with_extended_opts dl d rd srid env ed ext emp) (flat_map (piece_events (multi_dim rd)) (q :: qs)) = Ok w /\
  length w = extra dl srid env + total (fun g => content d g + marks dl g) (map snd (q :: qs)) +
    (match dl with SpatiaLite => 1 | _ => 0 end) * length qs.
Proof. exact several_size. Qed.
Print Assumptions C80_several.
Example C80_several_met : asks_for_all xyz_dims xyzm_dims /\
  Forall (fun q : piece => no_empty (snd q))
    [([Some 1%Z], 3, GPolygon [[mkC 0 1 None None]]%N); ([], 0, GMultiPolygon [[[]]])].
Proof. split; [discriminate|]. concrete. Qed.
(** The bytes themselves for SpatiaLite, where C63 leaves out the kinds with repeated end marks. *)
Theorem C63_spatialite_bytes : forall d rd srid env ed ext emp,
  asks_for_all d rd -> forall q qs, Forall (fun q : piece => no_empty (snd q)) (q :: qs) ->
  write_all (with_extended_opts SpatiaLite d rd srid env ed ext emp) (flat_map (piece_events (multi_dim rd)) (q :: qs)) =
  Ok (blobs d srid env (map snd (q :: qs))).
Proof. exact blobs_written. Qed.
Print Assumptions C63_spatialite_bytes.

(** ** The size of what is read *)
(** A standard encoding in any byte orders has that size too, and the reader takes all of it and nothing of what
    follows, except that it leaves the end mark of a SpatiaLite blob. *)
Theorem C80_read : forall dl d srid env ed ext emp o g tail,
  encodable g -> levels g <= 128 -> srid_ok dl srid -> env_ok dl ed env -> order_ok dl o ->
  exists rest, delivers (fun dr => process_wkb_type_geom dl dr (std dl d srid env ed ext emp o g ++ tail))
    (fun multi => Srid (reported_srid dl srid) :: gevents multi 0 (retained (dz d) (dm d) g)) (Ok (tt, rest)) /\
    length (std dl d srid env ed ext emp o g) = extra dl srid env + content d g /\
    length rest = (match dl with SpatiaLite => 1 | _ => 0 end) + length tail.
Proof. exact read_size. Qed.
Print Assumptions C80_read.
Example C80_read_met : encodable sample /\ levels sample <= 128 /\ srid_ok Geopackage (Some 4326%Z) /\
  env_ok Geopackage xy_dims [] /\ order_ok Geopackage (fun _ => BE).
Proof.
  split; [concrete|]. split; [vm_compute; lia|]. split; [cbn; unfold is_i32; lia|]. split; [|exact I].
  split; [now left|constructor].
Qed.
