(** Properties C01-C14 and C47 (WKB family).  Specification vocabulary: Geom.v (documented callback
    sequence [gevents]), WkbSpec.v (byte layouts), WkbClaims.v ([delivers], [makes], [std],
    ...).  Model: WkbModel.v. *)
From Coq Require Import String Ascii.
From Coq Require Import List NArith ZArith Lia Bool.
From Coq Require Import Init.Byte.
From Verif Require Import Base Float Event Geom WkbModel WkbSpec WkbClaims WkbReadTop WkbWriteTop
  WkbTop WkbMarks WkbMore WkbSeq.
Import ListNotations.
Local Open Scope N_scope.
Local Open Scope list_scope.

(** ** C01 *)
Theorem C01_wkb_round_trip : forall dl d rd srid env ed ext emp g,
  dl <> SpatiaLite ->
  encodable g -> conforming (dz d) (dm d) g -> (levels g <= 128)%nat ->
  srid_ok dl srid -> env_ok dl ed env -> asks_for_all d rd ->
  exists bytes,
    write_all (with_extended_opts dl d rd srid env ed ext emp) (gevents (multi_dim rd) 0 g)
      = Ok bytes /\
    delivers (fun dr => process_wkb_type_geom dl dr bytes)
             (fun multi => Srid (reported_srid dl srid) :: gevents multi 0 g)
             (Ok (tt, [])).
Proof. exact round_trip. Qed.
Print Assumptions C01_wkb_round_trip.
Example C01_wkb_round_trip_example : exists bytes,
  write_all (with_extended_opts Geopackage xy_dims xyz_dims (Some 4326%Z) [0; one; 0; two] xy_dims
               false false) (gevents true 0 sample) = Ok bytes /\
  delivers (fun dr => process_wkb_type_geom Geopackage dr bytes)
           (fun multi => Srid (Some 4326%Z) :: gevents multi 0 sample) (Ok (tt, [])).
Proof.
  apply (C01_wkb_round_trip Geopackage xy_dims xyz_dims (Some 4326%Z) [0; one; 0; two] xy_dims false false sample).
  - discriminate.
  - exact sample_encodable.
  - exact sample_conforming.
  - exact sample_levels.
  - cbn. unfold is_i32. lia.
  - split; [right; reflexivity|]. repeat constructor.
  - split; reflexivity.
Qed.

(** The envelope hypothesis is needed: the GeoPackage writer takes an envelope of any length,
    announces 4 values in the flags and writes as many as it was given. *)
Theorem C01_any_envelope_refuted : exists g env bytes e,
  encodable g /\ conforming false false g /\
  write_all (with_extended_opts Geopackage xy_dims xy_dims None env xy_dims false false)
            (gevents false 0 g) = Ok bytes /\
  makes (process_wkb_type_geom Geopackage xy_dims bytes) [] (Err e).
Proof.
  exists (GLineString []), [0]. eexists. exists EIo. split; [concrete|]. split; [concrete|].
  split; [vm_compute; reflexivity|]. observed.
Qed.
Print Assumptions C01_any_envelope_refuted.

(** ** C02 *)
Theorem C02_spatialite_round_trip_partial : forall d rd srid env ed ext emp g,
  encodable g -> conforming (dz d) (dm d) g -> (levels g <= 128)%nat ->
  srid_ok SpatiaLite srid -> env_ok SpatiaLite ed env -> asks_for_all d rd -> spatialite_safe g ->
  exists payload,
    write_all (with_extended_opts SpatiaLite d rd srid env ed ext emp) (gevents (multi_dim rd) 0 g)
      = Ok (payload ++ [xfe]) /\
    delivers (fun dr => process_wkb_type_geom SpatiaLite dr (payload ++ [xfe]))
             (fun multi => Srid (reported_srid SpatiaLite srid) :: gevents multi 0 g)
             (Ok (tt, [xfe])).
Proof. exact round_trip_spatialite. Qed.
Print Assumptions C02_spatialite_round_trip_partial.
(** Missing for the full claim: the kinds excluded by [spatialite_safe] (polygons, triangles,
    compound curves, curve polygons, polyhedral surfaces and TINs outside any multi geometry or
    collection).  For those the claim is false of the code: *)
Theorem C02_spatialite_round_trip_refuted : exists g bytes e l,
  encodable g /\ conforming false false g /\
  write_all (with_opts SpatiaLite xy_dims None []) (gevents false 0 g) = Ok bytes /\
  makes (process_wkb_type_geom SpatiaLite xy_dims bytes) l (Err e).
Proof.
  exists (GPolygon [[p2 0 0; p2 one 0; p2 one one; p2 0 0]; [p2 one two]]).
  eexists. exists EIo. eexists. split; [concrete|]. split; [concrete|].
  split; [vm_compute; reflexivity|]. observed.
Qed.
Print Assumptions C02_spatialite_round_trip_refuted.
(** the blob of a top-level polygon with one ring carries the end mark twice *)
Theorem C02_single_footer_refuted : exists g payload,
  encodable g /\ conforming false false g /\
  write_all (with_opts SpatiaLite xy_dims None []) (gevents false 0 g) = Ok (payload ++ [xfe; xfe]) /\
  payload ++ [xfe] = std SpatiaLite xy_dims None [] xy_dims false false little g.
Proof.
  exists (GPolygon [[p2 0 0]]).
  exists (removelast (std SpatiaLite xy_dims None [] xy_dims false false little (GPolygon [[p2 0 0]]))).
  split; [concrete|]. split; [concrete|]. split; [vm_compute; reflexivity|]. vm_compute. reflexivity.
Qed.
Print Assumptions C02_single_footer_refuted.
(** the exact extent: the bytes of every output, and the output reads back if and only if no end
    mark is followed by data (the excluded ring size is the one whose count is all end marks) *)
Theorem C02_exact : forall d rd srid env ed ext emp g,
  encodable g -> conforming (dz d) (dm d) g -> (levels g <= 128)%nat ->
  srid_ok SpatiaLite srid -> env_ok SpatiaLite ed env -> asks_for_all d rd -> ordinary g ->
  exists bytes,
    write_all (with_extended_opts SpatiaLite d rd srid env ed ext emp) (gevents (multi_dim rd) 0 g)
      = Ok bytes /\
    bytes = spatialite_blob (dz d) (dm d) (opt_default 0%Z srid) env g /\
    ((exists rest, delivers (fun dr => process_wkb_type_geom SpatiaLite dr bytes)
        (fun multi => Srid (reported_srid SpatiaLite srid) :: gevents multi 0 g) (Ok (tt, rest))) <->
     single_part g).
Proof. exact spatialite_exact. Qed.
Print Assumptions C02_exact.
Example C02_exact_met :
  let g := GPolygon [[p2 0 0; p2 one 0; p2 one one; p2 0 0]; [p2 one two]] in
  encodable g /\ conforming false false g /\ ordinary g /\ ~ single_part g /\
  single_part (GPolyhedralSurface [[[p2 0 0]]]).
Proof.
  split; [concrete|]. split; [concrete|]. split; [repeat constructor; discriminate|].
  split; [cbn; unfold at_most_one; cbn; lia|]. repeat constructor.
Qed.
Example C02_example : exists payload,
  write_all (with_extended_opts SpatiaLite xy_dims xy_dims (Some 31467%Z) [] xy_dims false false)
     (gevents false 0 sample) = Ok (payload ++ [xfe]) /\
  delivers (fun dr => process_wkb_type_geom SpatiaLite dr (payload ++ [xfe]))
           (fun multi => Srid (Some 31467%Z) :: gevents multi 0 sample) (Ok (tt, [xfe])).
Proof.
  apply (C02_spatialite_round_trip_partial xy_dims xy_dims (Some 31467%Z) [] xy_dims false false sample).
  - exact sample_encodable.
  - exact sample_conforming.
  - exact sample_levels.
  - cbn. unfold is_i32. lia.
  - split; [left; reflexivity|constructor].
  - split; reflexivity.
  - exact I.
Qed.

(** ** C03.  [src] is any source; [s] its SRID callbacks. *)
Theorem C03_output_is_standard : forall src s dl d srid env g r,
  delivers src (fun multi => s ++ gevents multi 0 g) (Ok r) ->
  Forall (fun e => exists x, e = Srid x) s ->
  srid_ok dl srid -> no_empty g -> (dl = SpatiaLite -> spatialite_safe g) ->
  to_wkb_dialect src dl d srid env = Ok (std dl d srid env xy_dims false false little g).
Proof. exact to_wkb_std. Qed.
Print Assumptions C03_output_is_standard.
Example C03_example :
  to_wkb_dialect (fun d => calls (gevents (multi_dim d) 0 sample) (Done (Ok tt))) Ewkb xyzm_dims
    (Some 4326%Z) [] = Ok (enc_ewkb true true little (Some 4326%Z) sample).
Proof.
  eapply (C03_output_is_standard _ [] Ewkb xyzm_dims (Some 4326%Z) [] sample).
  - exact sample_delivers.
  - constructor.
  - cbn. unfold is_i32. lia.
  - concrete.
  - discriminate.
Qed.
(** the same with all options of the constructor *)
Theorem C03_output_is_standard_extended : forall dl d rd srid env ed ext emp g,
  srid_ok dl srid -> asks_for_all d rd -> no_empty g -> (dl = SpatiaLite -> spatialite_safe g) ->
  write_all (with_extended_opts dl d rd srid env ed ext emp) (gevents (multi_dim rd) 0 g)
  = Ok (std dl d srid env ed ext emp little g).
Proof. exact write_all_std. Qed.
Print Assumptions C03_output_is_standard_extended.
Example C03_extended_example :
  write_all (with_extended_opts Geopackage xyz_dims xyzm_dims (Some 2056%Z) [one; two; 0; 0; 0; 0]
    xyz_dims true false) (gevents true 0 sample) =
  Ok (enc_gpkg true false little LE true false true false 2056%Z [one; two; 0; 0; 0; 0] sample).
Proof.
  apply (C03_output_is_standard_extended Geopackage xyz_dims xyzm_dims); try discriminate.
  - cbn. unfold is_i32. lia.
  - concrete.
Qed.

(** ** C04.  [o] assigns a byte order to every sub-geometry (addressed by its path). *)
Theorem C04_every_byte_order_partial : forall dl d srid env ed ext emp o g tail,
  encodable g -> (levels g <= 128)%nat -> srid_ok dl srid -> env_ok dl ed env -> order_ok dl o ->
  delivers (fun dr => process_wkb_type_geom dl dr (std dl d srid env ed ext emp o g ++ tail))
           (fun multi => Srid (reported_srid dl srid) :: gevents multi 0 (retained (dz d) (dm d) g))
           (Ok (tt, trailer dl ++ tail)).
Proof. exact delivers_std. Qed.
Print Assumptions C04_every_byte_order_partial.
(** Missing: a GeoPackage blob whose header has another byte order than the WKB body, for which
    the claim is false: the header's byte order is used for the counts of the body. *)
Theorem C04_gpkg_mixed_point_refuted : exists c c',
  coord64 c /\ cx c <> cx c' /\
  makes (process_wkb_type_geom Geopackage xy_dims
           (enc_gpkg false false little BE false false false false 0%Z [] (GPoint c)))
    [Srid (Some 0%Z); PointBegin 0; ev_coord false 0 c'; PointEnd 0] (Ok (tt, [])).
Proof.
  exists (p2 one two), (p2 0xF03F 0x40). split; [concrete|]. split; [discriminate|].
  vm_compute. reflexivity.
Qed.
Print Assumptions C04_gpkg_mixed_point_refuted.
Example C04_example : delivers (fun dr => process_wkb_type_geom Wkb dr
    (std Wkb xy_dims None [] xy_dims false false
       (fun p => if Nat.even (length p) then BE else LE) sample ++ [x01]))
  (fun multi => Srid None :: gevents multi 0 (retained false false sample)) (Ok (tt, [x01])).
Proof.
  apply (C04_every_byte_order_partial Wkb xy_dims None [] xy_dims false false _ sample [x01]);
    [exact sample_encodable|exact sample_levels|exact I|exact I|exact I].
Qed.

(** SpatiaLite TinyPoints, in both byte orders and all four dimension codes *)
Theorem C04_tiny_point : forall z m e srid c tail,
  is_i32 srid -> coord64 c ->
  delivers (fun d => process_wkb_type_geom SpatiaLite d (tiny_point z m e srid c ++ tail))
    (fun multi => Srid (if (srid =? 0)%Z then None else Some srid) ::
                  gevents multi 0 (retained z m (GPoint c))) (Ok (tt, [xfe] ++ tail)).
Proof. exact tiny_delivers. Qed.
Print Assumptions C04_tiny_point.
Example C04_tiny_example : coord64 (mkC one two (Some one) None) /\
  makes (process_wkb_type_geom SpatiaLite xyz_dims (tiny_point true false BE 4326%Z (mkC one two (Some one) None)))
    [Srid (Some 4326%Z); PointBegin 0; Coord one two (Some one) None None None 0; PointEnd 0] (Ok (tt, [xfe])).
Proof. split; [concrete|vm_compute; reflexivity]. Qed.

(** ** C05 *)
Theorem C05_tiny_point : forall z m e srid c, is_i32 srid ->
  wrapper_dims SpatiaLite (tiny_point z m e srid c) = mkDims z m false false /\
  wrapper_srid SpatiaLite (tiny_point z m e srid c) = (if (srid =? 0)%Z then None else Some srid).
Proof. exact tiny_wrapper. Qed.
Print Assumptions C05_tiny_point.
Theorem C05_header_metadata : forall dl d srid env ed ext emp o g,
  srid_ok dl srid -> env_ok dl ed env -> order_ok dl o ->
  wrapper_dims dl (std dl d srid env ed ext emp o g) = mkDims (dz d) (dm d) false false /\
  wrapper_srid dl (std dl d srid env ed ext emp o g) = reported_srid dl srid.
Proof. exact wrapper_std. Qed.
Print Assumptions C05_header_metadata.
Theorem C05_mysql_negative_srid : forall d rd s env ed ext emp g,
  (s < 0)%Z -> no_empty g ->
  write_all (with_extended_opts MySQL d rd (Some s) env ed ext emp) (gevents (multi_dim rd) 0 g)
  = Err (ESrid s).
Proof. exact mysql_negative_srid. Qed.
Print Assumptions C05_mysql_negative_srid.
Example C05_example :
  wrapper_srid SpatiaLite (std SpatiaLite xyz_dims (Some (-5)%Z) [] xy_dims false false little sample)
  = Some (-5)%Z /\ no_empty sample.
Proof.
  split; [|concrete].
  apply (C05_header_metadata SpatiaLite xyz_dims (Some (-5)%Z)); [|split; [left; reflexivity|constructor]|exact I].
  cbn. unfold is_i32. lia.
Qed.

(** ** C06 *)
Theorem C06_truncated_rejected_partial : forall dl d srid env ed ext emp o g p t,
  dl <> SpatiaLite ->
  encodable g -> (levels g <= 128)%nat -> srid_ok dl srid -> env_ok dl ed env -> order_ok dl o ->
  std dl d srid env ed ext emp o g = p ++ t -> t <> [] ->
  forall S (q : proc S) s,
  exists l1 l2,
    Srid (reported_srid dl srid) :: gevents (multi_dim (p_dims q)) 0 (retained (dz d) (dm d) g)
      = l1 ++ l2 /\
    exec q (process_wkb_type_geom dl (p_dims q) p) s =
    match run q l1 s with
    | (s', Ok _) => (s', Err EIo)
    | (s', Err x) => (s', Err x)
    end.
Proof. exact truncated_std. Qed.
Print Assumptions C06_truncated_rejected_partial.
(** all dialects, any input the reader accepts: cutting into the consumed part is detected *)
Theorem C06_truncated_any_input : forall dl d b l rest p t,
  makes (process_wkb_type_geom dl d b) l (Ok (tt, rest)) ->
  b = p ++ t -> (length rest < length t)%nat ->
  exists l1 l2, l = l1 ++ l2 /\ makes (process_wkb_type_geom dl d p) l1 (Err EIo).
Proof. exact truncated_makes. Qed.
Print Assumptions C06_truncated_any_input.
(** Missing: SpatiaLite blobs that lack (only) the end mark.  They are accepted: *)
Theorem C06_spatialite_end_mark_refuted : exists g p l,
  encodable g /\ p ++ [xfe] = std SpatiaLite xy_dims None [] xy_dims false false little g /\
  makes (process_wkb_type_geom SpatiaLite xy_dims p) l (Ok (tt, [])).
Proof.
  exists sample_line.
  exists (removelast (std SpatiaLite xy_dims None [] xy_dims false false little sample_line)).
  eexists. split; [concrete|]. split; [vm_compute; reflexivity|]. observed.
Qed.
Print Assumptions C06_spatialite_end_mark_refuted.
Example C06_example : exists b l rest p t,
  makes (process_wkb_type_geom Wkb xy_dims b) l (Ok (tt, rest)) /\ b = p ++ t /\
  (length rest < length t)%nat /\ (length l > 3)%nat.
Proof.
  exists (enc_wkb false false little sample_line). eexists. exists [].
  exists (removelast (enc_wkb false false little sample_line)). eexists.
  split; [observed|]. split; [vm_compute; reflexivity|]. cbn. lia.
Qed.

(** ** C07 *)
Theorem C07_self_delimiting : forall dl d b l rest t,
  makes (process_wkb_type_geom dl d b) l (Ok (tt, rest)) ->
  makes (process_wkb_type_geom dl d (b ++ t)) l (Ok (tt, rest ++ t)).
Proof. exact self_delimiting. Qed.
Print Assumptions C07_self_delimiting.
Theorem C07_concatenated_encodings_partial : forall dl d srid env ed ext emp o gs tail,
  dl <> SpatiaLite ->
  (forall g, In g gs -> encodable g /\ (levels g <= 128)%nat) ->
  srid_ok dl srid -> env_ok dl ed env -> order_ok dl o ->
  delivers (fun dr => read_many dl dr (length gs)
              (flat_map (std dl d srid env ed ext emp o) gs ++ tail))
           (fun multi => flat_map (fun g => Srid (reported_srid dl srid)
                                     :: gevents multi 0 (retained (dz d) (dm d) g)) gs)
           (Ok (tt, tail)).
Proof. exact read_many_std. Qed.
Print Assumptions C07_concatenated_encodings_partial.
(** Missing: SpatiaLite, whose reader leaves the end mark in the stream, so that the next read
    fails: *)
Theorem C07_spatialite_concatenation_refuted : exists g l,
  encodable g /\
  makes (read_many SpatiaLite xy_dims 2
           (flat_map (std SpatiaLite xy_dims None [] xy_dims false false little) [g; g])) l
        (Err EGeometryFormat).
Proof. exists sample_line. eexists. split; [concrete|]. observed. Qed.
Print Assumptions C07_spatialite_concatenation_refuted.
Example C07_example : delivers (fun dr => read_many MySQL dr 2
    (flat_map (std MySQL xym_dims (Some 7%Z) [] xy_dims false false little) [sample; sample_line] ++ [x2a]))
  (fun multi => flat_map (fun g => Srid (Some 7%Z) :: gevents multi 0 (retained false true g))
                  [sample; sample_line]) (Ok (tt, [x2a])).
Proof.
  apply (C07_concatenated_encodings_partial MySQL xym_dims (Some 7%Z) [] xy_dims false false little [sample; sample_line] [x2a]); try discriminate; try exact I.
  - intros g [<-|[<-|[]]]; split; [exact sample_encodable|exact sample_levels|exact line_encodable|exact line_levels].
  - cbn. lia.
  - reflexivity.
Qed.

(** ** C08 *)
Theorem C08_total_and_bounded : forall dl d b, exists l r,
  makes (process_wkb_type_geom dl d b) l r /\ (length l <= length b)%nat /\
  match r with
  | Ok (_, rest) => exists u, b = u ++ rest /\ (length l <= length u)%nat
  | Err e => e = EIo \/ e = EGeometryFormat \/ e = nesting_error
  end.
Proof. exact bounded. Qed.
Print Assumptions C08_total_and_bounded.

(** ** C09 *)
Theorem C09_well_formed_partial : forall dl d b l rest, dl <> SpatiaLite ->
  makes (process_wkb_type_geom dl d b) l (Ok (tt, rest)) ->
  exists srid g, encodable g /\ (levels g <= 128)%nat /\ l = Srid srid :: gevents (multi_dim d) 0 g.
Proof. exact well_formed. Qed.
Print Assumptions C09_well_formed_partial.
Theorem C09_well_formed_structure : forall dl d b l rest,
  makes (process_wkb_type_geom dl d b) l (Ok (tt, rest)) ->
  exists srid g, counted g /\
    filter not_position l = Srid srid :: filter not_position (gevents (multi_dim d) 0 g).
Proof. exact well_formed_any. Qed.
Print Assumptions C09_well_formed_structure.
(** SpatiaLite blobs, compressed lines included: the callbacks of a geometry but for two slips in
    compressed lines, which [slips] names. *)
Theorem C09_spatialite_partial : forall dl d b l rest,
  makes (process_wkb_type_geom dl d b) l (Ok (tt, rest)) ->
  exists srid g, counted g /\ (levels g <= 128)%nat /\ slips (multi_dim d) l (Srid srid :: gevents (multi_dim d) 0 g).
Proof. exact well_formed_slips. Qed.
Print Assumptions C09_spatialite_partial.
(** Missing: the slips in SpatiaLite blobs.  In compressed lines the last position carries
    the index [n] instead of [n - 1], and a one-vertex line gets two positions: *)
Theorem C09_spatialite_refuted : exists b l,
  makes (process_wkb_type_geom SpatiaLite xy_dims b) l (Ok (tt, [])) /\
  ~ exists srid g, l = Srid srid :: gevents false 0 g.
Proof.
  exists (compressed_header false false 0%Z [0; 0; 0; 0] LE 2 ++
          compressed_bytes false false LE (p2 0 0) [] (p2 one two)). eexists.
  split; [observed|].
  intros (srid & g & H). injection H as _ H. destruct g as [c| |l|l|l|r|l|l|l|l|l|l|l|r|l|l]; try discriminate H.
  destruct l as [|c1 [|c2 l]]; discriminate H.
Qed.
Print Assumptions C09_spatialite_refuted.
Example C09_example : exists b l, makes (process_wkb_type_geom Ewkb xyz_dims b) l (Ok (tt, [])) /\
  (length l > 20)%nat.
Proof.
  exists (enc_ewkb true false little (Some 5%Z) sample). eexists.
  split; [observed|]. cbn. lia.
Qed.

(** ** C10.  [levels]: nesting of collections (compound curves and curve polygons inside them
    count too, see WkbSpec.levels); [wrap n g] is [g] inside [n] collections. *)
Theorem C10_depth_accepted : forall dl d srid env ed ext emp o n g tail,
  encodable g -> (n + levels g <= 128)%nat ->
  srid_ok dl srid -> env_ok dl ed env -> order_ok dl o ->
  delivers (fun dr => process_wkb_type_geom dl dr (std dl d srid env ed ext emp o (wrap n g) ++ tail))
           (fun multi => Srid (reported_srid dl srid)
              :: gevents multi 0 (retained (dz d) (dm d) (wrap n g)))
           (Ok (tt, trailer dl ++ tail)).
Proof.
  exact (fun dl d srid env ed ext emp o n g tail Hg Hn Hs He Ho =>
    delivers_std dl d srid env ed ext emp o (wrap n g) tail (encodable_wrap n g Hg)
      (eq_ind_r (fun k => k <= 128)%nat Hn (levels_wrap n g)) Hs He Ho).
Qed.
Print Assumptions C10_depth_accepted.
Theorem C10_depth_refused : forall dl dr d srid env ed ext emp o n g tail,
  encodable g -> (128 < n + levels g)%nat ->
  srid_ok dl srid -> env_ok dl ed env -> order_ok dl o ->
  exists l, makes (process_wkb_type_geom dl dr
                     (std dl d srid env ed ext emp o (wrap n g) ++ tail)) l (Err (EMaxNesting 128)).
Proof.
  exact (fun dl dr d srid env ed ext emp o n g tail Hg Hn Hs He Ho =>
    too_deep dl dr d srid env ed ext emp o (wrap n g) tail (encodable_wrap n g Hg)
      (eq_ind_r (fun k => 128 < k)%nat Hn (levels_wrap n g)) Hs He Ho).
Qed.
Print Assumptions C10_depth_refused.
(** whatever the input, never more than 131 containers are open at a time: 129 collections, a
    polygon in them and a ring in it *)
Theorem C10_depth_bounded : forall dl d b l r,
  makes (process_wkb_type_geom dl d b) l r ->
  forall l1 l2, l = l1 ++ l2 -> (0 <= nesting l1 <= 131)%Z.
Proof. exact never_deeper. Qed.
Print Assumptions C10_depth_bounded.
Example C10_example : encodable sample_line /\ (128 + levels sample_line <= 128)%nat /\
  (128 < 129 + levels sample_line)%nat /\ srid_ok Ewkb (Some 4326%Z) /\
  nesting (gevents false 0 (wrap 3 sample_line)) = 0%Z.
Proof. split; [concrete|]. cbn. unfold is_i32. repeat split; lia. Qed.

(** ** C11 *)
Theorem C11_failing_processor : forall dl b S (p : proc S) s, exists l r,
  makes (process_wkb_type_geom dl (p_dims p) b) l r /\
  ((exists s', run p l s = (s', Ok tt) /\
               exec p (process_wkb_type_geom dl (p_dims p) b) s = (s', r)) \/
   (exists l1 e l2 s1 s2 x,
      l = l1 ++ e :: l2 /\ run p l1 s = (s1, Ok tt) /\ p_step p s1 e = (s2, Err x) /\
      exec p (process_wkb_type_geom dl (p_dims p) b) s = (s2, Err x))).
Proof. exact failing_processor. Qed.
Print Assumptions C11_failing_processor.

(** ** C12 *)
Theorem C12_transcoding : forall dl1 d1 srid1 env1 ed1 ext1 emp1 o g dl2 d2 srid2 env2,
  encodable g -> conforming (dz d1) (dm d1) g -> (levels g <= 128)%nat ->
  srid_ok dl1 srid1 -> env_ok dl1 ed1 env1 -> order_ok dl1 o ->
  to_wkb_dialect
    (fun d => pbind (process_wkb_type_geom dl1 d (std dl1 d1 srid1 env1 ed1 ext1 emp1 o g))
                    (fun _ => pret tt))
    dl2 d2 srid2 env2 =
  write_all (with_opts dl2 d2 srid2 env2) (gevents (multi_dim d2) 0 g).
Proof. exact transcode_conforming. Qed.
Print Assumptions C12_transcoding.
(** what comes out is the standard encoding of the geometry in the target dialect *)
Theorem C12_transcoding_standard : forall dl1 d1 srid1 env1 ed1 ext1 emp1 o g dl2 d2 srid2 env2,
  encodable g -> conforming (dz d1) (dm d1) g -> (levels g <= 128)%nat ->
  srid_ok dl1 srid1 -> env_ok dl1 ed1 env1 -> order_ok dl1 o ->
  srid_ok dl2 srid2 -> (dl2 = SpatiaLite -> spatialite_safe g) ->
  to_wkb_dialect
    (fun d => pbind (process_wkb_type_geom dl1 d (std dl1 d1 srid1 env1 ed1 ext1 emp1 o g))
                    (fun _ => pret tt))
    dl2 d2 srid2 env2 =
  Ok (std dl2 d2 srid2 env2 xy_dims false false little g).
Proof. exact transcode_standard. Qed.
Print Assumptions C12_transcoding_standard.
(** any geometry: what is written is what the first encoding retained *)
Theorem C12_transcoding_any : forall dl1 d1 srid1 env1 ed1 ext1 emp1 o g dl2 d2 srid2 env2,
  encodable g -> (levels g <= 128)%nat -> srid_ok dl1 srid1 -> env_ok dl1 ed1 env1 ->
  order_ok dl1 o ->
  to_wkb_dialect
    (fun d => pbind (process_wkb_type_geom dl1 d (std dl1 d1 srid1 env1 ed1 ext1 emp1 o g))
                    (fun _ => pret tt))
    dl2 d2 srid2 env2 =
  write_all (with_opts dl2 d2 srid2 env2)
            (gevents (multi_dim d2) 0 (retained (dz d1) (dm d1) g)).
Proof. exact transcode. Qed.
Print Assumptions C12_transcoding_any.
Example C12_example :
  to_wkb_dialect
    (fun d => pbind (process_wkb_type_geom SpatiaLite d
        (std SpatiaLite xy_dims (Some 3%Z) [] xy_dims false false (fun _ => BE) sample)) (fun _ => pret tt))
    Geopackage xyz_dims (Some 9%Z) [] =
  Ok (std Geopackage xyz_dims (Some 9%Z) [] xy_dims false false little sample).
Proof.
  rewrite (C12_transcoding SpatiaLite xy_dims (Some 3%Z) [] xy_dims false false (fun _ => BE) sample
    Geopackage xyz_dims (Some 9%Z) []); [vm_compute; reflexivity|exact sample_encodable|
    exact sample_conforming|exact sample_levels|cbn; unfold is_i32; lia|split; [left; reflexivity|constructor]|exact I].
Qed.

(** ** C13 *)
Theorem C13_points : forall dl d srid env ed ext emp o c tail,
  coord64 c -> srid_ok dl srid -> env_ok dl ed env -> order_ok dl o ->
  (all_nan (stored (dz d) (dm d) c) ->
   delivers (fun dr => process_wkb_type_geom dl dr (std dl d srid env ed ext emp o (GPoint c) ++ tail))
            (fun _ => [Srid (reported_srid dl srid); EmptyPoint 0]) (Ok (tt, trailer dl ++ tail))) /\
  (~ all_nan (stored (dz d) (dm d) c) ->
   delivers (fun dr => process_wkb_type_geom dl dr (std dl d srid env ed ext emp o (GPoint c) ++ tail))
            (fun multi => [Srid (reported_srid dl srid); PointBegin 0;
                           ev_coord multi 0 (stored (dz d) (dm d) c); PointEnd 0])
            (Ok (tt, trailer dl ++ tail))).
Proof. exact point_std. Qed.
Print Assumptions C13_points.
Theorem C13_points_in_collection : forall dl d srid env ed ext emp o cs tail,
  Forall coord64 cs -> N.of_nat (length cs) < 2 ^ 32 ->
  srid_ok dl srid -> env_ok dl ed env -> order_ok dl o ->
  exists gs, Forall2 (fun c g =>
      (all_nan (stored (dz d) (dm d) c) -> g = GEmptyPoint) /\
      (~ all_nan (stored (dz d) (dm d) c) -> g = GPoint (stored (dz d) (dm d) c))) cs gs /\
    delivers (fun dr => process_wkb_type_geom dl dr
                 (std dl d srid env ed ext emp o (GCollection (map GPoint cs)) ++ tail))
             (fun multi => Srid (reported_srid dl srid) :: gevents multi 0 (GCollection gs))
             (Ok (tt, trailer dl ++ tail)).
Proof. exact points_in_collection. Qed.
Print Assumptions C13_points_in_collection.
(** The last clause is false: the WKB writer cannot write any empty point back. *)
Theorem C13_write_back_refuted : forall dl d rd srid env ed ext emp,
  write_all (with_extended_opts dl d rd srid env ed ext emp) (gevents (multi_dim rd) 0 GEmptyPoint)
  = Err EGeometry.
Proof. exact (fun _ _ _ _ _ _ _ _ => eq_refl). Qed.
Print Assumptions C13_write_back_refuted.
Example C13_example :
  all_nan (stored true false (mkC 0x7FF8000000000001 0xFFF8000000000000 (Some 0x7FF0000000000001) None)) /\
  ~ all_nan (stored true false (mkC 0x7FF8000000000001 0xFFF8000000000000 None None)).
Proof.
  split; [vm_compute; repeat split|]. intros (_ & _ & H & _). vm_compute in H. discriminate H.
Qed.

(** ** C14 *)
Theorem C14_compressed_line_partial : forall z m srid env e first ds last tail,
  is_i32 srid -> length env = 4%nat -> Forall f64_ok env ->
  coord64 first -> coord64 last -> Forall delta_ok ds -> N.of_nat (2 + length ds) < 2 ^ 32 ->
  delivers (fun d => process_wkb_type_geom SpatiaLite d
              (compressed_header z m srid env e 2 ++ compressed_bytes z m e first ds last ++ tail))
    (fun multi =>
       Srid (srid_or_none srid) :: LineStringBegin true (2 + length ds) 0 ::
       mapi (ev_coord multi) 0 (stored z m first :: running z m (stored z m first) ds) ++
       [ev_coord multi (2 + length ds) (stored z m last); LineStringEnd true 0])
    (Ok (tt, tail)).
Proof. exact compressed_blob. Qed.
Print Assumptions C14_compressed_line_partial.
Theorem C14_compressed_empty_line : forall z m srid env e tail,
  is_i32 srid -> length env = 4%nat -> Forall f64_ok env ->
  delivers (fun d => process_wkb_type_geom SpatiaLite d
              (compressed_header z m srid env e 2 ++ count_bytes e 0 ++ tail))
    (fun _ => [Srid (srid_or_none srid); LineStringBegin true 0 0; LineStringEnd true 0])
    (Ok (tt, tail)).
Proof. exact compressed_blob0. Qed.
Print Assumptions C14_compressed_empty_line.
(** Missing: the index of the last vertex is [n], not [n - 1] (visible in the theorem above), and
    a one-vertex line is not delimited: a second position is read from whatever follows. *)
Theorem C14_last_index_refuted : exists first last l1 l2,
  makes (process_wkb_type_geom SpatiaLite xy_dims
           (compressed_header false false 0%Z [0; 0; 0; 0] LE 2 ++
            compressed_bytes false false LE first [] last))
        (l1 ++ ev_coord false 2 last :: l2) (Ok (tt, [])) /\
  In (LineStringBegin true 2 0) l1.
Proof.
  exists (p2 0 0), (p2 one two), [Srid None; LineStringBegin true 2 0; Xy 0 0 0], [LineStringEnd true 0].
  split; [vm_compute; reflexivity|cbn; auto].
Qed.
Print Assumptions C14_last_index_refuted.
Theorem C14_single_vertex_refuted : exists first l,
  makes (process_wkb_type_geom SpatiaLite xy_dims
           (compressed_header false false 0%Z [0; 0; 0; 0] LE 2 ++
            count_bytes LE 1 ++ coord_bytes false false LE first ++ [xfe])) l (Err EIo).
Proof. exists (p2 one two). eexists. observed. Qed.
Print Assumptions C14_single_vertex_refuted.
Example C14_example :
  delta_ok (mkD 0x3F800000 0 0 0) /\
  running true false (stored true false (p2 0 0)) [mkD 0x3F800000 0 0 0; mkD 0x3F800000 0x40000000 0 0] =
    [mkC one 0 (Some 0) None; mkC two two (Some 0) None].
Proof. split; [concrete|vm_compute; reflexivity]. Qed.

(** ** C47 *)
(** a blob without the marks of its dialect is refused before the first callback *)
Theorem C47_bad_marks : forall dl d b, ~ marks_ok dl b ->
  exists e, (e = EGeometryFormat \/ e = EIo) /\ makes (process_wkb_type_geom dl d b) [] (Err e).
Proof. exact bad_marks_rejected. Qed.
Print Assumptions C47_bad_marks.
(** a kind code that is not in the standard is refused without a geometry callback; the WKB reader
    looks at the code modulo 1000, the EWKB reader at the low byte *)
Theorem C47_unknown_kind_wkb : forall d e n b, n < 2 ^ 32 -> ~ known_code (n mod 1000) ->
  makes (process_wkb_type_geom Wkb d (order_byte e :: bytes_of e 4 n ++ b)) [Srid None] (Err EGeometryFormat).
Proof. exact unknown_wkb. Qed.
Print Assumptions C47_unknown_kind_wkb.
Theorem C47_unknown_kind_ewkb : forall d e z m code b, code < 256 -> ~ known_code code ->
  makes (process_wkb_type_geom Ewkb d (order_byte e :: bytes_of e 4 (ewkb_code z m false code) ++ b))
    [Srid None] (Err EGeometryFormat).
Proof. exact unknown_ewkb. Qed.
Print Assumptions C47_unknown_kind_ewkb.
(** a member of a SpatiaLite collection that does not start with 0x69 is refused *)
Theorem C47_spatialite_member : forall d z m srid env e n x b,
  is_i32 srid -> (env = [] \/ length env = 4%nat) -> Forall f64_ok env ->
  0 < n < 2 ^ 32 -> x <> x69 ->
  makes (process_wkb_type_geom SpatiaLite d
           (spatialite_header z m srid env e 7 ++ bytes_of e 4 n ++ x :: b))
    [Srid (if (srid =? 0)%Z then None else Some srid); CollectionBegin (N.to_nat n) 0] (Err EGeometryFormat).
Proof. exact bad_member. Qed.
Print Assumptions C47_spatialite_member.
(** Missing: the WKB reader takes type codes beyond the ISO range, here 4001, for the kind they
    leave modulo 1000 *)
Theorem C47_iso_range_refuted : makes (process_wkb_type_geom Wkb xy_dims
    (order_byte LE :: bytes_of LE 4 4001 ++ bytes_of LE 8 one ++ bytes_of LE 8 two))
  [Srid None; PointBegin 0; Xy one two 0; PointEnd 0] (Ok (tt, [])).
Proof. vm_compute. reflexivity. Qed.
Print Assumptions C47_iso_range_refuted.
Example C47_example : ~ marks_ok Geopackage [x47; x50; x00; x0b] /\ ~ marks_ok MySQL [x00; x00; x00; x00; x00] /\
  ~ marks_ok SpatiaLite [x01] /\ ~ known_code 13 /\
  marks_ok Geopackage (std Geopackage xy_dims None [] xy_dims false false little sample).
Proof.
  repeat split.
  - intros (v & f & r & H & L). injection H as <- <- <-. vm_compute in L. now apply L.
  - intros (s & o & r & H & _ & L). injection H as _ _ _ _ <- _. now apply L.
  - intros (f & r & H & _). discriminate H.
  - unfold known_code. cbn. intuition discriminate.
  - eexists _, _, _. split; [reflexivity|]. vm_compute. discriminate.
Qed.

(** ** C63 *)
(** several geometries through one writer: the bytes *)
Theorem C63_bytes : forall dl d rd srid env ed ext emp,
  srid_ok dl srid -> asks_for_all d rd -> forall q qs,
  Forall (fun q : piece => no_empty (snd q) /\ (dl = SpatiaLite -> spatialite_safe (snd q))) (q :: qs) ->
  write_all (with_extended_opts dl d rd srid env ed ext emp) (flat_map (piece_events (multi_dim rd)) (q :: qs)) =
  Ok (std dl d srid env ed ext emp little (snd q) ++ flat_map (later dl d) (map snd qs)).
Proof. exact seq_bytes. Qed.
Print Assumptions C63_bytes.
(** WKB and EWKB: read back in a row; the SRID is with the first one only *)
Theorem C63_read_back_partial : forall dl d rd srid env ed ext emp q qs, dl = Wkb \/ dl = Ewkb ->
  Forall (fun q : piece => encodable (snd q) /\ conforming (dz d) (dm d) (snd q) /\ (levels (snd q) <= 128)%nat) (q :: qs) ->
  srid_ok dl srid -> asks_for_all d rd ->
  exists bytes,
    write_all (with_extended_opts dl d rd srid env ed ext emp) (flat_map (piece_events (multi_dim rd)) (q :: qs)) = Ok bytes /\
    delivers (fun dr => read_many dl dr (length (q :: qs)) bytes)
      (fun multi => (Srid (reported_srid dl srid) :: gevents multi 0 (snd q)) ++
         flat_map (fun q => Srid None :: gevents multi 0 (snd q)) qs) (Ok (tt, [])).
Proof. exact seq_read_back. Qed.
Print Assumptions C63_read_back_partial.
(** GeoPackage and MySQL: from the second one on it is plain WKB, which their readers refuse *)
Theorem C63_other_dialects_refuted : forall dl d rd srid env ed ext emp q qs, dl = Geopackage \/ dl = MySQL ->
  Forall (fun q : piece => encodable (snd q) /\ conforming (dz d) (dm d) (snd q) /\ (levels (snd q) <= 128)%nat) (q :: qs) ->
  srid_ok dl srid -> env_ok dl ed env -> asks_for_all d rd ->
  exists bytes rest,
    write_all (with_extended_opts dl d rd srid env ed ext emp) (flat_map (piece_events (multi_dim rd)) (q :: qs)) = Ok bytes /\
    delivers (fun dr => process_wkb_type_geom dl dr bytes)
      (fun multi => Srid (reported_srid dl srid) :: gevents multi 0 (snd q)) (Ok (tt, rest)) /\
    delivers (fun dr => read_many Wkb dr (length qs) rest)
      (fun multi => flat_map (fun q => Srid None :: gevents multi 0 (snd q)) qs) (Ok (tt, [])) /\
    (qs <> [] -> forall dr, exists e, (e = EGeometryFormat \/ e = EIo) /\
                                makes (process_wkb_type_geom dl dr rest) [] (Err e)).
Proof. exact seq_rest. Qed.
Print Assumptions C63_other_dialects_refuted.
Theorem C63_spatialite_refuted : forall d rd srid env ed ext emp q qs,
  Forall (fun q : piece => (encodable (snd q) /\ conforming (dz d) (dm d) (snd q) /\ (levels (snd q) <= 128)%nat) /\
                           spatialite_safe (snd q)) (q :: qs) ->
  srid_ok SpatiaLite srid -> env_ok SpatiaLite ed env -> asks_for_all d rd ->
  exists bytes rest,
    write_all (with_extended_opts SpatiaLite d rd srid env ed ext emp) (flat_map (piece_events (multi_dim rd)) (q :: qs)) = Ok bytes /\
    delivers (fun dr => process_wkb_type_geom SpatiaLite dr bytes)
      (fun multi => Srid (reported_srid SpatiaLite srid) :: gevents multi 0 (snd q)) (Ok (tt, rest)) /\
    (forall dr, exists e, (e = EGeometryFormat \/ e = EIo) /\ makes (process_wkb_type_geom SpatiaLite dr rest) [] (Err e)).
Proof. exact seq_spatialite. Qed.
Print Assumptions C63_spatialite_refuted.
Example C63_met : forall dl, dl <> MySQL -> let qs := [([Some 4326%Z], 0%nat, sample); ([], 1%nat, sample_line)] in
  Forall (fun q : piece => (encodable (snd q) /\ conforming (dz xy_dims) (dm xy_dims) (snd q) /\ (levels (snd q) <= 128)%nat) /\
                           spatialite_safe (snd q)) qs /\
  srid_ok dl (Some 4326%Z) /\ env_ok dl xy_dims [] /\ asks_for_all xy_dims xy_dims.
Proof.
  intros dl D qs. split; [|split; [|split]].
  - constructor; [|constructor; [|constructor]]; (split; [|exact I]); (split; [|split]);
      first [exact sample_encodable|exact sample_conforming|exact sample_levels|exact line_encodable|exact line_conforming|exact line_levels].
  - destruct dl; cbn; unfold is_i32; lia.
  - destruct dl; cbn; auto.
  - split; reflexivity.
Qed.
