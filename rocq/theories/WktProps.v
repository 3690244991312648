(** Properties C15-C18 (WKT).  Specification vocabulary: Geom.v ([gevents]), Claims.v ([delivers],
    [makes]), WktSpec.v (the text [wkt_text], the reference parser [parse_wkt], ...).
    Model: WktModel.v.  [fmt] is the number formatting of the standard library, which is not
    modelled: the theorems hold for every function. *)
From Coq Require Import String Ascii.
From Coq Require Import List NArith ZArith Lia Bool.
From Coq Require Import Init.Byte.
From Verif Require Import Base Event Claims Geom WkbModel WkbSpec WkbClaims WkbTop WktModel WktSpec
  WktTop.
Import ListNotations.
Local Open Scope N_scope.
Local Open Scope list_scope.
Local Open Scope string_scope.

(** ** C15 *)
(** What is missing for the full property: coordinates must not carry an ordinate that is not
    configured, unless no extra dimension is configured at all (see
    [C15_unconfigured_ordinate_refuted]). *)
Theorem C15_wkt_output_partial :
  forall A (src : dims -> prog A) l dl d srid fmt g r,
  delivers src (fun multi => map Srid l ++ gevents multi 0 g)%list (Ok r) ->
  (multi_dim d = true -> carries (dz d) (dm d) g) ->
  to_wkt_with_opts fmt src dl d srid =
  Ok ((match dl with PlainWkt => "" | Ewkt => srid_prefix srid l end) ++
      wkt_text fmt (dz d) (dm d) g).
Proof. exact to_wkt_configured. Qed.
Print Assumptions C15_wkt_output_partial.
Example C15_wkt_output_partial_example :
  to_wkt show_bits (process_wkt_geom (WCollection [WPoint None; WPolygon []; WLineString [p2 0 one; p2 one two]])) =
  Ok ("GEOMETRYCOLLECTION(POINT EMPTY,POLYGON EMPTY,LINESTRING(" ++ show_bits 0%N ++ " " ++ show_bits one ++ "," ++
      show_bits one ++ " " ++ show_bits two ++ "))").
Proof.
  unfold to_wkt.
  rewrite (C15_wkt_output_partial unit _ [] PlainWkt xy_dims None show_bits
    (GCollection [GEmptyPoint; GPolygon []; GLineString [p2 0 one; p2 one two]]) tt
    (wkt_delivers (WCollection [WPoint None; WPolygon []; WLineString [p2 0 one; p2 one two]])
       (GCollection [GEmptyPoint; GPolygon []; GLineString [p2 0 one; p2 one two]]) eq_refl)); [|discriminate].
  vm_compute. reflexivity.
Qed.

(** Without that hypothesis: the writer shows every ordinate it is given as soon as any extra
    dimension is configured. *)
Theorem C15_wkt_output_any :
  forall A (src : dims -> prog A) l dl d srid fmt g r,
  delivers src (fun multi => map Srid l ++ gevents multi 0 g)%list (Ok r) ->
  to_wkt_with_opts fmt src dl d srid =
  Ok ((match dl with PlainWkt => "" | Ewkt => srid_prefix srid l end) ++
      wkt_text fmt (multi_dim d) (multi_dim d) g).
Proof. exact to_wkt_any. Qed.
Print Assumptions C15_wkt_output_any.
Example C15_wkt_output_any_example : forall fmt,
  to_wkt_ndim fmt (process_wkt_geom (WLineString [])) xyz_dims = Ok "LINESTRING EMPTY".
Proof.
  intros fmt.
  exact (C15_wkt_output_any unit _ [] PlainWkt xyz_dims None fmt (GLineString []) tt
    (wkt_delivers (WLineString []) (GLineString []) eq_refl)).
Qed.

Theorem C15_unconfigured_ordinate_refuted : exists fmt src g,
  delivers src (fun multi => gevents multi 0 g) (Ok tt) /\
  to_wkt_ndim fmt src xyz_dims <> Ok (wkt_text fmt true false g).
Proof.
  exists show_bits, (process_wkt_geom (WPoint (Some (mkC 0 0 (Some 0%N) (Some 0%N))))). eexists.
  split; [apply wkt_delivers; reflexivity|]. vm_compute. discriminate.
Qed.
Print Assumptions C15_unconfigured_ordinate_refuted.

(** ** C13, text clause: a WKB point whose stored ordinates are all NaN is an empty point in WKT *)
Theorem C13_empty_point_text : forall fmt dl d srid env ed ext emp o c,
  coord64 c -> srid_ok dl srid -> env_ok dl ed env -> order_ok dl o ->
  all_nan (stored (dz d) (dm d) c) ->
  wkt_from_wkb fmt dl (std dl d srid env ed ext emp o (GPoint c)) = Ok "POINT EMPTY" /\
  ewkt_from_wkb fmt dl (std dl d srid env ed ext emp o (GPoint c)) =
  Ok (srid_prefix None [reported_srid dl srid] ++ "POINT EMPTY").
Proof. exact empty_point_text. Qed.
Print Assumptions C13_empty_point_text.
Example C13_empty_point_text_example :
  wkt_from_wkb show_bits Geopackage
    (std Geopackage xyz_dims (Some 1%Z) [] xy_dims false false little
       (GPoint (mkC 0x7FF8000000000001 0xFFF8000000000000 (Some 0x7FF0000000000001) None)))
  = Ok "POINT EMPTY".
Proof. vm_compute. reflexivity. Qed.

(** ** C16 *)
(** What is missing for the full property: every position must carry exactly the configured
    ordinates (see [C16_dimensions_refuted]); NaN payloads are not in the text. *)
Theorem C16_wkt_recoverable_partial : forall fmt num A (src : dims -> prog A) d g r,
  formats fmt num -> exactly (dz d) (dm d) g ->
  delivers src (fun multi => gevents multi 0 g) (Ok r) ->
  exists text,
    to_wkt_ndim fmt src d = Ok text /\ parse_wkt num (dz d) (dm d) text = Some (canon_geom g).
Proof. exact recover. Qed.
Print Assumptions C16_wkt_recoverable_partial.
Example C16_wkt_recoverable_partial_example :
  let w := WCollection [WPoint None; WPolygon [[]; [mkC 0 one (Some two) None]]; WMultiPoint []] in
  formats show_bits read_bits /\
  (exists g, wkt_geom w = Some g /\ exactly (dz xyz_dims) (dm xyz_dims) g /\
   delivers (process_wkt_geom w) (fun multi => gevents multi 0 g) (Ok tt) /\
   exists text, to_wkt_ndim show_bits (process_wkt_geom w) xyz_dims = Ok text /\
                parse_wkt read_bits true false text = Some g).
Proof.
  cbv zeta. split; [exact bits_format|]. eexists. split; [reflexivity|].
  split; [concrete|]. split; [apply wkt_delivers; reflexivity|].
  eexists. split; [vm_compute; reflexivity|]. vm_compute. reflexivity.
Qed.

Theorem C16_wkt_unambiguous_partial :
  forall fmt num A B (src1 : dims -> prog A) (src2 : dims -> prog B) d g1 g2 r1 r2,
  formats fmt num -> exactly (dz d) (dm d) g1 -> exactly (dz d) (dm d) g2 ->
  nan_free g1 -> nan_free g2 ->
  delivers src1 (fun multi => gevents multi 0 g1) (Ok r1) ->
  delivers src2 (fun multi => gevents multi 0 g2) (Ok r2) ->
  to_wkt_ndim fmt src1 d = to_wkt_ndim fmt src2 d -> g1 = g2.
Proof. exact unambiguous. Qed.
Print Assumptions C16_wkt_unambiguous_partial.
Example C16_wkt_unambiguous_partial_example :
  to_wkt_ndim show_bits (process_wkt_geom (WPolygon [])) xy_dims <>
  to_wkt_ndim show_bits (process_wkt_geom (WPolygon [[]])) xy_dims.
Proof.
  intros E.
  assert (H : GPolygon [] = GPolygon [[]]); [|discriminate].
  apply (C16_wkt_unambiguous_partial show_bits read_bits unit unit (process_wkt_geom (WPolygon []))
    (process_wkt_geom (WPolygon [[]])) xy_dims _ _ tt tt bits_format); try exact E;
    try (apply wkt_delivers; reflexivity); concrete.
Qed.

(** One missing ordinate and the other one missing cannot be told apart. *)
Theorem C16_dimensions_refuted : exists g1 g2 src1 src2 fmt text,
  formats fmt read_bits /\ g1 <> g2 /\ nan_free g1 /\ nan_free g2 /\
  delivers src1 (fun multi => gevents multi 0 g1) (Ok tt) /\
  delivers src2 (fun multi => gevents multi 0 g2) (Ok tt) /\
  to_wkt_ndim fmt src1 xyzm_dims = Ok text /\ to_wkt_ndim fmt src2 xyzm_dims = Ok text.
Proof.
  exists (GPoint (mkC 0 0 (Some one) None)), (GPoint (mkC 0 0 None (Some one))),
    (process_wkt_geom (WPoint (Some (mkC 0 0 (Some one) None)))),
    (process_wkt_geom (WPoint (Some (mkC 0 0 None (Some one))))), show_bits. eexists.
  split; [exact bits_format|]. split; [discriminate|]. split; [concrete|]. split; [concrete|].
  split; [apply wkt_delivers; reflexivity|]. split; [apply wkt_delivers; reflexivity|].
  split; [vm_compute; reflexivity|]. vm_compute. reflexivity.
Qed.
Print Assumptions C16_dimensions_refuted.

(** ** C17 *)
(** [before] are the SRIDs the source announces before the geometry, [after] those it announces
    after it *)
Theorem C17_ewkt_prefix : forall fmt d srid before after g,
  exists s, run (wkt_writer fmt (mkWktCfg d Ewkt))
              (map Srid before ++ gevents (multi_dim d) 0 g ++ map Srid after) (wkt_init srid) = (s, Ok tt) /\
            k_out s = srid_prefix srid before ++ wkt_text fmt (multi_dim d) (multi_dim d) g.
Proof. exact ewkt_prefix. Qed.
Print Assumptions C17_ewkt_prefix.
Theorem C17_wkt_no_prefix : forall fmt d srid before after g,
  exists s, run (wkt_writer fmt (mkWktCfg d PlainWkt))
              (map Srid before ++ gevents (multi_dim d) 0 g ++ map Srid after) (wkt_init srid) = (s, Ok tt) /\
            k_out s = wkt_text fmt (multi_dim d) (multi_dim d) g.
Proof. exact wkt_no_prefix. Qed.
Print Assumptions C17_wkt_no_prefix.
(** to_ewkt: all ordinates and the prefix; to_wkt: neither *)
Theorem C17_to_ewkt : forall A (src : dims -> prog A) l fmt srid g r,
  delivers src (fun multi => map Srid l ++ gevents multi 0 g)%list (Ok r) ->
  to_ewkt fmt src srid = Ok (srid_prefix srid l ++ wkt_text fmt true true g).
Proof. intros A src l fmt srid g r. exact (to_wkt_any A src l Ewkt xyzm_dims srid fmt g r). Qed.
Print Assumptions C17_to_ewkt.
Theorem C17_to_wkt : forall A (src : dims -> prog A) l fmt g r,
  delivers src (fun multi => map Srid l ++ gevents multi 0 g)%list (Ok r) ->
  to_wkt fmt src = Ok (wkt_text fmt false false g).
Proof. intros A src l fmt g r. exact (to_wkt_any A src l PlainWkt xy_dims None fmt g r). Qed.
Print Assumptions C17_to_wkt.
Example C17_prefix_example :
  srid_prefix (Some 4326%Z) [Some 3857%Z] = "SRID=4326;" /\ srid_prefix None [None; Some (-1)%Z; Some 2%Z] = "SRID=-1;" /\
  srid_prefix (Some 0%Z) [Some 4326%Z] = "" /\ srid_prefix None [] = "".
Proof. repeat split; reflexivity. Qed.

(** EWKT from WKB of any dialect: the SRID of the header is the prefix. *)
Theorem C17_ewkt_from_wkb : forall fmt dl d srid env ed ext emp o g,
  encodable g -> (levels g <= 128)%nat -> srid_ok dl srid -> env_ok dl ed env -> order_ok dl o ->
  ewkt_from_wkb fmt dl (std dl d srid env ed ext emp o g) =
  Ok (srid_prefix None [reported_srid dl srid] ++ wkt_text fmt true true (retained (dz d) (dm d) g)).
Proof. exact from_wkb_text. Qed.
Print Assumptions C17_ewkt_from_wkb.
Theorem C17_wkt_from_wkb : forall fmt dl d srid env ed ext emp o g,
  encodable g -> (levels g <= 128)%nat -> srid_ok dl srid -> env_ok dl ed env -> order_ok dl o ->
  wkt_from_wkb fmt dl (std dl d srid env ed ext emp o g) =
  Ok (wkt_text fmt false false (retained (dz d) (dm d) g)).
Proof. exact from_wkb_plain. Qed.
Print Assumptions C17_wkt_from_wkb.
Example C17_ewkt_from_wkb_example : forall fmt,
  ewkt_from_wkb fmt Ewkb (std Ewkb xy_dims (Some 4326%Z) [] xy_dims false false little (GLineString []))
  = Ok "SRID=4326;LINESTRING EMPTY" /\
  wkt_from_wkb fmt Ewkb (std Ewkb xy_dims (Some 4326%Z) [] xy_dims false false little (GLineString []))
  = Ok "LINESTRING EMPTY".
Proof.
  intros fmt. split.
  - apply (C17_ewkt_from_wkb fmt Ewkb xy_dims (Some 4326%Z) [] xy_dims false false little (GLineString []));
      [concrete|cbn; lia|cbn; unfold is_i32; lia|exact I|exact I].
  - apply (C17_wkt_from_wkb fmt Ewkb xy_dims (Some 4326%Z) [] xy_dims false false little (GLineString []));
      [concrete|cbn; lia|cbn; unfold is_i32; lia|exact I|exact I].
Qed.

(** ** C18 *)
(** What is missing: a MultiPoint with EMPTY members (see [C18_empty_member_refuted]). *)
Theorem C18_wkt_reader_partial : forall w g, wkt_geom w = Some g ->
  delivers (process_wkt_geom w) (fun multi => gevents multi 0 g) (Ok tt).
Proof. exact wkt_delivers. Qed.
Print Assumptions C18_wkt_reader_partial.
Example C18_wkt_reader_partial_example : exists g,
  wkt_geom (WCollection [WMultiPoint [Some (p2 0 one)]; WPoint None; WCollection []]) = Some g /\
  g = GCollection [GMultiPoint [p2 0 one]; GEmptyPoint; GCollection []].
Proof. eexists. split; reflexivity. Qed.

(** MULTIPOINT(EMPTY,x y): two members are announced, one is reported, with index 1; transcoded
    to WKT the text is not well-formed. *)
Theorem C18_empty_member_refuted : forall c,
  makes (process_wkt_geom (WMultiPoint [None; Some c]) xy_dims)
        [MultiPointBegin 2 0; Xy (cx c) (cy c) 1; MultiPointEnd 0] (Ok tt) /\
  to_wkt show_bits (process_wkt_geom (WMultiPoint [None; Some (p2 0 one)])) =
  Ok ("MULTIPOINT(," ++ show_bits 0%N ++ " " ++ show_bits one ++ ")") /\
  parse_wkt read_bits false false ("MULTIPOINT(," ++ show_bits 0%N ++ " " ++ show_bits one ++ ")") = None.
Proof. intros c. repeat split; vm_compute; reflexivity. Qed.
Print Assumptions C18_empty_member_refuted.
