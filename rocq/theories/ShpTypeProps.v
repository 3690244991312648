(** C73, C74: record types and the files of a shapefile.  Read with: ShpTypeSpec.v ([carries],
    [belongs], [index_harmless], [attributes]), ShpSpec.v (layouts, [int_at]: a field of the raw bytes).
    [ck]: overflow checks on or off. *)
From Coq Require Import String Ascii.
From Coq Require Import List NArith ZArith Lia Bool.
From Coq Require Import Init.Byte.
From Verif Require Import Base Float Event Claims Geom FeatureSpec WkbModel.
From Verif Require Import ShpModel ShpSpec ShpFeatures ShpMore ShpTypeSpec ShpTypeTop ShpMeasure.
Import ListNotations.
Local Open Scope list_scope.

(** C73.  Type codes. *)
Theorem C73_codes : forall z t, shape_type_of z = Some t <-> z = type_number t.
Proof. exact codes. Qed.
Print Assumptions C73_codes.
(** Whatever the bytes of the record: every position has a z value exactly if the type has z values
    and the consumer asks for them; measures are given to all positions or to none, to none of a
    plain point, and to those of a PointM if asked for; t and tm are never given. *)
Theorem C73_values_partial : forall ck d b t l r, int_at LE b 8 = Some (type_number t) ->
  makes (read_shape ck d b) l r ->
  exists m, (m = true -> dm d = true) /\ (t = Point -> m = false) /\ (t = PointM -> m = dm d) /\
    Forall (carries (type_has_z t && dz d) m) l.
Proof. exact record_values. Qed.
Print Assumptions C73_values_partial.
Example C73_met : int_at LE (record_bytes 7 island) 8 = Some (type_number PolygonZ).
Proof. reflexivity. Qed.
(** The callbacks are those of the family of the type; parts are reported only of types that may
    have parts, points on their own only of types that have none. *)
Theorem C73_family : forall ck d b t l r, int_at LE b 8 = Some (type_number t) ->
  makes (read_shape ck d b) l r ->
  Forall (belongs (family_of t)) l /\
  Forall (fun e => (about_part e = true -> type_multipart t = true) /\
                   (about_point e = true -> type_multipart t = false)) l.
Proof. exact record_family. Qed.
Print Assumptions C73_family.
(** Any other code is refused before the first callback. *)
Theorem C73_unknown : forall ck d b code, int_at LE b 8 = Some code -> (forall t, code <> type_number t) ->
  (forall size, int_at BE b 4 = Some size -> (- 2 ^ 30 <= size < 2 ^ 30)%Z) ->
  makes (read_shape ck d b) [] (Err InvalidShapeType).
Proof. exact unknown_code. Qed.
Print Assumptions C73_unknown.
Example C73_unknown_met : let b := be32 1 ++ be32 2 ++ le32 2 in
  int_at LE b 8 = Some 2%Z /\ (forall t, 2%Z <> type_number t) /\ int_at BE b 4 = Some 2%Z.
Proof. cbv zeta. split; [reflexivity|]. split; [intros []; discriminate|reflexivity]. Qed.
(** A type has measures exactly if some record that follows the format has this type and delivers one. *)
Theorem C73_measured : forall t, type_has_m t = true <->
  exists sh, well_formed sh /\ int_at LE (record_bytes 1 sh) 8 = Some (type_number t) /\
    forall ck, exists l h x y z m i, makes (read_shape ck m_dims (record_bytes 1 sh)) l (Ok (h, [])) /\
      In (Coord x y z (Some m) None None i) l.
Proof. exact measured_types. Qed.
Print Assumptions C73_measured.
(** Types without measures: a polyline record with a block of measures is accepted and they are
    delivered. *)
Theorem C73_measure_refuted :
  int_at LE sneaky 8 = Some (type_number Polyline) /\ type_has_m Polyline = false /\
  forall ck, exists h,
    makes (read_shape ck m_dims sneaky)
      [MultiLineStringBegin 1 0; LineStringBegin false 2 0; Coord f0 f0 None (Some f1) None None 0;
       Coord f1 f1 None (Some f2) None None 1; LineStringEnd false 0; MultiLineStringEnd 0] (Ok (h, [])).
Proof. exact (conj (proj1 sneaky_type) (conj (proj2 sneaky_type) sneaky_measures)). Qed.
Print Assumptions C73_measure_refuted.
(** The value that stands for "no data": [s], [e] and [m] are the sign, the exponent and the fraction of the f64;
    it is the one nearest to -10^39. *)
Theorem C73_no_data : exists s e m : N, NO_DATA = (s * 2 ^ 63 + e * 2 ^ 52 + m)%N /\ s = 1%N /\ (0 < e < 2047)%N /\ (m < 2 ^ 52)%N /\
  (2 * Z.abs ((2 ^ 52 + Z.of_N m) * 2 ^ (Z.of_N e - 1075) - 10 ^ 39) < 2 ^ (Z.of_N e - 1075))%Z.
Proof. exact no_data_value. Qed.
Print Assumptions C73_no_data.
(** A measure that stands for "no data" is delivered as a number. *)
Theorem C73_no_data_refuted : forall ck n rest, is_i32 n -> exists h,
  makes (read_shape ck m_dims (record_bytes n (OnePoint Measured (mkC f0 f1 None (Some NO_DATA))) ++ rest))
    [PointBegin 0; Coord f0 f1 None (Some NO_DATA) None None 0; PointEnd 0] (Ok (h, rest)).
Proof. exact no_data_shown. Qed.
Print Assumptions C73_no_data_refuted.

(** C74.  The bytes on the disk up to the callbacks.  [ext]: how the names of the companion files are
    made; [dbase]: what the dbase crate finds in a file.  The index may be anything readable or
    missing: it has no influence. *)
Theorem C74_features : forall ck dbase ext fs path unused h l rest d more S (p : proc S) leftover s,
  length unused = 20 -> header_ok h -> fs_open fs path = Ok (header_bytes unused h ++ shp_body l ++ rest) ->
  index_harmless ck fs (ext path "shx"%string) -> attributes dbase fs (ext path "dbf"%string) (Some d) ->
  Forall entry_ok l -> announces h l -> dr_records d = map (fun f => Ok (en_record f)) l ++ more ->
  exists r it evs, from_path ck dbase ext fs path = Ok r /\ reader_features ck r = Ok it /\
    events_of (p_dims p) l evs /\
    consume ck leftover p (Datatypes.S (length l)) it s =
    let (s', x) := perform p (file_acts (combine l evs)) s in (s', Some x).
Proof. exact open_features. Qed.
Print Assumptions C74_features.
Theorem C74_geometries : forall ck dbase ext fs path unused h l rest dbf S (p : proc S) leftover s,
  length unused = 20 -> header_ok h -> fs_open fs path = Ok (header_bytes unused h ++ shp_body l ++ rest) ->
  index_harmless ck fs (ext path "shx"%string) -> attributes dbase fs (ext path "dbf"%string) dbf ->
  Forall entry_ok l -> announces h l ->
  exists r it evs, from_path ck dbase ext fs path = Ok r /\ reader_geometries ck r = Ok it /\
    events_of (p_dims p) l evs /\
    consume_shapes ck leftover p (Datatypes.S (length l)) it s =
    let (s', x) := run p (concat evs) s in (s', Some x).
Proof. exact open_geometries. Qed.
Print Assumptions C74_geometries.
Example C74_met : forall ck, let fs := disk "a" in
  fs_open fs "a" = Ok (header_bytes (repeat x00 20) places_header ++ shp_body places ++ []) /\
  index_harmless ck fs (disk_ext "a" "shx") /\
  attributes (fun _ => Ok disk_dbf) fs (disk_ext "a" "dbf") (Some disk_dbf) /\
  dr_records disk_dbf = map (fun f => Ok (en_record f)) places ++ [].
Proof. exact disk_fine. Qed.
Example C74_places : header_ok places_header /\ Forall entry_ok places /\ announces places_header places.
Proof. exact (conj places_header_ok (conj places_ok places_announced)). Qed.
(** Without a .dbf file opening succeeds; only what needs it fails. *)
Theorem C74_without_dbf : forall ck dbase ext fs path unused h body,
  length unused = 20 -> header_ok h -> fs_open fs path = Ok (header_bytes unused h ++ body) ->
  index_harmless ck fs (ext path "shx"%string) -> missing fs (ext path "dbf"%string) ->
  exists r, from_path ck dbase ext fs path = Ok r /\ sr_header r = h /\
    reader_features ck r = Err MissingDbf /\ read_records r = Err MissingDbf /\ dbf_fields r = Err MissingDbf.
Proof. exact open_bare. Qed.
Print Assumptions C74_without_dbf.
(** With one, the records and the field names are what dbase says, without the deletion flag. *)
Theorem C74_fields : forall ck dbase ext fs path unused h body d,
  length unused = 20 -> header_ok h -> fs_open fs path = Ok (header_bytes unused h ++ body) ->
  index_harmless ck fs (ext path "shx"%string) -> attributes dbase fs (ext path "dbf"%string) (Some d) ->
  exists r names, from_path ck dbase ext fs path = Ok r /\ sr_header r = h /\
    (forall l, dr_read d = Ok l -> read_records r = Ok l) /\
    (forall e, dr_read d = Err e -> read_records r = Err DbaseError) /\
    dbf_fields r = Ok names /\
    (forall n, In n names <-> In n (dr_fields d) /\ n <> "DeletionFlag"%string) /\
    (~ In "DeletionFlag"%string (dr_fields d) -> names = dr_fields d).
Proof. exact open_dbf. Qed.
Print Assumptions C74_fields.
(** Errors: no file, another kind of file, attributes that cannot be read. *)
Theorem C74_absent : forall ck dbase ext fs path e,
  fs_open fs path = Err e -> from_path ck dbase ext fs path = Err e.
Proof. exact open_absent. Qed.
Print Assumptions C74_absent.
Theorem C74_wrong_kind : forall ck dbase ext fs path z rest, is_i32 z -> z <> 9994%Z ->
  fs_open fs path = Ok (be32 z ++ rest) -> from_path ck dbase ext fs path = Err InvalidFileCode.
Proof. exact open_wrong. Qed.
Print Assumptions C74_wrong_kind.
Theorem C74_broken_dbf : forall ck dbase ext fs path unused h body b e,
  length unused = 20 -> header_ok h -> fs_open fs path = Ok (header_bytes unused h ++ body) ->
  index_harmless ck fs (ext path "shx"%string) -> holds fs (ext path "dbf"%string) b -> dbase b = Err e ->
  from_path ck dbase ext fs path = Err DbaseError.
Proof. exact open_bad_dbf. Qed.
Print Assumptions C74_broken_dbf.
(** Although it is never used, a damaged index keeps a good shapefile from being opened: an empty one
    is an error, one whose header announces no length a panic. *)
Theorem C74_empty_index_refuted : forall ck dbase ext fs path unused h body,
  length unused = 20 -> header_ok h -> fs_open fs path = Ok (header_bytes unused h ++ body) ->
  holds fs (ext path "shx"%string) [] -> from_path ck dbase ext fs path = Err EIo.
Proof. exact open_truncated_index. Qed.
Print Assumptions C74_empty_index_refuted.
Theorem C74_damaged_index_refuted : forall ck dbase ext fs path unused h body,
  length unused = 20 -> header_ok h -> fs_open fs path = Ok (header_bytes unused h ++ body) ->
  holds fs (ext path "shx"%string) short_index -> from_path ck dbase ext fs path = Err EPanic.
Proof. exact open_panics. Qed.
Print Assumptions C74_damaged_index_refuted.
