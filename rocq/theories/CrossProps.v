(** Property C78: a blob given to the reader of another dialect.  Vocabulary: CrossSpec.v ([refused],
    [told_apart]), WkbClaims.v ([std]); model: WkbModel.v. *)
From Coq Require Import List NArith ZArith Lia Bool.
From Coq Require Import Init.Byte.
From Verif Require Import Base Event Claims Geom WkbModel WkbSpec WkbClaims WkbTop CrossSpec CrossTop.
Import ListNotations.
Local Open Scope N_scope.
Local Open Scope list_scope.

(** ** WKB and EWKB: read alike without extra dimensions and SRID, told apart otherwise, in every byte
    order *)
Theorem C78_wkb_as_ewkb : forall d s env ed ext emp o g,
  encodable g -> (levels g <= 128)%nat ->
  if dz d || dm d
  then forall dr, refused Ewkb dr (std Wkb d s env ed ext emp o g)
  else delivers (fun dr => process_wkb_type_geom Ewkb dr (std Wkb d s env ed ext emp o g))
         (fun multi => Srid None :: gevents multi 0 (retained false false g)) (Ok (tt, [])).
Proof. exact wkb_as_ewkb. Qed.
Print Assumptions C78_wkb_as_ewkb.
Theorem C78_ewkb_as_wkb : forall d s env ed ext emp o g,
  encodable g -> (levels g <= 128)%nat -> srid_ok Ewkb s ->
  if dz d || dm d || match s with Some _ => true | None => false end
  then forall dr, refused Wkb dr (std Ewkb d s env ed ext emp o g)
  else delivers (fun dr => process_wkb_type_geom Wkb dr (std Ewkb d s env ed ext emp o g))
         (fun multi => Srid None :: gevents multi 0 (retained false false g)) (Ok (tt, [])).
Proof. exact ewkb_as_wkb. Qed.
Print Assumptions C78_ewkb_as_wkb.
Example C78_ewkb_as_wkb_met :
  refused Wkb xy_dims (std Ewkb xy_dims (Some 4326%Z) [] xy_dims false false little sample).
Proof.
  apply (C78_ewkb_as_wkb xy_dims (Some 4326%Z)); [exact sample_encodable|exact sample_levels|cbn; unfold is_i32; lia].
Qed.

(** ** The other pairs: for which blobs the wrong reader is sure to refuse *)
(** What is missing: the blobs excluded by [told_apart], some of which are read as another geometry
    (below). *)
Theorem C78_refused_partial : forall from to d dr srid env ed ext emp o g,
  (0 <= opt_default 0 srid < 2 ^ 31)%Z -> order_ok from o ->
  told_apart from to (o []) (dz d) (dm d) (match srid with Some _ => true | None => false end)
    (opt_default 0%Z srid) (header_flags ext emp env ed (o [])) (match env with [] => false | _ => true end) ->
  refused to dr (std from d srid env ed ext emp o g).
Proof. intros from to d dr srid env ed ext emp o g S O. exact (apart d dr srid env ed ext emp o g S from to O). Qed.
Print Assumptions C78_refused_partial.
(** blobs of WGS 84 written in XY without envelope: MySQL taken for EWKB is the only pair in doubt *)
Example C78_refused_partial_met : forall from to, from <> to -> (from, to) <> (MySQL, Ewkb) ->
  from <> Ewkb ->
  told_apart from to LE false false true 4326 (header_flags false false [] xy_dims LE) false \/
  (from, to) = (Wkb, Ewkb).
Proof.
  intros [] [] N M X; try (now elim N); try (now elim M); try (now elim X); try (now right); left;
    cbn [told_apart]; try exact I; try reflexivity; try lia; try (split; [reflexivity|]);
    try (vm_compute; intuition discriminate).
Qed.

(** ** Blobs read as another geometry *)
(** A MySQL blob without SRID, the default, begins with four zero bytes and 01: to the WKB and EWKB
    readers that is a big endian point.  Every such blob of 21 bytes or more is read as a point,
    whatever it holds. *)
Theorem C78_mysql_point : forall d env ed ext emp g to, to = Wkb \/ to = Ewkb ->
  (21 <= length (std MySQL d None env ed ext emp little g))%nat ->
  exists c rest,
    delivers (fun dr => process_wkb_type_geom to dr (std MySQL d None env ed ext emp little g))
      (fun multi => Srid None :: gevents multi 0 (GPoint c)) (Ok (tt, rest)).
Proof. exact mysql_point. Qed.
Print Assumptions C78_mysql_point.
Example C78_mysql_point_met : (21 <= length (std MySQL xy_dims None [] xy_dims false false little sample_line))%nat.
Proof. vm_compute. lia. Qed.
Theorem C78_mysql_refuted : exists g g' rest, g <> g' /\ encodable g /\
  makes (process_wkb_type_geom Wkb xy_dims (std MySQL xy_dims None [] xy_dims false false little g))
    (Srid None :: gevents false 0 g') (Ok (tt, rest)).
Proof.
  exists (GPoint (mkC one two None None)), (GPoint (mkC 0x0100000000000000 264153373605888 None None)). eexists.
  split; [discriminate|]. split; [concrete|]. observed.
Qed.
Print Assumptions C78_mysql_refuted.
(** A GeoPackage blob of WGS 84 with an envelope that begins with 0 is an empty TIN to the MySQL
    reader, one with SRID 20 an empty arc to the WKB reader; so is a SpatiaLite blob with SRID 22. An
    EWKB line with SRID 2001 is a point to the MySQL reader. *)
Theorem C78_misread_refuted :
  (exists s, makes (process_wkb_type_geom MySQL xy_dims
     (std Geopackage xy_dims (Some 4326%Z) [0; one; 0; two] xy_dims false false little sample))
     (Srid (Some s) :: gevents false 0 (GTin [])) (Ok (tt,
        skipn 13 (std Geopackage xy_dims (Some 4326%Z) [0; one; 0; two] xy_dims false false little sample)))) /\
  (exists rest, makes (process_wkb_type_geom Wkb xy_dims
     (std Geopackage xy_dims (Some 20%Z) [0; one; 0; two] xy_dims false false little sample))
     (Srid None :: gevents false 0 (GCircularString [])) (Ok (tt, rest))) /\
  (exists rest, makes (process_wkb_type_geom Wkb xy_dims
     (std SpatiaLite xy_dims (Some 22%Z) [] xy_dims false false little sample))
     (Srid None :: gevents false 0 (GCircularString [])) (Ok (tt, rest))) /\
  (exists s c rest, makes (process_wkb_type_geom MySQL xy_dims
     (std Ewkb xy_dims (Some 2001%Z) [] xy_dims false false little sample_line))
     (Srid (Some s) :: gevents false 0 (GPoint c)) (Ok (tt, rest))).
Proof.
  split; [eexists; observed|]. split; [eexists; observed|]. split; [eexists; observed|].
  eexists _, (mkC _ _ None None), _. observed.
Qed.
Print Assumptions C78_misread_refuted.
