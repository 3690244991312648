(** Properties C67 and C56: SpatiaLite blobs with compressed lines.  Specification vocabulary: Claims.v,
    Geom.v, SlipSpec.v, ReencSpec.v, ChainSpec.v, WkbClaims.v, GdalSpec.v. *)
From Coq Require Import String Ascii.
From Coq Require Import List NArith ZArith Lia Bool.
From Coq Require Import Init.Byte.
From Verif Require Import Base Event Claims Geom WkbModel WkbSpec WkbClaims DbModel ReencSpec SlipSpec SlipTop SlipGdal.
From Verif Require WkbTop WktModel WktSpec GeoJsonModel GeoJsonSpec GeoModel SvgModel CsvModel MvtModel TessModel ProcModel ChainSpec.
From Verif Require GdalModel GdalSpec.
Import ListNotations.
Local Open Scope N_scope.
Local Open Scope list_scope.

(** Writers that do not look at the number of a position, except whether it is the first. *)
Theorem C67_first_only :
  (forall c, first_only (wkb_writer c)) /\
  (forall fmt c, first_only (WktModel.wkt_writer fmt c)) /\
  (forall debug, first_only (GeoModel.geo_writer debug)) /\
  (forall f32 fmt d, first_only (GeoJsonModel.geojson_writer f32 fmt d)) /\
  (forall f32 fmt, first_only (GeoJsonModel.geojson_line_writer f32 fmt)) /\
  (forall fmt c, first_only (SvgModel.svg_writer fmt c)) /\
  (forall f32 fmt b d, first_only (CsvModel.csv_writer f32 fmt b d)) /\
  (forall n b64 debug c, first_only (MvtModel.mvt_writer n b64 debug c)) /\
  (forall n ly, first_only (TessModel.tessellator n ly)) /\
  first_only ProcModel.bounds_proc.
Proof.
  exact (conj wkb_first (conj wkt_first (conj geo_first (conj geojson_first (conj lines_first (conj svg_first
        (conj csv_first (conj mvt_first (conj tess_first bounds_first))))))))).
Qed.
Print Assumptions C67_first_only.
(** Any accepted bytes of any dialect, SpatiaLite with compressed lines included: unless a line of one
    position was compressed, every such processor sees one geometry, and every conversion gives what it
    gives for that geometry. *)
Theorem C67_spatialite_partial : forall dl b l, makes (bytes_source dl b xyzm_dims) l (Ok tt) -> ~ doubled l ->
  exists srid g src, sound g /\ says src srid g /\
    (forall S (p : proc S), first_only p -> forall s,
       exec p (bytes_source dl b (p_dims p)) s = exec p (src (p_dims p)) s) /\
    (forall dl' d s env, to_wkb_dialect (bytes_source dl b) dl' d s env = to_wkb_dialect src dl' d s env) /\
    (forall fmt w d s, WktModel.to_wkt_with_opts fmt (bytes_source dl b) w d s = WktModel.to_wkt_with_opts fmt src w d s) /\
    (forall f32 fmt, GeoJsonModel.to_json f32 fmt (bytes_source dl b) = GeoJsonModel.to_json f32 fmt src) /\
    (forall fmt, SvgModel.to_svg fmt (bytes_source dl b) = SvgModel.to_svg fmt src) /\
    (forall debug, GeoModel.to_geo debug (bytes_source dl b) = GeoModel.to_geo debug src) /\
    (forall n b64 debug, MvtModel.to_mvt_unscaled n b64 debug (bytes_source dl b) = MvtModel.to_mvt_unscaled n b64 debug src).
Proof. exact spatialite_outputs. Qed.
Print Assumptions C67_spatialite_partial.
Theorem C67_spatialite_reencoded_partial : forall dl b l, makes (bytes_source dl b xyzm_dims) l (Ok tt) -> ~ doubled l ->
  exists srid g, sound g /\ (forall S (p : proc S), first_only p -> forall s,
       exec p (bytes_source dl b (p_dims p)) s = run p (Srid srid :: gevents (multi_dim (p_dims p)) 0 g) s) /\
    (no_empty g -> forall dl' d s env, srid_ok dl' s -> env_ok dl' xy_dims env -> (dl' = SpatiaLite -> spatialite_safe g) ->
     exists w, to_wkb_dialect (bytes_source dl b) dl' d s env = Ok w /\
       says (bytes_source dl' w) (reported_srid dl' s) (retained (dz d) (dm d) g) /\
       (conforming (dz d) (dm d) g -> says (bytes_source dl' w) (reported_srid dl' s) g)).
Proof. exact spatialite_reencoded. Qed.
Print Assumptions C67_spatialite_reencoded_partial.
Theorem C67_spatialite_chain_partial : forall c wnum jnum,
  WktSpec.formats (ChainSpec.c_wkt_format c) wnum -> ChainSpec.wkt_crate c wnum ->
  GeoJsonSpec.json_format GeoJsonSpec.finite (ChainSpec.c_format c) jnum -> ChainSpec.geojson_crate c jnum ->
  forall dl b l, makes (bytes_source dl b xyzm_dims) l (Ok tt) -> ~ doubled l ->
  exists srid g, sound g /\ (forall S (p : proc S), first_only p -> forall s,
       exec p (bytes_source dl b (p_dims p)) s = run p (Srid srid :: gevents (multi_dim (p_dims p)) 0 g) s) /\
    forall f fs, Forall (ChainSpec.suits c g) (f :: fs) -> exists src, ChainSpec.chain c (f :: fs) (bytes_source dl b) = Ok src /\
      delivers src (fun multi => map Srid (ChainSpec.finally [srid] (f :: fs)) ++ gevents multi 0 g) (Ok tt).
Proof. exact spatialite_chain. Qed.
Print Assumptions C67_spatialite_chain_partial.

(** A compressed line of a big endian blob, with two inner positions *)
Definition packed_line : list byte :=
  compressed_header false false 4326 [0; 0; WkbTop.two; WkbTop.two] BE 2 ++
  compressed_bytes false false BE (mkC WkbTop.one WkbTop.one None None)
    [mkD 0x3F800000 0 0 0; mkD 0 0x3F800000 0 0] (mkC WkbTop.two WkbTop.two None None) ++ [xfe].
Example C67_spatialite_met :
  let l := [Srid (Some 4326%Z); LineStringBegin true 4 0; Coord WkbTop.one WkbTop.one None None None None 0;
            Coord WkbTop.two WkbTop.one None None None None 1; Coord WkbTop.two WkbTop.two None None None None 2;
            Coord WkbTop.two WkbTop.two None None None None 4; LineStringEnd true 0] in
  makes (bytes_source SpatiaLite packed_line xyzm_dims) l (Ok tt) /\ ~ doubled l /\
  ~ exists g, l = Srid (Some 4326%Z) :: gevents true 0 g.
Proof.
  cbn zeta. split; [vm_compute; reflexivity|]. split.
  - intros (b & t & k & x & y & z & m & a & E & _).
    destruct b as [|e0 b]; [discriminate E|]. destruct b as [|e1 b]; [discriminate E|].
    destruct b as [|e2 b]; [discriminate E|]. destruct b as [|e3 b]; [discriminate E|].
    destruct b as [|e4 b]; [discriminate E|]. destruct b as [|e5 b]; [discriminate E|].
    destruct b as [|e6 b]; [discriminate E|]. destruct b; discriminate E.
  - intros [g E]. destruct g; try discriminate E. cbn in E. destruct l as [|c0 [|c1 [|c2 [|c3 l]]]]; try discriminate E.
Qed.
(** A polygon both rings of which are compressed lines of one position: the reader accepts them and
    delivers two positions each, the writer announces one each; what it writes is read as a polygon of
    a single position. *)
Definition packed_dots : list byte :=
  let ring := bytes_of LE 4 1 ++ coord_bytes false false LE (mkC WkbTop.one WkbTop.two None None) ++
              coord_bytes false false LE (mkC 0 0 None None) in
  compressed_header false false 4326 [0; 0; WkbTop.two; WkbTop.two] LE 3 ++ bytes_of LE 4 2 ++ ring ++ ring ++ [xfe].
Theorem C67_spatialite_refuted : exists w,
  makes (bytes_source SpatiaLite packed_dots xy_dims)
    [Srid (Some 4326%Z); PolygonBegin true 2 0;
     LineStringBegin false 1 0; Xy WkbTop.one WkbTop.two 0; Xy 0 0 1; LineStringEnd false 0;
     LineStringBegin false 1 1; Xy WkbTop.one WkbTop.two 0; Xy 0 0 1; LineStringEnd false 1; PolygonEnd true 0] (Ok tt) /\
  to_wkb_dialect (bytes_source SpatiaLite packed_dots) Wkb xy_dims None [] = Ok w /\
  makes (bytes_source Wkb w xy_dims)
    [Srid None; PolygonBegin true 2 0;
     LineStringBegin false 1 0; Xy WkbTop.one WkbTop.two 0; LineStringEnd false 0;
     LineStringBegin false 0 1; LineStringEnd false 1; PolygonEnd true 0] (Ok tt).
Proof. eexists. split; [vm_compute; reflexivity|]. split; [vm_compute; reflexivity|]. vm_compute. reflexivity. Qed.
Print Assumptions C67_spatialite_refuted.

(** GdalWriter places positions by number, so a compressed line of two or more positions gets one too
    many, at the origin and before the last. *)
Theorem C56_compressed_refuted : forall z m srid env e first ds last tail,
  is_i32 srid -> length env = 4%nat -> Forall f64_ok env ->
  coord64 first -> coord64 last -> Forall delta_ok ds -> N.of_nat (3 + length ds) < 2 ^ 31 ->
  GdalModel.gdal_from_wkb SpatiaLite (compressed_header z m srid env e 2 ++ compressed_bytes z m e first ds last ++ tail) =
  let c := stored z m first in
  Ok (GdalSpec.gvalue false (GLineString ((c :: running z m c ds) ++ [mkC f64_zero f64_zero None None; stored z m last]))).
Proof. exact compressed_gdal. Qed.
Print Assumptions C56_compressed_refuted.
Example C56_compressed_met : exists v,
  GdalModel.gdal_from_wkb SpatiaLite packed_line = Ok v /\
  GdalModel.o_pts v = [(WkbTop.one, WkbTop.one, 0); (WkbTop.two, WkbTop.one, 0); (WkbTop.two, WkbTop.two, 0); (0, 0, 0); (WkbTop.two, WkbTop.two, 0)].
Proof. eexists. split; vm_compute; reflexivity. Qed.
