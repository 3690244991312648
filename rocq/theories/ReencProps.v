(** Property C67: whatever bytes a WKB reader accepts, they can be converted like any geometry.
    Vocabulary: ReencSpec.v, ChainSpec.v. *)
From Coq Require Import String Ascii.
From Coq Require Import List NArith ZArith Lia Bool.
From Coq Require Import Init.Byte.
From Verif Require Import Base Event Claims Geom WkbModel WkbSpec WkbClaims WktModel WktSpec GeoJsonModel GeoJsonSpec DbModel
  ChainSpec ChainTop WkbTop ReencSpec ReencTop ReencWit.
Import ListNotations.
Local Open Scope list_scope.

(** Accepted for one setting of dimensions, accepted for all. *)
Theorem C67_accepted_for_all : forall dl b, accepted dl b -> forall d, exists l, makes (bytes_source dl b d) l (Ok tt).
Proof. exact accepted_for_all. Qed.
Print Assumptions C67_accepted_for_all.
(** Every accepted byte sequence stands for one geometry, the same for every processor, and within the
    limits of the formats. *)
Theorem C67_reads_a_geometry : forall dl b, dl <> SpatiaLite -> accepted dl b ->
  exists srid g, sound g /\ says (bytes_source dl b) srid g.
Proof. exact reads_a_geometry. Qed.
Print Assumptions C67_reads_a_geometry.
(** What a WKB writer makes of it, in whatever dialect, is read as the geometry with the ordinates asked
    for; as the very same geometry if it has these ordinates; and writing that again gives the same
    bytes. *)
Theorem C67_reencoded_partial : forall src srid g, sound g -> says src srid g -> no_empty g ->
  forall dl d s env, srid_ok dl s -> env_ok dl xy_dims env -> (dl = SpatiaLite -> spatialite_safe g) ->
  exists w, to_wkb_dialect src dl d s env = Ok w /\
    says (bytes_source dl w) (reported_srid dl s) (retained (dz d) (dm d) g) /\
    (conforming (dz d) (dm d) g -> says (bytes_source dl w) (reported_srid dl s) g) /\
    (no_empty (retained (dz d) (dm d) g) -> to_wkb_dialect (bytes_source dl w) dl d s env = Ok w).
Proof. exact reencoded. Qed.
Print Assumptions C67_reencoded_partial.
(** A geometry with an empty point is never written: the writer refuses. *)
Theorem C67_empty_refused : forall src srid g, says src srid g -> forall dl d s env w,
  to_wkb_dialect src dl d s env = Ok w -> no_empty g.
Proof. exact empty_refused. Qed.
Print Assumptions C67_empty_refused.
Theorem C67_empty_refuted : exists b, accepted Wkb b /\
  forall dl d s env, exists e, to_wkb_dialect (bytes_source Wkb b) dl d s env = Err e.
Proof.
  exists hollow. split; [exact hollow_accepted|]. intros dl d s env.
  exists EGeometry. destruct d as [[] [] [] []]; reflexivity.
Qed.
Print Assumptions C67_empty_refuted.
(** Two inputs, of any dialects, that are read alike with all ordinates are written alike, errors
    included; byte orders, SRIDs of members and bytes left over make no difference. *)
Theorem C67_canonical : forall dl1 b1 dl2 b2 d s1 s2 l, multi_dim d = true ->
  makes (bytes_source dl1 b1 d) (Srid s1 :: l) (Ok tt) -> makes (bytes_source dl2 b2 d) (Srid s2 :: l) (Ok tt) ->
  forall dl d' s env, to_wkb_dialect (bytes_source dl1 b1) dl d' s env = to_wkb_dialect (bytes_source dl2 b2) dl d' s env.
Proof. exact canonical. Qed.
Print Assumptions C67_canonical.
Theorem C67_read_alike : forall dl1 b1 dl2 b2 d s1 s2 l, multi_dim d = true ->
  makes (bytes_source dl1 b1 d) (Srid s1 :: l) (Ok tt) -> makes (bytes_source dl2 b2 d) (Srid s2 :: l) (Ok tt) ->
  forall S (p : proc S) st, (forall st x, p_step p st (Srid x) = (st, Ok tt)) ->
  exec p (bytes_source dl1 b1 (p_dims p)) st = exec p (bytes_source dl2 b2 (p_dims p)) st.
Proof. exact read_alike. Qed.
Print Assumptions C67_read_alike.
(** Through any forms into which the geometry fits, it arrives unchanged. *)
Theorem C67_chain : forall c wnum jnum,
  formats (c_wkt_format c) wnum -> wkt_crate c wnum -> json_format GeoJsonSpec.finite (c_format c) jnum -> geojson_crate c jnum ->
  forall dl b, dl <> SpatiaLite -> accepted dl b ->
  exists srid g, sound g /\ says (bytes_source dl b) srid g /\
    forall fs, Forall (suits c g) fs -> exists src, chain c fs (bytes_source dl b) = Ok src /\
      delivers src (fun multi => map Srid (finally [srid] fs) ++ gevents multi 0 g) (Ok tt).
Proof.
  intros c wnum jnum H1 H2 H3 H4 dl b Hd Ha. destruct (reads_a_geometry dl b Hd Ha) as (srid & g & Hg & Hs).
  exists srid, g. split; [exact Hg|]. split; [exact Hs|]. intros fs Hf.
  exact (chained c wnum jnum H1 H2 H3 H4 fs (bytes_source dl b) [srid] g Hf Hs).
Qed.
Print Assumptions C67_chain.
Example C67_met :
  accepted Ewkb odd_ends /\ sound odd_geom /\ no_empty odd_geom /\ no_empty (retained true false odd_geom) /\
  ~ conforming true false odd_geom /\ odd_ends <> even_ends /\
  makes (bytes_source Ewkb odd_ends xyzm_dims) (Srid (Some 4326%Z) :: gevents true 0 odd_geom) (Ok tt) /\
  makes (bytes_source Ewkb even_ends xyzm_dims) (Srid None :: gevents true 0 odd_geom) (Ok tt).
Proof.
  destruct odd_full as (H1 & H2 & H3).
  repeat (split; [first [exact odd_accepted|exact odd_sound|exact H1|exact H2|exact H3|discriminate|exact odd_makes]|]).
  exact even_makes.
Qed.
