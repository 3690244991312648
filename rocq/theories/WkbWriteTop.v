(** Whole-output theorems for the WKB writer (helper lemmas for C01, C02, C03, C05, C12). *)
From Coq Require Import String Ascii.
From Coq Require Import List NArith ZArith Lia Bool ZifyBool ZifyNat ZifyN.
From Coq Require Import Init.Byte.
From Verif Require Import Base BaseLemmas Float Event EventLemmas Geom WkbModel WkbSpec WkbRead
  WkbReadTop WkbWrite WkbClaims.
Import ListNotations.
Local Open Scope N_scope.
Local Open Scope list_scope.

(** ** [body] only depends on the bytes of the positions *)
Section Ext.
  Variable hdr : endian -> N -> list byte.
  Variables cb cb' : endian -> coord -> list byte.
  Variable f : coord -> coord.
  Hypothesis Hcb : forall e c, cb e c = cb' e (f c).
  Variable o : list nat -> endian.

  Lemma line_bytes_map : forall e l, line_bytes cb e l = line_bytes cb' e (map f l).
  Proof.
    intros e l. unfold line_bytes. rewrite map_length. f_equal.
    rewrite !flat_map_concat_map, map_map. f_equal. apply map_ext. intros. apply Hcb.
  Qed.

  Lemma rings_bytes_map : forall e l, rings_bytes cb e l = rings_bytes cb' e (map (map f) l).
  Proof.
    intros e l. unfold rings_bytes. rewrite map_length. f_equal.
    rewrite !flat_map_concat_map, map_map. f_equal. apply map_ext. intros. apply line_bytes_map.
  Qed.

  Lemma members_map : forall A B (h : A -> B) (F : list nat -> A -> list byte)
      (F' : list nat -> B -> list byte) p l,
    (forall q a, In a l -> F q a = F' q (h a)) ->
    members o p F l = members o p F' (map h l).
  Proof.
    intros * H. unfold members. rewrite map_length. f_equal.
    revert H. generalize 0%nat. induction l as [|a l IH]; intros i H; cbn; [reflexivity|].
    rewrite H by (left; reflexivity). f_equal. apply IH. intros q b Hb. apply H. right. exact Hb.
  Qed.

  Lemma segment_bytes_map : forall p s,
    segment_bytes hdr cb o p s = segment_bytes hdr cb' o p (map_segment f s).
  Proof.
    intros p [l|l]; cbn; unfold linestring_bytes, arc_bytes; now rewrite line_bytes_map.
  Qed.

  Lemma curve_bytes_map : forall p s,
    curve_bytes hdr cb o p s = curve_bytes hdr cb' o p (map_curve f s).
  Proof.
    intros p [l|l|l]; cbn; unfold linestring_bytes, arc_bytes; rewrite ?line_bytes_map; try reflexivity.
    f_equal. apply members_map. intros. apply segment_bytes_map.
  Qed.

  Lemma surface_bytes_map : forall p s,
    surface_bytes hdr cb o p s = surface_bytes hdr cb' o p (map_surface f s).
  Proof.
    intros p [l|l]; cbn; unfold polygon_bytes; rewrite ?rings_bytes_map; try reflexivity.
    f_equal. apply members_map. intros. apply curve_bytes_map.
  Qed.

  Lemma kind_code_map : forall g, kind_code (map_geom GPoint f g) = kind_code g.
  Proof. intros []; reflexivity. Qed.

  Lemma body_map : forall g p, no_empty g ->
    body hdr cb o p g = body hdr cb' o p (map_geom GPoint f g).
  Proof.
    induction g as [x| |l|l|l|l|l|l IHg|l|l|l|l|l|l|l|l] using geom_ind'; intros p He;
      cbn [map_geom].
    - cbn. apply Hcb.
    - destruct He.
    - cbn [body]. apply members_map. intros. unfold point_bytes. now rewrite Hcb.
    - apply line_bytes_map.
    - cbn [body]. apply members_map. intros. unfold linestring_bytes. now rewrite line_bytes_map.
    - apply rings_bytes_map.
    - cbn [body]. apply members_map. intros. unfold polygon_bytes. now rewrite rings_bytes_map.
    - rewrite !body_collection. apply on_geom_collection in He. destruct He as [_ He].
      rewrite Forall_forall in IHg, He. apply members_map. intros q a Ha. unfold geom_bytes.
      rewrite kind_code_map. rewrite IHg by (exact Ha || (apply He; exact Ha)). reflexivity.
    - apply line_bytes_map.
    - cbn [body]. apply members_map. intros. apply segment_bytes_map.
    - cbn [body]. apply members_map. intros. apply curve_bytes_map.
    - cbn [body]. apply members_map. intros. apply curve_bytes_map.
    - cbn [body]. apply members_map. intros. apply surface_bytes_map.
    - apply rings_bytes_map.
    - cbn [body]. apply members_map. intros. unfold polygon_bytes. now rewrite rings_bytes_map.
    - cbn [body]. apply members_map. intros. unfold triangle_bytes. now rewrite rings_bytes_map.
  Qed.
End Ext.

Lemma map_geom_id : forall f g, (forall c, f c = c) -> map_geom GPoint f g = g.
Proof.
  intros f g Hf.
  assert (Hl : forall l : line, map f l = l) by (intros; apply map_id_in; auto).
  assert (Hr : forall l : rings, map (map f) l = l) by (intros; apply map_id_in; auto).
  assert (Hs : forall s, map_segment f s = s) by (intros [l|l]; cbn; now rewrite Hl).
  assert (Hc : forall s, map_curve f s = s).
  { intros [l|l|l]; cbn; rewrite ?Hl; try reflexivity. f_equal. apply map_id_in. auto. }
  assert (Hu : forall s, map_surface f s = s).
  { intros [l|l]; cbn; rewrite ?Hr; try reflexivity. f_equal. apply map_id_in. auto. }
  induction g as [x| |l|l|l|l|l|l IHg|l|l|l|l|l|l|l|l] using geom_ind'; cbn [map_geom];
    rewrite ?Hl, ?Hr; try reflexivity; f_equal; auto; try (apply map_id_in; auto).
  rewrite Forall_forall in IHg. auto.
Qed.

Lemma body_ext : forall hdr cb cb' o p g,
  (forall e c, cb e c = cb' e c) -> no_empty g -> body hdr cb o p g = body hdr cb' o p g.
Proof.
  intros * H He. rewrite (body_map hdr cb cb' (fun c => c) H o g p He).
  rewrite map_geom_id by reflexivity. reflexivity.
Qed.

(** ** Output of the writer *)
Lemma wcb_eq : forall c e p, asks_for_all (w_dims c) (w_read_dims c) ->
  wcb c (multi_dim (w_read_dims c)) e p = coord_bytes (dz (w_dims c)) (dm (w_dims c)) e p.
Proof.
  intros c e p H. unfold wcb, seen. destruct (multi_dim (w_read_dims c)) eqn:E; [reflexivity|].
  destruct (H E) as [-> ->]. reflexivity.
Qed.

Lemma asks_for_all_refl : forall d, asks_for_all d d.
Proof. intros [[] [] [] []] H; cbn in *; try discriminate; auto. Qed.

Definition writer_bytes (c : wcfg) (g : geom) : list byte :=
  top_hdr c (kind_code g) ++
  body (sub_hdr c) (coord_bytes (dz (w_dims c)) (dm (w_dims c))) little [] g.

(** every dialect but SpatiaLite *)
Lemma writer_run : forall c g,
  w_endian c = LE -> srid_writable c -> asks_for_all (w_dims c) (w_read_dims c) ->
  no_empty g -> w_dialect c <> SpatiaLite ->
  run (wkb_writer c) (gevents (multi_dim (w_read_dims c)) 0 g) wst_init =
  (mkWst (first_after c true) Normal 0 (writer_bytes c g), Ok tt).
Proof.
  intros c g Hle Hs Hr He Hd. unfold wst_init.
  assert (Hf : foot c 0 = []) by (unfold foot; destruct (w_dialect c); congruence).
  rewrite (run_geom c Hle (multi_dim (w_read_dims c)) Hs g true 0 0 []) by (auto).
  cbn [app]. rewrite Hf, app_nil_r. unfold writer_bytes, hd.
  rewrite (body_ext _ _ (coord_bytes (dz (w_dims c)) (dm (w_dims c)))) by
    (intros; try apply wcb_eq; assumption). reflexivity.
Qed.

Lemma writer_run_spatialite : forall c g,
  w_endian c = LE -> asks_for_all (w_dims c) (w_read_dims c) ->
  no_empty g -> w_dialect c = SpatiaLite -> spatialite_safe g ->
  run (wkb_writer c) (gevents (multi_dim (w_read_dims c)) 0 g) wst_init =
  (mkWst false Normal 0 (writer_bytes c g ++ [xfe]), Ok tt).
Proof.
  intros c g Hle Hr He Hd Hf. unfold wst_init.
  assert (Hs : srid_writable c) by (unfold srid_writable; rewrite Hd; exact I).
  assert (Hft : foot c 0 = [xfe]) by (unfold foot; now rewrite Hd).
  rewrite (run_geom c Hle (multi_dim (w_read_dims c)) Hs g true 0 0 []) by (auto).
  cbn [app]. rewrite Hft. unfold writer_bytes, hd, first_after. rewrite Hd.
  rewrite (body_ext _ _ (coord_bytes (dz (w_dims c)) (dm (w_dims c)))) by
    (intros; try apply wcb_eq; assumption). reflexivity.
Qed.

(** the Srid callback is ignored by the writer *)
Lemma writer_run_srid : forall c s l st,
  run (wkb_writer c) (Srid s :: l) st = run (wkb_writer c) l st.
Proof. reflexivity. Qed.

(** ** the complete blob *)
Lemma writer_bytes_std : forall dl d rd srid env ed ext emp g,
  std dl d srid env ed ext emp little g =
  writer_bytes (with_extended_opts dl d rd srid env ed ext emp) g ++
  foot (with_extended_opts dl d rd srid env ed ext emp) 0.
Proof.
  intros. unfold std, writer_bytes, top_hdr, sub_hdr, foot, with_extended_opts.
  cbn [w_dialect w_dims w_srid w_envelope w_env_dims w_extended w_empty].
  destruct dl; rewrite ?app_nil_r.
  - reflexivity.
  - reflexivity.
  - unfold enc_gpkg, enc_wkb. now rewrite <- app_assoc.
  - unfold enc_mysql, enc_wkb. now rewrite <- app_assoc.
  - unfold enc_spatialite. now rewrite <- app_assoc.
Qed.

Lemma write_all_std : forall dl d rd srid env ed ext emp g,
  srid_ok dl srid -> asks_for_all d rd -> no_empty g ->
  (dl = SpatiaLite -> spatialite_safe g) ->
  write_all (with_extended_opts dl d rd srid env ed ext emp) (gevents (multi_dim rd) 0 g) =
  Ok (std dl d srid env ed ext emp little g).
Proof.
  intros dl d rd srid env ed ext emp g Hs Hr He Hf. unfold write_all.
  rewrite (writer_bytes_std dl d rd).
  set (c := with_extended_opts dl d rd srid env ed ext emp).
  assert (Hw : srid_writable c).
  { unfold srid_writable, srid_ok in *. subst c. cbn. destruct dl, srid; exact I || exact Hs. }
  assert (Hd : dl = SpatiaLite \/ dl <> SpatiaLite)
    by (destruct dl; (left; reflexivity) || (right; discriminate)).
  change rd with (w_read_dims c).
  destruct Hd as [Hd|Hd].
  - rewrite writer_run_spatialite by (try assumption; try reflexivity; auto). unfold foot. subst c dl. reflexivity.
  - rewrite writer_run by (try assumption; try reflexivity; auto). unfold foot. subst c. cbn [w_dialect with_extended_opts w_out].
    destruct dl; try congruence; now rewrite app_nil_r.
Qed.

(** a point that is not empty, under a processor that rejects empty points *)
Lemma conforming_no_empty : forall z m g, conforming z m g -> no_empty g.
Proof.
  intros z m g. unfold conforming, no_empty.
  generalize (fun c => all_nanb c = false) at 1. intros PT.
  generalize (fun c => (if z then cz c <> None else cz c = None) /\
                       (if m then cm c <> None else cm c = None)) at 1. intros P.
  set (T := fun _ : coord => True). set (Q := fun _ : nat => True).
  assert (Hl : forall l, on_line P Q l -> on_line T Q l).
  { intros l [H1 H2]. split; [exact H1|]. apply Forall_forall. intros; exact I. }
  assert (Hr : forall l, on_rings P Q l -> on_rings T Q l).
  { intros l [H1 H2]. split; [exact H1|]. eapply Forall_impl; [|exact H2]. auto. }
  assert (Hs : forall s, on_segment P Q s -> on_segment T Q s) by (intros [l|l]; apply Hl).
  assert (Hc : forall s, on_curve P Q s -> on_curve T Q s).
  { intros [l|l|l]; cbn; auto. intros [H1 H2]. split; [exact I|]. eapply Forall_impl; [|exact H2]. auto. }
  assert (Hu : forall s, on_surface P Q s -> on_surface T Q s).
  { intros [l|l]; cbn; auto. intros [H1 H2]. split; [exact I|]. eapply Forall_impl; [|exact H2]. auto. }
  induction g as [x| |l|l|l|l|l|l IHg|l|l|l|l|l|l|l|l] using geom_ind'; intros H;
    try (apply on_geom_collection; apply on_geom_collection in H);
    try (destruct H as [H1 H2]; split; [exact I|]);
    try (cbn in *; auto; fail); try (eapply Forall_impl; [|exact H2]; auto; fail).
  all: first [ exact I | contradiction | apply Forall_forall; intros; exact I
             | rewrite Forall_forall in *; intros a Ha; auto ].
Qed.
