(** Headers and complete encodings. *)
From Coq Require Import String Ascii.
From Coq Require Import List NArith ZArith Lia Bool ZifyBool ZifyNat ZifyN.
From Coq Require Import Init.Byte.
From Verif Require Import Base BaseLemmas Float Event EventLemmas Geom WkbModel WkbSpec WkbRead.
Import ListNotations.
Local Open Scope N_scope.
Local Open Scope list_scope.

Lemma iso_code_facts : forall z m t,
  iso_code z m (type_code t) < 2 ^ 32 /\
  type_of_code (iso_code z m (type_code t) mod 1000) = t /\
  dim_has_z (iso_code z m (type_code t) / 1000) = z /\
  dim_has_m (iso_code z m (type_code t) / 1000) = m /\
  dim_has_z (iso_code z m (type_code t) mod 1000000 / 1000) = z /\
  dim_has_m (iso_code z m (type_code t) mod 1000000 / 1000) = m /\
  (1000000 <? iso_code z m (type_code t)) = false.
Proof. intros [] [] []; vm_compute; repeat split; reflexivity. Qed.

Lemma ewkb_code_facts : forall z m s t,
  ewkb_code z m s (type_code t) < 2 ^ 32 /\
  type_of_code (N.land (ewkb_code z m s (type_code t)) 0xFF) = t /\
  has_flag (ewkb_code z m s (type_code t)) 0x80000000 = z /\
  has_flag (ewkb_code z m s (type_code t)) 0x40000000 = m /\
  has_flag (ewkb_code z m s (type_code t)) 0x20000000 = s.
Proof. intros [] [] [] []; vm_compute; repeat split; reflexivity. Qed.

Lemma order_byte_endian : forall e, endian_of (negb (val (order_byte e) =? 0)) = e.
Proof. intros []; reflexivity. Qed.

Lemma reads_wkb_header : forall z m e t b,
  reads read_wkb_header (iso_header z m e (type_code t) ++ b) [] (mkInfo e t z m None [] false) b.
Proof.
  intros z m e t b. unfold read_wkb_header, iso_header. cbn [app].
  eapply reads_bind0; [apply reads_u8|]. rewrite order_byte_endian.
  destruct (iso_code_facts z m t) as (H1 & H2 & H3 & H4 & _).
  eapply reads_bind0; [apply reads_u32; exact H1|]. cbv zeta. rewrite H2, H3, H4. apply reads_ret.
Qed.

Lemma reads_ewkb_header : forall z m s e t b,
  (match s with Some x => is_i32 x | None => True end) ->
  reads read_ewkb_header (ewkb_header z m s e (type_code t) ++ b) [] (mkInfo e t z m s [] false) b.
Proof.
  intros z m s e t b Hs. unfold read_ewkb_header, ewkb_header. cbn [app].
  eapply reads_bind0; [apply reads_u8|]. rewrite order_byte_endian.
  rewrite <- app_assoc.
  destruct s as [s|].
  - destruct (ewkb_code_facts z m true t) as (H1 & H2 & H3 & H4 & H5).
    eapply reads_bind0; [apply reads_u32; exact H1|]. rewrite H2, H3, H4, H5.
    eapply reads_bind0; [apply reads_map, reads_i32; exact Hs|]. apply reads_ret.
  - destruct (ewkb_code_facts z m false t) as (H1 & H2 & H3 & H4 & H5).
    eapply reads_bind0; [apply reads_u32; exact H1|]. rewrite H2, H3, H4, H5.
    eapply reads_bind0; [apply reads_ret|]. apply reads_ret.
Qed.

Definition any (_ _ : endian) : Prop := True.

(** the nested header hypothesis of WkbRead for the three header styles *)
Lemma nested_iso : forall z m i e e' t b,
  t <> TUnknown -> i_endian i = e -> i_z i = z -> i_m i = m -> any e e' ->
  exists i', reads (read_wkb_nested_header i) (iso_header z m e' (type_code t) ++ b) [] i' b
             /\ is_info z m i' e' t.
Proof.
  intros. eexists. split; [apply reads_wkb_header|]. repeat split.
Qed.

Lemma nested_ewkb : forall z m i e e' t b,
  t <> TUnknown -> i_endian i = e -> i_z i = z -> i_m i = m -> any e e' ->
  exists i', reads (read_ewkb_nested_header i) (ewkb_header z m None e' (type_code t) ++ b) [] i' b
             /\ is_info z m i' e' t.
Proof.
  intros. eexists. split; [apply reads_ewkb_header; exact I|]. repeat split.
Qed.

Lemma nested_spatialite : forall z m i e e' t b,
  t <> TUnknown -> i_endian i = e -> i_z i = z -> i_m i = m -> e = e' ->
  exists i', reads (read_spatialite_nested_header i)
                   (spatialite_sub_header z m e' (type_code t) ++ b) [] i' b
             /\ is_info z m i' e' t.
Proof.
  intros z m i e e' t b _ He Hz Hm <-. eexists. split.
  - unfold read_spatialite_nested_header, spatialite_sub_header. cbn [app].
    eapply reads_bind0; [apply reads_u8|]. cbn [negb]. rewrite He.
    destruct (iso_code_facts z m t) as (H1 & H2 & _ & _ & _ & _ & H7).
    eapply reads_bind0; [apply reads_u32; exact H1|]. rewrite H2, H7. apply reads_ret.
  - repeat split; assumption.
Qed.

Lemma reads_process : forall dl d bs i b l,
  reads (read_header dl) (bs ++ b) [] i b ->
  forall bd tail, b = bd ++ tail ->
  reads (process_geom_n geom_fuel (multi_dim d) (nested_header dl) i 0 0) (bd ++ tail) l tt tail ->
  reads (process_wkb_type_geom dl d) ((bs ++ bd) ++ tail) (Srid (i_srid i) :: l) tt tail.
Proof.
  intros * H1 bd tail -> H2. unfold process_wkb_type_geom. rewrite <- app_assoc.
  eapply reads_bind0; [exact H1|]. apply reads_call_bind. exact H2.
Qed.

Lemma reads_enc_wkb : forall d z m o g tail,
  encodable g -> (levels g <= 128)%nat ->
  reads (process_wkb_type_geom Wkb d) (enc_wkb z m o g ++ tail)
        (Srid None :: gevents (multi_dim d) 0 (retained z m g)) tt tail.
Proof.
  intros d z m o g tail Hg Hl. unfold enc_wkb.
  destruct (gtype_code g) as [Hc Hu]. rewrite <- Hc.
  eapply (reads_process Wkb d _ (mkInfo (o []) (gtype g) z m None [] false));
    [apply reads_wkb_header|reflexivity|].
  apply (reads_geom (multi_dim d) read_wkb_nested_header (iso_header z m) z m o any
           (nested_iso z m) (fun _ _ => I)); try assumption; try (unfold geom_fuel; lia).
  repeat split.
Qed.

Lemma reads_enc_ewkb : forall d z m o srid g tail,
  encodable g -> (levels g <= 128)%nat ->
  (match srid with Some x => is_i32 x | None => True end) ->
  reads (process_wkb_type_geom Ewkb d) (enc_ewkb z m o srid g ++ tail)
        (Srid srid :: gevents (multi_dim d) 0 (retained z m g)) tt tail.
Proof.
  intros d z m o srid g tail Hg Hl Hs. unfold enc_ewkb.
  destruct (gtype_code g) as [Hc Hu]. rewrite <- Hc.
  eapply (reads_process Ewkb d _ (mkInfo (o []) (gtype g) z m srid [] false));
    [apply reads_ewkb_header; exact Hs|reflexivity|].
  apply (reads_geom (multi_dim d) read_ewkb_nested_header (ewkb_header z m None) z m o any
           (nested_ewkb z m) (fun _ _ => I)); try assumption; try (unfold geom_fuel; lia).
  repeat split.
Qed.

(** envelope length required by the GeoPackage flags *)
Definition env_fits (ez em : bool) (env : list f64) : Prop :=
  (env = [] \/ length env = 4 + (if ez then 2 else 0) + (if em then 2 else 0))%nat /\
  Forall f64_ok env.

Lemma reads_gpkg_header : forall he extended empty ez em srid env z m e t b,
  env_fits ez em env -> is_i32 srid ->
  reads read_gpkg_header
    (gpkg_header he extended empty ez em srid env ++ iso_header z m e (type_code t) ++ b) []
    (mkInfo he t z m (Some srid) env false) b.
Proof.
  intros he extended empty ez em srid env z m e t b [Hlen Henv] Hs.
  unfold read_gpkg_header, gpkg_header. rewrite <- !app_assoc. cbn [app].
  eapply reads_bind0; [apply reads_u8|]. eapply reads_bind0; [apply reads_u8|].
  cbn [negb andb]. eapply reads_bind0; [apply reads_u8|]. eapply reads_bind0; [apply reads_u8|].
  rewrite val_byte_of.
  set (fl := (flag extended 32 + flag empty 16 + 2 * gpkg_env_code env ez em +
              flag (endian_eqb he LE) 1) mod 256).
  assert (H1 : gpkg_env_len (N.shiftr (N.land fl 14) 1) = Ok (length env)).
  { unfold fl. destruct env as [|x env].
    - destruct extended, empty, ez, em, he; reflexivity.
    - destruct Hlen as [Hlen|Hlen]; [discriminate|]. rewrite Hlen.
      destruct extended, empty, ez, em, he; reflexivity. }
  assert (H2 : endian_of (negb (N.land fl 1 =? 0)) = he).
  { unfold fl. destruct env as [|x env]; destruct extended, empty, ez, em, he; reflexivity. }
  rewrite H1, H2.
  eapply reads_bind0; [apply reads_i32; exact Hs|].
  eapply reads_bind0; [apply reads_f64s; exact Henv|].
  eapply reads_bind0; [apply reads_wkb_header|]. apply reads_ret.
Qed.

Lemma reads_enc_gpkg : forall d z m o he extended empty ez em srid env g tail,
  encodable g -> (levels g <= 128)%nat -> env_fits ez em env -> is_i32 srid -> he = o [] ->
  reads (process_wkb_type_geom Geopackage d)
        (enc_gpkg z m o he extended empty ez em srid env g ++ tail)
        (Srid (Some srid) :: gevents (multi_dim d) 0 (retained z m g)) tt tail.
Proof.
  intros d z m o he extended empty ez em srid env g tail Hg Hl He Hs Ho.
  unfold enc_gpkg, enc_wkb. destruct (gtype_code g) as [Hc Hu]. rewrite <- Hc.
  rewrite app_assoc.
  eapply (reads_process Geopackage d _ (mkInfo he (gtype g) z m (Some srid) env false));
    [rewrite <- app_assoc; apply reads_gpkg_header; assumption|reflexivity|].
  apply (reads_geom (multi_dim d) read_wkb_nested_header (iso_header z m) z m o any
           (nested_iso z m) (fun _ _ => I)); try assumption; try (unfold geom_fuel; lia).
  repeat split. exact Ho.
Qed.

Lemma reads_mysql_header : forall srid z m t b,
  (0 <= srid < 2 ^ 31)%Z ->
  reads read_mysql_header
    (bytes_of LE 4 (i32_to_u32 srid) ++ iso_header z m LE (type_code t) ++ b) []
    (mkInfo LE t z m (Some srid) [] false) b.
Proof.
  intros srid z m t b Hs. unfold read_mysql_header.
  assert (Hu : i32_to_u32 srid = Z.to_N srid).
  { unfold i32_to_u32. rewrite Z.mod_small by lia. reflexivity. }
  eapply reads_bind0; [apply reads_u32; rewrite Hu; lia|].
  rewrite Hu. replace (2 ^ 31 <=? Z.to_N srid) with false by lia.
  eapply reads_bind0; [apply reads_wkb_header|].
  cbn [i_endian endian_eqb negb i_type i_z i_m i_envelope i_compressed].
  rewrite Z2N.id by lia. apply reads_ret.
Qed.

Lemma reads_enc_mysql : forall d z m o srid g tail,
  encodable g -> (levels g <= 128)%nat -> (0 <= srid < 2 ^ 31)%Z -> o [] = LE ->
  reads (process_wkb_type_geom MySQL d) (enc_mysql z m o srid g ++ tail)
        (Srid (Some srid) :: gevents (multi_dim d) 0 (retained z m g)) tt tail.
Proof.
  intros d z m o srid g tail Hg Hl Hs Ho.
  unfold enc_mysql, enc_wkb. destruct (gtype_code g) as [Hc Hu]. rewrite <- Hc, Ho.
  rewrite app_assoc.
  eapply (reads_process MySQL d _ (mkInfo LE (gtype g) z m (Some srid) [] false));
    [rewrite <- app_assoc; apply reads_mysql_header; assumption|reflexivity|].
  apply (reads_geom (multi_dim d) read_wkb_nested_header (iso_header z m) z m o any
           (nested_iso z m) (fun _ _ => I)); try assumption; try (unfold geom_fuel; lia).
  repeat split. symmetry. exact Ho.
Qed.

Definition srid_or_none (s : Z) : option Z := if (s =? 0)%Z then None else Some s.
Definition env4 (env : list f64) : Prop := (env = [] \/ length env = 4%nat) /\ Forall f64_ok env.

Lemma reads_f64s_n : forall e n l b, length l = n -> Forall f64_ok l ->
  reads (r_f64s e n) (flat_map (bytes_of e 8) l ++ b) [] l b.
Proof. intros e n l b <- H. apply reads_f64s. exact H. Qed.

Lemma reads_spatialite_header : forall z m srid env e t b,
  env4 env -> is_i32 srid ->
  reads read_spatialite_header (spatialite_header z m srid env e (type_code t) ++ b) []
    (mkInfo e t z m (srid_or_none srid) (match env with [] => [0; 0; 0; 0] | _ => env end) false) b.
Proof.
  intros z m srid env e t b [Hlen Henv] Hs.
  unfold read_spatialite_header, spatialite_header.
  set (env' := match env with [] => [0; 0; 0; 0] | _ => env end).
  assert (Hl : length env' = 4%nat).
  { unfold env'. destruct env; [reflexivity|]. destruct Hlen; [discriminate|assumption]. }
  assert (Hf : Forall f64_ok env').
  { unfold env'. destruct env; [|assumption]. repeat constructor; unfold f64_ok; lia. }
  rewrite <- !app_assoc. cbn [app].
  eapply reads_bind0; [apply reads_u8|]. cbn [negb].
  eapply reads_bind0; [apply reads_u8|].
  replace (endian_of (negb (N.land (val (order_byte e)) 1 =? 0))) with e by (destruct e; reflexivity).
  replace (negb (N.land (val (order_byte e)) 128 =? 0)) with false by (destruct e; reflexivity).
  eapply reads_bind0; [apply reads_i32; exact Hs|].
  eapply reads_bind0; [apply reads_f64s_n; [exact Hl|exact Hf]|].
  eapply reads_bind0; [apply reads_u8|]. cbn [negb].
  destruct (iso_code_facts z m t) as (H1 & H2 & _ & _ & H5 & H6 & H7).
  eapply reads_bind0; [apply reads_u32; exact H1|]. rewrite H2, H5, H6, H7. apply reads_ret.
Qed.

Lemma reads_enc_spatialite : forall d z m o srid env g tail,
  encodable g -> (levels g <= 128)%nat -> env4 env -> is_i32 srid ->
  reads (process_wkb_type_geom SpatiaLite d) (enc_spatialite z m o srid env g ++ tail)
        (Srid (srid_or_none srid) :: gevents (multi_dim d) 0 (retained z m g)) tt ([xfe] ++ tail).
Proof.
  intros d z m o srid env g tail Hg Hl He Hs. unfold enc_spatialite.
  destruct (gtype_code g) as [Hc Hu]. rewrite <- Hc.
  rewrite app_assoc, <- app_assoc.
  eapply (reads_process SpatiaLite d _
            (mkInfo (o []) (gtype g) z m (srid_or_none srid) _ false));
    [apply reads_spatialite_header; assumption|reflexivity|].
  apply (reads_geom (multi_dim d) read_spatialite_nested_header (spatialite_sub_header z m) z m
           (fun _ => o []) eq (nested_spatialite z m) (fun _ _ => eq_refl));
    try assumption; try (unfold geom_fuel; lia).
  repeat split.
Qed.

(** ** Header only (dims() and srid() of the wrappers) *)
Lemma header_info_reads : forall dl b i rest,
  reads (read_header dl) b [] i rest -> header_info dl b = Some i.
Proof. unfold reads, header_info. intros * H. rewrite H. reflexivity. Qed.

(** ** [retained] is the identity on conforming geometries *)
Lemma map_id_in : forall A (f : A -> A) l, (forall a, In a l -> f a = a) -> map f l = l.
Proof.
  induction l as [|a l IH]; intros H; cbn; [reflexivity|].
  rewrite H by (left; reflexivity). f_equal. apply IH. intros b Hb. apply H. right. exact Hb.
Qed.

Lemma retained_conforming : forall z m g, conforming z m g -> retained z m g = g.
Proof.
  intros z m.
  set (P := fun c => (if z then cz c <> None else cz c = None) /\
                     (if m then cm c <> None else cm c = None)).
  assert (Hc : forall c, P c -> stored z m c = c).
  { intros [x y cz0 cm0] [H1 H2]. subst P. unfold stored.
    destruct z, m, cz0, cm0; cbn in *; (reflexivity || congruence). }
  assert (Hline : forall l, on_line P (fun _ => True) l -> map (stored z m) l = l).
  { intros l [_ Hl]. apply map_id_in. rewrite Forall_forall in Hl. auto. }
  assert (Hrings : forall l, on_rings P (fun _ => True) l -> map (map (stored z m)) l = l).
  { intros l [_ Hl]. apply map_id_in. rewrite Forall_forall in Hl. auto. }
  assert (Hsegs : forall l, Forall (on_segment P (fun _ => True)) l ->
                            map (map_segment (stored z m)) l = l).
  { intros l Hl. apply map_id_in. rewrite Forall_forall in Hl. intros [s|s] Hs;
      specialize (Hl _ Hs); cbn in *; now rewrite Hline. }
  assert (Hcurves : forall l, Forall (on_curve P (fun _ => True)) l ->
                            map (map_curve (stored z m)) l = l).
  { intros l Hl. apply map_id_in. rewrite Forall_forall in Hl. intros [s|s|s] Hs;
      specialize (Hl _ Hs); cbn in *; [now rewrite Hline|now rewrite Hline|].
    destruct Hl as [_ Hl]. now rewrite Hsegs. }
  assert (Hrr : forall l, Forall (on_rings P (fun _ => True)) l ->
                            map (map (map (stored z m))) l = l).
  { intros l Hl. apply map_id_in. rewrite Forall_forall in Hl. auto. }
  unfold conforming, retained. fold P.
  induction g as [c| |l|l|l|l|l|l IHg|l|l|l|l|l|l|l|l] using geom_ind'; intros H;
    cbn [map_geom].
  3-16: cbn [on_geom] in H; destruct H as [_ H].
  - cbn [on_geom] in H. destruct H as [H1 H2]. rewrite Hc by exact H1.
    unfold point_or_empty. now rewrite H2.
  - destruct H.
  - rewrite map_id_in; [reflexivity|]. rewrite Forall_forall in H. auto.
  - rewrite map_id_in; [reflexivity|]. rewrite Forall_forall in H. auto.
  - rewrite map_id_in; [reflexivity|]. rewrite Forall_forall in H. auto.
  - rewrite map_id_in; [reflexivity|]. rewrite Forall_forall in H. auto.
  - now rewrite Hrr.
  - f_equal. apply map_id_in. intros a Ha. rewrite Forall_forall in IHg. apply IHg; [exact Ha|].
    clear IHg. induction l as [|b l IH]; [contradiction|]. destruct H as [Hb Hl].
    destruct Ha as [->|Ha]; [exact Hb|apply IH; assumption].
  - rewrite map_id_in; [reflexivity|]. rewrite Forall_forall in H. auto.
  - now rewrite Hsegs.
  - now rewrite Hcurves.
  - now rewrite Hcurves.
  - f_equal. apply map_id_in. rewrite Forall_forall in H. intros [r|c] Ha;
      specialize (H _ Ha); cbn in *; [now rewrite Hrings|]. destruct H as [_ H]. now rewrite Hcurves.
  - rewrite map_id_in; [reflexivity|]. rewrite Forall_forall in H. auto.
  - now rewrite Hrr.
  - now rewrite Hrr.
Qed.
