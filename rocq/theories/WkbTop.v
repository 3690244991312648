(** Assembly of the WKB claims (helper lemmas for C01-C14). *)
From Coq Require Import String Ascii.
From Coq Require Import List NArith ZArith Lia Bool ZifyBool ZifyNat ZifyN.
From Coq Require Import Init.Byte.
From Verif Require Import Base BaseLemmas Float Event EventLemmas Geom WkbModel WkbSpec WkbClaims
  WkbRead WkbReadTop WkbWrite WkbWriteTop WkbInv WkbDepth WkbShape.
Import ListNotations.
Local Open Scope N_scope.
Local Open Scope list_scope.

Lemma delivers_calls : forall A (src : dims -> prog A) stream r,
  (forall d, src d = calls (stream (multi_dim d)) (Done r)) -> delivers src stream r.
Proof.
  intros A src stream r H S p s. rewrite H, exec_calls.
  destruct (run p _ s) as [s' [u|e]]; reflexivity.
Qed.

Lemma reads_std : forall dl dr d srid env ed ext emp o g tail,
  encodable g -> (levels g <= 128)%nat -> srid_ok dl srid -> env_ok dl ed env -> order_ok dl o ->
  reads (process_wkb_type_geom dl dr) (std dl d srid env ed ext emp o g ++ tail)
        (Srid (reported_srid dl srid) :: gevents (multi_dim dr) 0 (retained (dz d) (dm d) g)) tt
        (trailer dl ++ tail).
Proof.
  intros dl dr d srid env ed ext emp o g tail Hg Hl Hs He Ho.
  unfold std, reported_srid, trailer. destruct dl; cbn [env_ok order_ok srid_ok app] in *.
  - apply reads_enc_wkb; assumption.
  - apply reads_enc_ewkb; assumption.
  - apply reads_enc_gpkg; try assumption; try reflexivity.
    destruct srid as [s|]; [exact Hs|]. cbn. unfold is_i32. lia.
  - apply reads_enc_mysql; try assumption. destruct srid as [s|]; [exact Hs|]. cbn. lia.
  - replace (match srid with Some 0%Z => None | s => s end)
      with (srid_or_none (opt_default 0%Z srid))
      by (destruct srid as [[]|]; reflexivity).
    apply reads_enc_spatialite; try assumption.
    destruct srid as [s|]; [exact Hs|]. cbn. unfold is_i32. lia.
Qed.

Lemma delivers_std : forall dl d srid env ed ext emp o g tail,
  encodable g -> (levels g <= 128)%nat -> srid_ok dl srid -> env_ok dl ed env -> order_ok dl o ->
  delivers (fun dr => process_wkb_type_geom dl dr (std dl d srid env ed ext emp o g ++ tail))
           (fun multi => Srid (reported_srid dl srid) :: gevents multi 0 (retained (dz d) (dm d) g))
           (Ok (tt, trailer dl ++ tail)).
Proof. intros. apply delivers_calls. intros dr. apply reads_std; assumption. Qed.

Lemma delivers_std0 : forall dl d srid env ed ext emp o g,
  encodable g -> (levels g <= 128)%nat -> srid_ok dl srid -> env_ok dl ed env -> order_ok dl o ->
  delivers (fun dr => process_wkb_type_geom dl dr (std dl d srid env ed ext emp o g))
           (fun multi => Srid (reported_srid dl srid) :: gevents multi 0 (retained (dz d) (dm d) g))
           (Ok (tt, trailer dl)).
Proof.
  intros. rewrite <- (app_nil_r (trailer dl)), <- (app_nil_r (std _ _ _ _ _ _ _ _ _)).
  apply delivers_std; assumption.
Qed.

Lemma round_trip : forall dl d rd srid env ed ext emp g,
  dl <> SpatiaLite ->
  encodable g -> conforming (dz d) (dm d) g -> (levels g <= 128)%nat ->
  srid_ok dl srid -> env_ok dl ed env -> asks_for_all d rd ->
  exists bytes,
    write_all (with_extended_opts dl d rd srid env ed ext emp) (gevents (multi_dim rd) 0 g)
      = Ok bytes /\
    delivers (fun dr => process_wkb_type_geom dl dr bytes)
             (fun multi => Srid (reported_srid dl srid) :: gevents multi 0 g)
             (Ok (tt, [])).
Proof.
  intros dl d rd srid env ed ext emp g Hdl Hg Hc Hl Hs He Hr.
  exists (std dl d srid env ed ext emp little g). split.
  - apply write_all_std; try assumption; [eapply conforming_no_empty; exact Hc|].
    intros E; congruence.
  - pose proof (delivers_std0 dl d srid env ed ext emp little g Hg Hl Hs He) as H.
    rewrite (retained_conforming _ _ _ Hc) in H.
    replace (trailer dl) with (@nil byte) in H by (destruct dl; reflexivity || congruence).
    apply H. destruct dl; exact I || reflexivity.
Qed.

Lemma round_trip_spatialite : forall d rd srid env ed ext emp g,
  encodable g -> conforming (dz d) (dm d) g -> (levels g <= 128)%nat ->
  srid_ok SpatiaLite srid -> env_ok SpatiaLite ed env -> asks_for_all d rd -> spatialite_safe g ->
  exists payload,
    write_all (with_extended_opts SpatiaLite d rd srid env ed ext emp) (gevents (multi_dim rd) 0 g)
      = Ok (payload ++ [xfe]) /\
    delivers (fun dr => process_wkb_type_geom SpatiaLite dr (payload ++ [xfe]))
             (fun multi => Srid (reported_srid SpatiaLite srid) :: gevents multi 0 g)
             (Ok (tt, [xfe])).
Proof.
  intros d rd srid env ed ext emp g Hg Hc Hl Hs He Hr Hf.
  assert (E : exists p, std SpatiaLite d srid env ed ext emp little g = p ++ [xfe]).
  { cbn [std]. unfold enc_spatialite. eexists. rewrite app_assoc. reflexivity. }
  destruct E as [p E]. exists p. rewrite <- E. split.
  - apply write_all_std; try assumption; [eapply conforming_no_empty; exact Hc|auto].
  - pose proof (delivers_std0 SpatiaLite d srid env ed ext emp little g Hg Hl Hs He I) as H.
    rewrite (retained_conforming _ _ _ Hc) in H. exact H.
Qed.

(** ** the ToWkb API *)
Lemma to_wkb_std : forall src s dl d srid env g r,
  delivers src (fun multi => s ++ gevents multi 0 g) (Ok r) ->
  Forall (fun e => exists x, e = Srid x) s ->
  srid_ok dl srid -> no_empty g -> (dl = SpatiaLite -> spatialite_safe g) ->
  to_wkb_dialect src dl d srid env = Ok (std dl d srid env xy_dims false false little g).
Proof.
  intros src s dl d srid env g r H Hsrid Hs He Hf. unfold to_wkb_dialect.
  pose proof (H wst (wkb_writer (with_opts dl d srid env)) wst_init) as Hx.
  change (p_dims (wkb_writer (with_opts dl d srid env))) with d in Hx.
  change (w_read_dims (with_opts dl d srid env)) with d. rewrite Hx. clear Hx H.
  assert (Hss : forall l st, run (wkb_writer (with_opts dl d srid env)) (s ++ l) st =
                        run (wkb_writer (with_opts dl d srid env)) l st).
  { induction Hsrid as [|e s' [x ->] _ IH]; intros l st; [reflexivity|]. cbn [app].
    rewrite writer_run_srid. apply IH. }
  rewrite Hss.
  pose proof (write_all_std dl d d srid env xy_dims false false g Hs (asks_for_all_refl d) He Hf) as W.
  unfold write_all in W. change (with_extended_opts dl d d srid env xy_dims false false)
    with (with_opts dl d srid env) in W.
  destruct (run _ _ _) as [st [u|e]]; [injection W as ->; destruct r; reflexivity|discriminate].
Qed.

(** transcoding: equal to writing directly, whatever the outcome *)
Lemma transcode : forall dl1 d1 srid1 env1 ed1 ext1 emp1 o g dl2 d2 srid2 env2,
  encodable g -> (levels g <= 128)%nat -> srid_ok dl1 srid1 -> env_ok dl1 ed1 env1 ->
  order_ok dl1 o ->
  to_wkb_dialect
    (fun d => pbind (process_wkb_type_geom dl1 d (std dl1 d1 srid1 env1 ed1 ext1 emp1 o g))
                    (fun _ => pret tt))
    dl2 d2 srid2 env2 =
  write_all (with_opts dl2 d2 srid2 env2)
            (gevents (multi_dim d2) 0 (retained (dz d1) (dm d1) g)).
Proof.
  intros * Hg Hl Hs He Ho. unfold to_wkb_dialect, write_all.
  change (w_read_dims (with_opts dl2 d2 srid2 env2)) with d2.
  pose proof (reads_std dl1 d2 d1 srid1 env1 ed1 ext1 emp1 o g [] Hg Hl Hs He Ho) as H.
  rewrite app_nil_r in H. unfold reads in H. rewrite H, pbind_calls, exec_calls.
  rewrite writer_run_srid. destruct (run _ _ _) as [st [u|e]]; reflexivity.
Qed.

(** ** header metadata *)
Lemma header_std : forall dl d srid env ed ext emp o g,
  srid_ok dl srid -> env_ok dl ed env -> order_ok dl o ->
  exists i, header_info dl (std dl d srid env ed ext emp o g) = Some i /\
            i_srid i = reported_srid dl srid /\ i_z i = dz d /\ i_m i = dm d.
Proof.
  intros dl d srid env ed ext emp o g Hs He Ho.
  destruct (gtype_code g) as [Hc _].
  destruct dl; cbn [std srid_ok env_ok order_ok] in *.
  - unfold enc_wkb. rewrite <- Hc.
    eexists. split; [eapply header_info_reads, reads_wkb_header|]. repeat split.
  - unfold enc_ewkb. rewrite <- Hc.
    eexists. split; [eapply header_info_reads, reads_ewkb_header; exact Hs|]. repeat split.
  - unfold enc_gpkg, enc_wkb. rewrite <- Hc.
    eexists. split; [eapply header_info_reads, reads_gpkg_header; [exact He|]|].
    + destruct srid as [s|]; [exact Hs|]. cbn. unfold is_i32. lia.
    + repeat split.
  - unfold enc_mysql, enc_wkb. rewrite <- Hc, Ho.
    eexists. split; [eapply header_info_reads, reads_mysql_header|].
    + destruct srid as [s|]; [exact Hs|]. cbn. lia.
    + repeat split.
  - unfold enc_spatialite. rewrite <- Hc.
    eexists. split; [eapply header_info_reads, reads_spatialite_header; [exact He|]|].
    + destruct srid as [s|]; [exact Hs|]. cbn. unfold is_i32. lia.
    + cbn [i_srid i_z i_m]. split; [|split; reflexivity].
      destruct srid as [[]|]; reflexivity.
Qed.

Lemma wrapper_std : forall dl d srid env ed ext emp o g,
  srid_ok dl srid -> env_ok dl ed env -> order_ok dl o ->
  wrapper_dims dl (std dl d srid env ed ext emp o g) = mkDims (dz d) (dm d) false false /\
  wrapper_srid dl (std dl d srid env ed ext emp o g) = reported_srid dl srid.
Proof.
  intros * Hs He Ho. destruct (header_std dl d srid env ed ext emp o g Hs He Ho) as (i & H & H1 & H2 & H3).
  unfold wrapper_dims, wrapper_srid. rewrite H. unfold info_dims. rewrite H2, H3.
  split; [reflexivity|]. destruct dl; cbn [reported_srid] in *; try exact H1. reflexivity.
Qed.

(** MySQL and negative SRIDs *)
Lemma mysql_header_fails : forall c s t v, w_dialect c = MySQL -> w_srid c = Some v -> (v < 0)%Z ->
  w_first s = true -> write_header c s t = (s, Err (ESrid v)).
Proof.
  intros c s t v Hd Hs Hv Hf. unfold write_header, write_mysql_header. rewrite Hd, Hf, Hs.
  replace (v <? 0)%Z with true by lia. reflexivity.
Qed.
Lemma mysql_negative_srid : forall d rd s env ed ext emp g,
  (s < 0)%Z -> no_empty g ->
  write_all (with_extended_opts MySQL d rd (Some s) env ed ext emp) (gevents (multi_dim rd) 0 g)
  = Err (ESrid s).
Proof.
  intros d rd s env ed ext emp g Hs He. unfold write_all.
  set (c := with_extended_opts MySQL d rd (Some s) env ed ext emp).
  assert (H : exists st, run (wkb_writer c) (gevents (multi_dim rd) 0 g) wst_init = (st, Err (ESrid s))).
  { assert (Hd : w_dialect c = MySQL) by reflexivity. assert (Hr : w_srid c = Some s) by reflexivity.
    destruct g; try (destruct He; fail); unfold gevents, ev_line, ev_polygon, ev_arc, ev_triangle,
      ev_compound, ev_curvepolygon; cbn [app run wkb_writer p_step wkb_step w_state wst_init];
      unfold header_size; (erewrite (mysql_header_fails c _ _ s Hd Hr Hs) by reflexivity);
      cbn [then_state]; eexists; reflexivity. }
  destruct H as [st ->]. reflexivity.
Qed.

(** ** truncation and concatenation *)
Lemma process_ok_split : forall dl d b l rest t,
  process_wkb_type_geom dl d b = calls l (Done (Ok (tt, rest))) ->
  process_wkb_type_geom dl d (b ++ t) = calls l (Done (Ok (tt, rest ++ t))).
Proof.
  intros dl d b l rest t H.
  destruct (ext_process dl d b t) as [(l' & a & r' & H1 & H2)|[(l' & e & H1 & H2)|(l' & l'' & r & H1 & H2)]];
    rewrite H in H1; apply calls_inj in H1; destruct H1 as [-> H1]; try discriminate.
  injection H1 as <- <-. exact H2.
Qed.

Lemma truncated : forall dl d b l rest p t,
  process_wkb_type_geom dl d b = calls l (Done (Ok (tt, rest))) ->
  b = p ++ t -> (length rest < length t)%nat ->
  exists l1 l2, l = l1 ++ l2 /\ process_wkb_type_geom dl d p = calls l1 (Done (Err EIo)).
Proof.
  intros dl d b l rest p t H -> Ht.
  destruct (ext_process dl d p t) as [(l' & a & r' & H1 & H2)|[(l' & e & H1 & H2)|(l' & l'' & r & H1 & H2)]];
    rewrite H in H2; apply calls_inj in H2; destruct H2 as [-> H2]; try discriminate.
  - injection H2 as _ ->. rewrite app_length in Ht. lia.
  - eauto.
Qed.

(** ** generic: a failing processor *)
Lemma exec_linear : forall A S (p : proc S) l (r : res A) s,
  (exists s', run p l s = (s', Ok tt) /\ exec p (calls l (Done r)) s = (s', r)) \/
  (exists l1 e l2 s1 s2 x, l = l1 ++ e :: l2 /\ run p l1 s = (s1, Ok tt) /\
     p_step p s1 e = (s2, Err x) /\ exec p (calls l (Done r)) s = (s2, Err x)).
Proof.
  induction l as [|e l IH]; intros r s.
  - left. exists s. split; reflexivity.
  - destruct (p_step p s e) as [s' [[]|x]] eqn:E.
    + destruct (IH r s') as [(s2 & H1 & H2)|(l1 & e' & l2 & s1 & s2 & x & H1 & H2 & H3 & H4)].
      * left. exists s2. cbn [run calls exec]. rewrite E. split; assumption.
      * right. exists (e :: l1), e', l2, s1, s2, x. subst l. cbn [run calls exec app]. rewrite E.
        repeat split; assumption.
    + right. exists [], e, l, s, s', x. cbn [run calls exec app]. rewrite E. repeat split.
Qed.

(** ** compressed lines *)
Lemma reads_f32 : forall e n b, n < 2 ^ 32 -> reads (r_f32 e) (bytes_of e 4 n ++ b) [] n b.
Proof. intros. apply (reads_val e 4). exact H. Qed.

Section Compressed.
  Variable multi : bool.
  Variables z m : bool.
  Variable e : endian.
  Variable i : info.
  Hypothesis Hi : i_endian i = e.
  Hypothesis Hz : i_z i = z.
  Hypothesis Hm : i_m i = m.

  Lemma reads_full : forall c k b, coord64 c ->
    reads (process_coord multi i k) (coord_bytes z m e c ++ b)
          [ev_coord multi k (stored z m c)] (raw (stored z m c)) b.
  Proof.
    intros c k b Hc.
    set (i' := mkInfo e (i_type i) z m (i_srid i) (i_envelope i) false).
    assert (E : process_coord multi i k = process_coord multi i' k).
    { unfold process_coord, read_coord_as, i'. cbn [i_endian i_z i_m]. now rewrite Hi, Hz, Hm. }
    rewrite E.
    apply (reads_process_coord multi read_wkb_nested_header (fun _ _ => []) z m (fun _ _ => False))
      with (t := i_type i); [intros; contradiction|repeat split|exact Hc].
  Qed.

  Definition next (p : coord) (d : cdelta) : coord :=
    mkC (f64_add (cx p) (f32_to_f64 (ddx d))) (f64_add (cy p) (f32_to_f64 (ddy d)))
        (if z then Some (f64_add (opt_default 0 (cz p)) (f32_to_f64 (ddz d))) else None)
        (if m then Some (dm_ d) else None).

  (** previous position as the reader keeps it *)
  Definition kept (p : coord) (r : rawcoord) : Prop :=
    fst (fst (fst r)) = cx p /\ snd (fst (fst r)) = cy p /\
    (multi = true -> snd (fst r) = cz p).

  Lemma reads_delta : forall p r d k b,
    kept p r -> (z = true -> cz p <> None) -> delta_ok d ->
    exists r', kept (next p d) r' /\
      reads (process_compressed_coord multi i k r) (delta_bytes z m e d ++ b)
            [ev_coord multi k (next p d)] r' b.
  Proof.
    intros p [[[px py] pz] pm] d k b (Hx & Hy & Hpz) Hnz (H1 & H2 & H3 & H4).
    cbn [fst snd] in Hx, Hy, Hpz. subst px py.
    assert (R : reads (read_coord_as true i) (delta_bytes z m e d ++ b) []
              (f32_to_f64 (ddx d), f32_to_f64 (ddy d),
               (if z then Some (f32_to_f64 (ddz d)) else None), (if m then Some (dm_ d) else None)) b).
    { unfold read_coord_as, delta_bytes. rewrite Hi, Hz, Hm, <- !app_assoc. cbv zeta.
      eapply reads_bind0; [apply reads_map, reads_f32; exact H1|].
      eapply reads_bind0; [apply reads_map, reads_f32; exact H2|].
      apply reads_bind0 with (a := if z then Some (f32_to_f64 (ddz d)) else None)
        (b1 := (if m then bytes_of e 8 (dm_ d) else []) ++ b).
      { destruct z; [apply reads_map, reads_map, reads_f32; exact H3|apply reads_ret]. }
      apply reads_bind0 with (a := if m then Some (dm_ d) else None) (b1 := b).
      { destruct m; [apply reads_map, reads_f64; exact H4|apply reads_ret]. }
      apply reads_ret. }
    unfold process_compressed_coord. destruct multi eqn:Emu.
    - specialize (Hpz eq_refl). subst pz.
      exists (f64_add (cx p) (f32_to_f64 (ddx d)), f64_add (cy p) (f32_to_f64 (ddy d)),
         opt_zip_add (cz p) (if z then Some (f32_to_f64 (ddz d)) else None),
         if m then Some (dm_ d) else None).
      assert (Ez : opt_zip_add (cz p) (if z then Some (f32_to_f64 (ddz d)) else None) = cz (next p d)).
      { unfold opt_zip_add, next. cbn [cz]. destruct z.
        - specialize (Hnz eq_refl). destruct (cz p) as [q|]; [reflexivity|congruence].
        - destruct (cz p); reflexivity. }
      split.
      + rewrite Ez. split; [reflexivity|split; reflexivity].
      + eapply reads_bind0; [exact R|]. cbv beta iota zeta. rewrite Ez.
        apply reads_call_bind. apply reads_ret.
    - exists (f64_add (cx p) (f32_to_f64 (ddx d)), f64_add (cy p) (f32_to_f64 (ddy d)), None, None).
      split; [split; [reflexivity|split; [reflexivity|congruence]]|].
      eapply reads_bind0; [exact R|]. cbv beta iota zeta. apply reads_call_bind. apply reads_ret.
  Qed.

  Lemma reads_deltas : forall ds p r k b,
    kept p r -> (z = true -> cz p <> None) -> Forall delta_ok ds ->
    exists r', reads (compressed_loop multi i (length ds) k r) (flat_map (delta_bytes z m e) ds ++ b)
                     (mapi (ev_coord multi) k (running z m p ds)) r' b.
  Proof.
    induction ds as [|d ds IH]; intros p r k b Hk Hnz Hd; cbn [length compressed_loop flat_map running mapi].
    - exists r. apply reads_ret.
    - pose proof (Forall_inv Hd) as Hd1. pose proof (Forall_inv_tail Hd) as Hd2. rewrite <- app_assoc.
      destruct (reads_delta p r d k (flat_map (delta_bytes z m e) ds ++ b) Hk Hnz Hd1)
        as (r1 & Hk1 & R1).
      assert (Hnz1 : z = true -> cz (next p d) <> None)
        by (intros Hzt; unfold next; cbn [cz]; rewrite Hzt; discriminate).
      destruct (IH (next p d) r1 (S k) b Hk1 Hnz1 Hd2) as (r2 & R2).
      exists r2. exact (reads_bind _ _ _ _ _ _ _ _ _ _ _ R1 R2).
  Qed.

  Lemma reads_compressed : forall first ds last tagged idx b,
    i_compressed i = true -> coord64 first -> coord64 last -> Forall delta_ok ds ->
    N.of_nat (2 + length ds) < 2 ^ 32 ->
    reads (process_linestring multi i tagged idx) (compressed_bytes z m e first ds last ++ b)
      (LineStringBegin tagged (2 + length ds) idx ::
       mapi (ev_coord multi) 0 (stored z m first :: running z m (stored z m first) ds) ++
       [ev_coord multi (2 + length ds) (stored z m last); LineStringEnd tagged idx]) tt b.
  Proof.
    intros first ds last tagged idx b Hc Hf Hl Hd Hn. unfold process_linestring, compressed_bytes.
    rewrite Hi, Hc, <- !app_assoc. eapply reads_bind0; [apply reads_count; exact Hn|].
    rewrite Nnat.Nat2N.id. apply reads_call_bind.
    change (Nat.ltb 0 (2 + length ds)) with true. cbn [andb].
    change [ev_coord multi (2 + length ds) (stored z m last); LineStringEnd tagged idx]
      with ([ev_coord multi (2 + length ds) (stored z m last)] ++ [LineStringEnd tagged idx]).
    rewrite (app_assoc (mapi (ev_coord multi) 0 _)). apply reads_then_call.
    cbn [mapi app].
    assert (Hk : kept (stored z m first) (raw (stored z m first))) by (split; [|split]; reflexivity).
    assert (Hnz : z = true -> cz (stored z m first) <> None)
      by (intros ->; unfold stored; cbn [cz]; discriminate).
    replace (2 + length ds - 2)%nat with (length ds) by lia.
    destruct (reads_deltas ds _ _ 1%nat (coord_bytes z m e last ++ b) Hk Hnz Hd) as (r & R).
    change (ev_coord multi 0 (stored z m first) ::
              mapi (ev_coord multi) 1 (running z m (stored z m first) ds) ++
              [ev_coord multi (2 + length ds) (stored z m last)])
      with ([ev_coord multi 0 (stored z m first)] ++
              mapi (ev_coord multi) 1 (running z m (stored z m first) ds) ++
              [ev_coord multi (2 + length ds) (stored z m last)]).
    eapply reads_bind; [apply reads_full; exact Hf|].
    eapply reads_bind; [exact R|]. eapply reads_drop. apply reads_full. exact Hl.
  Qed.
End Compressed.

Lemma compressed_code_facts : forall z m t,
  1000000 + iso_code z m (type_code t) < 2 ^ 32 /\
  type_of_code ((1000000 + iso_code z m (type_code t)) mod 1000) = t /\
  dim_has_z ((1000000 + iso_code z m (type_code t)) mod 1000000 / 1000) = z /\
  dim_has_m ((1000000 + iso_code z m (type_code t)) mod 1000000 / 1000) = m /\
  (t <> TUnknown -> (1000000 <? 1000000 + iso_code z m (type_code t)) = true).
Proof. intros [] [] []; vm_compute; repeat split; try reflexivity; congruence. Qed.

Lemma reads_compressed_header : forall z m srid env e t b,
  is_i32 srid -> length env = 4%nat -> Forall f64_ok env -> t <> TUnknown ->
  reads read_spatialite_header (compressed_header z m srid env e (type_code t) ++ b) []
    (mkInfo e t z m (srid_or_none srid) env true) b.
Proof.
  intros z m srid env e t b Hs Hl Hf Ht. unfold read_spatialite_header, compressed_header.
  rewrite <- !app_assoc. cbn [app].
  eapply reads_bind0; [apply reads_u8|]. cbn [negb].
  eapply reads_bind0; [apply reads_u8|]. cbv zeta.
  assert (He : endian_of (negb (N.land (val (order_byte e)) 1 =? 0)) = e) by (destruct e; reflexivity).
  assert (Hti : negb (N.land (val (order_byte e)) 128 =? 0) = false) by (destruct e; reflexivity).
  rewrite He. eapply reads_bind0; [apply reads_i32; exact Hs|]. rewrite Hti.
  eapply reads_bind0; [apply reads_f64s_n; assumption|].
  eapply reads_bind0; [apply reads_u8|]. cbn [negb].
  destruct (compressed_code_facts z m t) as (H1 & H2 & H3 & H4 & H5).
  eapply reads_bind0; [apply reads_u32; exact H1|]. rewrite H2, H3, H4, (H5 Ht). apply reads_ret.
Qed.

Lemma compressed_blob : forall z m srid env e first ds last tail,
  is_i32 srid -> length env = 4%nat -> Forall f64_ok env ->
  coord64 first -> coord64 last -> Forall delta_ok ds -> N.of_nat (2 + length ds) < 2 ^ 32 ->
  delivers (fun d => process_wkb_type_geom SpatiaLite d
              (compressed_header z m srid env e 2 ++ compressed_bytes z m e first ds last ++ tail))
    (fun multi =>
       Srid (srid_or_none srid) :: LineStringBegin true (2 + length ds) 0 ::
       mapi (ev_coord multi) 0 (stored z m first :: running z m (stored z m first) ds) ++
       [ev_coord multi (2 + length ds) (stored z m last); LineStringEnd true 0])
    (Ok (tt, tail)).
Proof.
  intros * Hs Hl Hf H1 H2 H3 H4. apply delivers_calls. intros d.
  change (reads (process_wkb_type_geom SpatiaLite d)
    (compressed_header z m srid env e 2 ++ compressed_bytes z m e first ds last ++ tail)
    (Srid (srid_or_none srid) :: LineStringBegin true (2 + length ds) 0 ::
       mapi (ev_coord (multi_dim d)) 0 (stored z m first :: running z m (stored z m first) ds) ++
       [ev_coord (multi_dim d) (2 + length ds) (stored z m last); LineStringEnd true 0]) tt tail).
  unfold process_wkb_type_geom.
  eapply reads_bind0; [apply (reads_compressed_header z m srid env e TLineString); auto; discriminate|].
  apply reads_call_bind. unfold geom_fuel. cbn [process_geom_n i_type].
  change (Nat.ltb max_nesting_depth 0) with false. cbv iota.
  eapply (reads_compressed (multi_dim d) z m e); auto.
Qed.

(** ** observations *)
Lemma makes_of_calls : forall A l (r : res A), makes (calls l (Done r)) l r.
Proof. intros. unfold makes, observe. now rewrite exec_calls, recorder_run. Qed.
Lemma map_OEv_inj : forall l l', map OEv l = map OEv l' -> l = l'.
Proof.
  induction l as [|a l IH]; intros [|b l'] H; try discriminate; [reflexivity|].
  cbn [map] in H. injection H as -> H. f_equal. auto.
Qed.
Lemma calls_of_makes : forall A (f : rd A) b l r, lin f -> makes (f b) l r -> f b = calls l (Done r).
Proof.
  intros A f b l r Hl H. destruct (Hl b) as (l' & r' & E). rewrite E in *.
  pose proof (makes_of_calls _ l' r') as H'. unfold makes in *. rewrite H' in H.
  injection H as H ->. now rewrite (map_OEv_inj _ _ H).
Qed.

Lemma truncated_makes : forall dl d b l rest p t,
  makes (process_wkb_type_geom dl d b) l (Ok (tt, rest)) ->
  b = p ++ t -> (length rest < length t)%nat ->
  exists l1 l2, l = l1 ++ l2 /\ makes (process_wkb_type_geom dl d p) l1 (Err EIo).
Proof.
  intros * H E Hl. apply calls_of_makes in H; [|apply lin_process].
  destruct (truncated _ _ _ _ _ _ _ H E Hl) as (l1 & l2 & H1 & H2).
  exists l1, l2. split; [exact H1|]. rewrite H2. apply makes_of_calls.
Qed.

Lemma truncated_std : forall dl d srid env ed ext emp o g p t,
  dl <> SpatiaLite ->
  encodable g -> (levels g <= 128)%nat -> srid_ok dl srid -> env_ok dl ed env -> order_ok dl o ->
  std dl d srid env ed ext emp o g = p ++ t -> t <> [] ->
  forall S (q : proc S) s,
  exists l1 l2,
    Srid (reported_srid dl srid) :: gevents (multi_dim (p_dims q)) 0 (retained (dz d) (dm d) g)
      = l1 ++ l2 /\
    exec q (process_wkb_type_geom dl (p_dims q) p) s =
    match run q l1 s with
    | (s', Ok _) => (s', Err EIo)
    | (s', Err x) => (s', Err x)
    end.
Proof.
  intros dl d srid env ed ext emp o g p t Hdl Hg Hl Hs He Ho E Ht S q s.
  pose proof (reads_std dl (p_dims q) d srid env ed ext emp o g [] Hg Hl Hs He Ho) as R.
  unfold reads in R.
  destruct (truncated dl (p_dims q) _ _ _ p t R) as (l1 & l2 & H1 & H2).
  - rewrite app_nil_r. exact E.
  - rewrite app_nil_r. replace (trailer dl) with (@nil byte) by (destruct dl; reflexivity || congruence).
    destruct t; [congruence|]. cbn [length]. lia.
  - exists l1, l2. split; [exact H1|]. rewrite H2, exec_calls.
    destruct (run q l1 s) as [s' [u|x]]; reflexivity.
Qed.

Lemma self_delimiting : forall dl d b l rest t,
  makes (process_wkb_type_geom dl d b) l (Ok (tt, rest)) ->
  makes (process_wkb_type_geom dl d (b ++ t)) l (Ok (tt, rest ++ t)).
Proof.
  intros * H. apply calls_of_makes in H; [|apply lin_process].
  rewrite (process_ok_split _ _ _ _ _ t H). apply makes_of_calls.
Qed.

Lemma read_many_std : forall dl d srid env ed ext emp o gs tail,
  dl <> SpatiaLite ->
  (forall g, In g gs -> encodable g /\ (levels g <= 128)%nat) ->
  srid_ok dl srid -> env_ok dl ed env -> order_ok dl o ->
  delivers (fun dr => read_many dl dr (length gs)
              (flat_map (std dl d srid env ed ext emp o) gs ++ tail))
           (fun multi => flat_map (fun g => Srid (reported_srid dl srid)
                                     :: gevents multi 0 (retained (dz d) (dm d) g)) gs)
           (Ok (tt, tail)).
Proof.
  intros dl d srid env ed ext emp o gs tail Hdl Hg Hs He Ho. apply delivers_calls. intros dr.
  induction gs as [|g gs IH]; [reflexivity|].
  destruct (Hg g (or_introl eq_refl)) as [Hg1 Hg2].
  cbn [length flat_map read_many]. rewrite <- app_assoc.
  pose proof (reads_std dl dr d srid env ed ext emp o g
    (flat_map (std dl d srid env ed ext emp o) gs ++ tail) Hg1 Hg2 Hs He Ho) as R.
  replace (trailer dl) with (@nil byte) in R by (destruct dl; reflexivity || congruence).
  cbn [app] in R. unfold reads in R. rewrite R.
  change (Srid (reported_srid dl srid) :: ?a) with ([Srid (reported_srid dl srid)] ++ a).
  cbn [calls pbind app]. rewrite pbind_calls. cbn [pbind snd].
  rewrite calls_app, IH; [reflexivity|]. intros g' Hg'. apply Hg. right. exact Hg'.
Qed.

Lemma bounded : forall dl d b, exists l r,
  makes (process_wkb_type_geom dl d b) l r /\ (length l <= length b)%nat /\
  match r with
  | Ok (_, rest) => exists u, b = u ++ rest /\ (length l <= length u)%nat
  | Err e => e = EIo \/ e = EGeometryFormat \/ e = nesting_error
  end.
Proof.
  intros dl d b. destruct (bnd_process dl d b) as (l & r & H & Hb). exists l, r.
  rewrite H. split; [apply makes_of_calls|]. destruct r as [[[] rest]|e].
  - destruct Hb as (u & E & Hu). split; [subst; rewrite app_length; lia|].
    exists u. split; [exact E|lia].
  - destruct Hb as [Hb He]. split; [lia|exact He].
Qed.

Lemma failing_processor : forall dl b S (p : proc S) s, exists l r,
  makes (process_wkb_type_geom dl (p_dims p) b) l r /\
  ((exists s', run p l s = (s', Ok tt) /\
               exec p (process_wkb_type_geom dl (p_dims p) b) s = (s', r)) \/
   (exists l1 e l2 s1 s2 x,
      l = l1 ++ e :: l2 /\ run p l1 s = (s1, Ok tt) /\ p_step p s1 e = (s2, Err x) /\
      exec p (process_wkb_type_geom dl (p_dims p) b) s = (s2, Err x))).
Proof.
  intros dl b S p s. destruct (lin_process dl (p_dims p) b) as (l & r & H). exists l, r.
  rewrite H. split; [apply makes_of_calls|]. apply exec_linear.
Qed.

Lemma well_formed : forall dl d b l rest, dl <> SpatiaLite ->
  makes (process_wkb_type_geom dl d b) l (Ok (tt, rest)) ->
  exists srid g, encodable g /\ (levels g <= 128)%nat /\ l = Srid srid :: gevents (multi_dim d) 0 g.
Proof.
  intros dl d b l rest Hdl H. apply calls_of_makes in H; [|apply lin_process].
  destruct (gen_process dl d Hdl b) as (l' & r' & E & G). rewrite H in E. apply calls_inj in E.
  destruct E as [<- <-]. destruct G as (s & g & [G L] & ->). exists s, g. split; [now apply decoded_encodable|].
  split; [exact L|reflexivity].
Qed.

Lemma well_formed_slips : forall dl d b l rest,
  makes (process_wkb_type_geom dl d b) l (Ok (tt, rest)) ->
  exists srid g, counted g /\ (levels g <= 128)%nat /\ slips (multi_dim d) l (Srid srid :: gevents (multi_dim d) 0 g).
Proof.
  intros dl d b l rest H. apply calls_of_makes in H; [|apply lin_process].
  destruct (gen_process_any dl d b) as (l' & r' & E & G). rewrite H in E. apply calls_inj in E.
  destruct E as [<- <-]. destruct G as (s & g & [G L] & Hs). eauto.
Qed.
Lemma positions_gone : forall multi l i, filter not_position (mapi (ev_coord multi) i l) = [].
Proof. induction l as [|c l IH]; intros i; [reflexivity|]. cbn [mapi filter]. destruct multi; apply IH. Qed.
Lemma slips_structure : forall multi l l', slips multi l l' -> filter not_position l = filter not_position l'.
Proof.
  induction 1; [reflexivity| | |].
  - cbn [filter]. destruct (not_position e); congruence.
  - unfold ev_line, ev_coords. cbn [app filter]. rewrite <- app_assoc. rewrite !filter_app, !positions_gone.
    cbn [app filter length not_position]. rewrite app_length. cbn [length].
    replace (S (length cs + 1)) with (2 + length cs)%nat by lia.
    destruct multi; cbn [ev_coord not_position]; rewrite IHslips; reflexivity.
  - destruct multi; cbn; rewrite IHslips; reflexivity.
Qed.
Lemma well_formed_any : forall dl d b l rest,
  makes (process_wkb_type_geom dl d b) l (Ok (tt, rest)) ->
  exists srid g, counted g /\
    filter not_position l = Srid srid :: filter not_position (gevents (multi_dim d) 0 g).
Proof.
  intros * H. destruct (well_formed_slips _ _ _ _ _ H) as (s & g & G & _ & Hs). exists s, g. split; [exact G|].
  apply slips_structure in Hs. exact Hs.
Qed.

Lemma levels_wrap : forall n g, levels (wrap n g) = (n + levels g)%nat.
Proof.
  induction n as [|n IH]; intros g; [reflexivity|]. cbn [wrap].
  change (levels (GCollection [wrap n g])) with (Nat.max (S (levels (wrap n g))) 0).
  rewrite IH. lia.
Qed.
Lemma encodable_wrap : forall n g, encodable g -> encodable (wrap n g).
Proof.
  induction n as [|n IH]; intros g H; [exact H|]. cbn [wrap]. split; [cbn [length]; lia|].
  split; [apply IH; exact H|exact I].
Qed.

Lemma refuses_std : forall dl dr d srid env ed ext emp o g tail,
  encodable g -> (128 < levels g)%nat -> srid_ok dl srid -> env_ok dl ed env -> order_ok dl o ->
  refuses (process_wkb_type_geom dl dr) (std dl d srid env ed ext emp o g ++ tail).
Proof.
  intros dl dr d srid env ed ext emp o g tail Hg Hl Hs He Ho.
  destruct dl; cbn [std env_ok order_ok srid_ok] in *.
  - apply refuses_enc_wkb; assumption.
  - apply refuses_enc_ewkb; assumption.
  - apply refuses_enc_gpkg; try assumption.
    destruct srid as [s|]; [exact Hs|]. cbn. unfold is_i32. lia.
  - apply refuses_enc_mysql; try assumption. destruct srid as [s|]; [exact Hs|]. cbn. lia.
  - apply refuses_enc_spatialite; try assumption.
    destruct srid as [s|]; [exact Hs|]. cbn. unfold is_i32. lia.
Qed.

Lemma too_deep : forall dl dr d srid env ed ext emp o g tail,
  encodable g -> (128 < levels g)%nat -> srid_ok dl srid -> env_ok dl ed env -> order_ok dl o ->
  exists l, makes (process_wkb_type_geom dl dr (std dl d srid env ed ext emp o g ++ tail)) l
              (Err (EMaxNesting 128)).
Proof.
  intros * Hg Hl Hs He Ho. destruct (refuses_std dl dr d srid env ed ext emp o g tail Hg Hl Hs He Ho) as [l H].
  exists l. rewrite H. apply makes_of_calls.
Qed.

Lemma never_deeper : forall dl d b l r,
  makes (process_wkb_type_geom dl d b) l r ->
  forall l1 l2, l = l1 ++ l2 -> (0 <= nesting l1 <= 131)%Z.
Proof.
  intros dl d b l r H. apply calls_of_makes in H; [|apply lin_process].
  destruct (opn_process dl d b) as (l' & r' & H1 & H2 & _). rewrite H in H1.
  apply calls_inj in H1. destruct H1 as [-> _]. exact H2.
Qed.

Lemma transcode_conforming : forall dl1 d1 srid1 env1 ed1 ext1 emp1 o g dl2 d2 srid2 env2,
  encodable g -> conforming (dz d1) (dm d1) g -> (levels g <= 128)%nat ->
  srid_ok dl1 srid1 -> env_ok dl1 ed1 env1 -> order_ok dl1 o ->
  to_wkb_dialect
    (fun d => pbind (process_wkb_type_geom dl1 d (std dl1 d1 srid1 env1 ed1 ext1 emp1 o g))
                    (fun _ => pret tt))
    dl2 d2 srid2 env2 =
  write_all (with_opts dl2 d2 srid2 env2) (gevents (multi_dim d2) 0 g).
Proof.
  intros * Hg Hc Hl Hs He Ho. rewrite (transcode dl1 d1 srid1 env1 ed1 ext1 emp1 o g dl2 d2 srid2 env2 Hg Hl Hs He Ho).
  now rewrite (retained_conforming _ _ _ Hc).
Qed.

(** ** points *)
Lemma point_std : forall dl d srid env ed ext emp o c tail,
  coord64 c -> srid_ok dl srid -> env_ok dl ed env -> order_ok dl o ->
  (all_nan (stored (dz d) (dm d) c) ->
   delivers (fun dr => process_wkb_type_geom dl dr (std dl d srid env ed ext emp o (GPoint c) ++ tail))
            (fun _ => [Srid (reported_srid dl srid); EmptyPoint 0]) (Ok (tt, trailer dl ++ tail))) /\
  (~ all_nan (stored (dz d) (dm d) c) ->
   delivers (fun dr => process_wkb_type_geom dl dr (std dl d srid env ed ext emp o (GPoint c) ++ tail))
            (fun multi => [Srid (reported_srid dl srid); PointBegin 0;
                           ev_coord multi 0 (stored (dz d) (dm d) c); PointEnd 0])
            (Ok (tt, trailer dl ++ tail))).
Proof.
  intros dl d srid env ed ext emp o c tail Hc Hs He Ho.
  assert (D := delivers_std dl d srid env ed ext emp o (GPoint c) tail (conj Hc I) (Nat.le_0_l _) Hs He Ho).
  unfold retained in D. cbn [map_geom] in D. unfold point_or_empty in D.
  assert (E : all_nanb (stored (dz d) (dm d) c) = true <-> all_nan (stored (dz d) (dm d) c)).
  { unfold all_nanb, all_nan, onan. destruct (cz _), (cm _); rewrite ?andb_true_iff; tauto. }
  split; intros H.
  - rewrite <- E in H. rewrite H in D. exact D.
  - rewrite <- E in H. destruct (all_nanb _); [congruence|]. exact D.
Qed.

(** the same inside a collection *)
Lemma retained_collection : forall z m l, retained z m (GCollection l) = GCollection (map (retained z m) l).
Proof. reflexivity. Qed.

Lemma retained_point_cases : forall z m c,
  (all_nan (stored z m c) -> retained z m (GPoint c) = GEmptyPoint) /\
  (~ all_nan (stored z m c) -> retained z m (GPoint c) = GPoint (stored z m c)).
Proof.
  intros z m c. unfold retained. cbn [map_geom]. unfold point_or_empty.
  assert (E : all_nanb (stored z m c) = true <-> all_nan (stored z m c)).
  { unfold all_nanb, all_nan, onan. destruct (cz _), (cm _); rewrite ?andb_true_iff; tauto. }
  split; intros H; rewrite <- E in H; [now rewrite H|]. destruct (all_nanb _); congruence.
Qed.

Lemma points_in_collection : forall dl d srid env ed ext emp o cs tail,
  Forall coord64 cs -> N.of_nat (length cs) < 2 ^ 32 ->
  srid_ok dl srid -> env_ok dl ed env -> order_ok dl o ->
  exists gs, Forall2 (fun c g =>
      (all_nan (stored (dz d) (dm d) c) -> g = GEmptyPoint) /\
      (~ all_nan (stored (dz d) (dm d) c) -> g = GPoint (stored (dz d) (dm d) c))) cs gs /\
    delivers (fun dr => process_wkb_type_geom dl dr
                 (std dl d srid env ed ext emp o (GCollection (map GPoint cs)) ++ tail))
             (fun multi => Srid (reported_srid dl srid) :: gevents multi 0 (GCollection gs))
             (Ok (tt, trailer dl ++ tail)).
Proof.
  intros dl d srid env ed ext emp o cs tail Hc Hn Hs He Ho.
  exists (map (retained (dz d) (dm d)) (map GPoint cs)). split.
  - clear. induction cs as [|c cs IH]; constructor; [apply retained_point_cases|exact IH].
  - apply (delivers_std dl d srid env ed ext emp o (GCollection (map GPoint cs)) tail); auto.
    + split; [now rewrite map_length|]. clear -Hc. induction Hc; cbn [map]; [exact I|].
      split; [|assumption]. split; [assumption|exact I].
    + clear. assert (H : (levels (GCollection (map GPoint cs)) <= 1)%nat); [|lia].
      induction cs as [|c cs IH]; [cbn; lia|].
      change (levels (GCollection (map GPoint (c :: cs))))
        with (Nat.max 1 (levels (GCollection (map GPoint cs)))). lia.
Qed.

(** the WKB writer refuses empty points, wherever they are *)
Lemma writer_empty_point : forall c s i, p_step (wkb_writer c) s (EmptyPoint i) = (s, Err EGeometry).
Proof. reflexivity. Qed.

(** ** compressed lines with no or one vertex *)
Lemma compressed_blob0 : forall z m srid env e tail,
  is_i32 srid -> length env = 4%nat -> Forall f64_ok env ->
  delivers (fun d => process_wkb_type_geom SpatiaLite d
              (compressed_header z m srid env e 2 ++ count_bytes e 0 ++ tail))
    (fun _ => [Srid (srid_or_none srid); LineStringBegin true 0 0; LineStringEnd true 0])
    (Ok (tt, tail)).
Proof.
  intros * Hs Hl Hf. apply delivers_calls. intros d.
  change (reads (process_wkb_type_geom SpatiaLite d)
    (compressed_header z m srid env e 2 ++ count_bytes e 0 ++ tail)
    [Srid (srid_or_none srid); LineStringBegin true 0 0; LineStringEnd true 0] tt tail).
  unfold process_wkb_type_geom.
  eapply reads_bind0; [apply (reads_compressed_header z m srid env e TLineString); auto; discriminate|].
  apply reads_call_bind. unfold geom_fuel. cbn [process_geom_n i_type].
  change (Nat.ltb max_nesting_depth 0) with false. cbv iota. unfold process_linestring.
  cbn [i_endian i_compressed].
  eapply reads_bind0; [apply reads_count; cbn; lia|].
  apply reads_call_bind. change [LineStringEnd true 0] with ([] ++ [LineStringEnd true 0]).
  apply reads_then_call. apply reads_ret.
Qed.

(** for concrete runs *)
Definition strip (l : list obs) : list event :=
  flat_map (fun o => match o with OEv e => [e] | _ => [] end) l.
Lemma makes_strip : forall A (g : prog A) o r, observe g = (o, r) -> map OEv (strip o) = o ->
  makes g (strip o) r.
Proof. intros * H1 H2. unfold makes. now rewrite H2. Qed.
Ltac observed := first [eapply makes_strip; [vm_compute; reflexivity|vm_compute; reflexivity] | vm_compute; reflexivity].

(** ** a sample geometry for the non-vacuity examples: nested collection with a polygon with a
    hole, a curve polygon and multi points *)
Definition one : f64 := 0x3FF0000000000000.
Definition two : f64 := 0x4000000000000000.
Definition p2 (x y : f64) : coord := mkC x y None None.
Definition sample : geom :=
  GCollection [GPoint (p2 one two);
    GCollection [GPolygon [[p2 0 0; p2 one 0; p2 one one; p2 0 0]; [p2 one two]]; GMultiPoint [p2 one one; p2 0 two]];
    GMultiSurface [SfCurvePolygon [CvCompound [SegArc [p2 0 0; p2 one one; p2 two 0]; SegLine [p2 two 0; p2 0 0]]]];
    GTin [[[p2 0 0]]]; GCollection []].
Definition sample_line : geom := GLineString [p2 0 0; p2 one two].

Ltac concrete := repeat (split || constructor || reflexivity || discriminate); try (cbv; lia).
Lemma sample_encodable : encodable sample. Proof. concrete. Qed.
Lemma sample_conforming : conforming false false sample. Proof. concrete. Qed.
Lemma sample_levels : (levels sample <= 128)%nat. Proof. vm_compute. lia. Qed.
Lemma line_encodable : encodable sample_line. Proof. concrete. Qed.
Lemma line_conforming : conforming false false sample_line. Proof. concrete. Qed.
Lemma line_levels : (levels sample_line <= 128)%nat. Proof. cbn. lia. Qed.
Lemma sample_delivers : delivers (fun d => calls (gevents (multi_dim d) 0 sample) (Done (Ok tt)))
    (fun multi => [] ++ gevents multi 0 sample) (Ok tt).
Proof. apply delivers_calls. reflexivity. Qed.
