(** Proofs for CrossProps.v. *)
From Coq Require Import List NArith ZArith Lia Bool ZifyBool ZifyNat ZifyN.
From Coq Require Import Init.Byte.
From Verif Require Import Base BaseLemmas Event EventLemmas Claims Geom WkbModel WkbSpec WkbClaims WkbRead
  WkbReadTop WkbInv WkbTop WkbMore CrossSpec.
Import ListNotations.
Local Open Scope N_scope.
Local Open Scope list_scope.

(** ** first bytes *)
Definition word (b1 b2 b3 b4 : byte) : N := val b1 + 256 * (val b2 + 256 * (val b3 + 256 * val b4)).
Definition word_of (e : endian) (b1 b2 b3 b4 : byte) : N :=
  match e with LE => word b1 b2 b3 b4 | BE => word b4 b3 b2 b1 end.
Definition order_of (b : byte) : endian := endian_of (negb (val b =? 0)).

Lemma u8_at : forall b r, r_u8 (b :: r) = pret (val b, r).
Proof. intros. unfold r_u8, rmap, rbind. cbn. now rewrite N.add_0_r. Qed.
Lemma u32_at : forall e b1 b2 b3 b4 r, r_u32 e (b1 :: b2 :: b3 :: b4 :: r) = pret (word_of e b1 b2 b3 b4, r).
Proof.
  intros e b1 b2 b3 b4 r. unfold r_u32, rmap, rbind.
  change (rtake 4 (b1 :: b2 :: b3 :: b4 :: r)) with (pret ([b1; b2; b3; b4], r)). cbn [pbind pret fst snd].
  unfold rret. f_equal. f_equal. destruct e; cbn [val_of rev app le_val word_of]; unfold word; lia.
Qed.
Lemma u32_any : forall e b, r_u32 e b = pfail EIo \/ exists n r, r_u32 e b = pret (n, r).
Proof.
  intros e [|b1 [|b2 [|b3 [|b4 r]]]]; try (left; reflexivity). right. eexists _, _. apply u32_at.
Qed.

Lemma refused_wkb : forall d b0 b1 b2 b3 b4 r,
  ~ known_code (word_of (order_of b0) b1 b2 b3 b4 mod 1000) ->
  makes (process_wkb_type_geom Wkb d (b0 :: b1 :: b2 :: b3 :: b4 :: r)) [Srid None] (Err EGeometryFormat).
Proof.
  intros d b0 b1 b2 b3 b4 r H. unfold makes, process_wkb_type_geom. cbn [read_header]. unfold read_wkb_header.
  unfold rbind at 1. unfold rbind at 1. rewrite u8_at. cbn [pbind pret fst snd]. unfold rbind at 1.
  fold (order_of b0). rewrite u32_at. cbn [pbind pret fst snd rret].
  unfold rbind, rcall. cbn [pbind pret fst snd i_srid].
  rewrite unknown_rejected; [reflexivity|apply unknown_type; exact H|lia].
Qed.

Lemma refused_ewkb : forall d b0 b1 b2 b3 b4 r,
  ~ known_code (N.land (word_of (order_of b0) b1 b2 b3 b4) 255) ->
  refused Ewkb d (b0 :: b1 :: b2 :: b3 :: b4 :: r).
Proof.
  intros d b0 b1 b2 b3 b4 r H. unfold refused, makes, process_wkb_type_geom. cbn [read_header]. unfold read_ewkb_header.
  unfold rbind at 1. unfold rbind at 1. rewrite u8_at. cbn [pbind pret fst snd]. unfold rbind at 1.
  fold (order_of b0). rewrite u32_at. cbn [pbind pret fst snd].
  destruct (has_flag _ 0x20000000).
  - unfold rbind at 1. unfold rmap at 1. unfold rbind at 1. unfold r_i32, rmap at 1. unfold rbind at 1.
    destruct (u32_any (order_of b0) r) as [E|(n & r' & E)]; rewrite E.
    + exists [], EIo. split; [now left|]. split; [now right|]. reflexivity.
    + cbn [pbind pret fst snd rret]. unfold rbind, rcall. cbn [pbind pret fst snd i_srid].
      rewrite unknown_rejected; [|apply unknown_type; exact H|lia].
      eexists [Srid _], EGeometryFormat. split; [right; eexists; reflexivity|]. split; [now left|reflexivity].
  - unfold rbind, rcall. cbn [pbind pret fst snd rret i_srid].
    rewrite unknown_rejected; [|apply unknown_type; exact H|lia].
    eexists [Srid _], EGeometryFormat. split; [right; eexists; reflexivity|]. split; [now left|reflexivity].
Qed.

Lemma refused_marks : forall to d b, ~ marks_ok to b -> refused to d b.
Proof.
  intros to d b H. destruct (bad_marks_rejected to d b H) as (e & He & M).
  exists [], e. split; [now left|]. split; [exact He|exact M].
Qed.

Lemma refused_mysql : forall d a0 a1 a2 a3 b0 b1 b2 b3 b4 r,
  (val b0 = 0 \/ ~ known_code (word b1 b2 b3 b4 mod 1000)) ->
  refused MySQL d (a0 :: a1 :: a2 :: a3 :: b0 :: b1 :: b2 :: b3 :: b4 :: r).
Proof.
  intros d a0 a1 a2 a3 b0 b1 b2 b3 b4 r H. unfold refused, makes, process_wkb_type_geom. cbn [read_header].
  unfold read_mysql_header. unfold rbind at 1. unfold rbind at 1. rewrite u32_at. cbn [pbind pret fst snd].
  destruct (2 ^ 31 <=? _).
  { exists [], EGeometryFormat. split; [now left|]. split; [now left|reflexivity]. }
  unfold rbind at 1. unfold read_wkb_header. unfold rbind at 1. rewrite u8_at. cbn [pbind pret fst snd]. unfold rbind at 1.
  fold (order_of b0). rewrite u32_at. cbn [pbind pret fst snd rret i_endian].
  destruct (val b0 =? 0) eqn:Z.
  - replace (order_of b0) with BE by (unfold order_of; now rewrite Z). cbn [endian_eqb negb].
    exists [], EGeometryFormat. split; [now left|]. split; [now left|reflexivity].
  - replace (order_of b0) with LE by (unfold order_of; now rewrite Z). cbn [endian_eqb negb].
    unfold rbind, rcall. cbn [pbind pret fst snd rret i_srid].
    rewrite unknown_rejected; [|apply unknown_type; cbn [i_type word_of]; destruct H as [H|H]; [lia|exact H]|lia].
    eexists [Srid _], EGeometryFormat. split; [right; eexists; reflexivity|]. split; [now left|reflexivity].
Qed.

Lemma known_small : forall n, known_code n -> n <= 17.
Proof. intros n H. unfold known_code in H. cbn in H. lia. Qed.
Lemma land255 : forall n, N.land n 255 = n mod 256.
Proof. intros n. change 255 with (N.ones 8). apply N.land_ones. Qed.

Lemma le4 : forall s, (0 <= s < 2 ^ 31)%Z ->
  exists b0 b1 b2 b3, bytes_of LE 4 (i32_to_u32 s) = [b0; b1; b2; b3] /\
    Z.of_N (val b0) = (s mod 256)%Z /\ Z.of_N (val b1) = ((s / 256) mod 256)%Z /\
    Z.of_N (val b2) = ((s / 65536) mod 256)%Z /\ Z.of_N (val b3) = (s / 16777216)%Z.
Proof.
  intros s H. unfold i32_to_u32. rewrite Z.mod_small by lia. cbn [bytes_of le_bytes].
  eexists _, _, _, _. split; [reflexivity|]. rewrite !val_byte_of.
  rewrite !N2Z.inj_mod, !N2Z.inj_div, Z2N.id by lia.
  change (Z.of_N 256) with 256%Z. split; [reflexivity|]. split; [reflexivity|].
  rewrite !Z.div_div by lia. split; [reflexivity|]. change (256 * (256 * 256))%Z with 16777216%Z.
  rewrite ?Z.mod_small; [reflexivity|]. lia.
Qed.

Lemma kind_known : forall g, known_code (kind_code g).
Proof. intros []; unfold known_code; cbn; tauto. Qed.

Lemma val_eq : forall a b : byte, val a = val b -> a = b.
Proof. intros a b H. rewrite <- (byte_of_val a), <- (byte_of_val b). now rewrite H. Qed.

(** the type word of an ISO and of an EWKB header *)
Lemma four : forall e n, n < 2 ^ 32 ->
  exists b1 b2 b3 b4, bytes_of e 4 n = [b1; b2; b3; b4] /\ word_of e b1 b2 b3 b4 = n.
Proof.
  intros e n H.
  assert (L : exists b1 b2 b3 b4, bytes_of e 4 n = [b1; b2; b3; b4])
    by (destruct e; cbn [bytes_of le_bytes rev app]; eauto).
  destruct L as (b1 & b2 & b3 & b4 & E). exists b1, b2, b3, b4. split; [exact E|].
  pose proof (val_of_bytes_of e 4 n H) as V. rewrite E in V. rewrite <- V.
  destruct e; cbn [val_of rev app le_val word_of]; unfold word; lia.
Qed.
Lemma iso_bound : forall z m k, known_code k -> iso_code z m k < 2 ^ 32.
Proof. intros z m k H. apply known_small in H. unfold iso_code, flag. destruct z, m; lia. Qed.
Lemma ewkb_bound : forall z m f k, known_code k -> ewkb_code z m f k < 2 ^ 32.
Proof. intros z m f k H. apply known_small in H. unfold ewkb_code, flag. destruct z, m, f; lia. Qed.
Lemma order_of_order : forall e, order_of (order_byte e) = e.
Proof. intros []; reflexivity. Qed.

Lemma iso_as_ewkb : forall z m k, known_code k -> z = true \/ m = true ->
  ~ known_code (N.land (iso_code z m k) 255).
Proof.
  intros z m k K H F. rewrite land255 in F. unfold known_code in K. cbn in K.
  decompose [or] K; clear K; subst; try contradiction;
  destruct z, m; try (now destruct H); vm_compute in F; decompose [or] F; (discriminate || contradiction).
Qed.
Lemma ewkb_as_iso : forall z m f k, known_code k -> z = true \/ m = true \/ f = true ->
  ~ known_code (ewkb_code z m f k mod 1000).
Proof.
  intros z m f k K H F. unfold known_code in K. cbn in K.
  decompose [or] K; clear K; subst; try contradiction;
  destruct z, m, f; try (now destruct H as [|[|]]); vm_compute in F; decompose [or] F; (discriminate || contradiction).
Qed.

Lemma not_gp : forall x r, x <> x47 -> ~ marks_ok Geopackage (x :: r).
Proof. intros x r H (v & f & r' & E & _). injection E as E1 _. now apply H. Qed.
Lemma not_zero : forall x r, x <> x00 -> ~ marks_ok SpatiaLite (x :: r).
Proof. intros x r H (f & r' & E & _). injection E as E1 _. now apply H. Qed.
Lemma high_byte : forall k, k < 2 ^ 24 -> exists a b c, bytes_of LE 4 k = [a; b; c; x00].
Proof.
  intros k H. cbn [bytes_of le_bytes]. do 3 eexists. do 4 f_equal.
  apply val_eq. rewrite val_byte_of. rewrite !N.div_div by discriminate. rewrite N.div_small by lia. reflexivity.
Qed.
Lemma not_order : forall a b c d r, ~ marks_ok MySQL (a :: b :: c :: d :: x00 :: r).
Proof. intros a b c d r (s & o & r' & E & _ & N0). cbn [bytes_of le_bytes app] in E. injection E as _ _ _ _ E _. now apply N0. Qed.

Lemma env_bytes : forall e x l, exists b0 b1 b2 b3 r, flat_map (bytes_of e 8) (x :: l) = b0 :: b1 :: b2 :: b3 :: r.
Proof. intros e x l. cbn [flat_map]. destruct e; cbn [bytes_of le_bytes rev app]; do 5 eexists; reflexivity. Qed.
Lemma mbr_bytes : forall e (env : list f64) t, exists b0 b1 b2 b3 r,
  flat_map (bytes_of e 8) (match env with [] => [0; 0; 0; 0] | _ => env end) ++ t = b0 :: b1 :: b2 :: b3 :: r.
Proof.
  intros e env t.
  assert (E : exists x l, match env with [] => [0; 0; 0; 0] | _ => env end = x :: l) by (destruct env; eauto).
  destruct E as (x & l & ->). destruct (env_bytes e x l) as (b0 & b1 & b2 & b3 & r & ->). do 5 eexists. reflexivity.
Qed.

Lemma refused_as : forall to d b l e, makes (process_wkb_type_geom to d b) l (Err e) ->
  (l = [] \/ exists s, l = [Srid s]) -> e = EGeometryFormat \/ e = EIo -> refused to d b.
Proof. intros. exists l, e. auto. Qed.

Lemma le_word : forall s b0 b1 b2 b3, (0 <= s < 200704)%Z ->
  Z.of_N (val b1) = ((s / 256) mod 256)%Z -> Z.of_N (val b2) = ((s / 65536) mod 256)%Z ->
  Z.of_N (val b3) = (s / 16777216)%Z -> b0 = x01 ->
  ~ known_code (word b1 b2 b3 b0 mod 1000).
Proof.
  intros s b0 b1 b2 b3 H H1 H2 H3 ->. unfold word. change (val x01) with 1.
  assert (E : val b1 + 256 * (val b2 + 256 * (val b3 + 256 * 1)) = 16777216 + Z.to_N (s / 256)).
  { apply N2Z.inj. rewrite !N2Z.inj_add, !N2Z.inj_mul, !N2Z.inj_add, !N2Z.inj_mul, !N2Z.inj_add, H1, H2, H3.
    rewrite Z2N.id by (apply Z.div_pos; lia). Z.div_mod_to_equations. lia. }
  rewrite E. intros K. apply known_small in K. revert K.
  assert (B : Z.to_N (s / 256) < 784) by (Z.div_mod_to_equations; lia).
  assert (M : (16777216 + Z.to_N (s / 256)) mod 1000 = 216 + Z.to_N (s / 256)).
  { symmetry. apply (N.mod_unique _ _ 16777); lia. }
  rewrite M. lia.
Qed.

Section Pairs.
  Variables (d dr : dims) (srid : option Z) (env : list f64) (ed : dims) (ext emp : bool) (o : list nat -> endian) (g : geom).
  Hypothesis Hs : (0 <= opt_default 0%Z srid < 2 ^ 31)%Z.

  Lemma wkb_start : exists b1 b2 b3 b4 r, enc_wkb (dz d) (dm d) o g = order_byte (o []) :: b1 :: b2 :: b3 :: b4 :: r /\
    word_of (o []) b1 b2 b3 b4 = iso_code (dz d) (dm d) (kind_code g).
  Proof.
    destruct (four (o []) _ (iso_bound (dz d) (dm d) _ (kind_known g))) as (b1 & b2 & b3 & b4 & E & W).
    unfold enc_wkb, iso_header. rewrite E. cbn [app]. do 5 eexists. split; [reflexivity|exact W].
  Qed.
  Lemma ewkb_start : exists b1 b2 b3 b4 r, enc_ewkb (dz d) (dm d) o srid g = order_byte (o []) :: b1 :: b2 :: b3 :: b4 :: r /\
    word_of (o []) b1 b2 b3 b4 =
    ewkb_code (dz d) (dm d) (match srid with Some _ => true | None => false end) (kind_code g).
  Proof.
    destruct (four (o []) _ (ewkb_bound (dz d) (dm d) (match srid with Some _ => true | None => false end) _ (kind_known g)))
      as (b1 & b2 & b3 & b4 & E & W).
    unfold enc_ewkb, ewkb_header. rewrite E. cbn [app]. do 5 eexists. split; [reflexivity|exact W].
  Qed.

  Lemma apart : forall from to, order_ok from o ->
    told_apart from to (o []) (dz d) (dm d) (match srid with Some _ => true | None => false end)
      (opt_default 0%Z srid) (header_flags ext emp env ed (o [])) (match env with [] => false | _ => true end) ->
    refused to dr (std from d srid env ed ext emp o g).
  Proof.
    intros from to HOK H. set (s := opt_default 0%Z srid) in *.
    destruct (le4 s Hs) as (c0 & c1 & c2 & c3 & C & V0 & V1 & V2 & V3).
    destruct wkb_start as (b1 & b2 & b3 & b4 & r & WE & WW).
    destruct ewkb_start as (e1 & e2 & e3 & e4 & er & EE & EW).
    destruct to, from; cbn [told_apart order_ok] in H, HOK; try contradiction; unfold std, enc_gpkg, enc_mysql, gpkg_header; fold s.
    - (* Wkb, Ewkb *)
      rewrite EE. eapply refused_as; [apply refused_wkb|eauto|eauto].
      rewrite order_of_order, EW. apply ewkb_as_iso; [apply kind_known|exact H].
    - (* Wkb, Geopackage *)
      destruct H as [HO H]. rewrite HO, C. cbn [app]. eapply refused_as; [apply refused_wkb|eauto|eauto].
      change (order_of x47) with LE. cbn [word_of]. unfold word. rewrite val_byte_of.
      unfold header_flags in H. rewrite HO in H.
      set (f := flag ext 32 + _ + _ + _) in *.
      assert (F : f < 256) by (unfold f, flag, gpkg_env_code; cbn [endian_eqb]; destruct ext, emp, env, (dz ed), (dm ed); lia).
      rewrite (N.mod_small f) by exact F.
      replace (Z.to_N (s mod 256)) with (val c0) in H by lia.
      change (val x50) with 80. change (val x00) with 0.
      replace (80 + 256 * (0 + 256 * (f + 256 * val c0))) with (80 + 65536 * f + 16777216 * val c0) by lia. exact H.
    - (* Wkb, MySQL *)
      destruct H as [H1 H2]. rewrite C, WE, HOK. cbn [app]. eapply refused_as; [apply refused_wkb|eauto|eauto].
      replace (order_of c0) with LE by (unfold order_of; destruct (val c0 =? 0) eqn:Q; [lia|reflexivity]).
      cbn [word_of].
      eapply (le_word s _ c1 c2 c3); try eassumption; [lia|reflexivity].
    - (* Wkb, SpatiaLite *)
      destruct H as [HO H]. unfold enc_spatialite, spatialite_header. rewrite HO, C. cbn [app].
      eapply refused_as; [apply refused_wkb|eauto|eauto].
      change (order_of x00) with BE. cbn [word_of]. unfold word.
      replace (Z.to_N (s mod 256)) with (val c0) in H by lia.
      replace (Z.to_N ((s / 256) mod 256)) with (val c1) in H by lia.
      replace (Z.to_N ((s / 65536) mod 256)) with (val c2) in H by lia.
      change (val (order_byte LE)) with 1.
      replace (val c2 + 256 * (val c1 + 256 * (val c0 + 256 * 1)))
        with (16777216 + 65536 * val c0 + 256 * val c1 + val c2) by lia. exact H.
    - (* Ewkb, Wkb *)
      rewrite WE. apply refused_ewkb. rewrite order_of_order, WW. apply iso_as_ewkb; [apply kind_known|exact H].
    - (* Ewkb, Geopackage *)
      destruct (four (o []) (i32_to_u32 s)) as (x1 & x2 & x3 & x4 & E & _).
      { unfold i32_to_u32. rewrite Z.mod_small by lia. lia. }
      rewrite E. cbn [app]. apply refused_ewkb. change (order_of x47) with LE. cbn [word_of]. rewrite land255.
      unfold word. change (val x50) with 80. rewrite (N.mul_comm 256), N.mod_add by discriminate.
      vm_compute. intuition discriminate.
    - (* Ewkb, MySQL *)
      destruct H as [H1 H2]. rewrite C, WE. cbn [app]. apply refused_ewkb.
      replace (order_of c0) with LE by (unfold order_of; destruct (val c0 =? 0) eqn:Q; [lia|reflexivity]).
      cbn [word_of]. rewrite land255. unfold word. rewrite (N.mul_comm 256), N.mod_add by discriminate.
      pose proof (val_lt c1). rewrite N.mod_small by assumption.
      replace (val c1) with (Z.to_N ((s / 256) mod 256)) by lia. exact H2.
    - (* Ewkb, SpatiaLite *)
      destruct H as [HO H]. unfold enc_spatialite, spatialite_header. rewrite HO, C. cbn [app].
      apply refused_ewkb. change (order_of x00) with BE. cbn [word_of]. rewrite land255.
      unfold word. rewrite (N.mul_comm 256), N.mod_add by discriminate.
      rewrite Z.div_small in V2 by lia. replace (val c2) with 0 by (cbn in V2; lia).
      vm_compute. intuition discriminate.
    - (* Geopackage, Wkb *)
      rewrite WE. apply refused_marks, not_gp. destruct (o []); discriminate.
    - rewrite EE. apply refused_marks, not_gp. destruct (o []); discriminate.
    - (* Geopackage, MySQL *)
      rewrite C. cbn [app]. apply refused_marks. intros (v & f & r' & E & _). injection E as -> -> _ _ _.
      change (Z.of_N (val x47)) with 0x47%Z in V0. change (Z.of_N (val x50)) with 0x50%Z in V1.
      apply H. Z.div_mod_to_equations. lia.
    - unfold enc_spatialite, spatialite_header. cbn [app]. apply refused_marks, not_gp. discriminate.
    - (* MySQL, Wkb *)
      apply refused_marks. unfold enc_wkb, iso_header. rewrite H.
      destruct (high_byte (iso_code (dz d) (dm d) (kind_code g))) as (x & y & z & E).
      { pose proof (known_small _ (kind_known g)). unfold iso_code, flag. destruct (dz d), (dm d); lia. }
      rewrite E. cbn [app]. apply not_order.
    - (* MySQL, Ewkb *)
      apply refused_marks. destruct H as (HO & Hz & Hm & Hf). unfold enc_ewkb, ewkb_header. rewrite HO, Hz, Hm, Hf.
      destruct (high_byte (ewkb_code false false false (kind_code g))) as (x & y & z & E).
      { pose proof (known_small _ (kind_known g)). unfold ewkb_code, flag. lia. }
      rewrite E. cbn [app]. apply not_order.
    - (* MySQL, Geopackage *)
      destruct H as [HO H]. rewrite HO, C, WE, HO. destruct env as [|x l].
      + cbn [flat_map app]. apply refused_mysql. destruct H as [H|[_ H]]; [left; lia|].
        destruct (val c0 =? 0) eqn:Q; [left; lia|]. right.
        eapply (le_word s _ c1 c2 c3); try eassumption; [lia|reflexivity].
      + cbn [flat_map bytes_of le_bytes app].
        apply refused_mysql. destruct H as [H|[H _]]; [left; lia|discriminate H].
    - (* MySQL, SpatiaLite *)
      destruct H as [HO H]. unfold enc_spatialite, spatialite_header. rewrite HO, C.
      rewrite <- !app_assoc.
      match goal with |- context [flat_map (bytes_of LE 8) _ ++ ?t] => destruct (mbr_bytes LE env t) as (y0 & y1 & y2 & y3 & y & E) end.
      rewrite E. cbn [app]. apply refused_mysql. left.
      rewrite Z.div_small in V2 by lia. cbn in V2. lia.
    - (* SpatiaLite *)
      rewrite WE, H. apply refused_marks, not_zero. discriminate.
    - rewrite EE, H. apply refused_marks, not_zero. discriminate.
    - cbn [app]. apply refused_marks, not_zero. discriminate.
    - rewrite C. cbn [app]. apply refused_marks, not_zero. intros ->. apply H. rewrite <- V0. reflexivity.
  Qed.
End Pairs.

(** ** WKB and EWKB *)
Section Headers.
  Variables hdr hdr' : endian -> N -> list byte.
  Variable cb : endian -> coord -> list byte.
  Variable o : list nat -> endian.
  Hypothesis H : forall e c, hdr e c = hdr' e c.
  Lemma members_ext : forall A (f g : list nat -> A -> list byte) p l,
    (forall q a, In a l -> f q a = g q a) -> members o p f l = members o p g l.
  Proof. intros A f g p l F. rewrite <- (map_id l) at 2. apply (WkbWriteTop.members_map o A A id). exact F. Qed.
  Lemma segment_hdr : forall p s, segment_bytes hdr cb o p s = segment_bytes hdr' cb o p s.
  Proof. intros p [l|l]; cbn [segment_bytes]; unfold linestring_bytes, arc_bytes; now rewrite H. Qed.
  Lemma curve_hdr : forall p s, curve_bytes hdr cb o p s = curve_bytes hdr' cb o p s.
  Proof.
    intros p [l|l|l]; cbn [curve_bytes]; unfold linestring_bytes, arc_bytes; rewrite H; try reflexivity.
    f_equal. apply members_ext. intros. apply segment_hdr.
  Qed.
  Lemma surface_hdr : forall p s, surface_bytes hdr cb o p s = surface_bytes hdr' cb o p s.
  Proof.
    intros p [l|l]; cbn [surface_bytes]; unfold polygon_bytes; rewrite H; try reflexivity.
    f_equal. apply members_ext. intros. apply curve_hdr.
  Qed.
  Lemma body_hdr : forall g p, body hdr cb o p g = body hdr' cb o p g.
  Proof.
    induction g as [x| |l|l|l|l|l|l IH|l|l|l|l|l|l|l|l] using geom_ind'; intros p; cbn [body]; try reflexivity;
      try (apply members_ext; intros q a _;
           first [apply segment_hdr | apply curve_hdr | apply surface_hdr
                 | unfold point_bytes, linestring_bytes, polygon_bytes, triangle_bytes; now rewrite H]).
    f_equal. generalize 0%nat. induction IH as [|a l Ha _ IHl]; intros k; cbn; [reflexivity|].
    now rewrite H, Ha, IHl.
  Qed.
End Headers.

Lemma same_bytes : forall d s env ed ext emp o g, dz d = false -> dm d = false ->
  std Wkb d s env ed ext emp o g = std Ewkb d None env ed ext emp o g.
Proof.
  intros d s env ed ext emp o g Hz Hm. unfold std. rewrite Hz, Hm. unfold enc_wkb, enc_ewkb.
  assert (E : forall e c, iso_header false false e c = ewkb_header false false None e c).
  { intros e c. unfold iso_header, ewkb_header, iso_code, ewkb_code, flag. rewrite !N.add_0_r, app_nil_r. reflexivity. }
  rewrite E. f_equal. now apply body_hdr.
Qed.

Lemma wkb_as_ewkb : forall d s env ed ext emp o g,
  encodable g -> (levels g <= 128)%nat ->
  if dz d || dm d
  then forall dr, refused Ewkb dr (std Wkb d s env ed ext emp o g)
  else delivers (fun dr => process_wkb_type_geom Ewkb dr (std Wkb d s env ed ext emp o g))
         (fun multi => Srid None :: gevents multi 0 (retained false false g)) (Ok (tt, [])).
Proof.
  intros d s env ed ext emp o g G L. destruct (dz d || dm d) eqn:E.
  - intros dr. rewrite orb_true_iff in E.
    apply (apart d dr None env ed ext emp o g) with (from := Wkb); [cbn; lia|exact I|exact E].
  - apply orb_false_iff in E. destruct E as [Ez Em].
    rewrite same_bytes by assumption.
    pose proof (delivers_std0 Ewkb d None env ed ext emp o g G L I I I) as D.
    rewrite Ez, Em in D. exact D.
Qed.
Lemma ewkb_as_wkb : forall d s env ed ext emp o g,
  encodable g -> (levels g <= 128)%nat -> srid_ok Ewkb s ->
  if dz d || dm d || match s with Some _ => true | None => false end
  then forall dr, refused Wkb dr (std Ewkb d s env ed ext emp o g)
  else delivers (fun dr => process_wkb_type_geom Wkb dr (std Ewkb d s env ed ext emp o g))
         (fun multi => Srid None :: gevents multi 0 (retained false false g)) (Ok (tt, [])).
Proof.
  intros d s env ed ext emp o g G L R. destruct (dz d || dm d || _) eqn:E.
  - intros dr. rewrite !orb_true_iff in E.
    destruct (ewkb_start d s o g) as (b1 & b2 & b3 & b4 & r & EE & EW). cbn [std]. rewrite EE.
    eapply refused_as; [apply refused_wkb|eauto|eauto].
    rewrite order_of_order, EW. apply ewkb_as_iso; [apply kind_known|tauto].
  - apply orb_false_iff in E. destruct E as [E Es]. apply orb_false_iff in E. destruct E as [Ez Em].
    destruct s; [discriminate Es|]. rewrite <- (same_bytes d None) by assumption.
    pose proof (delivers_std0 Wkb d None env ed ext emp o g G L I I I) as D.
    rewrite Ez, Em in D. exact D.
Qed.

(** ** MySQL blobs without SRID *)
Lemma le_val_last : forall l b, le_val (l ++ [b]) = le_val l + 256 ^ N.of_nat (length l) * val b.
Proof.
  induction l as [|a l IH]; intros b; cbn [app le_val length].
  - change (N.of_nat 0) with 0. rewrite N.pow_0_r. lia.
  - rewrite IH, Nnat.Nat2N.inj_succ, N.pow_succ_r'. lia.
Qed.
Lemma not_nan : forall b l, length l = 7%nat -> val b <> 127 -> val b <> 255 ->
  f64_is_nan (val_of BE (b :: l)) = false.
Proof.
  intros b l L H1 H2. cbn [val_of rev]. rewrite le_val_last, rev_length, L.
  pose proof (le_val_lt (rev l)) as B. rewrite rev_length, L in B. pose proof (val_lt b) as V.
  change (256 ^ N.of_nat 7) with (16 * 2 ^ 52) in *. set (y := le_val (rev l)) in *.
  unfold f64_is_nan. apply andb_false_iff. left. apply N.eqb_neq.
  replace (y + 16 * 2 ^ 52 * val b) with (y + (16 * val b) * 2 ^ 52) by lia.
  rewrite N.div_add by discriminate.
  assert (Q : y / 2 ^ 52 < 16) by (apply N.div_lt_upper_bound; [discriminate|lia]).
  set (q := y / 2 ^ 52) in *. clearbody q. change (2 ^ 11) with 2048.
  pose proof (N.div_mod (q + 16 * val b) 2048 ltac:(discriminate)) as D.
  pose proof (N.mod_lt (q + 16 * val b) 2048 ltac:(discriminate)) as M.
  set (r := (q + 16 * val b) mod 2048) in *. set (k := (q + 16 * val b) / 2048) in *. clearbody r k. lia.
Qed.

Lemma kept_point : forall x y, f64_is_nan x = false ->
  retained false false (GPoint (mkC x y None None)) = GPoint (mkC x y None None).
Proof. intros x y H. unfold retained, map_geom, point_or_empty, all_nanb, stored. cbn. now rewrite H. Qed.

Lemma mysql_point : forall d env ed ext emp g to, to = Wkb \/ to = Ewkb ->
  (21 <= length (std MySQL d None env ed ext emp little g))%nat ->
  exists c rest,
    delivers (fun dr => process_wkb_type_geom to dr (std MySQL d None env ed ext emp little g))
      (fun multi => Srid None :: gevents multi 0 (GPoint c)) (Ok (tt, rest)).
Proof.
  intros d env ed ext emp g to T L. cbn [std] in *. unfold enc_mysql, enc_wkb, iso_header in *.
  change (bytes_of LE 4 (i32_to_u32 (opt_default 0%Z None))) with [x00; x00; x00; x00] in *.
  change (order_byte (little [])) with x01 in *.
  set (b := body _ _ _ _ _) in *.
  destruct (four LE _ (iso_bound (dz d) (dm d) _ (kind_known g))) as (a1 & a2 & a3 & a4 & A & W).
  cbn [word_of] in W.
  assert (K : val a1 <> 127 /\ val a1 <> 255).
  { pose proof (kind_known g) as K. unfold known_code in K. cbn in K. unfold word in W. unfold iso_code, flag in W.
    pose proof (val_lt a1). pose proof (val_lt a2). pose proof (val_lt a3). pose proof (val_lt a4).
    destruct (dz d), (dm d); lia. }
  change (bytes_of (little []) 4) with (bytes_of LE 4) in *. rewrite A in *.
  cbn [app] in *. cbn [length] in L.
  destruct b as [|b1 [|b2 [|b3 [|b4 [|b5 [|b6 [|b7 [|b8 [|b9 [|b10 [|b11 [|b12 r]]]]]]]]]]]];
    try (cbn [length] in L; lia).
  set (x := val_of BE [a1; a2; a3; a4; b1; b2; b3; b4]).
  set (y := val_of BE [b5; b6; b7; b8; b9; b10; b11; b12]).
  exists (mkC x y None None), r.
  assert (N0 : f64_is_nan x = false) by (unfold x; apply not_nan; [reflexivity|apply K|apply K]).
  assert (E : [x00; x00; x00; x00; x01; a1; a2; a3; a4; b1; b2; b3; b4; b5; b6; b7; b8; b9; b10; b11; b12] ++ r =
              std Wkb xy_dims None [] xy_dims false false (fun _ => BE) (GPoint (mkC x y None None)) ++ r).
  { f_equal. cbn [std]. unfold enc_wkb, iso_header, coord_bytes. cbn [body dz dm xy_dims cx cy].
    unfold x, y. pose proof (bytes_of_val_of BE [a1; a2; a3; a4; b1; b2; b3; b4]) as X.
    pose proof (bytes_of_val_of BE [b5; b6; b7; b8; b9; b10; b11; b12]) as Y. cbn [length] in X, Y.
    unfold coord_bytes. cbn [cx cy]. rewrite X, Y. reflexivity. }
  change ([x00; x00; x00; x00; x01; a1; a2; a3; a4; b1; b2; b3; b4; b5; b6; b7; b8; b9; b10; b11; b12] ++ r) with
    (x00 :: x00 :: x00 :: x00 :: x01 :: a1 :: a2 :: a3 :: a4 :: b1 :: b2 :: b3 :: b4 :: b5 :: b6 :: b7 :: b8 :: b9 :: b10 :: b11 :: b12 :: r) in E.
  rewrite E.
  assert (R : retained false false (GPoint (mkC x y None None)) = GPoint (mkC x y None None)).
  { now apply kept_point. }
  assert (G : encodable (GPoint (mkC x y None None))).
  { cbn. pose proof (val_of_lt BE [a1; a2; a3; a4; b1; b2; b3; b4]) as X.
    pose proof (val_of_lt BE [b5; b6; b7; b8; b9; b10; b11; b12]) as Y. fold x in X. fold y in Y.
    cbn [length] in X, Y. change (256 ^ N.of_nat 8) with (2 ^ 64) in *.
    unfold coord64, f64_ok. cbn. repeat split; assumption. }
  assert (Lv : (levels (GPoint (mkC x y None None)) <= 128)%nat) by (cbn; lia).
  destruct T as [-> | ->].
  - pose proof (delivers_std Wkb xy_dims None [] xy_dims false false (fun _ => BE) _ r G Lv I I I) as D.
    cbn [dz dm xy_dims] in D. rewrite R in D. exact D.
  - rewrite (same_bytes xy_dims None) by reflexivity.
    pose proof (delivers_std Ewkb xy_dims None [] xy_dims false false (fun _ => BE) _ r G Lv I I I) as D.
    cbn [dz dm xy_dims] in D. rewrite R in D. exact D.
Qed.
