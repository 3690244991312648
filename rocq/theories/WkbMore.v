(** TinyPoints, malformed headers, transcoding to standard bytes (helper lemmas for C04, C05, C12,
    C47). *)
From Coq Require Import String Ascii.
From Coq Require Import List NArith ZArith Lia Bool ZifyBool ZifyNat ZifyN.
From Coq Require Import Init.Byte.
From Verif Require Import Base BaseLemmas Float Event EventLemmas Geom WkbModel WkbSpec WkbClaims
  WkbRead WkbReadTop WkbWrite WkbWriteTop WkbInv WkbTop.
Import ListNotations.
Local Open Scope N_scope.
Local Open Scope list_scope.

(** ** transcoding *)
Lemma transcode_standard : forall dl1 d1 srid1 env1 ed1 ext1 emp1 o g dl2 d2 srid2 env2,
  encodable g -> conforming (dz d1) (dm d1) g -> (levels g <= 128)%nat ->
  srid_ok dl1 srid1 -> env_ok dl1 ed1 env1 -> order_ok dl1 o ->
  srid_ok dl2 srid2 -> (dl2 = SpatiaLite -> spatialite_safe g) ->
  to_wkb_dialect
    (fun d => pbind (process_wkb_type_geom dl1 d (std dl1 d1 srid1 env1 ed1 ext1 emp1 o g))
                    (fun _ => pret tt))
    dl2 d2 srid2 env2 =
  Ok (std dl2 d2 srid2 env2 xy_dims false false little g).
Proof.
  intros * Hg Hc Hl Hs He Ho Hs2 Hf.
  rewrite (transcode_conforming dl1 d1 srid1 env1 ed1 ext1 emp1 o g dl2 d2 srid2 env2 Hg Hc Hl Hs He Ho).
  apply (write_all_std dl2 d2 d2 srid2 env2 xy_dims false false g); try assumption.
  - apply asks_for_all_refl.
  - eapply conforming_no_empty. exact Hc.
Qed.

(** ** TinyPoints *)
Lemma reads_tiny_header : forall z m srid e b, is_i32 srid ->
  reads read_spatialite_header
    ([x00; match e with BE => x80 | LE => x81 end] ++ bytes_of e 4 (i32_to_u32 srid) ++ [tiny_code z m] ++ b)
    [] (mkInfo e TPoint z m (srid_or_none srid) [] false) b.
Proof.
  intros z m srid e b Hs. unfold read_spatialite_header. cbn [app].
  eapply reads_bind0; [apply reads_u8|]. cbn [negb].
  eapply reads_bind0; [apply reads_u8|].
  replace (endian_of _) with e by (destruct e; reflexivity).
  replace (negb (N.land (val match e with BE => x80 | LE => x81 end) 128 =? 0)) with true
    by (destruct e; reflexivity).
  eapply reads_bind0; [apply reads_i32; exact Hs|].
  eapply reads_bind0; [apply reads_u8|].
  destruct z, m; apply reads_ret.
Qed.

Lemma tiny_reads : forall d z m e srid c tail,
  is_i32 srid -> coord64 c ->
  reads (process_wkb_type_geom SpatiaLite d) (tiny_point z m e srid c ++ tail)
    (Srid (srid_or_none srid) :: gevents (multi_dim d) 0 (retained z m (GPoint c))) tt ([xfe] ++ tail).
Proof.
  intros d z m e srid c tail Hs Hc. unfold tiny_point.
  replace (_ ++ tail) with
    (([x00; match e with BE => x80 | LE => x81 end] ++ bytes_of e 4 (i32_to_u32 srid) ++ [tiny_code z m]) ++
      (coord_bytes z m e c ++ [xfe] ++ tail)) by (rewrite <- !app_assoc; reflexivity).
  rewrite app_assoc.
  eapply (reads_process SpatiaLite d _ (mkInfo e TPoint z m (srid_or_none srid) [] false));
    [rewrite <- !app_assoc; apply reads_tiny_header; exact Hs|reflexivity|].
  apply (reads_geom (multi_dim d) read_spatialite_nested_header (spatialite_sub_header z m) z m
           (fun _ => e) eq (nested_spatialite z m) (fun _ _ => eq_refl) (GPoint c) geom_fuel _ []);
    [repeat split|split; [assumption|exact I]|cbn; lia|unfold geom_fuel; lia].
Qed.

Lemma tiny_delivers : forall z m e srid c tail,
  is_i32 srid -> coord64 c ->
  delivers (fun d => process_wkb_type_geom SpatiaLite d (tiny_point z m e srid c ++ tail))
    (fun multi => Srid (if (srid =? 0)%Z then None else Some srid) ::
                  gevents multi 0 (retained z m (GPoint c))) (Ok (tt, [xfe] ++ tail)).
Proof.
  intros z m e srid c tail Hs Hc. apply delivers_calls. intros d.
  exact (tiny_reads d z m e srid c tail Hs Hc).
Qed.

Lemma tiny_wrapper : forall z m e srid c, is_i32 srid ->
  wrapper_dims SpatiaLite (tiny_point z m e srid c) = mkDims z m false false /\
  wrapper_srid SpatiaLite (tiny_point z m e srid c) = (if (srid =? 0)%Z then None else Some srid).
Proof.
  intros z m e srid c Hs. unfold wrapper_dims, wrapper_srid.
  assert (H := reads_tiny_header z m srid e (coord_bytes z m e c ++ [xfe]) Hs).
  apply (header_info_reads SpatiaLite) in H. unfold tiny_point.
  rewrite H. split; reflexivity.
Qed.

(** ** malformed headers *)
Lemma take_cases : forall n b,
  (rtake n b = pfail EIo /\ (length b < n)%nat) \/
  (rtake n b = pret (firstn n b, skipn n b) /\ (n <= length b)%nat).
Proof.
  intros n b. unfold rtake. destruct (Nat.ltb_spec (length b) n); [left|right]; auto.
Qed.
Lemma map_take : forall A (f : list byte -> A) n b,
  (rmap f (rtake n) b = pfail EIo /\ (length b < n)%nat) \/
  (rmap f (rtake n) b = pret (f (firstn n b), skipn n b) /\ (n <= length b)%nat).
Proof.
  intros A f n b. unfold rmap, rbind.
  destruct (take_cases n b) as [[-> H]|[-> H]]; [left|right]; auto.
Qed.
Lemma skipn_add : forall A a k (l : list A), skipn k (skipn a l) = skipn (a + k) l.
Proof.
  induction a as [|a IH]; intros k l; [reflexivity|].
  destruct l as [|x l]; [now rewrite !skipn_nil|]. apply IH.
Qed.
Lemma u8_cons : forall x b, r_u8 (x :: b) = pret (val x, b).
Proof. intros x b. apply (reads_u8 x b). Qed.

Lemma f64s_cases : forall e n b,
  r_f64s e n b = pfail EIo \/
  (exists l, r_f64s e n b = pret (l, skipn (8 * n) b) /\ (8 * n <= length b)%nat).
Proof.
  induction n as [|n IH]; intros b.
  - right. exists []. cbn. split; [reflexivity|lia].
  - assert (U : r_f64s e (S n) b = pbind (r_f64 e b) (fun x =>
        pbind (r_f64s e n (snd x)) (fun y => pret (fst x :: fst y, snd y)))) by reflexivity.
    rewrite U. unfold r_f64.
    destruct (map_take _ (val_of e) 8 b) as [[E H]|[E H]]; rewrite E; cbn [pbind pret pfail fst snd];
      [left; reflexivity|].
    destruct (IH (skipn 8 b)) as [X|[l [X Hl]]]; rewrite X; [left; reflexivity|].
    right. exists (val_of e (firstn 8 b) :: l). 
    rewrite skipn_length in Hl. split; [|lia].
    cbn [pbind pret fst snd]. rewrite skipn_add. replace (8 * S n)%nat with (8 + 8 * n)%nat by lia. reflexivity.
Qed.

Lemma gpkg_flags : forall f, (val f / 2) mod 8 <= 4 \/
  gpkg_env_len (N.shiftr (N.land (val f) 14) 1) = Err EGeometryFormat.
Proof. intros f. destruct f; vm_compute; first [right; reflexivity|left; discriminate]. Qed.
Lemma tiny_flag : forall f, 128 <= val f \/ negb (N.land (val f) 128 =? 0) = false.
Proof. intros f. destruct f; vm_compute; first [right; reflexivity|left; discriminate]. Qed.

Definition fails {A} (g : prog A) : Prop := g = pfail EGeometryFormat \/ g = pfail EIo.

Lemma bind_cases : forall A B (f : rd A) (g : A -> rd B) b,
  fails (f b) -> fails (rbind f g b).
Proof. unfold fails, rbind. intros * [->| ->]; cbn; auto. Qed.

Lemma bad_marks : forall dl b, ~ marks_ok dl b -> fails (read_header dl b).
Proof.
  intros dl b H. destruct dl; cbn [marks_ok] in H; try (now destruct (H I)); cbn [read_header].
  - (* Geopackage *) unfold read_gpkg_header.
    destruct b as [|m0 b]; [right; reflexivity|].
    unfold rbind at 1. rewrite u8_cons. cbn [pbind pret fst snd].
    destruct b as [|m1 b]; [right; reflexivity|].
    unfold rbind at 1. rewrite u8_cons. cbn [pbind pret fst snd].
    destruct ((val m0 =? 0x47) && (val m1 =? 0x50)) eqn:E; cbn [negb]; [|left; reflexivity].
    apply andb_true_iff in E. destruct E as [E0 E1].
    apply N.eqb_eq in E0, E1. apply (val_inj m0 x47) in E0. apply (val_inj m1 x50) in E1. subst m0 m1.
    destruct b as [|v b]; [right; reflexivity|].
    unfold rbind at 1. rewrite u8_cons. cbn [pbind pret fst snd].
    destruct b as [|f b]; [right; reflexivity|].
    unfold rbind at 1. rewrite u8_cons. cbn [pbind pret fst snd].
    destruct (gpkg_flags f) as [F| ->]; [|left; reflexivity].
    destruct H. exists v, f, b. split; [reflexivity|exact F].
  - (* MySQL *) unfold read_mysql_header, r_u32.
    unfold rbind at 1. destruct (map_take _ (val_of LE) 4 b) as [[-> L]|[-> L]]; [right; reflexivity|].
    cbn [pbind pret fst snd].
    destruct (2 ^ 31 <=? val_of LE (firstn 4 b)) eqn:E; [left; reflexivity|].
    assert (V : val_of LE (firstn 4 b) < 2 ^ 31) by lia. clear E.
    assert (B : b = bytes_of LE 4 (val_of LE (firstn 4 b)) ++ skipn 4 b).
    { rewrite <- (firstn_skipn 4 b) at 1. f_equal.
      assert (L4 : length (firstn 4 b) = 4%nat) by (rewrite firstn_length; lia).
      pose proof (bytes_of_val_of LE (firstn 4 b)) as X. rewrite L4 in X. now rewrite X. }
    revert V B. generalize (val_of LE (firstn 4 b)). generalize (skipn 4 b). intros r n V B. subst b.
    clear L. unfold rbind at 1. unfold read_wkb_header at 1.
    destruct r as [|o r]; [right; reflexivity|].
    unfold rbind at 1. rewrite u8_cons. cbn [pbind pret fst snd].
    unfold r_u32. unfold rbind at 1.
    destruct (map_take _ (val_of (endian_of (negb (val o =? 0)))) 4 r) as [[-> L]|[-> L]]; [right; reflexivity|].
    cbn [pbind pret fst snd rret i_endian].
    destruct (N.eqb_spec (val o) 0) as [O|O]; cbn [negb endian_of endian_eqb]; [left; reflexivity|].
    destruct H. exists n, o, r. repeat split; [exact V|]. intros ->. apply O. reflexivity.
  - (* SpatiaLite *) unfold read_spatialite_header.
    destruct b as [|s b]; [right; reflexivity|].
    unfold rbind at 1. rewrite u8_cons. cbn [pbind pret fst snd].
    destruct (N.eqb_spec (val s) 0) as [S0|S0]; cbn [negb]; [|left; reflexivity].
    apply (val_inj s x00) in S0. subst s.
    destruct b as [|f b]; [right; reflexivity|].
    unfold rbind at 1. rewrite u8_cons. cbn [pbind pret fst snd].
    destruct (tiny_flag f) as [F| ->]; [destruct H; exists f, b; auto|].
    generalize (endian_of (negb (N.land (val f) 1 =? 0))). intros e.
    unfold rbind at 1. unfold r_i32, r_u32.
    unfold rmap at 1. unfold rbind at 1.
    destruct (map_take _ (val_of e) 4 b) as [[-> L]|[-> L]]; [right; reflexivity|].
    cbn [pbind pret fst snd rret]. unfold rbind at 1.
    destruct (f64s_cases e 4 (skipn 4 b)) as [->|[l [-> L2]]]; [right; reflexivity|].
    cbn [pbind pret fst snd].
    rewrite skipn_length in L2.
    assert (S36 : skipn (8 * 4) (skipn 4 b) = skipn 36 b).
    { apply skipn_add. }
    rewrite S36. clear S36.
    destruct (skipn 36 b) as [|x r] eqn:E; [right; reflexivity|].
    unfold rbind at 1. rewrite u8_cons. cbn [pbind pret fst snd].
    destruct (N.eqb_spec (val x) 0x7C) as [X|X]; cbn [negb]; [|left; reflexivity].
    apply (val_inj x x7c) in X. subst x. destruct H. exists f, b. split; [reflexivity|]. right.
    rewrite <- (firstn_skipn 36 b), E.
    rewrite nth_error_app2 by (rewrite firstn_length; lia).
    rewrite firstn_length. replace (36 - _)%nat with 0%nat by lia. reflexivity.
Qed.

Lemma bad_marks_rejected : forall dl d b, ~ marks_ok dl b ->
  exists e, (e = EGeometryFormat \/ e = EIo) /\ makes (process_wkb_type_geom dl d b) [] (Err e).
Proof.
  intros dl d b H. apply bad_marks in H. unfold process_wkb_type_geom.
  unfold makes, rbind at 1. destruct H as [-> | ->]; eexists; (split; [|reflexivity]); auto.
Qed.

(** ** unknown kinds *)
Lemma unknown_type : forall n, ~ known_code n ->
  In (type_of_code n) [TUnknown; TCurve; TSurface].
Proof.
  intros n H. unfold known_code in H. cbn [In] in H. unfold type_of_code.
  destruct n as [|p]; [left; reflexivity|].
  do 5 (destruct p as [p|p|]; try (cbn; tauto)); exfalso; apply H; cbn; tauto.
Qed.

Lemma unknown_rejected : forall multi rh i idx depth b,
  In (i_type i) [TUnknown; TCurve; TSurface] -> (depth <= 128)%nat ->
  process_geom_n geom_fuel multi rh i idx depth b = pfail EGeometryFormat.
Proof.
  intros multi rh i idx depth b H D. unfold geom_fuel. cbn [process_geom_n].
  replace (Nat.ltb max_nesting_depth depth) with false
    by (symmetry; apply Nat.ltb_ge; unfold max_nesting_depth; lia).
  cbn [In] in H. destruct H as [<-|[<-|[<-|[]]]]; reflexivity.
Qed.

Lemma unknown_wkb : forall d e n b, n < 2 ^ 32 -> ~ known_code (n mod 1000) ->
  makes (process_wkb_type_geom Wkb d (order_byte e :: bytes_of e 4 n ++ b)) [Srid None] (Err EGeometryFormat).
Proof.
  intros d e n b Hn H. unfold process_wkb_type_geom, makes.
  cbn [read_header]. unfold read_wkb_header. unfold rbind at 1. unfold rbind at 1.
  rewrite u8_cons. cbn [pbind pret fst snd]. rewrite order_byte_endian. unfold rbind at 1.
  pose proof (reads_u32 e n b Hn) as R. unfold reads in R. cbn [calls] in R. rewrite R.
  cbn [pbind fst snd rret pret]. unfold rbind at 1, rcall. cbn [pbind pret fst snd i_srid].
  rewrite unknown_rejected; [reflexivity|apply unknown_type; exact H|lia].
Qed.

Lemma low_bits : forall n k, n < 256 -> 8 <= k -> N.testbit n k = false.
Proof.
  intros n k H K. rewrite <- (N.mod_small n (2 ^ 8)) by exact H. now apply N.mod_pow2_bits_high.
Qed.

Lemma unknown_ewkb : forall d e z m code b, code < 256 -> ~ known_code code ->
  makes (process_wkb_type_geom Ewkb d (order_byte e :: bytes_of e 4 (ewkb_code z m false code) ++ b))
    [Srid None] (Err EGeometryFormat).
Proof.
  intros d e z m code b Hn H. unfold process_wkb_type_geom, makes.
  cbn [read_header]. unfold read_ewkb_header. unfold rbind at 1. unfold rbind at 1.
  rewrite u8_cons. cbn [pbind pret fst snd]. rewrite order_byte_endian. unfold rbind at 1.
  assert (N4 : ewkb_code z m false code < 2 ^ 32) by (unfold ewkb_code, flag; destruct z, m; lia).
  pose proof (reads_u32 e _ b N4) as R. unfold reads in R. cbn [calls] in R. rewrite R.
  cbn [pbind fst snd rret pret].
  assert (L : forall k : unit, N.land (ewkb_code z m false code) 0xFF = code /\
              has_flag (ewkb_code z m false code) 0x20000000 = false).
  { intros _. unfold ewkb_code, flag, has_flag.
    assert (E : forall q, code + q * 256 = N.lor code (N.shiftl q 8)).
    { intros q. rewrite N.shiftl_mul_pow2. change (2 ^ 8) with 256.
      rewrite <- N.lxor_lor, <- N.add_nocarry_lxor; [reflexivity| |].
      all: apply N.bits_inj; intros k; rewrite N.land_spec, N.bits_0;
        change 256 with (2 ^ 8); rewrite <- N.shiftl_mul_pow2;
        destruct (N.lt_ge_cases k 8);
        [rewrite (N.shiftl_spec_low q 8 k) by assumption; apply andb_false_r|
         rewrite (low_bits code k); [reflexivity|assumption|assumption]]. }
    assert (F : forall q, N.land (code + q * 256) 0xFF = code /\
                N.land (code + q * 256) 0x20000000 = N.land (q * 256) 0x20000000).
    { intros q. rewrite E. rewrite !N.land_lor_distr_l. split.
      - change 0xFF with (N.ones 8). rewrite !N.land_ones. rewrite N.shiftl_mul_pow2.
        rewrite N.mod_mul by discriminate. rewrite N.mod_small by exact Hn. apply N.lor_0_r.
      - rewrite N.shiftl_mul_pow2. change (2 ^ 8) with 256.
        replace (N.land code 0x20000000) with 0; [apply N.lor_0_l|].
        symmetry. change 0x20000000 with (N.shiftl 1 29). apply N.bits_inj. intros k.
        rewrite N.land_spec, N.bits_0. destruct (N.lt_ge_cases k 29);
        [rewrite (N.shiftl_spec_low 1 29 k) by assumption; apply andb_false_r|].
        rewrite (low_bits code k); [reflexivity|assumption|lia]. }
    destruct z, m.
    - specialize (F 0xC00000). replace (_ + 0) with (code + 0xC00000 * 256) by lia. destruct F as [-> ->]. split; reflexivity.
    - specialize (F 0x800000). replace (_ + 0) with (code + 0x800000 * 256) by lia. destruct F as [-> ->]. split; reflexivity.
    - specialize (F 0x400000). replace (_ + 0) with (code + 0x400000 * 256) by lia. destruct F as [-> ->]. split; reflexivity.
    - specialize (F 0). replace (_ + 0) with (code + 0 * 256) by lia. destruct F as [-> ->]. split; reflexivity. }
  destruct (L tt) as [L1 L2]. rewrite L1, L2.
  unfold rbind. cbn [pbind fst snd rret pret rcall i_srid].
  rewrite unknown_rejected; [reflexivity|apply unknown_type; exact H|lia].
Qed.

(** ** members of SpatiaLite collections must start with 0x69 *)
Lemma bad_member : forall d z m srid env e n x b,
  is_i32 srid -> (env = [] \/ length env = 4%nat) -> Forall f64_ok env ->
  0 < n < 2 ^ 32 -> x <> x69 ->
  makes (process_wkb_type_geom SpatiaLite d
           (spatialite_header z m srid env e 7 ++ bytes_of e 4 n ++ x :: b))
    [Srid (if (srid =? 0)%Z then None else Some srid); CollectionBegin (N.to_nat n) 0] (Err EGeometryFormat).
Proof.
  intros d z m srid env e n x b Hs Hl Hf Hn Hx. unfold process_wkb_type_geom, makes, rbind at 1.
  pose proof (reads_spatialite_header z m srid env e TGeometryCollection
    (bytes_of e 4 n ++ x :: b) (conj Hl Hf) Hs) as R.
  unfold reads in R. cbn [calls type_code] in R. cbn [read_header]. rewrite R.
  cbn [pbind fst snd]. unfold rbind at 1, rcall. cbn [pbind pret fst snd i_srid].
  unfold geom_fuel. cbn [process_geom_n i_type].
  change (Nat.ltb max_nesting_depth 0) with false. cbv iota. cbn [i_endian].
  unfold rbind at 1. assert (N4 : n < 2 ^ 32) by lia.
  pose proof (reads_u32 e n (x :: b) N4) as U. unfold reads in U. cbn [calls] in U. rewrite U.
  cbn [pbind fst snd]. destruct (N.to_nat n) as [|k] eqn:K; [lia|].
  cbn [rfor]. unfold rbind at 1, rcall at 1. cbn [pbind pret fst snd].
  unfold rbind at 1. unfold rbind at 1. unfold rbind at 1.
  cbn [nested_header]. unfold read_spatialite_nested_header. unfold rbind at 1.
  rewrite u8_cons. cbn [pbind pret fst snd].
  destruct (N.eqb_spec (val x) 0x69) as [X|X]; [apply (val_inj x x69) in X; contradiction|].
  reflexivity.
Qed.
