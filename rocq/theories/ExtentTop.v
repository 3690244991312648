(** How far the SpatiaLite exceptions to C06 and C07 reach: the reader never looks at the end mark. *)
From Coq Require Import List NArith ZArith Lia Bool.
From Coq Require Import Init.Byte.
From Verif Require Import Base BaseLemmas Event EventLemmas Claims Geom WkbModel WkbSpec WkbClaims WkbRead
  WkbReadTop WkbInv WkbTop ExtentSpec.
Import ListNotations.
Local Open Scope N_scope.
Local Open Scope list_scope.

Definition unmarked (z m : bool) (o : list nat -> endian) (srid : Z) (env : list f64) (g : geom) : list byte :=
  spatialite_header z m srid env (o []) (kind_code g) ++
  body (spatialite_sub_header z m) (coord_bytes z m) (fun _ => o []) [] g.

Lemma marked : forall z m o srid env g, enc_spatialite z m o srid env g = unmarked z m o srid env g ++ [xfe].
Proof. intros. unfold enc_spatialite, unmarked. now rewrite <- app_assoc. Qed.

Lemma reads_unmarked : forall d z m o srid env g tail,
  encodable g -> (levels g <= 128)%nat -> env4 env -> is_i32 srid ->
  reads (process_wkb_type_geom SpatiaLite d) (unmarked z m o srid env g ++ tail)
        (Srid (srid_or_none srid) :: gevents (multi_dim d) 0 (retained z m g)) tt tail.
Proof.
  intros d z m o srid env g tail Hg Hl He Hs. unfold unmarked.
  destruct (gtype_code g) as [Hc Hu]. rewrite <- Hc.
  eapply (reads_process SpatiaLite d _
            (mkInfo (o []) (gtype g) z m (srid_or_none srid) _ false));
    [apply reads_spatialite_header; assumption|reflexivity|].
  apply (reads_geom (multi_dim d) read_spatialite_nested_header (spatialite_sub_header z m) z m
           (fun _ => o []) eq (nested_spatialite z m) (fun _ _ => eq_refl));
    try assumption; try (unfold geom_fuel; lia).
  repeat split.
Qed.

Lemma srid_i32 : forall srid, srid_ok SpatiaLite srid -> is_i32 (opt_default 0%Z srid).
Proof. intros [s|] H; [exact H|]. cbn. unfold is_i32. lia. Qed.

Lemma reported : forall srid, reported_srid SpatiaLite srid = srid_or_none (opt_default 0%Z srid).
Proof. intros [[|p|p]|]; reflexivity. Qed.

Lemma cut_anywhere : forall d srid env ed ext emp o g p t,
  encodable g -> (levels g <= 128)%nat -> srid_ok SpatiaLite srid -> env_ok SpatiaLite ed env ->
  std SpatiaLite d srid env ed ext emp o g = p ++ t -> t <> [] ->
  forall S (q : proc S) s,
  exists l1 l2,
    Srid (reported_srid SpatiaLite srid) :: gevents (multi_dim (p_dims q)) 0 (retained (dz d) (dm d) g)
      = l1 ++ l2 /\
    (t = [xfe] -> l2 = []) /\
    exec q (process_wkb_type_geom SpatiaLite (p_dims q) p) s =
    match run q l1 s with
    | (s', Ok _) => (s', if Nat.eqb (length t) 1 then Ok (tt, []) else Err EIo)
    | (s', Err x) => (s', Err x)
    end.
Proof.
  intros d srid env ed ext emp o g p t Hg Hl Hs He E Ht S q s.
  unfold std in E. rewrite marked in E. rewrite reported.
  set (b := unmarked _ _ _ _ _ _) in E.
  destruct (exists_last Ht) as (t' & y & ->).
  rewrite app_assoc in E. apply app_inj_tail in E. destruct E as [E <-].
  rewrite app_length. cbn [length]. destruct t' as [|a t'].
  - rewrite app_nil_r in E. exists (Srid (srid_or_none (opt_default 0%Z srid)) :: gevents (multi_dim (p_dims q)) 0 (retained (dz d) (dm d) g)), [].
    split; [rewrite app_nil_r; reflexivity|]. split; [reflexivity|]. rewrite <- E.
    pose proof (reads_unmarked (p_dims q) (dz d) (dm d) o (opt_default 0%Z srid) env g [] Hg Hl He (srid_i32 _ Hs)) as R.
    fold b in R. rewrite app_nil_r in R. unfold reads in R. rewrite R, exec_calls.
    destruct (run q _ s) as [s' [u|x]]; reflexivity.
  - pose proof (reads_unmarked (p_dims q) (dz d) (dm d) o (opt_default 0%Z srid) env g [] Hg Hl He (srid_i32 _ Hs)) as R.
    fold b in R. rewrite app_nil_r in R. unfold reads in R.
    destruct (truncated SpatiaLite (p_dims q) _ _ _ p (a :: t') R E) as (l1 & l2 & H1 & H2); [cbn; lia|].
    exists l1, l2. split; [exact H1|]. split; [intros F; destruct t'; discriminate F|].
    rewrite H2, exec_calls. replace (Nat.eqb _ 1) with false by (symmetry; apply Nat.eqb_neq; cbn [length]; lia).
    destruct (run q l1 s) as [s' [u|x]]; reflexivity.
Qed.

Lemma second_stops : forall d r, process_wkb_type_geom SpatiaLite d (xfe :: r) = pfail EGeometryFormat.
Proof. intros. reflexivity. Qed.

Lemma only_the_first : forall d srid env ed ext emp o g gs n tail,
  encodable g -> (levels g <= 128)%nat -> srid_ok SpatiaLite srid -> env_ok SpatiaLite ed env ->
  delivers (fun dr => read_many SpatiaLite dr (2 + n)
              (flat_map (std SpatiaLite d srid env ed ext emp o) (g :: gs) ++ tail))
           (fun multi => Srid (reported_srid SpatiaLite srid) :: gevents multi 0 (retained (dz d) (dm d) g))
           (Err EGeometryFormat).
Proof.
  intros d srid env ed ext emp o g gs n tail Hg Hl Hs He. apply delivers_calls. intros dr. rewrite reported.
  cbn [flat_map Nat.add]. cbn [read_many]. rewrite <- app_assoc.
  unfold std at 1. rewrite marked, <- app_assoc.
  pose proof (reads_unmarked dr (dz d) (dm d) o (opt_default 0%Z srid) env g
    ([xfe] ++ flat_map (std SpatiaLite d srid env ed ext emp o) gs ++ tail) Hg Hl He (srid_i32 _ Hs)) as R.
  unfold reads in R. rewrite R. rewrite pbind_calls. reflexivity.
Qed.

(** ** Byte order and type code of the outermost header *)
Lemma u32_word : forall e n b, n < 2 ^ 32 -> r_u32 e (bytes_of e 4 n ++ b) = pret (n, b).
Proof. intros e n b H. exact (reads_u32 e n b H). Qed.
Lemma iso_read : forall e n r, n < 2 ^ 32 ->
  read_wkb_header (order_byte e :: bytes_of e 4 n ++ r) =
  pret (mkInfo e (type_of_code (n mod 1000)) (dim_has_z (n / 1000)) (dim_has_m (n / 1000)) None [] false, r).
Proof.
  intros e n r H. unfold read_wkb_header, rbind at 1.
  assert (E : r_u8 (order_byte e :: bytes_of e 4 n ++ r) = pret (val (order_byte e), bytes_of e 4 n ++ r)).
  { exact (reads_u8 (order_byte e) (bytes_of e 4 n ++ r)). }
  rewrite E. cbn [pbind pret fst snd].
  replace (endian_of (negb (val (order_byte e) =? 0))) with e by (destruct e; reflexivity).
  unfold rbind. rewrite u32_word by exact H. reflexivity.
Qed.

Lemma seen_small : forall n, seen_code n < 2 ^ 32.
Proof.
  intros n. unfold seen_code. pose proof (N.mod_lt n 1000 ltac:(discriminate)). destruct (n / 1000 <? 4) eqn:E; lia.
Qed.
Lemma seen_same : forall d e n r, n < 2 ^ 32 ->
  process_wkb_type_geom Wkb d (order_byte e :: bytes_of e 4 n ++ r) =
  process_wkb_type_geom Wkb d (order_byte e :: bytes_of e 4 (seen_code n) ++ r).
Proof.
  intros d e n r H. unfold process_wkb_type_geom. cbn [read_header]. unfold rbind.
  rewrite (iso_read e n r H), (iso_read e (seen_code n) r (seen_small n)).
  assert (M : seen_code n mod 1000 = n mod 1000 /\
    dim_has_z (seen_code n / 1000) = dim_has_z (n / 1000) /\ dim_has_m (seen_code n / 1000) = dim_has_m (n / 1000)).
  { unfold seen_code. pose proof (N.mod_lt n 1000 ltac:(discriminate)) as L.
    destruct (n / 1000 <? 4) eqn:E.
    - replace (n mod 1000 + 1000 * (n / 1000)) with n; [auto|].
      pose proof (N.div_mod n 1000 ltac:(discriminate)). lia.
    - rewrite N.add_0_r. rewrite N.mod_small by exact L. rewrite (N.div_small (n mod 1000)) by exact L.
      split; [reflexivity|]. unfold dim_has_z, dim_has_m.
      apply N.ltb_ge in E. set (k := n / 1000) in *. clearbody k. split; lia. }
  destruct M as (-> & -> & ->). reflexivity.
Qed.
Lemma gpkg_order : forall d he ext emp ed srid env z m e t r,
  env_ok Geopackage ed env -> is_i32 srid ->
  let header := gpkg_header he ext emp (dz ed) (dm ed) srid env in
  process_wkb_type_geom Geopackage d (header ++ iso_header z m e (type_code t) ++ r) =
  process_wkb_type_geom Geopackage d (header ++ iso_header z m he (type_code t) ++ r).
Proof.
  intros d he ext emp ed srid env z m e t r He Hs header. unfold process_wkb_type_geom, header. cbn [read_header].
  unfold rbind.
  pose proof (reads_gpkg_header he ext emp (dz ed) (dm ed) srid env z m e t r He Hs) as R1.
  pose proof (reads_gpkg_header he ext emp (dz ed) (dm ed) srid env z m he t r He Hs) as R2.
  unfold reads in R1, R2. rewrite R1, R2. reflexivity.
Qed.
Lemma gpkg_kind : forall g, exists t, kind_code g = type_code t.
Proof. intros g. exists (gtype g). symmetry. apply gtype_code. Qed.
Lemma rev8 : forall e x, f64_ok x -> bytes_of (other e) 8 x = bytes_of e 8 (reversed x).
Proof.
  intros e x H. unfold reversed.
  pose proof (bytes_of_val_of BE (bytes_of LE 8 x)) as B. change (length (bytes_of LE 8 x)) with 8%nat in B.
  destruct e; cbn [other].
  - rewrite <- (rev_involutive (bytes_of LE 8 (val_of BE (bytes_of LE 8 x)))).
    change (rev (bytes_of LE 8 (val_of BE (bytes_of LE 8 x)))) with (bytes_of BE 8 (val_of BE (bytes_of LE 8 x))).
    rewrite B. reflexivity.
  - now rewrite B.
Qed.
Lemma reversed_ok : forall x, f64_ok (reversed x).
Proof. intros x. unfold reversed, f64_ok. pose proof (val_of_lt BE (bytes_of LE 8 x)) as V. exact V. Qed.
Lemma rev_coord : forall e z m c, coord64 c -> coord_bytes z m (other e) c = coord_bytes z m e (reversed_coord c).
Proof.
  intros e z m c (Hx & Hy & Hz & Hm). unfold coord_bytes, reversed_coord. cbn [cx cy cz cm opt_default].
  rewrite !rev8; try assumption.
  - reflexivity.
  - destruct (cm c); [exact Hm|]. unfold f64_ok; cbn; lia.
  - destruct (cz c); [exact Hz|]. unfold f64_ok; cbn; lia.
Qed.
Lemma mixed_point : forall he ext emp ed srid env z m c tail,
  env_ok Geopackage ed env -> is_i32 srid -> coord64 c ->
  delivers (fun d => process_wkb_type_geom Geopackage d
      (enc_gpkg z m (fun _ => other he) he ext emp (dz ed) (dm ed) srid env (GPoint c) ++ tail))
    (fun multi => Srid (Some srid) :: gevents multi 0 (retained z m (GPoint (reversed_coord c)))) (Ok (tt, tail)).
Proof.
  intros he ext emp ed srid env z m c tail He Hs Hc.
  assert (D := delivers_std Geopackage (mkDims z m false false) (Some srid) env ed ext emp (fun _ => he)
    (GPoint (reversed_coord c)) tail).
  cbn [std dz dm opt_default reported_srid trailer app] in D.
  intros S p s. rewrite <- D.
  - unfold enc_gpkg, enc_wkb. cbn [body kind_code]. rewrite (rev_coord he z m c Hc), <- !app_assoc.
    now rewrite (gpkg_order (p_dims p) he ext emp ed srid env z m (other he) TPoint) by assumption.
  - cbn. unfold coord64, reversed_coord. cbn. repeat split; apply reversed_ok.
  - cbn. lia.
  - exact Hs.
  - exact He.
  - exact I.
Qed.
