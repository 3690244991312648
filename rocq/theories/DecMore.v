(** Proofs: what the writers ask of number formatting holds of Rust's. *)
From Coq Require Import String Ascii.
From Coq Require Import List NArith ZArith Lia Bool Reals Lra.
From Verif Require Import Base Event Claims Geom WkbSpec WktModel WktSpec WktTop JsonSpec GeoJsonModel GeoJsonSpec GeoJsonRead GeoJsonTop DecSpec DecTop DecNear.
From Verif Require MvtSpec.
Import ListNotations.
Local Open Scope string_scope.
Local Open Scope N_scope.

Lemma shown : forall mw ew, 0 < mw -> 0 < ew -> displays mw ew (show_float mw ew).
Proof.
  intros mw ew M E x B. destruct (N.compare_spec (x mod sign_bit mw ew) (infinite mw ew)) as [C|C|C].
  - pose proof (infinite_sign mw ew M E) as S. assert (SN : sign_bit mw ew <> 0) by lia.
    unfold show_float. rewrite C, N.ltb_irrefl. pose proof (N.div_mod x _ SN) as D. rewrite C in D.
    destruct (below_two (x / sign_bit mw ew)) as [Q|Q]; [apply N.div_lt_upper_bound; lia| |]; rewrite Q in *; cbn [N.eqb Pos.eqb]; unfold show_unsigned.
    + assert (X : x = infinite mw ew) by lia. rewrite X, N.eqb_refl. apply N.ltb_lt in S. now rewrite S.
    + rewrite N.eqb_refl. destruct (N.ltb_spec x (sign_bit mw ew)); [lia|reflexivity].
  - exact (show_finite mw ew M E x B C).
  - exact (show_nan mw ew x C).
Qed.

(** ** Texts without delimiters *)
Lemma no_delim_app : forall a b, no_delim a = true -> no_delim b = true -> no_delim (a ++ b) = true.
Proof. induction a as [|c a IH]; intros b A B; [exact B|]. cbn in *. apply andb_prop in A. destruct A as [-> A]. now apply IH. Qed.
Lemma pad_no_delim : forall k n, no_delim (pad k n) = true.
Proof.
  intros k n. apply (pad_all k n (fun s => no_delim s = true)); [reflexivity|].
  intros d s D H. cbn. rewrite H, andb_true_r. revert d D. apply below_ten; reflexivity.
Qed.
Lemma dec_no_delim : forall D k, no_delim (dec_text D k) = true.
Proof. intros D k. apply no_delim_app; [apply pad_no_delim|]. destruct k; [reflexivity|]. cbn [no_delim]. rewrite pad_no_delim. reflexivity. Qed.
Lemma dec_first : forall D k, exists d r, d < 10 /\ dec_text D k = String (digit_char d) r.
Proof.
  intros D k. unfold dec_text, show_nat. destruct (count_pos (D / 10 ^ N.of_nat k)) as [j ->].
  destruct (pad_first j (D / 10 ^ N.of_nat k)) as (r & -> & _). cbn [append]. eexists. eexists. split; [|reflexivity]. apply mod_ten.
Qed.
Lemma dec_not_empty : forall D k, lit "EMPTY" (dec_text D k) = None.
Proof.
  intros D k. destruct (dec_first D k) as (d & r & L & ->). cbn [lit].
  assert (X : Ascii.eqb "E" (digit_char d) = false) by (revert d L; apply below_ten; reflexivity). now rewrite X.
Qed.
Lemma decimal_wkt : forall t, decimal t -> no_delim t = true /\ lit "EMPTY" t = None.
Proof. intros t (D & k & [-> | ->]); (split; [apply dec_no_delim|]); [apply dec_not_empty|reflexivity]. Qed.

(** ** JSON numbers *)
Lemma run_digits : forall s, s = NInt \/ s = NFrac -> forall k n t, num_run s (pad k n ++ t) = num_run s t.
Proof.
  intros s S k n t. apply (pad_all k n (fun u => num_run s (u ++ t) = num_run s t)); [reflexivity|].
  intros d u L H. cbn [append num_run].
  assert (X : num_step s (digit_char d) = Some s) by (revert d L; destruct S as [-> | ->]; apply below_ten; reflexivity).
  now rewrite X.
Qed.
Lemma run_show : forall s, s = NStart \/ s = NSign -> forall n t,
  exists s', (s' = NZero \/ s' = NInt) /\ num_run s (show_nat n ++ t) = num_run s' t.
Proof.
  intros s S n t. destruct (N.eq_dec n 0) as [->|Z].
  - exists NZero. split; [now left|]. destruct S as [-> | ->]; reflexivity.
  - exists NInt. split; [now right|]. unfold show_nat. pose proof (count_least n Z) as L. pose proof (count_bound n) as B.
    destruct (count_pos n) as [j C]. rewrite C in *. cbn [Nat.pred] in L.
    destruct (pad_first j n) as (r & -> & H). cbn [append num_run].
    assert (P : 10 ^ N.of_nat j <> 0) by (apply N.pow_nonzero; discriminate).
    assert (D : 0 < n / 10 ^ N.of_nat j < 10).
    { split; [apply N.div_str_pos; lia|]. apply N.div_lt_upper_bound; [exact P|].
      replace (N.of_nat (Datatypes.S j)) with (N.succ (N.of_nat j)) in B by lia. rewrite N.pow_succ_r' in B. lia. }
    rewrite (N.mod_small (n / 10 ^ N.of_nat j)) by apply D. destruct D as [D1 D2].
    assert (X : num_step s (digit_char (n / 10 ^ N.of_nat j)) = Some NInt).
    { revert D1 D2. generalize (n / 10 ^ N.of_nat j). intros d D1 D2. revert d D2 D1.
      apply (below_ten (fun d => 0 < d -> num_step s (digit_char d) = Some NInt)); [lia|..]; intros _; destruct S as [-> | ->]; reflexivity. }
    rewrite X.
    apply (H (fun r => num_run NInt (r ++ t) = num_run NInt t)); [reflexivity|].
    intros d u Ld Hu. cbn [append num_run]. rewrite <- Hu.
    assert (Y : num_step NInt (digit_char d) = Some NInt) by (revert d Ld; apply below_ten; reflexivity). now rewrite Y.
Qed.
Lemma dec_json : forall s, s = NStart \/ s = NSign -> forall D k, num_run s (dec_text D k) = true.
Proof.
  intros s S D k. unfold dec_text. destruct (run_show s S (D / 10 ^ N.of_nat k) (match k with O => "" | _ => String "." (pad k D) end)) as (s' & S' & ->).
  destruct k as [|k]; [destruct S' as [-> | ->]; reflexivity|]. cbn [num_run].
  replace (num_step s' ".") with (Some NPoint) by (destruct S' as [-> | ->]; reflexivity).
  destruct (pad_first k D) as (r & -> & H). cbn [num_run].
  assert (X : forall d, d < 10 -> num_step NPoint (digit_char d) = Some NFrac) by (apply below_ten; reflexivity). rewrite (X _ (mod_ten _)).
  apply (H (fun r => num_run NFrac r = true)); [reflexivity|]. intros d u Ld Hu. cbn [num_run].
  assert (Y : num_step NFrac (digit_char d) = Some NFrac) by (revert d Ld; apply below_ten; reflexivity). now rewrite Y.
Qed.
Lemma decimal_json : forall t, decimal t -> json_number t = true.
Proof.
  intros t (D & k & [-> | ->]); unfold json_number; [apply dec_json; now left|]. cbn [num_run].
  change (num_step NStart "-") with (Some NSign). apply dec_json. now right.
Qed.

(** ** The formats of the claims *)
Lemma nan_mod : forall x, x < 2 ^ 64 -> (f64_is_nan x = true <-> infinite 52 11 < x mod sign_bit 52 11).
Proof.
  intros x B. unfold f64_is_nan. change (infinite 52 11) with 9218868437227405312. change (sign_bit 52 11) with (2 ^ 52 * 2 ^ 11).
  rewrite N.mod_mul_r by discriminate. rewrite andb_true_iff, negb_true_iff, N.eqb_eq, N.eqb_neq.
  pose proof (N.mod_lt x (2 ^ 52) ltac:(discriminate)). pose proof (N.mod_lt (x / 2 ^ 52) (2 ^ 11) ltac:(discriminate)).
  change (2 ^ 11) with 2048 in *. change (2 ^ 52) with 4503599627370496 in *. lia.
Qed.
Lemma finite_mod : forall x, finite x = true -> x < 2 ^ 64 /\ x mod sign_bit 52 11 < infinite 52 11.
Proof.
  intros x F. unfold finite in F. rewrite andb_true_iff, negb_true_iff, N.eqb_eq, N.eqb_neq in F. destruct F as [F1 F2].
  split; [apply N.div_small_iff in F1; [exact F1|discriminate]|].
  change (infinite 52 11) with 9218868437227405312. change (sign_bit 52 11) with (2 ^ 52 * 2 ^ 11).
  rewrite N.mod_mul_r by discriminate.
  pose proof (N.mod_lt x (2 ^ 52) ltac:(discriminate)). pose proof (N.mod_lt (x / 2 ^ 52) (2 ^ 11) ltac:(discriminate)).
  change (2 ^ 11) with 2048 in *. change (2 ^ 52) with 4503599627370496 in *. lia.
Qed.
Lemma finite32_mod : forall x, finite32 x = true -> x < 2 ^ 32 /\ x mod sign_bit 23 8 < infinite 23 8.
Proof.
  intros x F. unfold finite32 in F. rewrite andb_true_iff, negb_true_iff, N.eqb_eq, N.eqb_neq in F. destruct F as [F1 F2].
  split; [apply N.div_small_iff in F1; [exact F1|discriminate]|].
  change (infinite 23 8) with 2139095040. change (sign_bit 23 8) with (2 ^ 23 * 2 ^ 8).
  rewrite N.mod_mul_r by discriminate.
  pose proof (N.mod_lt x (2 ^ 23) ltac:(discriminate)). pose proof (N.mod_lt (x / 2 ^ 23) (2 ^ 8) ltac:(discriminate)).
  change (2 ^ 8) with 256 in *. change (2 ^ 23) with 8388608 in *. lia.
Qed.

Lemma displays_wkt : forall fmt, displays 52 11 fmt -> formats fmt read_f64.
Proof.
  intros fmt H x B. unfold f64_ok in B. pose proof (nan_mod x B) as NM. specialize (H x B).
  unfold canon. destruct (N.compare_spec (x mod sign_bit 52 11) (infinite 52 11)) as [C|C|C].
  - destruct (f64_is_nan x) eqn:N; [pose proof (proj1 NM eq_refl); lia|].
    pose proof (show_infinite 52 11 eq_refl eq_refl x B C) as [_ R].
    assert (E : fmt x = show_f64 x).
    { rewrite H. unfold show_f64. pose proof (shown 52 11 eq_refl eq_refl x B) as Q. rewrite C, N.compare_refl in Q. now rewrite Q. }
    split; [rewrite H; destruct (x <? _); reflexivity|]. split; [rewrite H; destruct (x <? _); reflexivity|]. rewrite E. exact R.
  - destruct (f64_is_nan x) eqn:N; [pose proof (proj1 NM eq_refl); lia|].
    destruct H as [D R]. destruct (decimal_wkt _ D) as [W1 W2]. auto.
  - rewrite (proj2 NM C), H. split; [reflexivity|]. split; reflexivity.
Qed.
Lemma displays_json : forall fmt, displays 52 11 fmt -> json_format finite fmt read_f64.
Proof.
  intros fmt H x F. destruct (finite_mod x F) as [B C]. specialize (H x B). apply N.compare_lt_iff in C. rewrite C in H.
  destruct H as [D R]. split; [now apply decimal_json|exact R].
Qed.
Lemma displays_json32 : forall fmt, displays 23 8 fmt -> json_format finite32 fmt read_f32.
Proof.
  intros fmt H x F. destruct (finite32_mod x F) as [B C]. specialize (H x B). apply N.compare_lt_iff in C. rewrite C in H.
  destruct H as [D R]. split; [now apply decimal_json|exact R].
Qed.

(** ** Reading *)
Lemma numeral_unsigned : forall s D q, numeral s = Some (D, q) ->
  read_f64 s = (let (a, b) := scaled D q in Some (magnitude 52 11 a b)) /\
  read_f64 (String "-" s) = (let (a, b) := scaled D q in Some (2 ^ 63 + magnitude 52 11 a b)).
Proof.
  intros s D q H.
  assert (R : read_unsigned 52 11 s = let (a, b) := scaled D q in Some (magnitude 52 11 a b)).
  { unfold read_unsigned. rewrite H. destruct (String.eqb_spec s "inf") as [->|_]; [discriminate|].
    destruct (String.eqb_spec s "NaN") as [->|_]; [discriminate|]. reflexivity. }
  split.
  - unfold read_f64, read_float. destruct s as [|c r]; [discriminate|].
    destruct (Ascii.eqb_spec c "-") as [->|_]; [discriminate|]. destruct (Ascii.eqb_spec c "+") as [->|_]; [discriminate|]. exact R.
  - unfold read_f64. cbn [read_float Ascii.eqb Bool.eqb]. rewrite R. destruct (scaled D q) as [a b]. reflexivity.
Qed.
Lemma scaled_R : forall D q, let (a, b) := scaled D q in 0 < b /\ (rN a / rN b = rN D * powerRZ 10 q)%R.
Proof.
  intros D q. unfold scaled. split; [apply N.neq_0_lt_0, N.pow_nonzero; discriminate|].
  assert (P : forall k, rN (10 ^ k) = powerRZ 10 (Z.of_N k)).
  { intros k. rewrite N2Z.inj_pow. change (Z.of_N 10) with 10%Z. rewrite <- (Z2Nat.id (Z.of_N k)) at 1 by lia.
    rewrite <- pow_IZR, pow_powerRZ. f_equal. lia. }
  rewrite N2Z.inj_mul, mult_IZR, !P. assert (powerRZ 10 (Z.of_N (Z.to_N (- q))) <> 0)%R by (apply powerRZ_NOR; lra).
  replace (Z.of_N (Z.to_N q)) with (q + Z.of_N (Z.to_N (- q)))%Z by lia. rewrite powerRZ_add by lra. field. exact H.
Qed.
Lemma magnitude_real : forall x, MvtSpec.magnitude x = real 52 11 (x mod 2 ^ 63).
Proof.
  intros x. unfold MvtSpec.magnitude, real, parts, MvtSpec.exponent, MvtSpec.fraction.
  assert (E : (x mod 2 ^ 63) / 2 ^ 52 = (x / 2 ^ 52) mod 2 ^ 11).
  { change (2 ^ 63) with (2 ^ 52 * 2 ^ 11). rewrite N.mod_mul_r by discriminate. rewrite N.mul_comm, N.div_add by discriminate.
    rewrite N.div_small by (apply N.mod_lt; discriminate). reflexivity. }
  assert (F : (x mod 2 ^ 63) mod 2 ^ 52 = x mod 2 ^ 52).
  { change (2 ^ 63) with (2 ^ 52 * 2 ^ 11). rewrite N.mod_mul_r by discriminate. rewrite N.mul_comm, N.mod_add by discriminate.
    apply N.mod_mod. discriminate. }
  rewrite E, F. destruct (_ =? 0); [reflexivity|]. do 2 f_equal. change (emin 52 11) with (-1074)%Z. lia.
Qed.
Lemma exponent_mod : forall y, y <= infinite 52 11 -> MvtSpec.exponent y < 2047 -> y < infinite 52 11.
Proof.
  intros y L F. destruct (N.eq_dec y (infinite 52 11)) as [->|]; [vm_compute in F; discriminate|lia].
Qed.
Lemma some_same : forall A (a b : A), Some a = Some b -> a = b.
Proof. congruence. Qed.
Lemma read_nearest : forall (neg : bool) t D q x x', numeral t = Some (D, q) ->
  read_f64 (if neg then String "-" t else t) = Some x -> MvtSpec.finite x ->
  let v := (if neg then - (rN D * powerRZ 10 q) else rN D * powerRZ 10 q)%R in
  (Rabs (v - MvtSpec.value x) <= Rabs (v - MvtSpec.value x'))%R.
Proof.
  intros neg t D q x x' H R F v. destruct (numeral_unsigned t D q H) as [R1 R2].
  pose proof (scaled_R D q) as S. destruct (scaled D q) as [a b]. destruct S as [B S].
  set (y := magnitude 52 11 a b) in *. assert (Y : y <= infinite 52 11) by (unfold y, magnitude; destruct (a =? 0); lia).
  assert (X : x = (if neg then 2 ^ 63 else 0) + y).
  { destruct neg; [rewrite R2 in R|rewrite R1 in R]; apply some_same in R; rewrite <- R; [reflexivity|symmetry; apply N.add_0_l]. }
  clear R R1 R2.
  assert (I63 : infinite 52 11 < 2 ^ 63) by reflexivity.
  assert (XM : x mod 2 ^ 63 = y).
  { subst x. destruct neg; [|apply N.mod_small; lia]. replace (2 ^ 63 + y) with (y + 1 * 2 ^ 63) by lia. rewrite N.mod_add by discriminate. apply N.mod_small; lia. }
  assert (XN : MvtSpec.negative x = neg).
  { unfold MvtSpec.negative. subst x. destruct neg.
    - replace (2 ^ 63 + y) with (y + 1 * 2 ^ 63) by lia. rewrite N.div_add by discriminate. rewrite N.div_small by lia. reflexivity.
    - rewrite N.div_small by lia. reflexivity. }
  assert (YF : y < infinite 52 11).
  { destruct (N.eq_dec y (infinite 52 11)) as [E|]; [exfalso|lia]. unfold MvtSpec.finite in F. rewrite X, E in F. destruct neg; vm_compute in F; discriminate. }
  pose proof (magnitude_nearest 52 11 a b (x' mod 2 ^ 63) B YF) as N. fold y in N. rewrite S in N.
  unfold MvtSpec.value. rewrite XN, !magnitude_real, XM.
  pose proof (real_pos 52 11 (x' mod 2 ^ 63)) as P. assert (PV : (0 <= rN D * powerRZ 10 q)%R).
  { rewrite <- S. unfold Rdiv. apply Rmult_le_pos; [apply rN_pos|]. left. apply Rinv_0_lt_compat. apply IZR_lt. lia. }
  unfold v. set (u := (rN D * powerRZ 10 q)%R) in *. set (r := real 52 11 y) in *. set (r' := real 52 11 (x' mod 2 ^ 63)) in *.
  destruct neg.
  - replace (- u - - r)%R with (- (u - r))%R by ring. rewrite Rabs_Ropp. eapply Rle_trans; [exact N|].
    destruct (MvtSpec.negative x').
    + replace (- u - - r')%R with (- (u - r'))%R by ring. rewrite Rabs_Ropp. lra.
    + unfold Rabs. destruct (Rcase_abs (u - r')), (Rcase_abs (- u - r')); lra.
  - eapply Rle_trans; [exact N|]. destruct (MvtSpec.negative x'); [|lra].
    unfold Rabs. destruct (Rcase_abs (u - r')), (Rcase_abs (u - - r')); lra.
Qed.
Lemma read_overflow : forall t D q, numeral t = Some (D, q) -> read_f64 t = Some 0x7FF0000000000000 ->
  ((powerRZ 2 53 - / 2) * powerRZ 2 971 <= rN D * powerRZ 10 q)%R.
Proof.
  intros t D q H R. destruct (numeral_unsigned t D q H) as [R1 _]. pose proof (scaled_R D q) as S.
  destruct (scaled D q) as [a b]. destruct S as [B <-]. rewrite R1 in R. apply some_same in R.
  pose proof (magnitude_overflow 52 11 a b eq_refl B R) as Q.
  replace (powerRZ 2 53) with (2 * rN (2 ^ 52))%R; [exact Q|].
  rewrite <- p2_IZR by lia. rewrite <- mult_IZR. reflexivity.
Qed.

(** ** Texts of geometries *)
Lemma wkt_back : forall fmt A (src : dims -> prog A) d g r, displays 52 11 fmt ->
  exactly (dz d) (dm d) g -> nan_free g -> delivers src (fun multi => gevents multi 0 g) (Ok r) ->
  exists text, to_wkt_ndim fmt src d = Ok text /\ parse_wkt read_f64 (dz d) (dm d) text = Some g.
Proof.
  intros fmt A src d g r F E N H. destruct (recover fmt read_f64 A src d g r (displays_wkt fmt F) E H) as (t & T & P).
  exists t. split; [exact T|]. now rewrite canon_nan_free in P.
Qed.
Lemma geojson_back : forall fmt32 fmt A (src : dims -> prog A) d g r, displays 52 11 fmt ->
  geojson_kind g = true -> finite_geom (multi_dim d) g -> delivers src (fun multi => gevents multi 0 g) (Ok r) ->
  exists text j, exec (geojson_writer fmt32 fmt d) (src d) "" = (text, Ok r) /\
    parse_json text = Some j /\ geometry_of read_f64 j = Some (kept_geom (multi_dim d) g).
Proof.
  intros fmt32 fmt A src d g r F K E H.
  destruct (geometry_written fmt32 fmt d read_f64 (displays_json fmt F) g K E) as (t & j & T & P).
  exists t, j. split; [|exact P]. pose proof (H _ (geojson_writer fmt32 fmt d) "") as Q.
  cbn [p_dims geojson_writer] in Q. rewrite Q. fold (multi_dim d). now rewrite T.
Qed.
