(** Proofs: decimal texts of numbers are read back. *)
From Coq Require Import String Ascii.
From Coq Require Import List NArith ZArith Lia Bool.
From Verif Require Import Base Event DecSpec.
Import ListNotations.
Local Open Scope string_scope.
Local Open Scope N_scope.

(** ** Digits *)
Lemma sapp_assoc : forall a b c : string, (a ++ b) ++ c = a ++ b ++ c.
Proof. induction a as [|x a IH]; intros; cbn; [reflexivity|now rewrite IH]. Qed.
Lemma sapp_nil : forall a : string, a ++ "" = a.
Proof. induction a as [|x a IH]; cbn; [reflexivity|now rewrite IH]. Qed.

Lemma below_ten : forall (P : N -> Prop), P 0 -> P 1 -> P 2 -> P 3 -> P 4 -> P 5 -> P 6 -> P 7 -> P 8 -> P 9 ->
  forall d, d < 10 -> P d.
Proof.
  intros P H0 H1 H2 H3 H4 H5 H6 H7 H8 H9 d L.
  assert (d = 0 \/ d = 1 \/ d = 2 \/ d = 3 \/ d = 4 \/ d = 5 \/ d = 6 \/ d = 7 \/ d = 8 \/ d = 9) as C by lia.
  repeat (destruct C as [->|C]; [assumption|]). now subst.
Qed.
Lemma digit_back : forall d, d < 10 -> digit_of (digit_char d) = Some d.
Proof. apply below_ten; reflexivity. Qed.
Lemma mod_ten : forall n, n mod 10 < 10.
Proof. intros. apply N.mod_lt. discriminate. Qed.

Lemma mod_step : forall k n, n mod 10 ^ N.of_nat (S k) = 10 * ((n / 10) mod 10 ^ N.of_nat k) + n mod 10.
Proof.
  intros k n. replace (N.of_nat (S k)) with (N.succ (N.of_nat k)) by lia. rewrite N.pow_succ_r'.
  rewrite N.mod_mul_r; [|discriminate|apply N.pow_nonzero; discriminate]. lia.
Qed.
Lemma take_pad : forall k n v s,
  take_digits v (pad k n ++ s) =
  match take_digits (v * 10 ^ N.of_nat k + n mod 10 ^ N.of_nat k) s with (v', j, t) => (v', (k + j)%nat, t) end.
Proof.
  induction k as [|k IH]; intros n v s.
  - cbn [pad append]. change (10 ^ N.of_nat 0) with 1. rewrite N.mod_1_r, N.mul_1_r, N.add_0_r.
    destruct (take_digits v s) as [[v' j] t]. reflexivity.
  - cbn [pad]. rewrite sapp_assoc, IH. cbn [append take_digits]. rewrite (digit_back _ (mod_ten n)).
    rewrite mod_step. replace (10 * (v * 10 ^ N.of_nat k + (n / 10) mod 10 ^ N.of_nat k) + n mod 10)
      with (v * 10 ^ N.of_nat (S k) + (10 * ((n / 10) mod 10 ^ N.of_nat k) + n mod 10)).
    + destruct (take_digits _ s) as [[v' j] t]. f_equal. f_equal. lia.
    + replace (N.of_nat (S k)) with (N.succ (N.of_nat k)) by lia. rewrite N.pow_succ_r'. lia.
Qed.

Lemma digits_from_bound : forall f n, n < 10 ^ N.of_nat (S f) -> n < 10 ^ N.of_nat (digits_from f n).
Proof.
  induction f as [|f IH]; intros n H; [exact H|]. cbn [digits_from]. destruct (N.ltb_spec n 10) as [L|L]; [exact L|].
  replace (N.of_nat (S (digits_from f (n / 10)))) with (N.succ (N.of_nat (digits_from f (n / 10)))) by lia.
  replace (N.of_nat (S (S f))) with (N.succ (N.of_nat (S f))) in H by lia.
  rewrite N.pow_succ_r' in H |- *.
  assert (n / 10 < 10 ^ N.of_nat (S f)) by (apply N.div_lt_upper_bound; [discriminate|exact H]).
  specialize (IH _ H0). pose proof (N.div_mod n 10 ltac:(discriminate)). pose proof (mod_ten n). lia.
Qed.
Lemma digits_from_least : forall f n, n <> 0 -> 10 ^ N.of_nat (Nat.pred (digits_from f n)) <= n.
Proof.
  induction f as [|f IH]; intros n H; [cbn; lia|]. cbn [digits_from]. destruct (N.ltb_spec n 10) as [L|L]; [cbn; lia|].
  cbn [Nat.pred]. assert (n / 10 <> 0) by (intros E; apply N.div_small_iff in E; lia).
  specialize (IH _ H0). destruct (digits_from f (n / 10)) as [|k] eqn:E; [destruct f; cbn in E; [discriminate|destruct (_ <? _); discriminate]|].
  cbn [Nat.pred] in IH. replace (N.of_nat (S k)) with (N.succ (N.of_nat k)) by lia. rewrite N.pow_succ_r'.
  pose proof (N.mul_div_le n 10 ltac:(discriminate)) as Q. set (u := n / 10) in *. clearbody u. etransitivity; [|exact Q]. apply N.mul_le_mono_l. exact IH.
Qed.
Lemma size_bound : forall n, n < 2 ^ N.of_nat (N.size_nat n).
Proof.
  intros [|p]; [cbn; lia|]. cbn [N.size_nat]. induction p as [p IH|p IH|]; [| |cbn; lia];
    change (Pos.size_nat _) with (S (Pos.size_nat p)); replace (N.of_nat (S (Pos.size_nat p))) with (N.succ (N.of_nat (Pos.size_nat p))) by lia;
    rewrite N.pow_succ_r'; lia.
Qed.
Lemma count_bound : forall n, n < 10 ^ N.of_nat (digit_count n).
Proof.
  intros n. apply digits_from_bound. pose proof (size_bound n).
  assert (2 ^ N.of_nat (N.size_nat n) <= 10 ^ N.of_nat (N.size_nat n)) by (apply N.pow_le_mono_l; lia).
  replace (N.of_nat (S (N.size_nat n))) with (N.succ (N.of_nat (N.size_nat n))) by lia. rewrite N.pow_succ_r'.
  assert (10 ^ N.of_nat (N.size_nat n) <> 0) by (apply N.pow_nonzero; discriminate). lia.
Qed.
Lemma count_pos : forall n, exists k, digit_count n = S k.
Proof. intros n. unfold digit_count. destruct (N.size_nat n); cbn; [eauto|]. destruct (_ <? _); eauto. Qed.
Lemma count_least : forall n, n <> 0 -> 10 ^ N.of_nat (Nat.pred (digit_count n)) <= n.
Proof. intros n. apply digits_from_least. Qed.

Lemma take_nat : forall n s, take_digits 0 (show_nat n ++ s) =
  match take_digits n s with (v', j, t) => (v', (digit_count n + j)%nat, t) end.
Proof.
  intros n s. unfold show_nat. rewrite take_pad. rewrite N.mod_small by apply count_bound. reflexivity.
Qed.

Lemma numeral_text : forall D k, numeral (dec_text D k) = Some (D, (- Z.of_nat k)%Z).
Proof.
  intros D k. unfold numeral, dec_text. rewrite take_nat. destruct (count_pos (D / 10 ^ N.of_nat k)) as [c C]. rewrite C.
  destruct k as [|k].
  - cbn. change (10 ^ 0) with 1. now rewrite N.div_1_r.
  - cbn [take_digits]. change (digit_of ".") with (@None N). cbv iota. cbn [Ascii.eqb Bool.eqb].
    rewrite <- (sapp_nil (pad (S k) D)), take_pad. cbn [take_digits take_exp].
    replace (D / 10 ^ N.of_nat (S k) * 10 ^ N.of_nat (S k) + D mod 10 ^ N.of_nat (S k)) with D.
    + cbn [Nat.add]. f_equal. f_equal. lia.
    + rewrite N.mul_comm. apply N.div_mod. apply N.pow_nonzero. discriminate.
Qed.

(** the first digit *)
Lemma pad_first : forall k n, exists r, pad (S k) n = String (digit_char ((n / 10 ^ N.of_nat k) mod 10)) r /\
  forall (P : string -> Prop), P "" -> (forall d s, d < 10 -> P s -> P (String (digit_char d) s)) -> P r.
Proof.
  induction k as [|k IH]; intros n.
  - exists "". cbn [pad append]. change (10 ^ N.of_nat 0) with 1. rewrite N.div_1_r. split; [reflexivity|]. auto.
  - destruct (IH (n / 10)) as (r & E & H). exists (r ++ String (digit_char (n mod 10)) "").
    change (pad (S (S k)) n) with (pad (S k) (n / 10) ++ String (digit_char (n mod 10)) ""). rewrite E.
    replace (N.of_nat (S k)) with (N.succ (N.of_nat k)) by lia. rewrite N.pow_succ_r', <- N.div_div by (try discriminate; apply N.pow_nonzero; discriminate).
    split; [reflexivity|]. intros P P0 PS.
    apply (H (fun r => P (r ++ String (digit_char (n mod 10)) ""))).
    + cbn [append]. apply PS; [apply mod_ten|exact P0].
    + intros d s Hd Hs. cbn [append]. apply PS; assumption.
Qed.
Lemma pad_all : forall k n (P : string -> Prop), P "" -> (forall d s, d < 10 -> P s -> P (String (digit_char d) s)) -> P (pad k n).
Proof.
  intros [|k] n P P0 PS; [exact P0|]. destruct (pad_first k n) as (r & -> & H). apply PS; [apply mod_ten|]. now apply H.
Qed.

(** ** Exactness *)
Lemma shl_pos : forall a e, 0 < a -> 0 < shl a e.
Proof. intros a e H. unfold shl. assert (2 ^ Z.to_N e <> 0) by (apply N.pow_nonzero; discriminate). nia. Qed.
Lemma of_N_shl : forall a e, (0 <= e)%Z -> Z.of_N (shl a e) = (Z.of_N a * 2 ^ e)%Z.
Proof. intros a e H. unfold shl. rewrite N2Z.inj_mul, N2Z.inj_pow, Z2N.id by lia. reflexivity. Qed.
Lemma shl_neg : forall a e, (e <= 0)%Z -> shl a e = a.
Proof. intros a e H. unfold shl. replace (Z.to_N e) with 0 by lia. cbn. lia. Qed.
(** both sides of [b 2^l ? a] multiplied by the same power *)
Lemma shl_scale : forall a b l K, (0 <= K)%Z -> (0 <= K + l)%Z ->
  exists c, (0 < c)%Z /\ (Z.of_N (shl b l) * c = Z.of_N b * 2 ^ (K + l))%Z /\ (Z.of_N (shl a (- l)) * c = Z.of_N a * 2 ^ K)%Z.
Proof.
  intros a b l K HK HL. destruct (Z_le_gt_dec 0 l) as [P|P].
  - exists (2 ^ K)%Z. split; [apply Z.pow_pos_nonneg; lia|]. rewrite of_N_shl by exact P. rewrite (shl_neg a (- l)) by lia.
    split; [|reflexivity]. rewrite Z.pow_add_r by lia. ring.
  - exists (2 ^ (K + l))%Z. split; [apply Z.pow_pos_nonneg; lia|]. rewrite (shl_neg b l) by lia. rewrite of_N_shl by lia.
    split; [reflexivity|]. transitivity (Z.of_N a * (2 ^ (- l) * 2 ^ (K + l)))%Z; [ring|]. rewrite <- Z.pow_add_r by lia. f_equal. f_equal. lia.
Qed.
Lemma shl_le : forall a b l K, (0 <= K)%Z -> (0 <= K + l)%Z ->
  (shl b l <= shl a (- l) <-> (Z.of_N b * 2 ^ (K + l) <= Z.of_N a * 2 ^ K)%Z).
Proof. intros a b l K HK HL. destruct (shl_scale a b l K HK HL) as (c & C & <- & <-). rewrite N2Z.inj_le. now apply Z.mul_le_mono_pos_r. Qed.
Lemma shl_lt : forall a b l K, (0 <= K)%Z -> (0 <= K + l)%Z ->
  (shl a (- l) < shl b l <-> (Z.of_N a * 2 ^ K < Z.of_N b * 2 ^ (K + l))%Z).
Proof. intros a b l K HK HL. destruct (shl_scale a b l K HK HL) as (c & C & <- & <-). rewrite N2Z.inj_lt. now apply Z.mul_lt_mono_pos_r. Qed.
Lemma shl_eq : forall a b m e K, (0 <= K)%Z -> (0 <= K + e)%Z ->
  shl a (- e) = m * shl b e -> (Z.of_N a * 2 ^ K = Z.of_N m * Z.of_N b * 2 ^ (K + e))%Z.
Proof.
  intros a b m e K HK HL E. destruct (shl_scale a b e K HK HL) as (c & C & B & A).
  rewrite <- A, E, N2Z.inj_mul, <- !Z.mul_assoc, B. ring.
Qed.

Lemma log2_bounds : forall a, 0 < a -> (2 ^ Z.of_N (N.log2 a) <= Z.of_N a < 2 * 2 ^ Z.of_N (N.log2 a))%Z.
Proof.
  intros a H. pose proof (N.log2_spec a H) as [L U]. rewrite N.pow_succ_r' in U.
  apply N2Z.inj_le in L. apply N2Z.inj_lt in U. rewrite N2Z.inj_mul in U. rewrite N2Z.inj_pow in L, U. lia.
Qed.
Lemma log2_ratio_spec : forall a b K, 0 < a -> 0 < b -> let l := log2_ratio a b in
  (0 <= K)%Z -> (0 <= K + l)%Z ->
  (Z.of_N b * 2 ^ (K + l) <= Z.of_N a * 2 ^ K < 2 * (Z.of_N b * 2 ^ (K + l)))%Z.
Proof.
  intros a b K A B l HK HL. unfold log2_ratio in l.
  destruct (log2_bounds a A) as [A1 A2], (log2_bounds b B) as [B1 B2].
  set (la := Z.of_N (N.log2 a)) in *. set (lb := Z.of_N (N.log2 b)) in *. set (l0 := (la - lb)%Z) in *.
  assert (Na : (0 <= la)%Z) by (unfold la; lia). assert (Nb : (0 <= lb)%Z) by (unfold lb; lia).
  destruct (N.leb_spec (shl b l0) (shl a (- l0))) as [C|C]; unfold l in *; clear l.
  - apply (shl_le a b l0 K HK HL) in C. split; [exact C|].
    assert (P : (2 ^ K * 2 ^ la = 2 ^ lb * 2 ^ (K + l0))%Z) by (rewrite <- !Z.pow_add_r by lia; f_equal; unfold l0; lia).
    assert (0 < 2 ^ K)%Z by (apply Z.pow_pos_nonneg; lia). assert (0 < 2 ^ (K + l0))%Z by (apply Z.pow_pos_nonneg; lia). nia.
  - apply (shl_lt a b l0 K HK ltac:(lia)) in C.
    assert (D : (2 ^ (K + l0) = 2 * 2 ^ (K + (l0 - 1)))%Z) by (rewrite <- Z.pow_succ_r by lia; f_equal; lia).
    rewrite D in C. split; [|nia].
    assert (P : (2 ^ K * 2 ^ la = 2 * 2 ^ lb * 2 ^ (K + (l0 - 1)))%Z).
    { rewrite <- Z.pow_succ_r, <- !Z.pow_add_r by lia; f_equal; unfold l0; lia. }
    assert (0 < 2 ^ K)%Z by (apply Z.pow_pos_nonneg; lia). assert (0 < 2 ^ (K + (l0 - 1)))%Z by (apply Z.pow_pos_nonneg; lia). nia.
Qed.

Lemma nearest_exact : forall m b, 0 < b -> nearest (m * b) b = m.
Proof.
  intros m b H. unfold nearest. rewrite N.mod_mul, N.div_mul by lia. cbn [N.mul]. destruct b; [lia|]. reflexivity.
Qed.

Section Kind.
  Variables mw ew : N.
  Notation emin := (emin mw ew).
  Notation infinite := (infinite mw ew).
  Notation parts := (parts mw ew).

  Lemma parts_cases : forall y, let (m, e) := parts y in
    (m < 2 ^ mw /\ e = emin /\ y = m) \/
    (2 ^ mw <= m < 2 * 2 ^ mw /\ (emin <= e)%Z /\ y = Z.to_N (e - emin) * 2 ^ mw + m).
  Proof.
    intros y. unfold DecSpec.parts. assert (P : 2 ^ mw <> 0) by (apply N.pow_nonzero; discriminate).
    pose proof (N.mod_lt y _ P) as L. pose proof (N.div_mod y _ P) as E.
    destruct (N.eqb_spec (y / 2 ^ mw) 0) as [Z|Z].
    - left. rewrite Z in E. lia.
    - right. replace (Z.to_N (emin + Z.of_N (y / 2 ^ mw) - 1 - emin)) with (y / 2 ^ mw - 1) by lia.
      set (T := 2 ^ mw) in *. set (F := y mod T) in *. set (Q := y / T) in *. clearbody T F Q.
      split; [lia|]. split; [lia|]. destruct (N.lt_exists_pred 0 Q) as (k & -> & _); [lia|]. rewrite E. replace (N.succ k - 1) with k by lia. lia.
  Qed.

  Lemma magnitude_exact : forall y a b, y < infinite -> 0 < b ->
    (let (m, e) := parts y in shl a (- e) = m * shl b e) -> magnitude mw ew a b = y.
  Proof.
    intros y a b L B H. pose proof (parts_cases y) as C. destruct (parts y) as [m e].
    unfold magnitude. destruct (N.eqb_spec a 0) as [->|A].
    { assert (m = 0). { change (shl 0 (- e)) with 0 in H. pose proof (shl_pos b e B). nia. }
      subst m. assert (2 ^ mw <> 0) by (apply N.pow_nonzero; discriminate). destruct C as [(_ & _ & ->)|(C & _)]; [reflexivity|lia]. }
    assert (A0 : 0 < a) by lia. clear A.
    set (l := log2_ratio a b). set (w := Z.of_N mw). set (K := (Z.abs l + Z.abs e + w + 2)%Z).
    assert (W : (0 <= w)%Z) by (unfold w; lia).
    pose proof (log2_ratio_spec a b K A0 B) as R. fold l in R. cbv zeta in R.
    specialize (R ltac:(unfold K; lia) ltac:(unfold K; lia)).
    pose proof (shl_eq a b m e K ltac:(unfold K; lia) ltac:(unfold K; lia) H) as E. rewrite E in R.
    assert (B0 : (0 < Z.of_N b)%Z) by lia.
    assert (R1 : (2 ^ (K + l) <= Z.of_N m * 2 ^ (K + e))%Z) by nia.
    assert (R2 : (Z.of_N m * 2 ^ (K + e) < 2 * 2 ^ (K + l))%Z) by nia.
    clear R E. rewrite <- Z.pow_succ_r in R2 by (unfold K; lia).
    assert (PK : (0 < 2 ^ (K + e))%Z) by (apply Z.pow_pos_nonneg; unfold K; lia).
    assert (PW : Z.of_N (2 ^ mw) = (2 ^ w)%Z) by (unfold w; rewrite N2Z.inj_pow; reflexivity).
    assert (X : Z.max emin (l - w) = e /\ y = Z.to_N (e - emin) * 2 ^ mw + m).
    { destruct C as [(C1 & -> & ->)|((C1 & C2) & C3 & ->)].
      - split; [|replace (emin - emin)%Z with 0%Z by lia; cbn; lia].
        assert (Q : (2 ^ (K + l) < 2 ^ (w + (K + emin)))%Z).
        { rewrite (Z.pow_add_r 2 w) by (unfold K; lia). apply N2Z.inj_lt in C1. nia. }
        apply Z.pow_lt_mono_r_iff in Q; [|lia|unfold K; lia]. lia.
      - split; [|reflexivity].
        assert (Q1 : (2 ^ (K + l) < 2 ^ (Z.succ (w + (K + e))))%Z).
        { rewrite Z.pow_succ_r, (Z.pow_add_r 2 w) by (unfold K; lia). apply N2Z.inj_lt in C2. rewrite N2Z.inj_mul in C2. nia. }
        apply Z.pow_lt_mono_r_iff in Q1; [|lia|unfold K; lia].
        assert (Q2 : (2 ^ (w + (K + e)) < 2 ^ (Z.succ (K + l)))%Z).
        { rewrite (Z.pow_add_r 2 w) by (unfold K; lia). apply N2Z.inj_le in C1. nia. }
        apply Z.pow_lt_mono_r_iff in Q2; [|lia|unfold K; lia]. lia. }
    destruct X as [X Y]. rewrite X, H. rewrite nearest_exact by (apply shl_pos, B). rewrite <- Y. apply N.min_r. lia.
  Qed.

  (** ** Texts *)
  Lemma read_dec : forall D k, read_unsigned mw ew (dec_text D k) = let (a, b) := scaled D (- Z.of_nat k) in Some (magnitude mw ew a b).
  Proof.
    intros D k. unfold read_unsigned. rewrite numeral_text.
    assert (X : forall c s, digit_of c = None -> String.eqb (dec_text D k) (String c s) = false).
    { intros c s H. unfold dec_text, show_nat. destruct (count_pos (D / 10 ^ N.of_nat k)) as [j ->].
      destruct (pad_first j (D / 10 ^ N.of_nat k)) as (r & -> & _). cbn [append String.eqb].
      destruct (Ascii.eqb_spec (digit_char ((D / 10 ^ N.of_nat k / 10 ^ N.of_nat j) mod 10)) c) as [Q|Q]; [|reflexivity].
      rewrite <- Q, (digit_back _ (mod_ten _)) in H. discriminate. }
    rewrite !X by reflexivity. reflexivity.
  Qed.
  Lemma read_place : forall D q, read_unsigned mw ew (place_text D q) = let (a, b) := scaled D q in Some (magnitude mw ew a b).
  Proof.
    intros D q. unfold place_text. destruct (Z.leb_spec 0 q) as [L|L]; rewrite read_dec; unfold scaled.
    - replace (Z.to_N (- q)) with 0 by lia. cbn [Z.of_nat Z.opp Z.to_N]. change (10 ^ 0) with 1. now rewrite N.mul_1_r.
    - now replace (- Z.of_nat (Z.to_nat (- q)))%Z with q by lia.
  Qed.

  (** how an unsigned finite number is shown *)
  Lemma at_place_reads : forall y q t, at_place mw ew y q = Some t ->
    (exists D k, t = dec_text D k) /\ read_unsigned mw ew t = Some y.
  Proof.
    intros y q t. unfold at_place. destruct (ratio mw ew y) as [a b].
    match goal with |- (let (_, _) := ?x in _) = _ -> _ => destruct x as [D D'] end.
    assert (X : forall D, reads_back mw ew y D q = true ->
      (exists E k, place_text D q = dec_text E k) /\ read_unsigned mw ew (place_text D q) = Some y).
    { intros E H. split.
      - unfold place_text. destruct (0 <=? q)%Z; eauto.
      - rewrite read_place. unfold reads_back in H. destruct (scaled E q) as [u v]. apply N.eqb_eq in H. now rewrite H. }
    destruct (reads_back mw ew y D q) eqn:E1; [intros [= <-]; auto|].
    destruct (reads_back mw ew y D' q) eqn:E2; [intros [= <-]; auto|discriminate].
  Qed.
  Lemma first_place_reads : forall n y q t, first_place mw ew n y q = Some t ->
    (exists D k, t = dec_text D k) /\ read_unsigned mw ew t = Some y.
  Proof.
    induction n as [|n IH]; intros y q t H; [discriminate|]. cbn [first_place] in H.
    destruct (at_place mw ew y q) eqn:E; [injection H as <-; exact (at_place_reads _ _ _ E)|exact (IH _ _ _ H)].
  Qed.
  Lemma exact_reads : forall y, y < infinite ->
    (exists D k, exact_text mw ew y = dec_text D k) /\ read_unsigned mw ew (exact_text mw ew y) = Some y.
  Proof.
    intros y H. pose proof (magnitude_exact y) as M. unfold exact_text. destruct (parts y) as [m e].
    destruct (Z.leb_spec 0 e) as [L|L]; (split; [eauto|]); rewrite read_dec; unfold scaled; f_equal; apply M; try exact H.
    - cbn [Z.of_nat Z.opp Z.to_N]. change (10 ^ 0) with 1. lia.
    - cbn [Z.of_nat Z.opp Z.to_N]. change (10 ^ 0) with 1. rewrite shl_neg by lia. unfold shl. lia.
    - apply N.neq_0_lt_0, N.pow_nonzero. discriminate.
    - rewrite (shl_neg _ e) by lia. unfold shl.
      replace (Z.to_N (- Z.of_nat (Z.to_nat (- e)))) with 0 by lia. replace (Z.to_N (- - Z.of_nat (Z.to_nat (- e)))) with (Z.to_N (- e)) by lia.
      change 10 with (5 * 2) at 2. rewrite N.pow_mul_l. cbn [N.pow]. lia.
  Qed.
  Lemma show_unsigned_reads : forall y, y < infinite ->
    (exists D k, show_unsigned mw ew y = dec_text D k) /\ read_unsigned mw ew (show_unsigned mw ew y) = Some y.
  Proof.
    intros y H. unfold show_unsigned. destruct (N.eqb_spec y infinite) as [->|_]; [lia|].
    match goal with |- context[first_place ?a ?b ?n ?y ?q] => destruct (first_place a b n y q) as [t|] eqn:E end.
    - exact (first_place_reads _ _ _ _ E).
    - exact (exact_reads y H).
  Qed.
End Kind.

Lemma below_two : forall q, q < 2 -> q = 0 \/ q = 1.
Proof. intros. lia. Qed.

(** ** Signs, infinities, NaN *)
Section Signed.
  Variables mw ew : N.
  Hypothesis Hmw : 0 < mw.
  Hypothesis Hew : 0 < ew.
  Notation infinite := (infinite mw ew).
  Notation sign_bit := (sign_bit mw ew).

  Lemma infinite_sign : infinite < sign_bit.
  Proof.
    unfold DecSpec.infinite, DecSpec.sign_bit. rewrite N.pow_add_r.
    assert (2 ^ mw <> 0) by (apply N.pow_nonzero; discriminate). assert (2 ^ ew <> 0) by (apply N.pow_nonzero; discriminate). nia.
  Qed.
  Lemma read_positive : forall D k, read_float mw ew (dec_text D k) = read_unsigned mw ew (dec_text D k).
  Proof.
    intros D k. unfold read_float, dec_text, show_nat. destruct (count_pos (D / 10 ^ N.of_nat k)) as [j ->].
    destruct (pad_first j (D / 10 ^ N.of_nat k)) as (r & -> & _). cbn [append].
    assert (X : forall d, d < 10 -> Ascii.eqb (digit_char d) "-" = false /\ Ascii.eqb (digit_char d) "+" = false)
      by (apply below_ten; split; reflexivity).
    destruct (X _ (mod_ten (D / 10 ^ N.of_nat k / 10 ^ N.of_nat j))) as [-> ->]. reflexivity.
  Qed.
  Lemma show_finite : forall x, x < 2 * sign_bit -> x mod sign_bit < infinite ->
    (exists D k, show_float mw ew x = dec_text D k \/ show_float mw ew x = String "-" (dec_text D k)) /\
    read_float mw ew (show_float mw ew x) = Some x.
  Proof.
    intros x B F. unfold show_float. pose proof infinite_sign as S.
    assert (SN : sign_bit <> 0) by lia. pose proof (N.div_mod x sign_bit SN) as E.
    destruct (N.ltb_spec infinite (x mod sign_bit)) as [C|_]; [lia|].
    assert (Q : x / sign_bit = 0 \/ x / sign_bit = 1).
    { apply below_two, N.div_lt_upper_bound; lia. }
    destruct Q as [Q|Q]; rewrite Q in *.
    - assert (x mod sign_bit = x) as R by lia. rewrite R in F. cbn [N.eqb].
      destruct (show_unsigned_reads mw ew x F) as [(D & k & T) H]. split; [eauto|].
      rewrite T in *. now rewrite read_positive.
    - cbn [N.eqb Pos.eqb]. destruct (show_unsigned_reads mw ew (x mod sign_bit) F) as [(D & k & T) H]. split; [rewrite T; eauto|].
      cbn [read_float Ascii.eqb Bool.eqb]. rewrite H. cbn [option_map]. f_equal. lia.
  Qed.
  Lemma show_infinite : forall x, x < 2 * sign_bit -> x mod sign_bit = infinite ->
    (show_float mw ew x = "inf" \/ show_float mw ew x = "-inf") /\ read_float mw ew (show_float mw ew x) = Some x.
  Proof.
    intros x B F. unfold show_float. pose proof infinite_sign as S.
    assert (SN : sign_bit <> 0) by lia. pose proof (N.div_mod x sign_bit SN) as E. rewrite F in E |- *.
    rewrite N.ltb_irrefl.
    assert (Q : x / sign_bit = 0 \/ x / sign_bit = 1).
    { apply below_two, N.div_lt_upper_bound; lia. }
    destruct Q as [Q|Q]; rewrite Q in *; cbn [N.eqb Pos.eqb]; unfold show_unsigned.
    - replace x with infinite by lia. rewrite N.eqb_refl. split; [now left|]. reflexivity.
    - rewrite N.eqb_refl. split; [now right|]. cbn. f_equal. lia.
  Qed.
  Lemma show_nan : forall x, infinite < x mod sign_bit -> show_float mw ew x = "NaN".
  Proof. intros x F. unfold show_float. apply N.ltb_lt in F. now rewrite F. Qed.
  Lemma read_nan : read_float mw ew "NaN" = Some (infinite + 2 ^ (mw - 1)).
  Proof. reflexivity. Qed.
End Signed.
