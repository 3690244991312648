(** When exactly the reader of shapefile records panics (C40): records. *)
From Coq Require Import String Ascii.
From Coq Require Import List NArith ZArith Lia Bool ZifyBool ZifyNat ZifyN.
From Coq Require Import Init.Byte.
From Verif Require Import Base BaseLemmas Float Event EventLemmas Claims Geom FeatureSpec WkbModel WkbRead WkbTop ShpModel ShpSpec ShpTop ShpSafe ShpMore ShpBound ShpPanicSpec ShpPanic.
Import ListNotations.
Local Open Scope nat_scope.
Local Open Scope list_scope.

(** ** Arithmetic modulo 2^64 *)
Local Notation M := (18446744073709551616)%Z.
Lemma usize_Z : forall z, Z.of_N (as_usize z) = (z mod M)%Z.
Proof. intros. unfold as_usize. change (2 ^ 64)%Z with M. rewrite Z2N.id; [reflexivity|]. apply Z.mod_pos_bound. lia. Qed.
Lemma usize_bound : forall z, (0 <= Z.of_N (as_usize z) < M)%Z.
Proof. intros. rewrite usize_Z. apply Z.mod_pos_bound. lia. Qed.
Lemma usize_nonneg : forall z, (0 <= z < M)%Z -> Z.of_N (as_usize z) = z.
Proof. intros. rewrite usize_Z. now apply Z.mod_small. Qed.
Lemma usize_neg : forall z, (- M <= z < 0)%Z -> Z.of_N (as_usize z) = (z + M)%Z.
Proof.
  intros. rewrite usize_Z. rewrite <- (Z.mod_small (z + M) M) by lia.
  replace (z + M)%Z with (z + 1 * M)%Z by lia. symmetry. apply Z.mod_add. lia.
Qed.
Lemma usize_eqb : forall x y, (Z.abs (x - y) < M)%Z -> (as_usize x =? as_usize y)%N = (x =? y)%Z.
Proof.
  intros x y H. destruct (Z.eqb_spec x y) as [->|Hn]; [apply N.eqb_refl|].
  apply N.eqb_neq. intros E. apply (f_equal Z.of_N) in E. rewrite !usize_Z in E.
  pose proof (Z.div_mod x M). pose proof (Z.div_mod y M). nia.
Qed.
Lemma limit_eq : usize_limit = 18446744073709551616%N. Proof. reflexivity. Qed.
Lemma add_hom : forall ck x y, (ck = true -> 0 <= x /\ 0 <= y /\ x + y < M)%Z ->
  uadd ck (as_usize x) (as_usize y) = Ok (as_usize (x + y)).
Proof.
  intros ck x y H. unfold uadd. rewrite limit_eq.
  destruct (N.ltb_spec (as_usize x + as_usize y) 18446744073709551616) as [L|L].
  - f_equal. apply N2Z.inj. rewrite N2Z.inj_add, !usize_Z, Zplus_mod.
    symmetry. apply Z.mod_small. rewrite <- !usize_Z. lia.
  - destruct ck.
    + exfalso. specialize (H eq_refl). rewrite <- (usize_nonneg x), <- (usize_nonneg y) in H by lia. lia.
    + f_equal. apply N2Z.inj. rewrite N2Z.inj_mod, N2Z.inj_add, !usize_Z.
      change (Z.of_N 18446744073709551616) with M. now rewrite <- Zplus_mod.
Qed.
Lemma mul_hom : forall ck x y, (ck = true -> 0 <= x < M /\ 0 <= y < M /\ x * y < M)%Z ->
  umul ck (as_usize x) (as_usize y) = Ok (as_usize (x * y)).
Proof.
  intros ck x y H. unfold umul. rewrite limit_eq.
  destruct (N.ltb_spec (as_usize x * as_usize y) 18446744073709551616) as [L|L].
  - f_equal. apply N2Z.inj. rewrite N2Z.inj_mul, !usize_Z, Zmult_mod.
    symmetry. apply Z.mod_small. rewrite <- !usize_Z. lia.
  - destruct ck.
    + exfalso. specialize (H eq_refl). rewrite <- (usize_nonneg x), <- (usize_nonneg y) in H by lia. lia.
    + f_equal. apply N2Z.inj. rewrite N2Z.inj_mod, N2Z.inj_mul, !usize_Z.
      change (Z.of_N 18446744073709551616) with M. now rewrite <- Zmult_mod.
Qed.
Lemma sub_hom : forall ck x y, (ck = true -> 0 <= y <= x \/ x < 0 /\ 0 <= y < M + x)%Z -> (- M < x < M)%Z -> (0 <= y < M)%Z ->
  usub ck (as_usize x) (as_usize y) = Ok (as_usize (x - y)).
Proof.
  intros ck x y H Hx Hy. unfold usub. rewrite limit_eq.
  pose proof (usize_nonneg y Hy) as Ey.
  assert (Ex : (0 <= x /\ Z.of_N (as_usize x) = x \/ x < 0 /\ Z.of_N (as_usize x) = x + M)%Z).
  { destruct (Z.ltb_spec x 0); [right; split; [lia|apply usize_neg; lia]|left; split; [lia|apply usize_nonneg; lia]]. }
  destruct (N.leb_spec (as_usize y) (as_usize x)) as [L|L].
  - f_equal. apply N2Z.inj. rewrite N2Z.inj_sub by exact L.
    destruct Ex as [[Hx0 E]|[Hx0 E]]; rewrite E, Ey.
    + symmetry. apply usize_nonneg. lia.
    + rewrite usize_Z. rewrite <- (Z.mod_small (x + M - y) M) by lia.
      replace (x + M - y)%Z with (x - y + 1 * M)%Z by lia. apply Z.mod_add. lia.
  - destruct ck; [exfalso; specialize (H eq_refl); lia|]. f_equal. apply N2Z.inj.
    rewrite N2Z.inj_sub, N2Z.inj_add by lia. change (Z.of_N 18446744073709551616) with M. rewrite Ey.
    destruct Ex as [[Hx0 E]|[Hx0 E]]; rewrite E, usize_Z.
    + rewrite <- (Z.mod_small (x + M - y) M) by lia.
      replace (x + M - y)%Z with (x - y + 1 * M)%Z by lia. apply Z.mod_add. lia.
    + lia || (rewrite <- (Z.mod_small (x + M + M - y) M) by lia;
      replace (x + M + M - y)%Z with (x - y + 2 * M)%Z by lia; apply Z.mod_add; lia).
Qed.

(** ** Steps *)
Lemma int_at_len : forall e b k z, int_at e b k = Some z -> k + 4 <= length b.
Proof.
  intros e b k z H. unfold int_at in H. destruct (Nat.eqb_spec (length (firstn 4 (skipn k b))) 4) as [E|]; [|discriminate].
  rewrite firstn_length, skipn_length in E. lia.
Qed.
Lemma int_at_some : forall e b k, k + 4 <= length b -> exists z, int_at e b k = Some z.
Proof.
  intros e b k H. unfold int_at. rewrite firstn_length, skipn_length.
  destruct (Nat.eqb_spec (Nat.min 4 (length b - k)) 4); [eauto|lia].
Qed.

Lemma list_exact : forall A (f : rd A) w v n b k, 0 < w -> reads_w f w v ->
  length b < k + w * n -> 0 < n -> r_list f n (skipn k b) = pfail EIo.
Proof.
  intros A f w v n. induction n as [|n IH]; intros b k Hw Hf Hl Hn; [lia|]. cbn [r_list].
  unfold rbind at 1. rewrite Hf, skipn_length.
  destruct (Nat.ltb_spec (length b - k) w) as [L|L]; [reflexivity|].
  cbn [pbind pret fst snd]. rewrite skipn_plus. unfold rbind. rewrite IH; [reflexivity|exact Hw|exact Hf|lia|].
  destruct n; [lia|lia].
Qed.

(** the result is an error that is a panic exactly if [P], or a value that meets [Q] *)
Definition leads {A} (P : Prop) (Q : A -> Prop) (g : prog A) : Prop :=
  exists l r, g = calls l (Done r) /\ match r with Ok a => Q a | Err e => e = EPanic <-> P end.
Lemma dies_leads : forall A P (g : prog A), leads P (fun _ => ~ P) g -> dies P g.
Proof.
  intros A P g [l [r [-> H]]]. exists l, r. split; [reflexivity|]. destruct r as [a|e].
  - split; [discriminate|contradiction].
  - rewrite <- H. split; congruence.
Qed.
Lemma leads_dies : forall A P (g : prog A), dies P g -> leads P (fun _ => ~ P) g.
Proof.
  intros A P g [l [r [-> H]]]. exists l, r. split; [reflexivity|]. destruct r as [a|e].
  - rewrite <- H. discriminate.
  - rewrite <- H. split; congruence.
Qed.
Lemma leads_err : forall A P Q e, e <> EPanic -> ~ P -> leads P Q (Done (Err e : res A)).
Proof. intros A P Q e H1 H2. exists [], (Err e). split; [reflexivity|]. split; contradiction. Qed.
Lemma leads_panic : forall A (P : Prop) Q, P -> leads P Q (Done (Err EPanic : res A)).
Proof. intros A P Q H. exists [], (Err EPanic). split; [reflexivity|]. split; auto. Qed.
Lemma leads_ret : forall A (P : Prop) (Q : A -> Prop) a, Q a -> leads P Q (pret a).
Proof. intros A P Q a H. exists [], (Ok a). split; [reflexivity|exact H]. Qed.
Lemma leads_bind : forall A B (P : Prop) (Q : A -> Prop) (g : prog A) (f : A -> prog B),
  leads P Q g -> (forall a, Q a -> dies P (f a)) -> dies P (pbind g f).
Proof.
  intros A B P Q g f [l [r [-> H]]] Hf. rewrite pbind_calls. destruct r as [a|e]; cbn [pbind].
  - destruct (Hf a H) as [l2 [r2 [-> H2]]]. exists (l ++ l2), r2. split; [now rewrite calls_app|exact H2].
  - exists l, (Err e). split; [reflexivity|]. rewrite <- H. split; congruence.
Qed.

Section Steps.
  Context {B : Type}.
  Variable P : Prop.
  Variable Q : B * list byte -> Prop.

  Lemma D_i32 : forall e b k (g : Z -> rd B),
    (length b < k + 4 -> ~ P) -> (forall z, int_at e b k = Some z -> leads P Q (g z (skipn (k + 4) b))) ->
    leads P Q (rbind (r_i32 e) g (skipn k b)).
  Proof.
    intros e b k g H1 H2. destruct (i32_at e b k) as [E|[z [Ez E]]]; unfold rbind; rewrite E; cbn [pbind pret pfail fst snd].
    - apply leads_err; [discriminate|]. apply H1. destruct (Nat.lt_ge_cases (length b) (k + 4)) as [L|L]; [exact L|].
      exfalso. revert E. unfold r_i32, r_u32, rmap, rbind, rtake, rret. rewrite skipn_length.
      destruct (Nat.ltb_spec (length b - k) 4); [lia|]. discriminate.
    - now apply H2.
  Qed.
  Lemma D_list : forall A (f : rd A) w v n b k (g : list A -> rd B), 0 < w -> reads_w f w v -> k <= length b ->
    (length b < k + w * n -> ~ P) ->
    (forall l, k + w * n <= length b -> length l = n ->
       (forall i a, nth_error l i = Some a ->
          a = v (firstn w (skipn (k + w * i) b)) /\ length (firstn w (skipn (k + w * i) b)) = w) ->
       leads P Q (g l (skipn (k + w * n) b))) ->
    leads P Q (rbind (r_list f n) g (skipn k b)).
  Proof.
    intros A f w v n b k g Hw Hf Hk H1 H2. unfold rbind.
    destruct (Nat.lt_ge_cases (length b) (k + w * n)) as [L|L].
    - rewrite (list_exact A f w v n b k Hw Hf L) by (destruct n; lia). apply leads_err; [discriminate|auto].
    - destruct (list_at A f w v n b k Hf) as [E|[l [E [El En]]]]; rewrite E; cbn [pbind pret pfail fst snd].
      + exfalso. clear H1 H2. revert k Hk L E. induction n as [|n IH]; intros k Hk L E; [discriminate|]. cbn [r_list] in E.
        unfold rbind at 1 in E. rewrite Hf, skipn_length in E.
        destruct (Nat.ltb_spec (length b - k) w) as [G|G]; [lia|].
        cbn [pbind pret fst snd] in E. rewrite skipn_plus in E. unfold rbind in E.
        destruct (list_at A f w v n b (k + w) Hf) as [E2|[l [E2 _]]].
        * apply (IH (k + w)); [lia|lia|exact E2].
        * rewrite E2 in E. discriminate.
      + now apply H2.
  Qed.
  Lemma D_box : forall dims b k (g : list f64 -> rd B), k <= length b -> 
    (length b < k + 16 * dims -> ~ P) -> (forall l, k + 16 * dims <= length b -> leads P Q (g l (skipn (k + 16 * dims) b))) ->
    leads P Q (rbind (read_bbox dims) g (skipn k b)).
  Proof.
    intros dims b k g Hk H1 H2. unfold read_bbox. rewrite f64s_list.
    apply (D_list _ _ 8 _ _ _ _ _ ltac:(lia) f64_w Hk).
    - intros L. apply H1. lia.
    - intros l L _ _. replace (k + 8 * (2 * dims)) with (k + 16 * dims) in * by lia. now apply H2.
  Qed.
  Lemma D_ok : forall A (r : res A) a (g : A -> rd B) b, r = Ok a -> leads P Q (g a b) -> leads P Q (rthen r g b).
  Proof. intros * -> H. exact H. Qed.
  Lemma D_panic : forall A (r : res A) (g : A -> rd B) b, r = Err EPanic -> P -> leads P Q (rthen r g b).
  Proof. intros * -> H. now apply leads_panic. Qed.
  Lemma D_xy : forall (n : N) b k (g : list (f64 * f64) -> rd B), (n < 2 ^ 40)%N -> k <= length b ->
    (length b < k + 16 * N.to_nat n -> ~ P) ->
    (forall l, k + 16 * N.to_nat n <= length b -> N.of_nat (length l) = n -> leads P Q (g l (skipn (k + 16 * N.to_nat n) b))) ->
    leads P Q (rbind (read_xy n) g (skipn k b)).
  Proof.
    intros n b k g Hn Hk H1 H2. unfold read_xy, rthen.
    rewrite (rbind_assoc_ok _ _ _ _ _ _ _ tt (skipn k b)) by (rewrite reserve_ok by lia; reflexivity).
    destruct xy_w as [v Hv]. apply (D_list _ _ 16 v _ _ _ _ ltac:(lia) Hv Hk H1).
    intros l L Hl _. apply H2; [exact L|lia].
  Qed.
  Lemma D_dim_if : forall (c : bool) (n : N) b k (g : list f64 -> rd B), (n < 2 ^ 40)%N -> k <= length b ->
    let k2 := k + (if c then 16 + 8 * N.to_nat n else 0) in
    (length b < k2 -> ~ P) ->
    (forall l, k2 <= length b -> l = [] \/ N.of_nat (length l) = n -> leads P Q (g l (skipn k2 b))) ->
    leads P Q (rbind (if c then read_dim_values n else rret []) g (skipn k b)).
  Proof.
    intros [] n b k g Hn Hk k2 H1 H2.
    - unfold read_dim_values, read_bbox. rewrite f64s_list.
      destruct (Nat.lt_ge_cases (length b) (k + 16)) as [L|L].
      + rewrite (rbind_assoc_err _ _ _ _ _ _ _ EIo). 2: { apply (list_exact _ _ 8 _ _ _ _ ltac:(lia) f64_w); lia. }
        apply leads_err; [discriminate|]. apply H1. unfold k2. lia.
      + destruct (list_at _ _ 8 _ (2 * 1) b k f64_w) as [E|[r [E _]]].
        { rewrite (rbind_assoc_err _ _ _ _ _ _ _ EIo E). exfalso. revert E.
          cbn [Nat.mul Nat.add r_list]. unfold rbind at 1. rewrite f64_w, skipn_length.
          destruct (Nat.ltb_spec (length b - k) 8); [lia|]. cbn [pbind pret fst snd]. rewrite skipn_plus.
          unfold rbind at 1. unfold rbind at 1. rewrite f64_w, skipn_length.
          destruct (Nat.ltb_spec (length b - (k + 8)) 8); [lia|]. discriminate. }
        rewrite (rbind_assoc_ok _ _ _ _ _ _ _ _ _ E). unfold rthen.
        match goal with |- leads P Q (rbind _ g (skipn ?k3 b)) =>
          rewrite (rbind_assoc_ok _ _ _ _ _ _ _ tt (skipn k3 b)) by (rewrite reserve_ok by lia; reflexivity) end.
        apply (D_list _ _ 8 _ _ _ _ _ ltac:(lia) f64_w).
        * lia.
        * intros G. apply H1. unfold k2. lia.
        * intros l G Hl _. replace (k + 8 * (2 * 1) + 8 * N.to_nat n) with k2 in * by (unfold k2; lia).
          apply H2; [exact G|right; lia].
    - unfold rbind, rret. cbn [pbind pret fst snd]. replace k2 with k in * by (unfold k2; lia).
      apply H2; [exact Hk|now left].
  Qed.
End Steps.

(** ** Multipatches *)
Lemma reserve_panic : forall e z, (1 <= e <= 2 ^ 32)%N -> (- 2 ^ 40 < z < 0)%Z -> reserve e (as_usize z) = Err EPanic.
Proof.
  intros e z He Hz. unfold reserve. destruct (N.ltb_spec (as_usize z * e) (2 ^ 63)) as [L|L]; [|reflexivity].
  exfalso. pose proof (usize_neg z ltac:(lia)) as E. change (2 ^ 63)%N with 9223372036854775808%N in L.
  assert (as_usize z * 1 <= as_usize z * e)%N by (apply N.mul_le_mono_l; lia). lia.
Qed.
Lemma patch_dies : forall z b, (- 2 ^ 40 < z < 2 ^ 40)%Z -> dies (z < 0)%Z (read_multipatch (as_usize z) b).
Proof.
  intros z b Hz. apply dies_leads. unfold read_multipatch. destruct (Z.ltb_spec z 0) as [L|L].
  - apply D_panic; [|exact L]. apply reserve_panic; lia.
  - pose proof (usize_nonneg z ltac:(lia)).
    eapply D_ok; [apply reserve_ok; lia|]. apply leads_dies, dies_quiet; [lia|]. change b with (skipn 0 b).
    apply (safe_quiet _ (fun _ => True)). apply step_take. intros. now apply safe_ret.
Qed.

(** ** Multipoints *)
Definition fit (has_z : bool) (n fixed points : Z) : Prop :=
  let block := (16 + 8 * points)%Z in
  let base := (fixed + 16 * points + (if has_z then block else 0))%Z in
  n = base \/ n = (base + block)%Z.

Lemma const_usize : forall z, (0 <= z < M)%Z -> Z.to_N z = as_usize z.
Proof. intros z H. apply N2Z.inj. rewrite usize_nonneg by exact H. lia. Qed.

Lemma dim_size_hom : forall ck points, is_i32 points -> (ck = true -> 0 <= points)%Z ->
  multipart_dim_value_size ck (as_usize points) = Ok (as_usize (16 + 8 * points)).
Proof.
  intros ck points [L1 L2] H. unfold multipart_dim_value_size. change 8%N with (as_usize 8). change 16%N with (as_usize 16).
  rewrite mul_hom by (intros E; specialize (H E); lia). cbn [res_bind].
  rewrite add_hom by (intros E; specialize (H E); lia). do 2 f_equal. lia.
Qed.
Lemma mul_neg : forall k z, (2 <= k <= 2 ^ 32)%N -> is_i32 z -> (z < 0)%Z -> umul true k (as_usize z) = Err EPanic.
Proof.
  intros k z Hk [L1 L2] Hz. unfold umul. rewrite limit_eq.
  destruct (N.ltb_spec (k * as_usize z) 18446744073709551616) as [L|L]; [|reflexivity].
  exfalso. pose proof (usize_neg z ltac:(lia)) as E.
  assert (2 * as_usize z <= k * as_usize z)%N by (apply N.mul_le_mono_r; lia). lia.
Qed.

Definition many_breaks (ck has_z : bool) (n4 : Z) (b : list byte) : Prop :=
  exists points, int_at LE b 44 = Some points /\ (points < 0)%Z /\ (ck = true \/ fit has_z n4 36 points).

Lemma many_dies : forall ck d b n4 has_z, (- 2 ^ 40 < n4 < 2 ^ 40)%Z -> 12 <= length b ->
  dies (many_breaks ck has_z n4 b) (read_multipoint ck d (as_usize n4) has_z (skipn 12 b)).
Proof.
  intros ck d b n4 has_z Hn Hb.
  assert (Hc : (exists points, int_at LE b 44 = Some points /\ points < 0)%Z \/
               forall points, int_at LE b 44 = Some points -> (0 <= points)%Z).
  { destruct (int_at LE b 44) as [q|]; [|right; discriminate].
    destruct (Z.ltb_spec q 0); [left; eauto|right; intros ? E; injection E as <-; lia]. }
  destruct Hc as [[points [Ep Neg]]|Pos].
  2: { apply dies_quiet; [|now apply multipoint_quiet]. intros [q [Eq [Hq _]]]. apply Pos in Eq. lia. }
  pose proof (int_at_i32 _ _ _ _ Ep) as Hi. pose proof Hi as [Li Lj]. pose proof (int_at_len _ _ _ _ Ep) as Hlen.
  assert (HP : many_breaks ck has_z n4 b <-> (points < 0)%Z /\ (ck = true \/ fit has_z n4 36 points)).
  { split; [intros [q [Eq H]]; rewrite Ep in Eq; injection Eq as <-; exact H|intros H; exists points; split; [exact Ep|exact H]]. }
  apply dies_leads. unfold read_multipoint. apply D_box; [exact Hb|lia|]. intros _ _. change (12 + 16 * 2) with 44. apply D_i32; [lia|].
  intros q Eq. rewrite Ep in Eq. injection Eq as <-. change (44 + 4) with 48.
  destruct ck.
    { apply D_panic; [apply mul_neg; [lia|exact Hi|exact Neg]|]. apply HP. auto. }
    change 16%N with (as_usize 16). eapply D_ok; [apply mul_hom; discriminate|].
    change 36%N with (as_usize 36). eapply D_ok; [apply add_hom; discriminate|].
    eapply D_ok; [apply dim_size_hom; [exact Hi|discriminate]|].
    set (base := (36 + 16 * points + (if has_z then 16 + 8 * points else 0))%Z).
    eapply (D_ok _ _ _ _ (as_usize base)).
    { unfold base. destruct has_z; [rewrite add_hom by discriminate; reflexivity|f_equal; f_equal; lia]. }
    eapply D_ok; [apply add_hom; discriminate|].
    assert (Habs : (Z.abs (n4 - base) < 2 ^ 50 /\ Z.abs (n4 - (base + (16 + 8 * points))) < 2 ^ 50)%Z).
    { unfold base. destruct has_z; lia. }
    rewrite !usize_eqb by lia.
    match goal with |- leads _ _ (rbind (if ?c then _ else _) _ _) => destruct c eqn:Ec end.
    + unfold rbind at 1, rret at 1. cbn [pbind pret fst snd]. unfold rbind at 1, read_xy.
      unfold rthen at 1, rbind at 1, rlift. change 16%N with (as_usize 16). rewrite reserve_panic by (cbn; lia). cbn [pbind pfail].
      apply leads_panic. apply HP. split; [exact Neg|]. right. unfold fit. fold base.
      destruct (Z.eqb_spec n4 (base + (16 + 8 * points))) as [E|E]; [now right|left].
      rewrite usize_eqb in Ec by lia. now apply Z.eqb_eq in Ec.
    + apply leads_err; [discriminate|]. rewrite HP. intros [_ [C|C]]; [discriminate|].
      unfold fit in C. fold base in C.
      destruct (Z.eqb_spec n4 (base + (16 + 8 * points))) as [E|E]; rewrite usize_eqb in Ec by lia; apply Z.eqb_neq in Ec; lia.
Qed.

(** ** Polylines and polygons *)
Lemma size_hom : forall ck parts points, is_i32 parts -> is_i32 points ->
  (ck = true -> 0 <= parts /\ 0 <= points)%Z ->
  multipart_record_size ck (as_usize points) (as_usize parts) = Ok (as_usize (40 + 4 * parts + 16 * points)).
Proof.
  intros ck parts points [A1 A2] [B1 B2] H. unfold multipart_record_size.
  change 4%N with (as_usize 4). change 40%N with (as_usize 40). change 16%N with (as_usize 16).
  rewrite mul_hom by (intros E; specialize (H E); lia). cbn [res_bind].
  rewrite add_hom by (intros E; specialize (H E); lia). cbn [res_bind].
  rewrite mul_hom by (intros E; specialize (H E); lia). cbn [res_bind].
  rewrite add_hom by (intros E; specialize (H E); lia). reflexivity.
Qed.
Lemma size_neg : forall parts points, is_i32 parts -> is_i32 points -> (parts < 0 \/ points < 0)%Z ->
  multipart_record_size true (as_usize points) (as_usize parts) = Err EPanic.
Proof.
  intros parts points Hp Hn H. unfold multipart_record_size.
  destruct (Z.ltb_spec parts 0) as [L|L].
  - rewrite mul_neg by (assumption || lia). reflexivity.
  - destruct Hp as [A1 A2]. change 4%N with (as_usize 4). change 40%N with (as_usize 40).
    rewrite mul_hom by lia. cbn [res_bind]. rewrite add_hom by lia. cbn [res_bind].
    rewrite mul_neg by (assumption || lia). reflexivity.
Qed.

Definition entry_breaks (ck as_poly : bool) (points : Z) (i : nat) (a c : Z) : Prop :=
  if ck then ~ (0 <= a <= c)%Z
  else if as_poly then 1 <= i /\ (unsigned c < unsigned a)%Z
  else (unsigned a < unsigned c)%Z /\ (points < unsigned c)%Z.
Definition table_bad (ck as_poly : bool) (b : list byte) (parts points : Z) : Prop :=
  exists i a c, neighbours b parts points i a c /\ entry_breaks ck as_poly points i a c.
Definition parts_break (ck has_z as_poly : bool) (n4 : Z) (b : list byte) (parts points : Z) : Prop :=
  let full := (fit has_z n4 (40 + 4 * parts) points /\ 12 + n4 <= Z.of_nat (length b))%Z in
  if ck then (parts < 0)%Z \/ (points < 0)%Z \/ full /\ table_bad ck as_poly b parts points
  else fit has_z n4 (40 + 4 * parts) points /\
       ((parts < -1)%Z \/
        ((0 <= parts)%Z /\ (52 + 4 * parts <= Z.of_nat (length b))%Z /\ (points < 0)%Z) \/
        ((0 <= parts)%Z /\ (0 <= points)%Z /\ full /\ table_bad ck as_poly b parts points)).

Lemma unsigned_usize : forall z, unsigned z = Z.of_N (as_usize z).
Proof. intros. now rewrite usize_Z. Qed.

(** the table as read *)
Definition table_of (b : list byte) (parts points : Z) (index : list N) : Prop :=
  Z.of_nat (length index) = parts /\
  forall i x, nth_error (index ++ [as_usize points]) i = Some x ->
    exists z, part_at b parts points i = Some z /\ x = as_usize z /\ is_i32 z.

Lemma neighbours_windows : forall b parts points index, table_of b parts points index ->
  (forall i a c, neighbours b parts points i a c ->
     nth_error (index ++ [as_usize points]) i = Some (as_usize a) /\
     nth_error (index ++ [as_usize points]) (S i) = Some (as_usize c) /\ is_i32 a /\ is_i32 c) /\
  (forall i x y, nth_error (index ++ [as_usize points]) i = Some x ->
     nth_error (index ++ [as_usize points]) (S i) = Some y ->
     exists a c, neighbours b parts points i a c /\ x = as_usize a /\ y = as_usize c /\ is_i32 a /\ is_i32 c).
Proof.
  intros b parts points index [Hlen Ht]. split.
  - intros i a c [Hi [Ha Hc]].
    assert (L : S i < length (index ++ [as_usize points])) by (rewrite app_length; cbn [length]; lia).
    destruct (nth_error (index ++ [as_usize points]) i) as [x|] eqn:Ex; [|apply nth_error_None in Ex; lia].
    destruct (nth_error (index ++ [as_usize points]) (S i)) as [y|] eqn:Ey; [|apply nth_error_None in Ey; lia].
    destruct (Ht _ _ Ex) as [za [Ea [-> Ia]]]. destruct (Ht _ _ Ey) as [zc [Ec [-> Ic]]].
    rewrite Ha in Ea. injection Ea as <-. rewrite Hc in Ec. injection Ec as <-. auto.
  - intros i x y Ex Ey. destruct (Ht _ _ Ex) as [za [Ea [-> Ia]]]. destruct (Ht _ _ Ey) as [zc [Ec [-> Ic]]].
    exists za, zc. repeat split; try assumption; try apply Ia; try apply Ic.
    assert (S i < length (index ++ [as_usize points])) by (apply nth_error_Some; congruence).
    rewrite app_length in *. cbn [length] in *. lia.
Qed.

Lemma nth_tl : forall A (l : list A) i, nth_error (tl l) i = nth_error l (S i).
Proof. intros A [|a l] i; [destruct i; reflexivity|reflexivity]. Qed.

Lemma table_iff : forall ck as_poly b parts points index,
  table_of b parts points index -> (0 <= points)%Z -> is_i32 points ->
  (table_breaks ck as_poly (as_usize points) (index ++ [as_usize points]) <-> table_bad ck as_poly b parts points).
Proof.
  intros ck as_poly b parts points index Ht H0 [L1 L2].
  pose proof (usize_nonneg points ltac:(lia)) as Ep.
  destruct (neighbours_windows _ _ _ _ Ht) as [N1 N2].
  unfold table_breaks, table_bad, entry_breaks. destruct ck; [|destruct as_poly].
  - split.
    + intros H. apply Exists_exists in H as [[x y] [Hin Hd]]. apply windows_nth in Hin as [i [Ex Ey]].
      destruct (N2 i x y Ex Ey) as [a [c [Hn [-> [-> [Ia Ic]]]]]]. exists i, a, c. split; [exact Hn|].
      unfold descent in Hd. cbn [fst snd] in Hd. intros Hac. destruct Ia, Ic.
      rewrite <- (usize_nonneg a), <- (usize_nonneg c) in Hac by lia. lia.
    + intros [i [a [c [Hn Hb]]]].
      assert (Hdec : forall w, descent w \/ ~ descent w) by (intros [x y]; unfold descent; cbn [fst snd]; lia).
      destruct (exists_or_forall _ _ (windows2 (index ++ [as_usize points])) Hdec) as [He|Hf]; [exact He|].
      exfalso. destruct (N1 _ _ _ Hn) as [Ea [Ec [Ia Ic]]].
      assert (Hle : forall x, In x (index ++ [as_usize points]) -> (x <= as_usize points)%N).
      { apply sorted_last. intros x y Hin. pose proof (proj1 (Forall_forall _ _) Hf _ Hin) as G. unfold descent in G. cbn [fst snd] in G. lia. }
      assert (Hpos : forall z, is_i32 z -> In (as_usize z) (index ++ [as_usize points]) -> (0 <= z)%Z /\ Z.of_N (as_usize z) = z).
      { intros z [Z1 Z2] Hz. apply Hle in Hz. destruct (Z.ltb_spec z 0) as [Neg|Pos].
        - rewrite <- (N2Z.id (as_usize z)) in Hz. rewrite (usize_neg z) in Hz by lia. lia.
        - split; [exact Pos|apply usize_nonneg; lia]. }
      destruct (Hpos a Ia (nth_error_In _ _ Ea)) as [Pa Va]. destruct (Hpos c Ic (nth_error_In _ _ Ec)) as [Pc Vc].
      pose proof (proj1 (Forall_forall _ _) Hf _ (nth_windows _ _ _ _ _ Ea Ec)) as G. unfold descent in G. cbn [fst snd] in G. lia.
  - split.
    + intros H. apply Exists_exists in H as [[x y] [Hin Hd]]. apply windows_nth in Hin as [i [Ex Ey]].
      rewrite nth_tl in Ex, Ey. destruct (N2 (S i) x y Ex Ey) as [a [c [Hn [-> [-> _]]]]]. exists (S i), a, c. split; [exact Hn|].
      unfold descent in Hd. cbn [fst snd] in Hd. rewrite !unsigned_usize. lia.
    + intros [i [a [c [Hn [Hi Hb]]]]]. destruct (N1 _ _ _ Hn) as [Ea [Ec _]]. destruct i as [|i]; [lia|].
      apply Exists_exists. exists (as_usize a, as_usize c). split.
      * apply (nth_windows _ _ i); rewrite nth_tl; assumption.
      * unfold descent. cbn [fst snd]. rewrite !unsigned_usize in Hb. lia.
  - split.
    + intros H. apply Exists_exists in H as [[x y] [Hin Hd]]. apply windows_nth in Hin as [i [Ex Ey]].
      destruct (N2 i x y Ex Ey) as [a [c [Hn [-> [-> _]]]]]. exists i, a, c. split; [exact Hn|].
      unfold overrun in Hd. cbn [fst snd] in Hd. rewrite !unsigned_usize. lia.
    + intros [i [a [c [Hn Hb]]]]. destruct (N1 _ _ _ Hn) as [Ea [Ec _]].
      apply Exists_exists. exists (as_usize a, as_usize c). split; [now apply (nth_windows _ _ i)|].
      unfold overrun. cbn [fst snd]. rewrite !unsigned_usize in Hb. lia.
Qed.

Lemma dies_iff : forall A (P Q : Prop) (g : prog A), (P <-> Q) -> dies P g -> dies Q g.
Proof. intros A P Q g H [l [r [-> Hr]]]. exists l, r. split; [reflexivity|]. now rewrite Hr. Qed.

Definition parts_breaks (ck has_z as_poly : bool) (n4 : Z) (b : list byte) : Prop :=
  exists parts points, int_at LE b 44 = Some parts /\ int_at LE b 48 = Some points /\
    parts_break ck has_z as_poly n4 b parts points.

(** what the reader of the table and the coordinates delivers *)
Definition loaded (ck has_z as_poly : bool) (n4 : Z) (b : list byte) (mp : multipart) : Prop :=
  exists parts points index coords zs ms,
    int_at LE b 44 = Some parts /\ int_at LE b 48 = Some points /\
    mp = mkMultipart (index ++ [as_usize points]) coords zs ms /\
    table_of b parts points index /\ (0 <= points)%Z /\ N.of_nat (length coords) = as_usize points /\
    (zs = [] \/ length zs = length coords) /\ (ms = [] \/ length ms = length coords) /\
    (parts_break ck has_z as_poly n4 b parts points <-> table_bad ck as_poly b parts points).

Lemma load_leads : forall ck b n4 has_z as_poly, (- 2 ^ 40 < n4 < 2 ^ 40)%Z -> 12 <= length b ->
  (Z.of_nat (length b) < 2 ^ 63)%Z ->
  leads (parts_breaks ck has_z as_poly n4 b) (fun r => loaded ck has_z as_poly n4 b (fst r))
    (read_multipart ck (as_usize n4) has_z (skipn 12 b)).
Proof.
  intros ck b n4 has_z as_poly Hn Hb Hbig. unfold read_multipart.
  apply D_box; [exact Hb| |].
  { intros L [parts [points [E _]]]. apply int_at_len in E. lia. }
  intros _ _. change (12 + 16 * 2) with 44. apply D_i32.
  { intros L [parts [points [E _]]]. apply int_at_len in E. lia. }
  intros parts Ep. change (44 + 4) with 48. apply D_i32.
  { intros L [parts' [points [_ [E _]]]]. apply int_at_len in E. lia. }
  intros points En. change (48 + 4) with 52.
  pose proof (int_at_i32 _ _ _ _ Ep) as Ip. pose proof (int_at_i32 _ _ _ _ En) as In'.
  pose proof Ip as [P1 P2]. pose proof In' as [N1 N2]. pose proof (int_at_len _ _ _ _ En) as Hlen.
  assert (HP : parts_breaks ck has_z as_poly n4 b <-> parts_break ck has_z as_poly n4 b parts points).
  { split; [|intros H; exists parts, points; auto].
    intros [q1 [q2 [E1 [E2 H]]]]. rewrite Ep in E1. rewrite En in E2. injection E1 as <-. injection E2 as <-. exact H. }
  assert (Hneg : ck = true /\ (parts < 0 \/ points < 0)%Z \/ (ck = true -> 0 <= parts /\ 0 <= points)%Z).
  { destruct ck; [|right; discriminate]. destruct (Z.ltb_spec parts 0); [left; auto|].
    destruct (Z.ltb_spec points 0); [left; auto|right; auto]. }
  destruct Hneg as [[-> Hneg]|Hpos].
  { apply D_panic; [now apply size_neg|]. apply HP. cbn [parts_break]. tauto. }
  eapply D_ok; [apply size_hom; assumption|].
  eapply D_ok; [apply dim_size_hom; [assumption|intros E; specialize (Hpos E); lia]|].
  set (block := (16 + 8 * points)%Z).
  set (base := (40 + 4 * parts + 16 * points + (if has_z then block else 0))%Z).
  eapply (D_ok _ _ _ _ (as_usize base)).
  { unfold base, block. destruct has_z; [|f_equal; f_equal; lia].
    rewrite add_hom by (intros E; specialize (Hpos E); lia). reflexivity. }
  eapply D_ok; [apply add_hom; intros E; specialize (Hpos E); unfold base, block; destruct has_z; lia|].
  assert (Habs : (Z.abs (n4 - base) < 2 ^ 50 /\ Z.abs (n4 - (base + block)) < 2 ^ 50)%Z).
  { unfold base, block. destruct has_z; lia. }
  rewrite !usize_eqb by lia.
  assert (Hfit : fit has_z n4 (40 + 4 * parts) points <-> ((n4 =? base)%Z || (n4 =? base + block)%Z) = true).
  { unfold fit. fold block base. rewrite orb_true_iff, !Z.eqb_eq. reflexivity. }
  destruct ((n4 =? base)%Z || (n4 =? base + block)%Z) eqn:Ef.
  2: { apply leads_err; [discriminate|]. assert (Hno : ~ fit has_z n4 (40 + 4 * parts) points) by (intros G; apply Hfit in G; discriminate).
       rewrite HP. unfold parts_break.
       destruct ck; [specialize (Hpos eq_refl)|]; intros H; [destruct H as [H|[H|[[H _] _]]]; (lia || contradiction)|destruct H as [H _]; contradiction]. }
  assert (Hyes : fit has_z n4 (40 + 4 * parts) points) by now apply Hfit. clear Hfit.
  unfold rbind at 1, rret at 1. cbn [pbind pret fst snd].
  change 1%N with (as_usize 1). eapply D_ok; [apply add_hom; intros E; specialize (Hpos E); lia|].
  destruct (Z.ltb_spec parts (-1)) as [Lm|Lm].
  { destruct ck; [specialize (Hpos eq_refl); lia|]. apply D_panic; [apply reserve_panic; lia|].
    apply HP. cbn [parts_break]. auto. }
  eapply D_ok; [apply reserve_ok; pose proof (usize_nonneg (parts + 1) ltac:(lia)); lia|].
  destruct (Z.ltb_spec parts 0) as [Lz|Lz].
  { (* -1 parts: the table does not end *)
    assert (parts = -1)%Z by lia. subst parts. destruct ck; [specialize (Hpos eq_refl); lia|].
    pose proof (usize_neg (-1) ltac:(lia)) as Em.
    assert (Hlong : (length b < 52 + 4 * N.to_nat (as_usize (-1)))%nat) by lia.
    apply (D_list _ _ _ _ 4 _ _ _ _ _ ltac:(lia) i32_w).
    - lia.
    - intros _. rewrite HP. unfold parts_break. intros [_ [H|[[H _]|[H _]]]]; lia.
    - intros l L. lia. }
  pose proof (usize_nonneg parts ltac:(lia)) as Vp.
  apply (D_list _ _ _ _ 4 _ _ _ _ _ ltac:(lia) i32_w).
  { lia. }
  { intros L. rewrite HP. unfold parts_break. unfold fit in Hyes. fold block base in Hyes. unfold base, block in Hyes.
    destruct ck; [specialize (Hpos eq_refl)|]; intros H.
    - destruct H as [H|[H|[[_ H] _]]]; [lia|lia|destruct has_z; lia].
    - destruct H as [_ [H|[H|[_ [H [[_ H2] _]]]]]]; [lia|lia|destruct has_z; lia]. }
  intros index L Li Hi. set (k := 52 + 4 * N.to_nat (as_usize parts)) in *.
  assert (Ek : Z.of_nat k = (52 + 4 * parts)%Z) by (unfold k; lia).
  destruct (Z.ltb_spec points 0) as [Nz|Nz].
  { destruct ck; [specialize (Hpos eq_refl); lia|]. unfold rbind at 1, read_xy, rthen at 1, rbind at 1, rlift.
    change 16%N with (as_usize 16) at 1. rewrite reserve_panic by (cbn; lia). cbn [pbind pfail].
    apply leads_panic. apply HP. cbn [parts_break]. split; [exact Hyes|]. right. left. lia. }
  pose proof (usize_nonneg points ltac:(lia)) as Vn.
  assert (Hshort : (12 + n4 > Z.of_nat (length b))%Z -> ~ parts_breaks ck has_z as_poly n4 b).
  { intros Hs. rewrite HP. unfold parts_break. destruct ck; intros H.
    - destruct H as [H|[H|[[_ H] _]]]; lia.
    - destruct H as [_ [H|[H|[_ [_ [[_ H] _]]]]]]; lia. }
  unfold fit in Hyes. fold block base in Hyes.
  assert (Hbase : (40 + 4 * parts + 16 * points <= n4)%Z).
  { unfold base, block in Hyes. destruct has_z; lia. }
  apply D_xy; [lia|exact L| |].
  { intros Hs. apply Hshort. lia. }
  intros coords Lk Lc. set (k2 := k + 16 * N.to_nat (as_usize points)) in *.
  assert (Ek2 : Z.of_nat k2 = (52 + 4 * parts + 16 * points)%Z) by (unfold k2; lia).
  apply D_dim_if; [lia|exact Lk| |].
  { intros Hs. apply Hshort. unfold base, block in Hyes. destruct has_z; lia. }
  intros zs Lk3 Lzs. set (k3 := k2 + _) in *.
  assert (Ek3 : Z.of_nat k3 = (12 + base)%Z).
  { unfold k3, base, block. destruct has_z; lia. }
  apply D_dim_if; [lia|exact Lk3| |].
  { intros Hs. apply Hshort. destruct (Z.eqb_spec n4 (base + block)); unfold block in *; lia. }
  intros ms Lk4 Lms. set (k4 := k3 + _) in *.
  assert (Ek4 : Z.of_nat k4 = (12 + n4)%Z).
  { unfold k4. destruct (Z.eqb_spec n4 (base + block)); unfold block in *; lia. }
  apply leads_ret. cbn [fst]. exists parts, points, index, coords, zs, ms.
  split; [exact Ep|]. split; [exact En|]. split; [reflexivity|].
  split.
  { split; [lia|]. intros i x Hx. unfold part_at. destruct (Nat.ltb_spec i (length index)) as [Hlt|Hge].
    - rewrite nth_error_app1 in Hx by exact Hlt. destruct (Hi i x Hx) as [-> Hw].
      destruct (Z.ltb_spec (Z.of_nat i) parts); [|lia].
      assert (E : int_at LE b (52 + 4 * i) = Some (u32_to_i32 (val_of LE (firstn 4 (skipn (52 + 4 * i) b))))).
      { unfold int_at. rewrite Hw. reflexivity. }
      rewrite E. eexists. split; [reflexivity|]. split; [reflexivity|exact (int_at_i32 _ _ _ _ E)].
    - assert (i = length index).
      { assert (i < length (index ++ [as_usize points])) by (apply nth_error_Some; congruence).
        rewrite app_length in *. cbn [length] in *. lia. }
      subst i. rewrite nth_error_app2, Nat.sub_diag in Hx by lia. cbn [nth_error] in Hx. injection Hx as <-.
      destruct (Z.ltb_spec (Z.of_nat (length index)) parts); [lia|].
      exists points. split; [reflexivity|]. split; [reflexivity|exact In']. }
  split; [exact Nz|]. split; [exact Lc|].
  split; [destruct Lzs; [now left|right; lia]|]. split; [destruct Lms; [now left|right; lia]|].
  unfold parts_break. assert (Hfull : (12 + n4 <= Z.of_nat (length b))%Z) by lia.
  assert (Hf : fit has_z n4 (40 + 4 * parts) points) by exact Hyes.
  destruct ck; split; intros H.
  - destruct H as [H|[H|[_ H]]]; [lia|lia|exact H].
  - right. right. auto.
  - destruct H as [_ [H|[H|[_ [_ [_ H]]]]]]; [lia|lia|exact H].
  - split; [exact Hf|]. right. right. auto.
Qed.

Lemma parts_die : forall ck d b n4 has_z as_poly, (- 2 ^ 40 < n4 < 2 ^ 40)%Z -> 12 <= length b ->
  (Z.of_nat (length b) < 2 ^ 63)%Z ->
  dies (parts_breaks ck has_z as_poly n4 b) (read_parts ck d (as_usize n4) has_z as_poly (skipn 12 b)).
Proof.
  intros ck d b n4 has_z as_poly Hn Hb Hbig. unfold read_parts, rbind.
  eapply leads_bind; [now apply load_leads|]. intros [mp rest] H. cbn [fst snd] in *.
  destruct H as [parts [points [index [coords [zs [ms [Ep [En [-> [Ht [H0 [Lc [Lz [Lm Hiff]]]]]]]]]]]]]].
  unfold rprog. apply dies_map. rewrite <- Lc. eapply dies_iff; [|now apply process_dies].
  rewrite Lc, table_iff by (eauto using int_at_i32). rewrite <- Hiff.
  split; [intros H; exists parts, points; auto|].
  intros [q1 [q2 [E1 [E2 H]]]]. rewrite Ep in E1. rewrite En in E2. injection E1 as <-. injection E2 as <-. exact H.
Qed.

(** ** Records *)
Lemma low32_wrap : forall z, wrap_i32 z = low32 z.
Proof.
  intros z. unfold wrap_i32, u32_to_i32, i32_to_u32, low32.
  change (2 ^ 31)%N with 2147483648%N. change (2 ^ 31)%Z with 2147483648%Z. change (2 ^ 32)%Z with 4294967296%Z.
  pose proof (Z.mod_pos_bound z 4294967296 ltac:(lia)) as Hm.
  destruct (N.ltb_spec (Z.to_N (z mod 4294967296)) 2147483648) as [L|L]; rewrite Z2N.id by lia.
  - rewrite Z.add_mod by lia. change (2147483648 mod 4294967296)%Z with 2147483648%Z.
    rewrite (Z.mod_small (z mod 4294967296 + 2147483648)) by lia. lia.
  - rewrite Z.add_mod by lia. change (2147483648 mod 4294967296)%Z with 2147483648%Z.
    replace (z mod 4294967296 + 2147483648)%Z with (z mod 4294967296 - 2147483648 + 1 * 4294967296)%Z by lia.
    rewrite Z.mod_add by lia. rewrite (Z.mod_small (z mod 4294967296 - 2147483648)) by lia. lia.
Qed.
Lemma low32_small : forall z, is_i32 z -> low32 z = z.
Proof.
  intros z [H1 H2]. unfold low32. change (2 ^ 31)%Z with 2147483648%Z in *. change (2 ^ 32)%Z with 4294967296%Z.
  rewrite Z.mod_small by lia. lia.
Qed.
Lemma low32_range : forall z, is_i32 (low32 z).
Proof.
  intros z. unfold low32, is_i32. change (2 ^ 31)%Z with 2147483648%Z. change (2 ^ 32)%Z with 4294967296%Z.
  pose proof (Z.mod_pos_bound (z + 2147483648) 4294967296 ltac:(lia)). lia.
Qed.
Lemma fits_i32_spec : forall z, fits_i32 z = true <-> is_i32 z.
Proof. intros z. unfold fits_i32, is_i32. rewrite andb_true_iff, Z.leb_le, Z.ltb_lt. reflexivity. Qed.

Definition type_breaks (ck : bool) (t : shape_type) (n : Z) (b : list byte) : Prop :=
  match t with
  | NullShape | Point | PointM | PointZ => False
  | Multipatch => (n - 4 < 0)%Z
  | Multipoint | MultipointM => many_breaks ck false (n - 4) b
  | MultipointZ => many_breaks ck true (n - 4) b
  | Polyline | PolylineM => parts_breaks ck false false (n - 4) b
  | PolylineZ => parts_breaks ck true false (n - 4) b
  | Polygon | PolygonM => parts_breaks ck false true (n - 4) b
  | PolygonZ => parts_breaks ck true true (n - 4) b
  end.

Definition record_breaks (ck : bool) (b : list byte) : Prop :=
  exists size, int_at BE b 4 = Some size /\
  (ck = true /\ ~ (- 2 ^ 30 <= size < 2 ^ 30)%Z \/
   (ck = true -> - 2 ^ 30 <= size < 2 ^ 30)%Z /\
   exists code t, int_at LE b 8 = Some code /\ shape_type_of code = Some t /\
     (ck = true /\ (0 <= size < 2)%Z \/ (ck = true -> ~ (0 <= size < 2)%Z) /\ type_breaks ck t (low32 (2 * size)) b)).

Theorem record_dies : forall ck d b, (Z.of_nat (length b) < 2 ^ 63)%Z ->
  dies (record_breaks ck b) (read_shape ck d b).
Proof.
  intros ck d b Hbig. apply dies_leads. change (read_shape ck d b) with (read_shape ck d (skipn 0 b)). unfold read_shape.
  apply D_i32.
  { intros L [size [E _]]. apply int_at_len in E. lia. }
  intros number _. change (0 + 4) with 4. apply D_i32.
  { intros L [size [E _]]. apply int_at_len in E. lia. }
  intros size Es. change (4 + 4) with 8. pose proof (int_at_i32 _ _ _ _ Es) as [S1 S2].
  set (Pz := (ck = true /\ ~ (- 2 ^ 30 <= size < 2 ^ 30)%Z \/
   (ck = true -> - 2 ^ 30 <= size < 2 ^ 30)%Z /\
   exists code t, int_at LE b 8 = Some code /\ shape_type_of code = Some t /\
     (ck = true /\ (0 <= size < 2)%Z \/ (ck = true -> ~ (0 <= size < 2)%Z) /\ type_breaks ck t (low32 (2 * size)) b))).
  assert (HP : record_breaks ck b <-> Pz).
  { split; [intros [q [E H]]; rewrite Es in E; injection E as <-; exact H|intros H; exists size; auto]. }
  assert (Hop : i32_op ck (size * 2) = Err EPanic /\ ck = true /\ ~ (- 2 ^ 30 <= size < 2 ^ 30)%Z \/
                i32_op ck (size * 2) = Ok (low32 (2 * size)) /\ (ck = true -> - 2 ^ 30 <= size < 2 ^ 30)%Z).
  { unfold i32_op. replace (2 * size)%Z with (size * 2)%Z by lia.
    destruct (fits_i32 (size * 2)) eqn:E.
    - apply fits_i32_spec in E. right. rewrite low32_small by exact E. unfold is_i32 in E. split; [reflexivity|lia].
    - assert (~ is_i32 (size * 2)) as G by (rewrite <- fits_i32_spec; congruence). unfold is_i32 in G.
      destruct ck; [left|right]; [repeat split; lia|]. rewrite low32_wrap. split; [reflexivity|discriminate]. }
  destruct Hop as [[E [Hck Hno]]|[E Hyes]].
  { apply D_panic; [exact E|]. apply HP. left. auto. }
  eapply D_ok; [exact E|]. clear E. set (n := low32 (2 * size)) in *.
  pose proof (low32_range (2 * size)) as [R1 R2]. fold n in R1, R2.
  apply leads_dies. unfold rbind at 1.
  assert (Hrec : dies (record_breaks ck b) (read_shape_rec ck d (as_usize n) (skipn 8 b))).
  2: { destruct Hrec as [l [r [-> Hr]]]. rewrite pbind_calls. destruct r as [a|e]; cbn [pbind].
       - exists l, (Ok ((number, size), snd a)). split; [reflexivity|]. rewrite <- Hr. split; discriminate.
       - exists l, (Err e). split; [reflexivity|]. rewrite <- Hr. split; congruence. }
  unfold read_shape_rec, read_shape_type.
  destruct (i32_at LE b 8) as [E|[code [Ec E]]].
  { rewrite (rbind_assoc_err _ _ _ _ _ _ _ _ E). apply dies_err; [discriminate|]. rewrite HP. unfold Pz.
    intros [[H1 H2]|[_ [code [t [Ec _]]]]]; [auto|]. apply int_at_len in Ec.
    revert E. unfold r_i32, r_u32, rmap, rbind, rtake, rret. rewrite skipn_length.
    destruct (Nat.ltb_spec (length b - 8) 4); [lia|]. discriminate. }
  rewrite (rbind_assoc_ok _ _ _ _ _ _ _ _ _ E). change (8 + 4) with 12. pose proof (int_at_len _ _ _ _ Ec) as Hlen.
  destruct (shape_type_of code) as [t|] eqn:Et.
  2: { apply dies_err; [discriminate|]. rewrite HP. unfold Pz. intros [[H1 H2]|[_ [code' [t [Ec' [Et' _]]]]]]; [auto|].
       rewrite Ec in Ec'. injection Ec' as <-. congruence. }
  assert (HP2 : record_breaks ck b <->
     (ck = true /\ (0 <= size < 2)%Z \/ (ck = true -> ~ (0 <= size < 2)%Z) /\ type_breaks ck t n b)).
  { rewrite HP. unfold Pz. split.
    - intros [[H1 H2]|[_ [code' [t' [Ec' [Et' H]]]]]]; [exfalso; auto|].
      rewrite Ec in Ec'. injection Ec' as <-. rewrite Et in Et'. injection Et' as <-. exact H.
    - intros H. right. split; [exact Hyes|]. exists code, t. auto. }
  unfold rbind at 1, rret at 1. cbn [pbind pret fst snd].
  assert (Hsub : usub ck (as_usize n) 4 = Err EPanic /\ ck = true /\ (0 <= size < 2)%Z \/
                 usub ck (as_usize n) 4 = Ok (as_usize (n - 4)) /\ (ck = true -> ~ (0 <= size < 2)%Z)).
  { change 4%N with (as_usize 4). destruct ck.
    - specialize (Hyes eq_refl). assert (En : n = (2 * size)%Z) by (apply low32_small; unfold is_i32; lia).
      destruct (Z.ltb_spec size 0) as [L|L]; [|destruct (Z.ltb_spec size 2) as [L2|L2]].
      + right. split; [apply sub_hom; lia|lia].
      + left. split; [|lia]. unfold usub. pose proof (usize_nonneg n ltac:(lia)). change (as_usize 4) with 4%N.
        destruct (N.leb_spec 4 (as_usize n)); [lia|reflexivity].
      + right. split; [apply sub_hom; lia|lia].
    - right. split; [apply sub_hom; [discriminate|lia|lia]|discriminate]. }
  destruct Hsub as [[E2 Hlow]|[E2 Hlow]]; unfold rthen, rbind, rlift; rewrite E2; cbn [pbind pret pfail fst snd].
  { apply dies_panic. apply HP2. auto. }
  eapply dies_iff.
  { symmetry. rewrite HP2. instantiate (1 := type_breaks ck t n b). split; [intros [[H1 H2]|[_ H]]; [exfalso; now apply Hlow|exact H]|auto]. }
  destruct t; cbn [type_breaks];
    try (apply dies_quiet; [auto|apply point_quiet]); try (apply many_dies; lia); try (apply parts_die; lia).
  - apply dies_ret. auto.
  - apply patch_dies. lia.
Qed.

(** ** The specification *)
Lemma types_table : forall code t, shape_type_of code = Some t ->
  In (code, t) [(0, NullShape); (1, Point); (3, Polyline); (5, Polygon); (8, Multipoint); (11, PointZ); (13, PolylineZ);
    (15, PolygonZ); (18, MultipointZ); (21, PointM); (23, PolylineM); (25, PolygonM); (28, MultipointM); (31, Multipatch)]%Z.
Proof.
  intros code t H. destruct code as [|c|c]; cbn in H; try discriminate; [injection H as <-; cbn; auto|].
  do 6 (try match goal with q : positive |- _ => destruct q; try discriminate end); injection H as <-; cbn; tauto.
Qed.
Lemma known_type : forall code, In code known_types -> exists t, shape_type_of code = Some t.
Proof.
  intros code H. unfold known_types in H. cbn [In] in H.
  repeat (destruct H as [<-|H]; [eexists; reflexivity|]). contradiction.
Qed.
Lemma fit_fits : forall t n fixed points,
  fit (existsb (Z.eqb t) with_z) (n - 4) (fixed - 4) points <-> fits t n fixed points.
Proof. intros. unfold fit, fits. destruct (existsb (Z.eqb t) with_z); lia. Qed.

Definition spec_checked (t n : Z) (b : list byte) : Prop :=
  ((t = 31 /\ n < 4)%Z \/
    (In t multipoints /\ exists points, int_at LE b 44 = Some points /\ (points < 0)%Z) \/
    (In t (polylines ++ polygons) /\ exists parts points,
       int_at LE b 44 = Some parts /\ int_at LE b 48 = Some points /\
       ((parts < 0)%Z \/ (points < 0)%Z \/
        (fits t n (44 + 4 * parts) points /\
         (8 + n <= Z.of_nat (length b))%Z /\
         exists i a c, neighbours b parts points i a c /\ ~ (0 <= a <= c)%Z)))).
Definition spec_unchecked (t n : Z) (b : list byte) : Prop :=
  ((t = 31%Z /\ (n < 4)%Z) \/
   (In t multipoints /\ exists points, int_at LE b 44 = Some points /\
      fits t n 40 points /\ (points < 0)%Z) \/
   (In t (polylines ++ polygons) /\ exists parts points,
      int_at LE b 44 = Some parts /\ int_at LE b 48 = Some points /\
      fits t n (44 + 4 * parts) points /\
      ((parts < -1)%Z \/
       ((0 <= parts)%Z /\ (52 + 4 * parts <= Z.of_nat (length b))%Z /\ (points < 0)%Z) \/
       ((0 <= parts)%Z /\ (0 <= points)%Z /\ (8 + n <= Z.of_nat (length b))%Z /\
        exists i a c, neighbours b parts points i a c /\
          if existsb (Z.eqb t) polygons
          then 1 <= i /\ (unsigned c < unsigned a)%Z
          else (unsigned a < unsigned c)%Z /\ (points < unsigned c)%Z)))).

Lemma many_spec_checked : forall has_z n b,
  many_breaks true has_z (n - 4) b <-> exists points, int_at LE b 44 = Some points /\ (points < 0)%Z.
Proof.
  intros. unfold many_breaks. split.
  - intros [q [E [H _]]]. eauto.
  - intros [q [E H]]. exists q. auto.
Qed.
Lemma many_spec_unchecked : forall t n b,
  many_breaks false (existsb (Z.eqb t) with_z) (n - 4) b <->
  exists points, int_at LE b 44 = Some points /\ fits t n 40 points /\ (points < 0)%Z.
Proof.
  intros. unfold many_breaks. split.
  - intros [q [E [H [C|C]]]]; [discriminate|]. exists q. rewrite <- (fit_fits t n 40 q). auto.
  - intros [q [E [H1 H2]]]. exists q. rewrite <- (fit_fits t n 40 q) in H1. auto.
Qed.
Lemma parts_spec_checked : forall t as_poly n b,
  parts_breaks true (existsb (Z.eqb t) with_z) as_poly (n - 4) b <->
  exists parts points,
       int_at LE b 44 = Some parts /\ int_at LE b 48 = Some points /\
       ((parts < 0)%Z \/ (points < 0)%Z \/
        (fits t n (44 + 4 * parts) points /\
         (8 + n <= Z.of_nat (length b))%Z /\
         exists i a c, neighbours b parts points i a c /\ ~ (0 <= a <= c)%Z)).
Proof.
  intros. unfold parts_breaks, parts_break, table_bad, entry_breaks. split; intros [q1 [q2 [E1 [E2 H]]]]; exists q1, q2;
    (split; [exact E1|]); (split; [exact E2|]); rewrite <- (fit_fits t n (44 + 4 * q1) q2) in *;
    replace (44 + 4 * q1 - 4)%Z with (40 + 4 * q1)%Z in * by lia; replace (12 + (n - 4))%Z with (8 + n)%Z in * by lia; tauto.
Qed.
Lemma parts_spec_unchecked : forall t n b,
  parts_breaks false (existsb (Z.eqb t) with_z) (existsb (Z.eqb t) polygons) (n - 4) b <->
  exists parts points,
      int_at LE b 44 = Some parts /\ int_at LE b 48 = Some points /\
      fits t n (44 + 4 * parts) points /\
      ((parts < -1)%Z \/
       ((0 <= parts)%Z /\ (52 + 4 * parts <= Z.of_nat (length b))%Z /\ (points < 0)%Z) \/
       ((0 <= parts)%Z /\ (0 <= points)%Z /\ (8 + n <= Z.of_nat (length b))%Z /\
        exists i a c, neighbours b parts points i a c /\
          if existsb (Z.eqb t) polygons
          then 1 <= i /\ (unsigned c < unsigned a)%Z
          else (unsigned a < unsigned c)%Z /\ (points < unsigned c)%Z)).
Proof.
  intros. unfold parts_breaks, parts_break, table_bad, entry_breaks. split; intros [q1 [q2 [E1 [E2 H]]]]; exists q1, q2;
    (split; [exact E1|]); (split; [exact E2|]); rewrite <- (fit_fits t n (44 + 4 * q1) q2) in *;
    replace (44 + 4 * q1 - 4)%Z with (40 + 4 * q1)%Z in * by lia; replace (12 + (n - 4))%Z with (8 + n)%Z in * by lia; tauto.
Qed.

Lemma type_spec_checked : forall code t n b, shape_type_of code = Some t ->
  (type_breaks true t n b <-> spec_checked code n b).
Proof.
  intros code t n b H. apply types_table in H. cbn [In] in H. unfold spec_checked, multipoints, polylines, polygons.
  repeat (destruct H as [H|H]; [injection H as <- <-; cbn [type_breaks]|]); [..|contradiction];
    try (split; [contradiction|]; cbn [In app]; intuition discriminate);
    try (rewrite many_spec_checked; cbn [In app]; intuition discriminate);
    try (pose proof (parts_spec_checked 3 false n b) as G1; pose proof (parts_spec_checked 5 true n b) as G2;
         pose proof (parts_spec_checked 13 false n b) as G3; pose proof (parts_spec_checked 15 true n b) as G4;
         pose proof (parts_spec_checked 23 false n b) as G5; pose proof (parts_spec_checked 25 true n b) as G6;
         cbn [existsb with_z Z.eqb Pos.eqb orb] in G1, G2, G3, G4, G5, G6;
         (rewrite G3 || rewrite G4 || rewrite G1 || rewrite G2 || rewrite G5 || rewrite G6);
         clear G1 G2 G3 G4 G5 G6; cbn [In app]; intuition discriminate).
  cbn [In app]. split; [intros; left; lia|intuition (discriminate || lia)].
Qed.
Lemma type_spec_unchecked : forall code t n b, shape_type_of code = Some t ->
  (type_breaks false t n b <-> spec_unchecked code n b).
Proof.
  intros code t n b H. apply types_table in H. cbn [In] in H. unfold spec_unchecked.
  repeat (destruct H as [H|H]; [injection H as <- <-; cbn [type_breaks]|]); [..|contradiction];
    try (split; [contradiction|]; cbn [In app multipoints polylines polygons]; intuition discriminate);
    try (first [rewrite (many_spec_unchecked 8 n b : many_breaks false false (n - 4) b <-> _)
               |rewrite (many_spec_unchecked 18 n b : many_breaks false true (n - 4) b <-> _)];
         cbn [In app multipoints polylines polygons]; intuition discriminate).
  - rewrite (parts_spec_unchecked 3 n b : parts_breaks false false false (n - 4) b <-> _). cbn [In app multipoints polylines polygons]. intuition discriminate.
  - rewrite (parts_spec_unchecked 5 n b : parts_breaks false false true (n - 4) b <-> _). cbn [In app multipoints polylines polygons]. intuition discriminate.
  - rewrite (parts_spec_unchecked 13 n b : parts_breaks false true false (n - 4) b <-> _). cbn [In app multipoints polylines polygons]. intuition discriminate.
  - rewrite (parts_spec_unchecked 15 n b : parts_breaks false true true (n - 4) b <-> _). cbn [In app multipoints polylines polygons]. intuition discriminate.
  - rewrite (parts_spec_unchecked 23 n b : parts_breaks false false false (n - 4) b <-> _). cbn [In app multipoints polylines polygons]. intuition discriminate.
  - rewrite (parts_spec_unchecked 25 n b : parts_breaks false false true (n - 4) b <-> _). cbn [In app multipoints polylines polygons]. intuition discriminate.
  - cbn [In app multipoints polylines polygons]. split; [intros; left; lia|intuition (discriminate || lia)].
Qed.

Lemma family_known : forall code, (code = 31 \/ In code multipoints \/ In code (polylines ++ polygons))%Z ->
  exists t, shape_type_of code = Some t.
Proof.
  intros code G. unfold multipoints, polylines, polygons in G. cbn [In app] in G.
  apply known_type. unfold known_types. cbn [In]. intuition (subst; auto 20).
Qed.

Lemma checked_spec : forall b, record_breaks true b <-> breaks_checked b.
Proof.
  intros b. unfold record_breaks, breaks_checked. split; intros [size [Es H]]; exists size; (split; [exact Es|]).
  - destruct H as [[_ H]|[Hr [code [t [Ec [Et H]]]]]]; [now left|right]. exists code. split; [exact Ec|].
    specialize (Hr eq_refl). destruct H as [[_ H]|[Hs H]].
    + left. split; [|exact H]. apply types_table in Et. cbn [In] in Et. unfold known_types. cbn [In].
      intuition (match goal with E : (_, _) = (_, _) |- _ => injection E as <- <- end; auto 20).
    + right. specialize (Hs eq_refl). rewrite low32_small in H by (unfold is_i32; lia).
      rewrite (type_spec_checked code t _ b Et) in H. unfold spec_checked in H.
      destruct H as [[-> H]|[H|H]]; [left; split; [reflexivity|lia]|right; left; exact H|right; right; exact H].
  - destruct H as [H|[code [Ec H]]]; [left; auto|].
    assert (Hd : (- 2 ^ 30 <= size < 2 ^ 30 \/ ~ (- 2 ^ 30 <= size < 2 ^ 30))%Z) by lia.
    destruct Hd as [Hr|Hr]; [right; split; [auto|]|left; auto].
    assert (Hd2 : (0 <= size < 2 \/ ~ (0 <= size < 2))%Z) by lia.
    destruct Hd2 as [Hs|Hs].
    + assert (Hk : exists t, shape_type_of code = Some t).
      { destruct H as [[H _]|H]; [now apply known_type|apply family_known; tauto]. }
      destruct Hk as [t Et]. exists code, t. split; [exact Ec|]. split; [exact Et|]. auto.
    + assert (Hsp : spec_checked code (2 * size) b).
      { unfold spec_checked. destruct H as [[_ H]|[[-> H]|[H|H]]]; [contradiction|left; lia|right; left; exact H|right; right; exact H]. }
      assert (Hk : exists t, shape_type_of code = Some t) by (apply family_known; unfold spec_checked in Hsp; tauto).
      destruct Hk as [t Et]. exists code, t. split; [exact Ec|]. split; [exact Et|].
      right. split; [auto|]. rewrite low32_small by (unfold is_i32; lia). now apply (type_spec_checked code t).
Qed.

Lemma unchecked_spec : forall b, record_breaks false b <-> breaks_unchecked b.
Proof.
  intros b. unfold record_breaks, breaks_unchecked. split.
  - intros [size [Es [[H _]|[_ [code [t [Ec [Et [[H _]|[_ H]]]]]]]]]]; try discriminate.
    exists size, code. split; [exact Es|]. split; [exact Ec|].
    now apply (type_spec_unchecked code t) in H.
  - intros [size [code [Es [Ec H]]]]. exists size. split; [exact Es|]. right. split; [discriminate|].
    assert (Hsp : spec_unchecked code (low32 (2 * size)) b) by exact H.
    assert (Hk : exists t, shape_type_of code = Some t) by (apply family_known; unfold spec_unchecked in Hsp; tauto).
    destruct Hk as [t Et]. exists code, t. split; [exact Ec|]. split; [exact Et|]. right. split; [discriminate|].
    now apply (type_spec_unchecked code t).
Qed.

Lemma dies_makes : forall A (P : Prop) (g : prog A), dies P g -> (snd (observe g) = Err EPanic <-> P).
Proof.
  intros A P g [l [r [-> H]]]. pose proof (makes_of_calls A l r) as Hm. unfold makes in Hm. rewrite Hm. exact H.
Qed.
Theorem checked_exact : forall d b, (Z.of_nat (length b) < 2 ^ 63)%Z ->
  (snd (observe (read_shape true d b)) = Err EPanic <-> breaks_checked b).
Proof. intros. rewrite <- checked_spec. apply dies_makes. now apply record_dies. Qed.
Theorem unchecked_exact : forall d b, (Z.of_nat (length b) < 2 ^ 63)%Z ->
  (snd (observe (read_shape false d b)) = Err EPanic <-> breaks_unchecked b).
Proof. intros. rewrite <- unchecked_spec. apply dies_makes. now apply record_dies. Qed.

(** against any processor whose callbacks do not panic *)
Lemma dies_exec : forall A (P : Prop) (g : prog A) S (p : proc S) s, dies P g ->
  (forall s e, snd (p_step p s e) <> Err EPanic) -> snd (exec p g s) = Err EPanic -> P.
Proof.
  intros A P g S p s [l [r [-> H]]] Hp. rewrite exec_calls. pose proof (run_calm S p Hp l s) as Hr.
  destruct (run p l s) as [s' [[]|e]]; cbn [exec snd] in *; [apply H|congruence].
Qed.
Theorem any_processor : forall ck b S (p : proc S) s, (Z.of_nat (length b) < 2 ^ 63)%Z ->
  (forall s e, snd (p_step p s e) <> Err EPanic) ->
  snd (exec p (read_shape ck (p_dims p) b) s) = Err EPanic ->
  if ck then breaks_checked b else breaks_unchecked b.
Proof.
  intros ck b S p s Hb Hp H. apply (dies_exec _ _ _ _ _ _ (record_dies ck (p_dims p) b Hb) Hp) in H.
  destruct ck; [now apply checked_spec|now apply unchecked_spec].
Qed.
(** what panics without overflow checks panics with them *)
Theorem unchecked_checked : forall b, (Z.of_nat (length b) < 2 ^ 63)%Z -> breaks_unchecked b -> breaks_checked b.
Proof.
  intros b Hb H. rewrite <- (unchecked_exact xy_dims b Hb) in H. rewrite <- (checked_exact xy_dims b Hb).
  destruct (record_dies true xy_dims b Hb) as [l [r [E _]]].
  assert (Hm : makes (read_shape true xy_dims b) l r) by (rewrite E; apply makes_of_calls).
  destruct (builds_agree _ _ _ _ Hm) as [[_ Hf]|[-> _]].
  - unfold makes in *. rewrite Hf in H. rewrite Hm. exact H.
  - unfold makes in Hm. now rewrite Hm.
Qed.

(** ** Index files *)
Lemma type_known : forall code t, shape_type_of code = Some t -> In code known_types.
Proof.
  intros code t Et. apply types_table in Et. cbn [In] in Et. unfold known_types. cbn [In].
  intuition (match goal with E : (_, _) = (_, _) |- _ => injection E as <- <- end; auto 20).
Qed.
Lemma header_leads : forall P b, (~ header_there b -> ~ P) ->
  leads P (fun r => header_there b /\ int_at BE b 24 = Some (h_length (fst r)) /\ snd r = skipn 100 b) (read_header b).
Proof.
  intros P b HP. change (read_header b) with (read_header (skipn 0 b)). unfold read_header.
  apply D_i32.
  { intros L. apply HP. intros [H _]. lia. }
  intros code Ec. change (0 + 4) with 4.
  destruct (Z.eqb_spec code FILE_CODE) as [E|E].
  2: { apply leads_err; [discriminate|]. apply HP. intros [_ [H _]]. rewrite Ec in H. injection H as ->. now apply E. }
  unfold rbind at 1, rret at 1. cbn [pbind pret fst snd].
  unfold rbind at 1, rtake. rewrite skipn_length.
  destruct (Nat.ltb_spec (length b - 4) 20) as [L|L].
  { apply leads_err; [discriminate|]. apply HP. intros [H _]. lia. }
  cbn [pbind pret fst snd]. rewrite skipn_plus. change (4 + 20) with 24.
  apply D_i32.
  { intros L2. apply HP. intros [H _]. lia. }
  intros len El. change (24 + 4) with 28. apply D_i32.
  { intros L2. apply HP. intros [H _]. lia. }
  intros ver _. change (28 + 4) with 32. unfold read_shape_type.
  destruct (i32_at LE b 32) as [E2|[ty [Et E2]]].
  { rewrite (rbind_assoc_err _ _ _ _ _ _ _ _ E2). apply leads_err; [discriminate|]. apply HP. intros [H _].
    revert E2. unfold r_i32, r_u32, rmap, rbind, rtake, rret. rewrite skipn_length.
    destruct (Nat.ltb_spec (length b - 32) 4); [lia|]. discriminate. }
  rewrite (rbind_assoc_ok _ _ _ _ _ _ _ _ _ E2). change (32 + 4) with 36.
  destruct (shape_type_of ty) as [t|] eqn:Est.
  2: { apply leads_err; [discriminate|]. apply HP. intros [_ [_ [t [Et' Hk]]]]. rewrite Et in Et'. injection Et' as <-.
       destruct (known_type _ Hk) as [t2 Et2]. congruence. }
  unfold rbind at 1, rret at 1. cbn [pbind pret fst snd]. rewrite f64s_list.
  pose proof (int_at_len _ _ _ _ Et) as Hlen.
  apply (D_list _ _ _ _ 8 _ _ _ _ _ ltac:(lia) f64_w).
  - lia.
  - intros L2. apply HP. intros [H _]. lia.
  - intros l L2 _ _. apply leads_ret. cbn [fst snd h_length].
    split; [|split; [exact El|reflexivity]]. split; [lia|]. split; [rewrite Ec, E; reflexivity|].
    exists ty. split; [exact Et|exact (type_known _ _ Est)].
Qed.

Lemma low32_sub : forall z, low32 (low32 z - 100) = low32 (z - 100).
Proof.
  intros z. unfold low32. change (2 ^ 31)%Z with 2147483648%Z. change (2 ^ 32)%Z with 4294967296%Z. f_equal.
  replace ((z + 2147483648) mod 4294967296 - 2147483648 - 100 + 2147483648)%Z
    with ((z + 2147483648) mod 4294967296 - 100)%Z by lia.
  rewrite Zminus_mod_idemp_l. f_equal. lia.
Qed.

Theorem index_dies : forall ck b, dies (index_breaks ck b) (read_index_file ck b).
Proof.
  intros ck b. unfold read_index_file, rbind at 1.
  eapply leads_bind.
  { apply header_leads. intros H [H2 _]. contradiction. }
  intros [h rest] [Hh [El ->]]. cbn [fst snd] in *. set (len := h_length h) in *.
  pose proof (int_at_i32 _ _ _ _ El) as [L1 L2].
  assert (HP : index_breaks ck b <-> if ck then (len < 47 \/ 2 ^ 30 <= len)%Z else (low32 (2 * len - 100) <= -8)%Z).
  { unfold index_breaks. split; [|intros H; split; [exact Hh|exists len; split; [exact El|exact H]]].
    intros [_ [q [E H]]]. rewrite El in E. injection E as <-. exact H. }
  apply dies_leads. change HEADER_SIZE with 100%Z.
  assert (Hops : (ck = true /\ (i32_op ck (len * 2) = Err EPanic /\ (len < 47 \/ 2 ^ 30 <= len)%Z \/
                     i32_op ck (len * 2) = Ok (len * 2)%Z /\ i32_op ck (len * 2 - 100) = Err EPanic /\ (len < 47)%Z)) \/
                 (exists w v, i32_op ck (len * 2) = Ok w /\ i32_op ck (w - 100) = Ok v /\ v = low32 (2 * len - 100) /\
                    (ck = true -> v = 2 * len - 100 /\ - 2 ^ 30 <= len < 2 ^ 30)%Z)).
  { unfold i32_op. destruct (fits_i32 (len * 2)) eqn:E.
    - apply fits_i32_spec in E. pose proof E as [E1 E2]. destruct (fits_i32 (len * 2 - 100)) eqn:E3.
      + apply fits_i32_spec in E3. right. exists (len * 2)%Z, (len * 2 - 100)%Z. split; [reflexivity|].
        split; [now rewrite (proj2 (fits_i32_spec _) E3)|].
        replace (2 * len - 100)%Z with (len * 2 - 100)%Z by lia. split; [now rewrite low32_small|]. lia.
      + assert (~ is_i32 (len * 2 - 100)) as G by (rewrite <- fits_i32_spec; congruence). unfold is_i32 in G.
        destruct ck; [left; split; [reflexivity|right; repeat split; lia]|right].
        exists (len * 2)%Z, (wrap_i32 (len * 2 - 100)). rewrite E3. repeat split; try discriminate.
        rewrite low32_wrap. f_equal. lia.
    - assert (~ is_i32 (len * 2)) as G by (rewrite <- fits_i32_spec; congruence). unfold is_i32 in G.
      destruct ck; [left; split; [reflexivity|left; split; [reflexivity|lia]]|right].
      exists (wrap_i32 (len * 2)). rewrite low32_wrap.
      assert (Hv : exists v, (if fits_i32 (low32 (len * 2) - 100) then Ok (low32 (len * 2) - 100)%Z
                    else Ok (wrap_i32 (low32 (len * 2) - 100))) = Ok v /\ v = low32 (2 * len - 100)).
      { replace (2 * len - 100)%Z with (len * 2 - 100)%Z by lia. rewrite <- low32_sub.
        destruct (fits_i32 (low32 (len * 2) - 100)) eqn:E3; eexists; (split; [reflexivity|]).
        - apply fits_i32_spec in E3. symmetry. now apply low32_small.
        - apply low32_wrap. }
      destruct Hv as [v [Ev Hv]]. exists v. split; [reflexivity|]. split; [exact Ev|]. split; [exact Hv|discriminate]. }
  destruct Hops as [[Hck [[E H]|[E [E2 H]]]]|[w [v [E [E2 [Hv Hr]]]]]].
  - apply D_panic; [exact E|]. apply HP. rewrite Hck. exact H.
  - eapply D_ok; [exact E|]. apply D_panic; [exact E2|]. apply HP. rewrite Hck. now left.
  - eapply D_ok; [exact E|]. eapply D_ok; [exact E2|]. cbv zeta.
    assert (HP2 : index_breaks ck b <-> (v <= -8)%Z).
    { rewrite HP. destruct ck; [specialize (Hr eq_refl); lia|rewrite Hv; reflexivity]. }
    pose proof (low32_range (2 * len - 100)) as [R1 R2]. rewrite <- Hv in R1, R2.
    destruct (Z.leb_spec v (-8)) as [Neg|Pos].
    + apply D_panic; [|now apply HP2]. apply reserve_panic; [lia|].
      split.
      * pose proof (Z.quot_rem v 8 ltac:(lia)). pose proof (Z.rem_bound_pos_neg v 8 ltac:(lia) ltac:(lia)). lia.
      * pose proof (Z.quot_rem v 8 ltac:(lia)). pose proof (Z.rem_bound_pos_neg v 8 ltac:(lia) ltac:(lia)). lia.
    + assert (Hq : (0 <= Z.quot v 8 < 2 ^ 31)%Z).
      { destruct (Z.ltb_spec v 0) as [Lv|Lv].
        - pose proof (Z.quot_rem v 8 ltac:(lia)). pose proof (Z.rem_bound_pos_neg v 8 ltac:(lia) ltac:(lia)). lia.
        - rewrite Z.quot_div_nonneg by lia. split; [apply Z.div_pos; lia|apply Z.div_lt_upper_bound; lia]. }
      pose proof (usize_nonneg (Z.quot v 8) ltac:(lia)) as Vq.
      eapply D_ok; [apply reserve_ok; lia|]. apply leads_dies, dies_quiet; [rewrite HP2; lia|].
      apply (safe_quiet _ (fun _ => True)).
      destruct pair_w as [f Hf]. destruct (list_at _ _ 8 f (Z.to_nat (Z.quot v 8)) b 100 Hf) as [E3|[l [E3 _]]];
        rewrite E3; [apply safe_fail; discriminate|now apply safe_ret].
Qed.
Theorem index_exact : forall ck b, snd (observe (read_index_file ck b)) = Err EPanic <-> index_breaks ck b.
Proof. intros. apply dies_makes. apply index_dies. Qed.
