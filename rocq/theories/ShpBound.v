(** Amount of callbacks a shapefile record causes, and what overflow checks change (C64). *)
From Coq Require Import String Ascii.
From Coq Require Import List NArith ZArith Lia Bool ZifyBool ZifyNat ZifyN.
From Coq Require Import Init.Byte Sorted.
From Verif Require Import Base BaseLemmas Float Event EventLemmas Claims Geom FeatureSpec WkbModel WkbRead WkbInv WkbTop ShpModel ShpSpec ShpTop ShpSafe ShpMore.
Import ListNotations.
Local Open Scope nat_scope.
Local Open Scope list_scope.

(** ** Counting the callbacks of a program *)
(** [within n m g]: at most [n] callbacks, at most [m] when [g] succeeds *)
Definition within {A} (n m : nat) (g : prog A) : Prop :=
  exists l r, g = calls l (Done r) /\ length l <= n /\ forall a, r = Ok a -> length l <= m.

Lemma within_done : forall A n m (r : res A), within n m (Done r).
Proof. intros. exists [], r. cbn. repeat split; intros; lia. Qed.
Lemma within_call : forall n m e, 1 <= n -> 1 <= m -> within n m (pcall e).
Proof. intros. exists [e], (Ok tt). cbn. repeat split; intros; lia. Qed.
Lemma within_bind : forall A B n1 m1 n2 m2 n m (g : prog A) (f : A -> prog B),
  within n1 m1 g -> (forall a l, g = calls l (Done (Ok a)) -> within n2 m2 (f a)) ->
  n1 <= n -> m1 + n2 <= n -> m1 + m2 <= m -> within n m (pbind g f).
Proof.
  intros * [l [r [-> [H1 H2]]]] H Hn Hn2 Hm. rewrite pbind_calls. destruct r as [a|e]; cbn [pbind].
  - destruct (H a l eq_refl) as [l2 [r2 [-> [H3 H4]]]]. specialize (H2 a eq_refl).
    exists (l ++ l2), r2. rewrite calls_app, app_length. repeat split; [lia|].
    intros c Hc. specialize (H4 c Hc). lia.
  - exists l, (Err e). repeat split; [lia|discriminate].
Qed.
Lemma within_lift : forall A B n m (r : res A) (f : A -> prog B),
  (forall a, r = Ok a -> within n m (f a)) -> within n m (pbind (plift r) f).
Proof. intros A B n m [a|e] f H; [apply (H a eq_refl)|apply within_done]. Qed.
Lemma within_weak : forall A n m n' m' (g : prog A), within n m g -> n <= n' -> m <= m' -> within n' m' g.
Proof.
  intros * [l [r [-> [H1 H2]]]] Hn Hm. exists l, r. repeat split; [lia|].
  intros a Ha. specialize (H2 a Ha). lia.
Qed.

(** ** Neighbours of a list *)
Lemma last_next : forall A (l : list A) a b, last (b :: l) a = last l b.
Proof.
  induction l as [|c l IH]; intros a b; [reflexivity|].
  change (last (b :: c :: l) a) with (last (c :: l) a). now rewrite !IH.
Qed.
(** every step costs its weight difference and [k] more *)
Lemma within_windows : forall A (f : nat -> A * A -> prog unit) (c : A -> nat) (k M : nat) l a i,
  (forall x, c x <= M) ->
  (forall j x y, In (x, y) (windows2 (a :: l)) -> exists ev r, f j (x, y) = calls ev (Done r) /\
     length ev + c x <= k + M /\ (r = Ok tt -> length ev + c x <= k + c y)) ->
  exists ev r, pfor f i (windows2 (a :: l)) = calls ev (Done r) /\
    length ev + c a <= k * length l + M /\
    (r = Ok tt -> length ev + c a <= k * length l + c (last l a)).
Proof.
  intros A f c k M l. induction l as [|b l IH]; intros a i HM H.
  - exists [], (Ok tt). specialize (HM a). cbn [windows2 pfor length last]. repeat split; intros; lia.
  - change (windows2 (a :: b :: l)) with ((a, b) :: windows2 (b :: l)) in *. cbn [pfor].
    destruct (H i a b) as [e1 [r1 [E1 [H1 H2]]]]; [now left|].
    unfold pthen. rewrite E1, pbind_calls. destruct r1 as [[]|x]; cbn [pbind].
    + destruct (IH b (S i) HM) as [e2 [r2 [-> [H3 H4]]]]; [intros; apply H; now right|].
      exists (e1 ++ e2), r2. specialize (H2 eq_refl). rewrite calls_app, app_length. cbn [length].
      split; [reflexivity|]. split; [lia|]. intros Hr. specialize (H4 Hr).
      rewrite last_next. lia.
    + exists e1, (Err x). cbn [length]. repeat split; [lia|discriminate].
Qed.

Lemma windows_sorted : forall l, StronglySorted le l -> forall x y : nat, In (x, y) (windows2 l) -> x <= y.
Proof.
  induction 1 as [|a l Hs IH Ha]; intros x y; [contradiction|].
  destruct l as [|b l]; [contradiction|].
  change (windows2 (a :: b :: l)) with ((a, b) :: windows2 (b :: l)). intros [E|Hin].
  - injection E as <- <-. now inversion Ha.
  - now apply IH.
Qed.
Lemma windows_length : forall A (l : list A), length (windows2 l) = length l - 1.
Proof.
  induction l as [|a l IH]; [reflexivity|]. destruct l as [|b l]; [reflexivity|].
  change (windows2 (a :: b :: l)) with ((a, b) :: windows2 (b :: l)). cbn [length] in *. lia.
Qed.

(** the rings at which polygons begin *)
Lemma detect_sorted : forall coords l idx ps, detect_loop coords l idx = Ok ps ->
  length ps <= length l /\ Forall (fun p => idx <= p) ps /\
  StronglySorted le (ps ++ [idx + length l]).
Proof.
  induction l as [|[s e] l IH]; intros idx ps H; cbn [detect_loop] in H.
  - injection H as <-. repeat split; repeat constructor.
  - destruct (if Nat.eqb idx 0 then Ok true else res_map outer_ring (slice coords s e)) as [first|x];
      cbn [res_bind] in H; [|discriminate].
    destruct (detect_loop coords l (S idx)) as [ps'|x] eqn:E; cbn [res_map] in H; [|discriminate].
    injection H as <-. destruct (IH _ _ E) as [H1 [H2 H3]].
    cbn [length]. replace (idx + S (length l)) with (S idx + length l) by lia.
    assert (H4 : Forall (fun p => idx <= p) ps') by (eapply Forall_impl; [|exact H2]; cbn; intros; lia).
    destruct first; cbn [length app].
    + split; [lia|]. split; [constructor; [lia|exact H4]|]. constructor; [exact H3|].
      apply Forall_app. split; [exact H4|constructor; [lia|constructor]].
    + split; [lia|]. split; [exact H4|exact H3].
Qed.

Lemma slice_nth : forall A (l : list A) s e x d, slice l (N.of_nat s) (N.of_nat e + 1) = Ok x -> s <= e ->
  exists y, x = nth s l d :: y /\ length y = e - s /\ last y (nth s l d) = nth e l d /\ e < length l.
Proof.
  intros A l s e x d H Hse. unfold slice in H.
  destruct ((N.of_nat s <=? N.of_nat e + 1)%N && (N.of_nat e + 1 <=? N.of_nat (length l))%N) eqn:C; [|discriminate].
  apply andb_true_iff in C as [_ C]. apply N.leb_le in C. injection H as <-.
  replace (N.to_nat (N.of_nat e + 1 - N.of_nat s)) with (S (e - s)) by lia. rewrite Nat2N.id.
  assert (Hlen : s + (e - s) < length l) by lia.
  replace (nth e l d) with (nth (s + (e - s)) l d) by (f_equal; lia).
  assert (He : e < length l) by lia. clear C Hse. generalize dependent (e - s). intros k Hk.
  cut (exists y, firstn (S k) (skipn s l) = nth s l d :: y /\ length y = k /\ last y (nth s l d) = nth (s + k) l d);
    [intros [y [? [? ?]]]; exists y; auto|]. clear He.
  revert l Hk. induction s as [|s IH]; intros l Hk; destruct l as [|a l]; cbn [length] in Hk; try lia.
  - cbn [skipn nth Nat.add]. exists (firstn k l). split; [reflexivity|]. split; [rewrite firstn_length; lia|].
    assert (Hk' : k <= length l) by lia. clear Hk. revert l a Hk'.
    induction k as [|k IHk]; intros l a Hk; [reflexivity|].
    destruct l as [|b l]; cbn [length] in Hk; [lia|]. cbn [firstn].
    specialize (IHk l b). cbn [nth] in *. rewrite <- IHk by lia.
    apply last_next.
  - cbn [skipn nth Nat.add]. apply IH. lia.
Qed.

(** ** Points, parts and groups of parts *)
Lemma emit_count : forall multi gz gm coords zs ms start n idx,
  exists l r, emit_points multi gz gm coords zs ms start n idx = calls l (Done r) /\
    length l <= n /\ length l <= length coords - (N.to_nat start + idx).
Proof.
  intros. revert idx. induction n as [|n IH]; intros idx; cbn [emit_points].
  - exists [], (Ok tt). cbn. repeat split; lia.
  - unfold pthen, emit_point, at_index.
    destruct (N.ltb_spec (start + N.of_nat idx) (N.of_nat (length coords))) as [Hlt|Hge].
    2: { exists [], (Err EPanic). cbn. repeat split; lia. }
    destruct (nth_error coords (N.to_nat (start + N.of_nat idx))) as [c|] eqn:Ec.
    2: { exists [], (Err EPanic). cbn. repeat split; lia. }
    destruct (IH (S idx)) as [l [r [E [H1 H2]]]]. rewrite E.
    assert (Hone : forall e, exists l0 r0, pbind (pcall e) (fun _ => calls l (Done r)) = calls l0 (Done r0) /\
              length l0 <= S n /\ length l0 <= length coords - (N.to_nat start + idx)).
    { intros e. exists (e :: l), r. cbn [length]. split; [reflexivity|]. split; lia. }
    assert (Hnone : forall x, exists l0 r0, (Done (Err x) : prog unit) = calls l0 (Done r0) /\
              length l0 <= S n /\ length l0 <= length coords - (N.to_nat start + idx)).
    { intros x. exists [], (Err x). cbn. repeat split; lia. }
    cbn [plift pbind]. destruct multi; [|apply Hone].
    destruct gz; cbn [plift pbind pret res_map].
    + fold (at_index zs (start + N.of_nat idx)).
      destruct (at_index zs (start + N.of_nat idx)) as [z|x]; cbn [res_map pbind]; [|apply Hnone].
      destruct gm; cbn [plift pbind pret res_map]; [|apply Hone].
      fold (at_index ms (start + N.of_nat idx)).
      destruct (at_index ms (start + N.of_nat idx)) as [m|x]; cbn [res_map pbind]; [apply Hone|apply Hnone].
    + destruct gm; cbn [plift pbind pret res_map]; [|apply Hone].
      fold (at_index ms (start + N.of_nat idx)).
      destruct (at_index ms (start + N.of_nat idx)) as [m|x]; cbn [res_map pbind]; [apply Hone|apply Hnone].
Qed.

Definition capped (mp : multipart) (x : N) : nat := Nat.min (N.to_nat x) (length (mp_coords mp)).

Lemma part_count : forall ck multi gz gm mp i s e,
  exists l r, process_part ck multi gz gm mp i (s, e) = calls l (Done r) /\
    length l <= 2 + (capped mp e - capped mp s) /\ (r = Ok tt -> ck = true -> capped mp s <= capped mp e).
Proof.
  intros. unfold process_part.
  destruct (usub ck e s) as [n|x] eqn:Es; cbn [plift pbind].
  2: { exists [], (Err x). cbn. repeat split; [lia|discriminate]. }
  assert (Hck : ck = true -> (s <= e)%N).
  { intros ->. unfold usub in Es. destruct (N.leb_spec s e); [assumption|discriminate]. }
  destruct (emit_count multi gz gm (mp_coords mp) (mp_z mp) (mp_m mp) s (N.to_nat (e - s)) 0) as [l [r [E [H1 H2]]]].
  unfold pthen. cbn [pbind pcall]. rewrite E, pbind_calls. unfold capped.
  destruct r as [[]|x]; cbn [pbind].
  - exists (LineStringBegin false (N.to_nat n) i :: l ++ [LineStringEnd false i]), (Ok tt).
    split; [cbn [calls]; now rewrite calls_app|]. cbn [length]. rewrite app_length. cbn [length].
    split; [lia|]. intros _ Hc. specialize (Hck Hc). lia.
  - exists (LineStringBegin false (N.to_nat n) i :: l), (Err x). cbn [length]. repeat split; [lia|discriminate].
Qed.

(** a group of parts: neighbouring entries of the part table *)
Lemma group_frame : forall ck multi gz gm as_poly mp i gs ge (n m : nat), gs <= ge ->
  (forall x, slice (mp_parts mp) (N.of_nat gs) (N.of_nat ge + 1) = Ok x ->
     within n m (pfor (process_part ck multi gz gm mp) 0 (windows2 x))) ->
  m <= n -> within (2 + n) (2 + m) (process_geom_part ck multi gz gm as_poly mp i (gs, ge)).
Proof.
  intros * Hse H Hmn. unfold process_geom_part. apply within_lift. intros k _. unfold pthen.
  eapply (within_bind _ _ 1 1 (1 + n) (1 + m)); [destruct as_poly; [apply within_call; lia|apply within_done]| |lia|lia|lia].
  intros _ _ _. apply within_lift. intros x Hx.
  eapply (within_bind _ _ n m 1 1); [now apply H| |lia|lia|lia].
  intros _ _ _. destruct as_poly; [apply within_call; lia|apply within_done].
Qed.

Definition weight (mp : multipart) (j : nat) : nat :=
  2 * Nat.min j (num_parts mp) + capped mp (nth j (mp_parts mp) 0%N).
Lemma capped_le : forall mp x, capped mp x <= length (mp_coords mp).
Proof. intros. unfold capped. lia. Qed.

Lemma group_checked : forall multi gz gm as_poly mp i gs ge,
  exists l r, process_geom_part true multi gz gm as_poly mp i (gs, ge) = calls l (Done r) /\
    length l + weight mp gs <= 2 + (2 * num_parts mp + length (mp_coords mp)) /\
    (r = Ok tt -> length l + weight mp gs <= 2 + weight mp ge).
Proof.
  intros. 
  assert (Hw : weight mp gs <= 2 * num_parts mp + length (mp_coords mp)).
  { unfold weight. pose proof (capped_le mp (nth gs (mp_parts mp) 0%N)). lia. }
  destruct (Nat.le_gt_cases gs ge) as [Hse|Hse].
  2: { unfold process_geom_part, usub. destruct (N.leb_spec (N.of_nat gs) (N.of_nat ge)); [lia|].
       exists [], (Err EPanic). split; [reflexivity|]. cbn [length]. split; [lia|discriminate]. }
  unfold process_geom_part. rewrite usub_ok by lia. cbn [plift pbind].
  destruct (slice (mp_parts mp) (N.of_nat gs) (N.of_nat ge + 1)) as [x|x] eqn:Ex.
  - destruct (slice_nth _ _ _ _ _ 0%N Ex Hse) as [y [-> [Hy [Hl He]]]].
    destruct (within_windows _ (process_part true multi gz gm mp) (capped mp) 2 (length (mp_coords mp))
                y (nth gs (mp_parts mp) 0%N) 0 (capped_le mp)) as [ev [r [E [H1 H2]]]].
    { intros j a b _. destruct (part_count true multi gz gm mp j a b) as [l [r [E [H1 H2]]]].
      exists l, r. split; [exact E|]. pose proof (capped_le mp a). pose proof (capped_le mp b).
      split; [lia|]. intros Hr. specialize (H2 Hr eq_refl). lia. }
    rewrite Hl, Hy in *. unfold pthen. rewrite E.
    assert (Hg : weight mp ge = 2 * ge + capped mp (nth ge (mp_parts mp) 0%N)) by (unfold weight, num_parts; lia).
    assert (Hs : weight mp gs = 2 * gs + capped mp (nth gs (mp_parts mp) 0%N)) by (unfold weight, num_parts; lia).
    assert (Hp : ge <= num_parts mp) by (unfold num_parts; lia).
    destruct as_poly; cbn [pbind pcall pret plift]; rewrite pbind_calls; destruct r as [[]|x]; cbn [pbind].
    + exists (PolygonBegin false (N.to_nat (N.of_nat ge - N.of_nat gs)) i :: ev ++ [PolygonEnd false i]), (Ok tt).
      split; [cbn [calls]; now rewrite calls_app|]. cbn [length]. rewrite app_length. cbn [length].
      specialize (H2 eq_refl). pose proof (capped_le mp (nth ge (mp_parts mp) 0%N)). split; [lia|]. intros _. lia.
    + exists (PolygonBegin false (N.to_nat (N.of_nat ge - N.of_nat gs)) i :: ev), (Err x).
      split; [reflexivity|]. cbn [length]. split; [lia|discriminate].
    + exists ev, (Ok tt). split; [reflexivity|]. specialize (H2 eq_refl). 
      pose proof (capped_le mp (nth ge (mp_parts mp) 0%N)). split; [lia|]. intros _. lia.
    + exists ev, (Err x). split; [reflexivity|]. split; [lia|discriminate].
  - destruct as_poly; cbn [pthen pbind pcall pret plift].
    + exists [PolygonBegin false (N.to_nat (N.of_nat ge - N.of_nat gs)) i], (Err x). cbn [length].
      split; [reflexivity|]. split; [lia|discriminate].
    + exists [], (Err x). cbn [length]. split; [reflexivity|]. split; [lia|discriminate].
Qed.

Lemma group_any : forall ck multi gz gm as_poly mp i gs ge, gs <= ge -> ge <= num_parts mp ->
  exists l r, process_geom_part ck multi gz gm as_poly mp i (gs, ge) = calls l (Done r) /\
    length l + (2 + length (mp_coords mp)) * gs <= 2 + (2 + length (mp_coords mp)) * ge.
Proof.
  intros * Hse Hp. set (w := 2 + length (mp_coords mp)).
  destruct (group_frame ck multi gz gm as_poly mp i gs ge (w * (ge - gs)) (w * (ge - gs)) Hse) as [l [r [E [H1 _]]]].
  - intros x Ex. destruct (slice_nth _ _ _ _ _ 0%N Ex Hse) as [y [-> [Hy _]]].
    assert (Hlen : length (windows2 (nth gs (mp_parts mp) 0%N :: y)) = ge - gs)
      by (rewrite windows_length; cbn [length]; lia).
    rewrite <- Hlen. generalize (windows2 (nth gs (mp_parts mp) 0%N :: y)). intros ws. generalize 0.
    induction ws as [|[s e] ws IH]; intros j; cbn [pfor length]; [apply within_done|].
    destruct (part_count ck multi gz gm mp j s e) as [l [r [E [H1 _]]]].
    pose proof (capped_le mp e).
    eapply (within_bind _ _ w w); [|intros; apply IH|lia|lia|lia].
    exists l, r. repeat split; [exact E|unfold w; lia|intros; unfold w; lia].
  - lia.
  - exists l, r. split; [exact E|]. nia.
Qed.

(** ** Multipart shapes *)
Lemma geom_parts_ok : forall mp gp, mp_parts mp <> [] -> detect_polys mp = Ok gp ->
  exists a l, gp = a :: l /\ length l <= num_parts mp /\
    (forall x y, In (x, y) (windows2 gp) -> x <= y /\ y <= num_parts mp).
Proof.
  intros mp gp Hne H. unfold detect_polys in H.
  destruct (detect_loop (mp_coords mp) (windows2 (mp_parts mp)) 0) as [ps|x] eqn:E; cbn [res_map] in H; [|discriminate].
  injection H as <-. apply detect_sorted in E. rewrite windows_length in E. destruct E as [H1 [_ H3]].
  fold (num_parts mp) in *. cbn [Nat.add] in H3.
  assert (Hall : Forall (fun y => y <= num_parts mp) (ps ++ [num_parts mp])).
  { apply Forall_app. split; [|repeat constructor]. clear H1. induction ps as [|p ps IH]; constructor.
    - inversion H3 as [|? ? ? Hf]; subst. apply Forall_app in Hf as [_ Hf]. now inversion Hf.
    - apply IH. now inversion H3. }
  assert (Hin : forall x y (l : list nat), In (x, y) (windows2 l) -> In y l).
  { clear. induction l as [|a l IH]; [contradiction|]. destruct l as [|b l]; [contradiction|].
    change (windows2 (a :: b :: l)) with ((a, b) :: windows2 (b :: l)). intros [Ei|Hi].
    - injection Ei as _ <-. right. now left.
    - right. now apply IH. }
  destruct (ps ++ [num_parts mp]) as [|a l] eqn:Eg; [destruct ps; discriminate|].
  exists a, l. split; [reflexivity|]. split.
  - apply (f_equal (@length nat)) in Eg. rewrite app_length in Eg. cbn [length] in Eg. lia.
  - intros x y Hi. split; [now apply (windows_sorted _ H3)|].
    rewrite Forall_forall in Hall. apply Hall. now apply Hin in Hi.
Qed.

Lemma geom_parts_any : forall (as_poly : bool) mp, mp_parts mp <> [] ->
  (exists e, (if as_poly then plift (detect_polys mp) else pret [0; num_parts mp]) = Done (Err e)) \/
  exists a l, (if as_poly then plift (detect_polys mp) else pret [0; num_parts mp]) = pret (a :: l) /\
    length l <= S (num_parts mp) /\ (as_poly = true -> length l <= num_parts mp) /\
    (as_poly = false -> length l = 1) /\
    (forall x y, In (x, y) (windows2 (a :: l)) -> x <= y /\ y <= num_parts mp).
Proof.
  intros [] mp Hne.
  - destruct (detect_polys mp) as [gp|e] eqn:E; [right|left; now exists e].
    destruct (geom_parts_ok mp gp Hne E) as [a [l [-> [H1 H2]]]]. exists a, l.
    repeat split; try discriminate; try lia; apply (H2 _ _ H).
  - right. exists 0, [num_parts mp]. cbn [length]. split; [reflexivity|].
    repeat split; try discriminate; try lia.
    all: cbn [windows2 In] in H; destruct H as [H|[]]; injection H as <- <-; lia.
Qed.

Definition linear_cost (mp : multipart) : nat := 4 + 4 * num_parts mp + length (mp_coords mp).
Definition product_cost (mp : multipart) : nat :=
  4 + 4 * num_parts mp + num_parts mp * length (mp_coords mp).

Lemma multipart_count : forall (ck : bool) d as_poly mp n, mp_parts mp <> [] ->
  (if ck then linear_cost mp else product_cost mp) <= n ->
  within n n (process_multipart ck d as_poly mp).
Proof.
  intros * Hne Hn. unfold process_multipart.
  destruct (geom_parts_any as_poly mp Hne) as [[e E]|[a [l [E [Hl [Hlp [Hll Hw]]]]]]]; rewrite E; clear E.
  { apply within_done. }
  set (P := num_parts mp) in *. set (C := length (mp_coords mp)) in *.
  cbn [pbind pret]. unfold pthen.
  cut (exists k, (if as_poly then k <= 2 * P else k <= 2) /\
         within (k + 2 * P + (if ck then C else P * C)) (k + 2 * P + (if ck then C else P * C))
           (pfor (process_geom_part ck (dz d || dm d) (dz d && filled (mp_z mp)) (dm d && filled (mp_m mp)) as_poly mp) 0 (windows2 (a :: l)))).
  { intros [k [Hk H]]. unfold linear_cost, product_cost in Hn. fold P C in Hn.
    assert (Hk4 : 2 + k + 2 * P + (if ck then C else P * C) <= n) by (destruct as_poly, ck; lia).
    set (X := k + 2 * P + (if ck then C else P * C)) in *.
    eapply (within_bind _ _ 1 1 (S X) (S X)); [destruct as_poly; apply within_call; lia| |lia|lia|lia].
    intros _ _ _. eapply (within_bind _ _ X X 1 1); [exact H| |lia|lia|lia].
    intros _ _ _. destruct as_poly; apply within_call; lia. }
  exists (2 * length l). split; [destruct as_poly; [specialize (Hlp eq_refl); lia|specialize (Hll eq_refl); lia]|].
  destruct ck.
  - destruct (within_windows _ (process_geom_part true (dz d || dm d) (dz d && filled (mp_z mp))
                (dm d && filled (mp_m mp)) as_poly mp) (weight mp) 2 (2 * P + C) l a 0) as [ev [r [Ev [H1 _]]]].
    + intros x. unfold weight. pose proof (capped_le mp (nth x (mp_parts mp) 0%N)). subst P C. lia.
    + intros j x y _. apply group_checked.
    + exists ev, r. repeat split; [exact Ev|lia|intros; lia].
  - assert (Hc : forall x y, In (x, y) (windows2 (a :: l)) -> x <= P /\ y <= P).
    { intros x y Hi. destruct (Hw x y Hi). lia. }
    destruct (within_windows _ (process_geom_part false (dz d || dm d) (dz d && filled (mp_z mp))
                (dm d && filled (mp_m mp)) as_poly mp) (fun j => (2 + C) * Nat.min j P) 2 ((2 + C) * P) l a 0) as [ev [r [Ev [H1 _]]]].
    + intros x. cbv beta. apply Nat.mul_le_mono_l. lia.
    + intros j x y Hi. destruct (Hw x y Hi) as [Hxy Hy].
      destruct (group_any false (dz d || dm d) (dz d && filled (mp_z mp)) (dm d && filled (mp_m mp)) as_poly mp j x y Hxy Hy) as [ev [r [Ev H1]]].
      exists ev, r. split; [exact Ev|]. fold C in H1. rewrite !Nat.min_l by (fold P; lia).
      assert ((2 + C) * y <= (2 + C) * P) by (apply Nat.mul_le_mono_l; exact Hy).
      split; [lia|]. intros _. lia.
    + exists ev, r. repeat split; [exact Ev|lia|intros; lia].
Qed.

(** ** Records *)
(** [affords n g]: the callbacks of [g] and the bytes it leaves are at most [n] *)
Definition affords {A} (n : nat) (g : prog (A * list byte)) : Prop :=
  exists l r, g = calls l (Done r) /\
    match r with Ok (_, rest) => length l + length rest <= n | Err _ => length l <= n end.
(** [uses Q f]: [f] makes no callbacks, and reading [k] bytes it returns a value with [Q] *)
Definition uses {A} (Q : A -> nat -> Prop) (f : rd A) : Prop :=
  forall b, (exists e, f b = Done (Err e)) \/
    exists a rest k, f b = pret (a, rest) /\ length b = k + length rest /\ Q a k.

Lemma affords_err : forall A n e, @affords A n (Done (Err e)).
Proof. intros. exists [], (Err e). split; [reflexivity|cbn; lia]. Qed.
Lemma affords_step : forall A B Q (f : rd A) (g : A -> rd B) n b, uses Q f ->
  (forall a rest k, length b = k + length rest -> Q a k -> affords n (g a rest)) ->
  affords n (rbind f g b).
Proof.
  intros * Hf H. unfold rbind. destruct (Hf b) as [[e ->]|[a [rest [k [-> [H1 H2]]]]]].
  - apply affords_err.
  - exact (H a rest k H1 H2).
Qed.
Lemma affords_lift : forall A B (r : res A) (g : A -> rd B) n b,
  (forall a, r = Ok a -> affords n (g a b)) -> affords n (rthen r g b).
Proof. intros A B [a|e] g n b H; [exact (H a eq_refl)|apply affords_err]. Qed.
Lemma affords_then : forall A B n m (f : rd A) (g : A -> rd B) b,
  affords n (f b) -> (forall a rest, affords (length rest + m) (g a rest)) ->
  affords (n + m) (rbind f g b).
Proof.
  intros * [l [r [E H1]]] H. unfold rbind. rewrite E, pbind_calls.
  destruct r as [[a rest]|e]; cbn [pbind fst snd].
  - destruct (H a rest) as [l2 [r2 [-> H2]]]. exists (l ++ l2), r2. rewrite calls_app, app_length.
    split; [reflexivity|]. destruct r2 as [[c rest2]|e]; lia.
  - exists l, (Err e). split; [reflexivity|lia].
Qed.
Lemma affords_prog : forall (g : prog unit) k n b, within k k g -> k + length b <= n -> affords n (rprog g b).
Proof.
  intros g k n b [l [r [-> [H1 _]]]] H. unfold rprog. rewrite pbind_calls. destruct r as [a|e]; cbn [pbind].
  - exists l, (Ok (a, b)). split; [reflexivity|lia].
  - exists l, (Err e). split; [reflexivity|lia].
Qed.

Lemma uses_ret : forall A (a : A) (Q : A -> nat -> Prop), Q a 0 -> uses Q (rret a).
Proof. intros A a Q H b. right. exists a, b, 0. repeat split; assumption. Qed.
Lemma uses_bind : forall A B (Q : A -> nat -> Prop) (R : B -> nat -> Prop) (f : rd A) (g : A -> rd B), uses Q f ->
  (forall a k, Q a k -> uses (fun c j => R c (k + j)) (g a)) -> uses R (rbind f g).
Proof.
  intros * Hf H b. unfold rbind. destruct (Hf b) as [[e ->]|[a [rest [k [-> [H1 H2]]]]]]; [left; now exists e|].
  cbn [pbind pret fst snd]. destruct (H a k H2 rest) as [[e E]|[c [rest2 [j [E [H3 H4]]]]]]; rewrite E.
  - left. now exists e.
  - right. exists c, rest2, (k + j). repeat split; [lia|exact H4].
Qed.
Lemma uses_lift : forall A B (r : res A) (g : A -> rd B) (R : B -> nat -> Prop),
  (forall a, r = Ok a -> uses R (g a)) -> uses R (rthen r g).
Proof. intros A B [a|e] g R H b; [exact (H a eq_refl b)|left; now exists e]. Qed.
Lemma uses_take : forall n, uses (fun x k => k = n) (rtake n).
Proof.
  intros n b. unfold rtake. destruct (Nat.ltb_spec (length b) n) as [Hl|Hl]; [left; now exists EIo|].
  right. exists (firstn n b), (skipn n b), n. repeat split. rewrite skipn_length. lia.
Qed.
Lemma uses_i32 : forall e, uses (fun x k => k = 4) (r_i32 e).
Proof.
  intros e b. destruct (uses_take 4 b) as [[x E]|[a [rest [k [E [H1 H2]]]]]].
  - left. exists x. unfold r_i32, r_u32, rmap, rbind. now rewrite E.
  - right. unfold r_i32, r_u32, rmap, rbind. rewrite E. eexists _, rest, k. repeat split; eassumption.
Qed.
Lemma uses_f64 : uses (fun x k => k = 8) (r_f64 LE).
Proof.
  intros b. destruct (uses_take 8 b) as [[x E]|[a [rest [k [E [H1 H2]]]]]].
  - left. exists x. unfold r_f64, rmap, rbind. now rewrite E.
  - right. unfold r_f64, rmap, rbind. rewrite E. eexists _, rest, k. repeat split; eassumption.
Qed.
Lemma uses_list : forall A (f : rd A) w v n, reads_w f w v ->
  uses (fun l k => length l = n /\ k = w * n) (r_list f n).
Proof.
  intros A f w v n Hf. induction n as [|n IH]; cbn [r_list]; [apply uses_ret; split; [reflexivity|lia]|].
  eapply (uses_bind _ _ (fun _ k => k = w)).
  - intros b. rewrite Hf. destruct (Nat.ltb_spec (length b) w); [left; now exists EIo|].
    right. exists (v (firstn w b)), (skipn w b), w. repeat split. rewrite skipn_length. lia.
  - intros a k ->. eapply uses_bind; [exact IH|]. intros l k [H1 ->]. apply uses_ret. split; [cbn [length]; lia|rewrite Nat.mul_succ_r; lia].
Qed.
Lemma uses_box : uses (fun l k => k = 32) (read_bbox 2).
Proof.
  unfold read_bbox. rewrite f64s_list. intros b.
  destruct (uses_list _ _ 8 _ (2 * 2) f64_w b) as [[e E]|[a [r [k [E [H1 [_ H2]]]]]]]; [left; eauto|].
  right. exists a, r, k. auto.
Qed.
Lemma uses_xy : forall n, uses (fun l k => length l = N.to_nat n /\ k = 16 * N.to_nat n) (read_xy n).
Proof. intros n. unfold read_xy. apply uses_lift. intros _ _. destruct xy_w as [v Hv]. apply (uses_list _ _ 16 v _ Hv). Qed.
Lemma uses_any : forall A (Q : A -> nat -> Prop) f, uses Q f -> uses (fun _ _ => True) f.
Proof. intros A Q f H b. destruct (H b) as [?|[a [r [k [? [? ?]]]]]]; [now left|right; exists a, r, k; auto]. Qed.
Lemma uses_dim : forall (c : bool) n, uses (fun _ _ => True) (if c then read_dim_values n else rret []).
Proof.
  intros [] n; [|now apply uses_ret]. unfold read_dim_values, read_bbox. rewrite f64s_list.
  eapply uses_bind; [apply (uses_list _ _ 8 _ _ f64_w)|]. intros a k _. apply uses_lift. intros _ _.
  apply (uses_any _ _ _ (uses_list _ _ 8 _ _ f64_w)).
Qed.
Lemma uses_guard : forall (c : bool) e, uses (fun (_ : unit) _ => True) (if c then rret tt else rfail e).
Proof. intros [] e; [now apply uses_ret|intros b; left; now exists e]. Qed.

Lemma uses_multipart : forall ck size has_z,
  uses (fun mp k => mp_parts mp <> [] /\
                    40 + 4 * num_parts mp + 16 * length (mp_coords mp) <= k) (read_multipart ck size has_z).
Proof.
  intros. unfold read_multipart. cbv zeta.
  eapply uses_bind; [apply uses_box|]. intros _ k1 ->.
  eapply uses_bind; [apply uses_i32|]. intros parts k2 ->.
  eapply uses_bind; [apply uses_i32|]. intros points k3 ->.
  apply uses_lift. intros s1 _. apply uses_lift. intros s2 _. apply uses_lift. intros s3 _.
  apply uses_lift. intros s4 _.
  eapply uses_bind; [apply uses_guard|]. intros _ k4 _.
  apply uses_lift. intros s5 _. apply uses_lift. intros s6 _.
  eapply uses_bind; [apply (uses_list _ _ 4 _ _ i32_w)|]. intros index k5 [H5 ->].
  eapply uses_bind; [apply uses_xy|]. intros coords k6 [H6 ->].
  eapply uses_bind; [apply uses_dim|]. intros zs k7 _.
  eapply uses_bind; [apply uses_dim|]. intros ms k8 _.
  apply uses_ret. unfold num_parts. cbn [mp_parts mp_coords]. rewrite app_length. cbn [length].
  split; [destruct index; discriminate|]. lia.
Qed.

(** the callbacks and the unread bytes of a record of [n] bytes *)
Definition record_cost (ck : bool) (n : nat) : nat := if ck then n else n + n * n / 256.

Lemma square_div : forall p c n, 52 + 4 * p + 16 * c <= n -> p * c <= n * n / 256.
Proof.
  intros p c n H. apply Nat.div_le_lower_bound; [lia|].
  apply Nat.le_trans with ((4 * p + 16 * c) * (4 * p + 16 * c)).
  - apply Nat2Z.inj_le. rewrite !Nat2Z.inj_mul, !Nat2Z.inj_add, !Nat2Z.inj_mul.
    pose proof (Z.square_nonneg (4 * Z.of_nat p - 16 * Z.of_nat c)). lia.
  - apply Nat.mul_le_mono; lia.
Qed.

Lemma parts_cost : forall (ck : bool) d size has_z as_poly b n, length b + 12 <= n ->
  affords (record_cost ck n) (read_parts ck d size has_z as_poly b).
Proof.
  intros * Hb. unfold read_parts. eapply affords_step; [apply uses_multipart|].
  intros mp rest k Hk [Hne Hc]. set (p := num_parts mp) in *. set (c := length (mp_coords mp)) in *.
  eapply affords_prog; [apply (multipart_count ck d as_poly mp _ Hne (Nat.le_refl _))|].
  unfold record_cost, linear_cost, product_cost. fold p c. destruct ck; [lia|].
  pose proof (square_div p c n). lia.
Qed.

Lemma emit_within : forall multi gz gm coords zs ms start n idx,
  within n n (emit_points multi gz gm coords zs ms start n idx).
Proof.
  intros. destruct (emit_count multi gz gm coords zs ms start n idx) as [l [r [E [H _]]]].
  exists l, r. repeat split; auto.
Qed.

Lemma multipoint_cost : forall (ck : bool) d size has_z b n, length b + 12 <= n ->
  affords n (read_multipoint ck d size has_z b).
Proof.
  intros * Hb. unfold read_multipoint. cbv zeta.
  eapply affords_step; [apply uses_box|]. intros _ b1 k1 E1 ->.
  eapply affords_step; [apply uses_i32|]. intros num b2 k2 E2 ->.
  apply affords_lift. intros s1 _. apply affords_lift. intros s2 _. apply affords_lift. intros s3 _.
  apply affords_lift. intros s4 _. apply affords_lift. intros s5 _.
  eapply affords_step; [apply uses_guard|]. intros _ b3 k3 E3 _.
  eapply affords_step; [apply uses_xy|]. intros coords b4 k4 E4 [_ ->].
  eapply affords_step; [apply uses_dim|]. intros zs b5 k5 E5 _.
  eapply affords_step; [apply uses_dim|]. intros ms b6 k6 E6 _.
  set (c := N.to_nat (as_usize num)) in *.
  apply (affords_prog _ (2 + c)); [|lia].
  eapply (within_bind _ _ 1 1 (1 + c) (1 + c)); [apply within_call; lia| |lia|lia|lia].
  intros _ _ _. eapply (within_bind _ _ c c 1 1); [apply emit_within| |lia|lia|lia].
  intros _ _ _. apply within_call; lia.
Qed.

Lemma point_cost : forall d size t b n, length b + 12 <= n -> affords n (read_point d size t b).
Proof.
  intros * Hb. unfold read_point. cbv zeta.
  eapply affords_step; [apply uses_guard|]. intros _ b1 k1 E1 _.
  eapply affords_step; [apply uses_f64|]. intros x b2 k2 E2 ->.
  eapply affords_step; [apply uses_f64|]. intros y b3 k3 E3 ->.
  assert (Ho : forall c : bool, uses (fun (_ : option f64) _ => True) (if c then rmap Some (r_f64 LE) else rret None)).
  { intros []; [|now apply uses_ret]. eapply uses_bind; [apply uses_f64|]. intros. now apply uses_ret. }
  eapply affords_step; [apply Ho|]. intros z b4 k4 E4 _.
  eapply affords_step; [apply Ho|]. intros m b5 k5 E5 _.
  set (e := if multi_dim d then Coord x y (if dz d then z else None) (if dm d then m else None) None None 0 else Xy x y 0).
  exists [PointBegin 0; e; PointEnd 0], (Ok (tt, b5)). split.
  - unfold e. destruct (multi_dim d); reflexivity.
  - cbn [length]. lia.
Qed.

Lemma record_cost_ge : forall ck n, n <= record_cost ck n.
Proof. intros [] n; unfold record_cost; lia. Qed.
Lemma affords_weak : forall A n m (g : prog (A * list byte)), affords n g -> n <= m -> affords m g.
Proof. intros * [l [r [E H]]] Hm. exists l, r. split; [exact E|]. destruct r as [[a rest]|e]; lia. Qed.

Theorem shape_cost : forall (ck : bool) d b, affords (record_cost ck (length b)) (read_shape ck d b).
Proof.
  intros ck d b. unfold read_shape.
  eapply affords_step; [apply uses_i32|]. intros number b1 k1 E1 ->.
  eapply affords_step; [apply uses_i32|]. intros size b2 k2 E2 ->.
  apply affords_lift. intros doubled _.
  rewrite <- (Nat.add_0_r (record_cost ck (length b))). apply affords_then; [|intros; exists [], (Ok (number, size, rest)); split; [reflexivity|cbn; lia]].
  unfold read_shape_rec, read_shape_type.
  match goal with |- affords _ (rbind ?f _ _) => assert (Hu : uses (fun (_ : shape_type) k => k = 4) f) end.
  { eapply uses_bind; [apply uses_i32|]. intros code k ->. destruct (shape_type_of code); [now apply uses_ret|].
    intros b0. left. eexists. reflexivity. }
  eapply affords_step; [exact Hu|]. intros t b3 k3 E3 ->.
  apply affords_lift. intros rs _.
  assert (Hb : length b3 + 12 <= length b) by lia.
  pose proof (record_cost_ge ck (length b)) as Hg.
  destruct t; try (apply parts_cost; lia);
    try (eapply affords_weak; [apply multipoint_cost; exact Hb|exact Hg]);
    try (eapply affords_weak; [apply point_cost; exact Hb|exact Hg]).
  - exists [], (Ok (tt, b3)). split; [reflexivity|cbn; lia].
  - unfold read_multipatch. apply affords_lift. intros _ _.
    eapply affords_step; [apply uses_take|]. intros x b4 k4 E4 ->.
    exists [], (Ok (tt, b4)). split; [reflexivity|cbn; lia].
Qed.

(** ** What overflow checks change *)
(** [agree g h]: the same callbacks and result, unless [g] panics after callbacks that [h] makes too *)
Definition agree {A} (g h : prog A) : Prop :=
  (exists l r, g = calls l (Done r) /\ h = calls l (Done r)) \/
  (exists l k, g = calls l (Done (Err EPanic)) /\ h = calls l k).
Definition agree_res {A} (r s : res A) : Prop := r = s \/ r = Err EPanic.

Lemma agree_refl : forall A (g : prog A), plain_prog g -> agree g g.
Proof. intros A g [l [r ->]]. left. now exists l, r. Qed.
Lemma agree_bind : forall A B (g h : prog A) (f f' : A -> prog B),
  agree g h -> (forall a, agree (f a) (f' a)) -> agree (pbind g f) (pbind h f').
Proof.
  intros * [[l [r [-> ->]]]|[l [k [-> ->]]]] H; rewrite !pbind_calls.
  - destruct r as [a|e]; cbn [pbind]; [|left; now exists l, (Err e)].
    destruct (H a) as [[l2 [r2 [-> ->]]]|[l2 [k2 [-> ->]]]].
    + left. exists (l ++ l2), r2. now rewrite !calls_app.
    + right. exists (l ++ l2), k2. now rewrite !calls_app.
  - right. now exists l, (pbind k f').
Qed.
Lemma agree_lift : forall A B (r s : res A) (f f' : A -> prog B),
  agree_res r s -> (forall a, agree (f a) (f' a)) -> agree (pbind (plift r) f) (pbind (plift s) f').
Proof.
  intros * [->| ->] H.
  - destruct s as [a|e]; [apply H|]. left. now exists [], (Err e).
  - right. now exists [], (pbind (plift s) f').
Qed.
Lemma agree_for : forall A (f f' : nat -> A -> prog unit) l i,
  (forall j a, agree (f j a) (f' j a)) -> agree (pfor f i l) (pfor f' i l).
Proof.
  induction l as [|a l IH]; intros i H; cbn [pfor]; [apply agree_refl, plain_done|].
  apply agree_bind; [apply H|]. intros _. now apply IH.
Qed.

Lemma agree_usub : forall a b, agree_res (usub true a b) (usub false a b).
Proof. intros. unfold agree_res, usub. destruct (b <=? a)%N; auto. Qed.
Lemma agree_uadd : forall a b, agree_res (uadd true a b) (uadd false a b).
Proof. intros. unfold agree_res, uadd. destruct (_ <? _)%N; auto. Qed.
Lemma agree_umul : forall a b, agree_res (umul true a b) (umul false a b).
Proof. intros. unfold agree_res, umul. destruct (_ <? _)%N; auto. Qed.
Lemma agree_i32 : forall z, agree_res (i32_op true z) (i32_op false z).
Proof. intros. unfold agree_res, i32_op. destruct (fits_i32 z); auto. Qed.
Lemma agree_res_bind : forall A B (r s : res A) (f f' : A -> res B),
  agree_res r s -> (forall a, agree_res (f a) (f' a)) -> agree_res (res_bind r f) (res_bind s f').
Proof. intros * [->| ->] H; [|now right]. destruct s as [a|e]; [apply H|now left]. Qed.
Lemma agree_dim_size : forall n, agree_res (multipart_dim_value_size true n) (multipart_dim_value_size false n).
Proof. intros. apply agree_res_bind; [apply agree_umul|]. intros. apply agree_uadd. Qed.
Lemma agree_size : forall n k, agree_res (multipart_record_size true n k) (multipart_record_size false n k).
Proof.
  intros. apply agree_res_bind; [apply agree_umul|]. intros. apply agree_res_bind; [apply agree_uadd|]. intros.
  apply agree_res_bind; [apply agree_umul|]. intros. apply agree_uadd.
Qed.
Lemma agree_same : forall A (r : res A), agree_res r r.
Proof. intros. now left. Qed.

Lemma agree_process : forall d as_poly mp,
  agree (process_multipart true d as_poly mp) (process_multipart false d as_poly mp).
Proof.
  intros. unfold process_multipart.
  apply agree_bind; [apply agree_refl; destruct as_poly; apply plain_done|]. intros gp.
  apply agree_bind; [apply agree_refl; destruct as_poly; apply plain_call|]. intros _.
  apply agree_bind; [|intros _; apply agree_refl; destruct as_poly; apply plain_call].
  apply agree_for. intros j [gs ge]. unfold process_geom_part.
  apply agree_lift; [apply agree_usub|]. intros n.
  apply agree_bind; [apply agree_refl; destruct as_poly; [apply plain_call|apply plain_done]|]. intros _.
  apply agree_lift; [apply agree_same|]. intros x.
  apply agree_bind; [|intros _; apply agree_refl; destruct as_poly; [apply plain_call|apply plain_done]].
  apply agree_for. intros i [s e]. unfold process_part. apply agree_lift; [apply agree_usub|]. intros k.
  apply agree_refl. unfold pthen. apply plain_bind; [apply plain_call|]. intros _.
  apply plain_bind; [apply plain_emit|]. intros _. apply plain_call.
Qed.

(** readers *)
Definition agree_rd {A} (f h : rd A) : Prop := forall b, agree (f b) (h b).
Lemma agree_rd_bind : forall A B (f h : rd A) (g g' : A -> rd B),
  agree_rd f h -> (forall a, agree_rd (g a) (g' a)) -> agree_rd (rbind f g) (rbind h g').
Proof. intros * H1 H2 b. unfold rbind. apply agree_bind; [apply H1|]. intros a. apply H2. Qed.
Lemma agree_rd_lift : forall A B (r s : res A) (g g' : A -> rd B),
  agree_res r s -> (forall a, agree_rd (g a) (g' a)) -> agree_rd (rthen r g) (rthen s g').
Proof.
  intros * H1 H2 b. unfold rthen, rbind. apply agree_bind; [|intros a; apply H2].
  unfold rlift. destruct H1 as [->| ->].
  - apply agree_refl. destruct s; apply plain_done.
  - right. exists [], (match s with Ok a => pret (a, b) | Err e => pfail e end). split; reflexivity.
Qed.
Lemma agree_rd_lin : forall A (f : rd A), lin f -> agree_rd f f.
Proof. intros A f H b. apply agree_refl. apply H. Qed.
Lemma agree_rd_prog : forall (g h : prog unit), agree g h -> agree_rd (rprog g) (rprog h).
Proof. intros g h H b. unfold rprog. apply agree_bind; [exact H|]. intros a. apply agree_refl, plain_done. Qed.

Ltac linear :=
  repeat first
    [ apply (rc_ret (P := @lin)) | apply (rc_take (P := @lin)) | apply (rc_call (P := @lin))
    | apply (rc_fail (P := @lin))
    | match goal with
      | |- lin (rmap _ _) => apply (rc_map (P := @lin))
      | |- lin (r_list _ _) => apply (rc_list (P := @lin))
      | |- lin (r_f64s _ _) => apply (rc_f64s (P := @lin))
      | |- lin (r_i32 _) => apply (rc_map (P := @lin)), (rc_map (P := @lin)), (rc_take (P := @lin))
      | |- lin (r_f64 _) => apply (rc_map (P := @lin)), (rc_take (P := @lin))
      | |- lin (read_xy _) => apply (rc_xy (P := @lin))
      | |- lin (read_dim_values _) => apply (rc_dim (P := @lin))
      | |- lin (rthen _ _) => apply (rc_lift (P := @lin)); intros
      | |- lin (rbind _ _) => apply (rc_bind (P := @lin)); intros
      end
    | progress cbv zeta
    | match goal with |- lin (if ?x then _ else _) => destruct x end
    | match goal with |- lin (match ?x with _ => _ end) => destruct x end ].

Ltac side := first [apply agree_same | apply agree_usub | apply agree_uadd | apply agree_umul | apply agree_i32
                   | apply agree_dim_size | apply agree_size | (match goal with |- agree_res (if ?x then _ else _) _ => destruct x end; side)].
Ltac both :=
  repeat first
    [ match goal with |- agree_rd (rthen _ _) _ => apply agree_rd_lift; [solve [side]|intros] end
    | match goal with |- agree_rd (rbind _ _) (rbind _ _) => apply agree_rd_bind; [solve [apply agree_rd_lin; unfold read_bbox; linear]|intros] end
    | progress cbv zeta ].

Lemma agree_multipart : forall size has_z, agree_rd (read_multipart true size has_z) (read_multipart false size has_z).
Proof. intros. unfold read_multipart. both. apply agree_rd_lin. linear. Qed.
Lemma agree_multipoint : forall d size has_z, agree_rd (read_multipoint true d size has_z) (read_multipoint false d size has_z).
Proof.
  intros. unfold read_multipoint. both.
  apply agree_rd_prog, agree_refl. unfold pthen. apply plain_bind; [apply plain_call|]. intros _.
  apply plain_bind; [apply plain_emit|]. intros _. apply plain_call.
Qed.
Lemma agree_parts : forall d size has_z as_poly,
  agree_rd (read_parts true d size has_z as_poly) (read_parts false d size has_z as_poly).
Proof.
  intros. unfold read_parts. apply agree_rd_bind; [apply agree_multipart|]. intros mp.
  apply agree_rd_prog, agree_process.
Qed.
Theorem agree_shape : forall d, agree_rd (read_shape true d) (read_shape false d).
Proof.
  intros d. unfold read_shape. both. apply agree_rd_bind; [|intros _; apply agree_rd_lin; linear].
  unfold read_shape_rec. apply agree_rd_bind; [apply agree_rd_lin; unfold read_shape_type; linear|]. intros t.
  both. destruct t; try apply agree_multipoint; try apply agree_parts; apply agree_rd_lin.
  all: try (unfold read_point; linear).
  unfold read_multipatch; linear.
Qed.

(** ** What is left of the source *)
Definition shrinks {A} (f : rd A) : Prop :=
  forall b l a rest, f b = calls l (Done (Ok (a, rest))) -> length rest <= length b.
Lemma done_calls : forall A l (r s : res A), Done r = calls l (Done s) -> l = [] /\ r = s.
Proof. intros A [|e l] r s H; [injection H as ->; auto|discriminate]. Qed.
Global Instance shrinks_class : rd_class (fun A f => @shrinks A f /\ lin f).
Proof.
  constructor.
  - intros A a. split; [|apply (rc_ret (P := @lin))]. intros b l x rest H. apply done_calls in H as [_ H].
    injection H as _ <-. lia.
  - intros A B f g [Hf Lf] Hg. split; [|apply (rc_bind (P := @lin)); [exact Lf|intros; apply Hg]].
    intros b l c rest H. unfold rbind in H. destruct (Lf b) as [l1 [r1 E1]]. rewrite E1, pbind_calls in H.
    destruct r1 as [[a b1]|e]; cbn [pbind fst snd] in H.
    + destruct (Hg a) as [Hga Lga]. destruct (Lga b1) as [l2 [r2 E2]]. rewrite E2, <- calls_app in H.
      apply calls_inj in H as [_ ->]. apply Hf in E1. apply Hga in E2. lia.
    + apply calls_inj in H as [_ H]. discriminate.
  - intros e. split; [|apply (rc_call (P := @lin))]. intros b l a rest H.
    change (rcall e b) with (calls [e] (Done (Ok (tt, b)))) in H. apply calls_inj in H as [_ H]. injection H as _ <-. lia.
  - intros n. split; [|apply (rc_take (P := @lin))]. intros b l a rest H.
    destruct (uses_take n b) as [[e E]|[x [r [k [E [H1 H2]]]]]]; rewrite E in H; apply done_calls in H as [_ H]; [discriminate|].
    injection H as _ <-. lia.
  - intros A e. split; [|apply (rc_fail (P := @lin))]. intros b l a rest H. apply done_calls in H as [_ H]. discriminate.
Qed.
Lemma shrinks_prog : forall A (g : prog A), plain_prog g -> shrinks (rprog g) /\ lin (rprog g).
Proof.
  intros A g [l [r ->]]. split.
  - intros b l2 a rest H. unfold rprog in H. rewrite pbind_calls in H. destruct r as [x|e]; cbn [pbind] in H.
    + unfold pret in H. apply calls_inj in H as [_ H]. injection H as _ <-. lia.
    + apply calls_inj in H as [_ H]. discriminate.
  - intros b. unfold rprog. rewrite pbind_calls. destruct r as [x|e]; cbn [pbind]; eexists _, _; reflexivity.
Qed.

Section Tail.
  Context {P : forall A, rd A -> Prop} {HP : rd_class P}.
  Arguments P {A}.
  Hypothesis P_prog : forall A (g : prog A), plain_prog g -> P (rprog g).
  Ltac go :=
    repeat first
      [ apply rc_ret | apply rc_take | apply rc_call | apply rc_fail
      | match goal with |- P (rmap _ _) => apply rc_map | |- P (rthen _ _) => apply rc_lift; intros
        | |- P (r_list _ _) => apply rc_list
        | |- P (r_f64s _ _) => apply rc_f64s
        | |- P (r_i32 _) => apply rc_map, rc_map, rc_take
        | |- P (r_f64 _) => apply rc_map, rc_take
        | |- P (read_xy _) => apply rc_xy
        | |- P (read_dim_values _) => apply rc_dim
        | |- P (rbind _ _) => apply rc_bind; intros end
      | progress cbv zeta
      | match goal with |- P (if ?x then _ else _) => destruct x end
      | match goal with |- P (match ?x with _ => _ end) => destruct x end ].
  (** everything after the shape type *)
  Lemma rc_tail : forall ck d size t, P (
    record_size <-! usub ck size 4 ;;
    match t with
    | Point | PointM | PointZ => read_point d record_size t
    | Multipoint => read_multipoint ck d record_size false
    | MultipointM => read_multipoint ck d record_size false
    | MultipointZ => read_multipoint ck d record_size true
    | Polyline => read_parts ck d record_size false false
    | PolylineM => read_parts ck d record_size false false
    | PolylineZ => read_parts ck d record_size true false
    | Polygon => read_parts ck d record_size false true
    | PolygonM => read_parts ck d record_size false true
    | PolygonZ => read_parts ck d record_size true true
    | Multipatch => read_multipatch record_size
    | NullShape => rret tt
    end).
  Proof.
    intros. apply rc_lift. intros n. destruct t.
    all: try (unfold read_point; go).
    all: try (unfold read_multipatch; go).
    all: try (unfold read_multipoint, read_bbox; go; apply P_prog; plain; apply plain_emit).
    all: unfold read_parts, read_multipart, read_bbox; go; apply P_prog, plain_multipart.
  Qed.
  Lemma rc_type : P read_shape_type.
  Proof. unfold read_shape_type. go. Qed.
End Tail.

Definition sheds {A} (n : nat) (f : rd A) : Prop :=
  lin f /\ forall b l a rest, f b = calls l (Done (Ok (a, rest))) -> length rest + n <= length b.
Lemma sheds_bind : forall A B n m (f : rd A) (g : A -> rd B), sheds n f -> (forall a, sheds m (g a)) ->
  sheds (n + m) (rbind f g).
Proof.
  intros * [Lf Hf] Hg. split; [apply (rc_bind (P := @lin)); [exact Lf|intros; apply Hg]|].
  intros b l c rest H. unfold rbind in H. destruct (Lf b) as [l1 [r1 E1]]. rewrite E1, pbind_calls in H.
  destruct r1 as [[a b1]|e]; cbn [pbind fst snd] in H.
  - destruct (Hg a) as [Lga Hga]. destruct (Lga b1) as [l2 [r2 E2]]. rewrite E2, <- calls_app in H.
    apply calls_inj in H as [_ ->]. apply Hf in E1. apply Hga in E2. lia.
  - apply calls_inj in H as [_ H]. discriminate.
Qed.
Lemma sheds_uses : forall A n (f : rd A), uses (fun _ k => k = n) f -> sheds n f.
Proof.
  intros A n f H. split.
  - intros b. destruct (H b) as [[e E]|[a [rest [k [E _]]]]]; rewrite E; [now exists [], (Err e)|now exists [], (Ok (a, rest))].
  - intros b l a rest Hf. destruct (H b) as [[e E]|[x [r [k [E [H1 H2]]]]]]; rewrite E in Hf; apply done_calls in Hf as [_ Hf]; [discriminate|].
    injection Hf as _ <-. lia.
Qed.
Lemma sheds_shrinks : forall A (f : rd A), shrinks f /\ lin f -> sheds 0 f.
Proof. intros A f [H1 H2]. split; [exact H2|]. intros * H. apply H1 in H. lia. Qed.

(** a record takes twelve bytes at least *)
Lemma shape_sheds : forall ck d, sheds 12 (read_shape ck d).
Proof.
  intros ck d. unfold read_shape. change 12 with (4 + (4 + 4)).
  apply sheds_bind; [apply sheds_uses, uses_i32|]. intros number.
  apply sheds_bind; [apply sheds_uses, uses_i32|]. intros size.
  unfold rthen. change 4 with (0 + (4 + 0)) at 1. apply sheds_bind.
  { apply sheds_shrinks. destruct (i32_op ck (size * 2)) as [z|e]; [apply (rc_ret (rd_class := shrinks_class))|apply (rc_fail (rd_class := shrinks_class))]. }
  intros doubled. apply sheds_bind.
  - unfold read_shape_rec. change 4 with (4 + 0). apply sheds_bind.
    + apply sheds_uses. unfold read_shape_type. eapply uses_bind; [apply uses_i32|]. intros code k ->.
      destruct (shape_type_of code); [now apply uses_ret|]. intros b0. left. eexists. reflexivity.
    + intros t. apply sheds_shrinks. apply (rc_tail (HP := shrinks_class) shrinks_prog).
  - intros _. apply sheds_shrinks. apply (rc_ret (rd_class := shrinks_class)).
Qed.

(** ** The loops over a file *)
Lemma shape_next_takes : forall ck leftover S (p : proc S) it s it' s',
  shape_next ck leftover p it s = (it', s', Some (Ok tt)) ->
  length (it_source it') + 12 <= length (it_source it).
Proof.
  intros * H. unfold shape_next in H. destruct (_ <=? _)%N; [discriminate|].
  destruct (shape_sheds ck (p_dims p)) as [Hl Hs]. destruct (Hl (it_source it)) as [l [r E]].
  rewrite E, exec_calls in H. destruct (run p l s) as [s2 [[]|x]]; [|discriminate].
  cbn [exec] in H. destruct r as [[hdr rest]|x]; [|discriminate].
  apply Hs in E. destruct (advance ck (it_pos it) (snd hdr)); [|discriminate]. injection H as <- _. exact E.
Qed.
Lemma shape_next_ends : forall ck leftover S (p : proc S) it s, length (it_source it) < 12 ->
  forall it' s', shape_next ck leftover p it s <> (it', s', Some (Ok tt)).
Proof. intros * H it' s' E. apply shape_next_takes in E. lia. Qed.

Theorem shapes_end : forall ck leftover S (p : proc S) n it s,
  length (it_source it) < 12 * n -> snd (consume_shapes ck leftover p n it s) <> None.
Proof.
  intros ck leftover S p n. induction n as [|n IH]; intros it s Hn; [lia|]. cbn [consume_shapes].
  destruct (shape_next ck leftover p it s) as [[it' s'] [[[]|e]|]] eqn:E; try discriminate.
  apply shape_next_takes in E. apply IH. lia.
Qed.

Lemma feature_next_takes : forall ck leftover S (p : proc S) it s it' s' rec,
  feature_next ck leftover p it s = (it', s', Some (Ok rec)) ->
  length (it_source (fi_shapes it')) + 12 <= length (it_source (fi_shapes it)).
Proof.
  intros * H. unfold feature_next in H. cbv zeta in H.
  destruct (tell _ _ _) as [s1 [[]|x1]]; [|discriminate].
  destruct (_ <=? _)%N.
  { destruct (tell _ _ _) as [s2 [[]|x2]]; discriminate. }
  destruct (dbf_next it) as [[r|x2]|]; [|discriminate|destruct (tell _ _ _) as [s2 [[]|x2]]; discriminate].
  destruct (tell _ _ _) as [s2 [[]|x2]]; [|discriminate].
  destruct (exec _ _ _) as [s3 [b3|x3]]; [|discriminate].
  destruct (tell _ _ _) as [s4 [[]|x4]]; [|discriminate].
  destruct (shape_next _ _ _ _ _) as [[shp s5] [[[]|x5]|]] eqn:E; [|discriminate|discriminate].
  destruct (tell _ _ _) as [s6 [[]|x6]]; [|discriminate].
  injection H as <- _ _. apply shape_next_takes in E. exact E.
Qed.
Theorem features_end : forall ck leftover S (p : proc S) n it s,
  length (it_source (fi_shapes it)) < 12 * n -> snd (consume ck leftover p n it s) <> None.
Proof.
  intros ck leftover S p n. induction n as [|n IH]; intros it s Hn; [lia|]. cbn [consume].
  destruct (feature_next ck leftover p it s) as [[it' s'] [[rec|e]|]] eqn:E; try discriminate.
  apply feature_next_takes in E. apply IH. lia.
Qed.

(** the callbacks of a whole loop *)
Lemma run_recorded : forall d l s, run (recorder d false) l s = (s ++ map OEv l, Ok tt).
Proof. intros. now rewrite recorder_run. Qed.
Theorem shapes_count : forall leftover d n it,
  length (fst (consume_shapes true leftover (recorder d false) n it [])) <= length (it_source it).
Proof.
  intros leftover d n it.
  cut (forall s, length (fst (consume_shapes true leftover (recorder d false) n it s)) <= length s + length (it_source it)).
  { intros H. apply (H []). }
  revert it. induction n as [|n IH]; intros it s; cbn [consume_shapes fst]; [lia|].
  unfold shape_next. destruct (_ <=? _)%N; [cbn [fst]; lia|].
  destruct (shape_cost true (p_dims (recorder d false)) (it_source it)) as [l [r [E H]]]. unfold record_cost in H.
  rewrite E, exec_calls, run_recorded. cbn [exec]. destruct r as [[hdr rest]|e].
  - destruct (advance true (it_pos it) (snd hdr)).
    + specialize (IH (mkIter rest a (it_length it)) (s ++ map OEv l)). cbn [it_source] in IH.
      rewrite app_length, map_length in IH. lia.
    + cbn [fst]. rewrite app_length, map_length. lia.
  - cbn [fst]. rewrite app_length, map_length. lia.
Qed.

(** ** In terms of [makes] *)
Lemma makes_calls : forall A (g : prog A) l r, plain_prog g -> makes g l r -> g = calls l (Done r).
Proof.
  intros A g l r [l2 [r2 ->]] H. pose proof (makes_of_calls A l2 r2) as H2. unfold makes in *.
  rewrite H2 in H. injection H as H ->. apply map_OEv_inj in H. now subst.
Qed.
Lemma shape_plain : forall ck d b, plain_prog (read_shape ck d b).
Proof. intros. apply (shape_sheds ck d). Qed.
Theorem record_count : forall (ck : bool) d b, exists l r, makes (read_shape ck d b) l r /\
  length l <= record_cost ck (length b).
Proof.
  intros ck d b. destruct (shape_cost ck d b) as [l [r [-> H]]]. exists l, r.
  split; [apply makes_of_calls|]. destruct r as [[a rest]|e]; lia.
Qed.
Lemma panic_dec : forall e, e = EPanic \/ e <> EPanic.
Proof. intros []; auto; right; discriminate. Qed.
Theorem builds_agree : forall d b l r, makes (read_shape true d b) l r ->
  r <> Err EPanic /\ makes (read_shape false d b) l r \/
  r = Err EPanic /\ exists l2 r2, makes (read_shape false d b) (l ++ l2) r2.
Proof.
  intros d b l r H. apply makes_calls in H; [|apply shape_plain].
  destruct (agree_shape d b) as [[l1 [r1 [E1 E2]]]|[l1 [k [E1 E2]]]]; rewrite H in E1; apply calls_inj in E1 as [<- <-].
  - destruct r as [a|e]; [left; split; [discriminate|rewrite E2; apply makes_of_calls]|].
    destruct (panic_dec e) as [->|Hne].
    + right. split; [reflexivity|]. exists [], (Err EPanic). rewrite app_nil_r, E2. apply makes_of_calls.
    + left. split; [congruence|]. rewrite E2. apply makes_of_calls.
  - right. split; [reflexivity|]. destruct (shape_plain false d b) as [l3 [r3 E3]].
    destruct (observe (read_shape false d b)) as [o r4] eqn:Eo.
    assert (Hp : exists l4, l3 = l ++ l4).
    { rewrite E3 in E2. clear - E2. revert l3 E2. induction l as [|e l IH]; intros l3 E2; [now exists l3|].
      destruct l3 as [|e3 l3]; cbn [calls] in E2; [discriminate|]. injection E2 as <- E2.
      destruct (IH l3) as [l4 ->]; [|now exists l4]. exact E2. }
    destruct Hp as [l4 ->]. exists l4, r3. rewrite E3. apply makes_of_calls.
Qed.

(** ** A record whose part table goes back and forth *)
Section BackAndForth.
  Variable k : nat.
  Hypothesis Hk : (N.of_nat k < 2 ^ 26)%N.
  Definition origin : coord := mkC 0%N 0%N None None.
  (** [j] times 0, k *)
  Fixpoint forth (j : nat) : list nat := match j with O => [] | S j' => 0 :: k :: forth j' end.
  Definition forth_record : list byte :=
    be32 1 ++ be32 (Z.of_nat (22 + 12 * k)) ++ le32 3 ++ flat_map le64 (repeat 0%N 4) ++
    count32 (2 * k) ++ count32 k ++ flat_map count32 (forth k) ++ flat_map xy_bytes (repeat origin k).

  Lemma forth_length : forall j, length (forth j) = 2 * j.
  Proof. induction j as [|j IH]; cbn [forth length]; lia. Qed.
  Lemma forth_bound : forall j x, In x (forth j) -> x <= k.
  Proof. induction j as [|j IH]; intros x; cbn [forth]; [contradiction|]. intros [<-|[<-|H]]; [lia|lia|auto]. Qed.
  Lemma record_length : length forth_record = 52 + 24 * k.
  Proof.
    unfold forth_record, count32. rewrite !app_length.
    rewrite (flat_map_const _ _ 8) by (intros; apply le64_length).
    rewrite (flat_map_const _ (fun n : nat => le32 (Z.of_nat n)) 4) by (intros; apply le32_length).
    rewrite (flat_map_const _ xy_bytes 16) by (intros; unfold xy_bytes; now rewrite app_length, !le64_length).
    rewrite !repeat_length, forth_length, !le32_length.
    assert (Hb : forall z, length (be32 z) = 4) by reflexivity. rewrite !Hb. lia.
  Qed.

  Definition forth_parts : multipart :=
    mkMultipart (map N.of_nat (forth k) ++ [N.of_nat k]) (map xy_of (repeat origin k)) [] [].

  Lemma forth_reads : forall rest,
    reads (read_multipart false (N.of_nat (40 + 24 * k)) false)
      (flat_map le64 (repeat 0%N 4) ++ count32 (2 * k) ++ count32 k ++ flat_map count32 (forth k) ++
       flat_map xy_bytes (repeat origin k) ++ rest) [] forth_parts rest.
  Proof.
    intros rest. unfold read_multipart.
    eapply reads_bind0; [apply (reads_box 2); [reflexivity|repeat constructor; reflexivity]|].
    eapply reads_bind0; [apply reads_count; lia|].
    eapply reads_bind0; [apply reads_count; lia|].
    cbv zeta. rewrite !as_usize_nat by lia.
    eapply reads_lift; [apply record_size_ok; lia|].
    eapply reads_lift; [apply dim_value_size_ok; lia|].
    cbv iota. eapply reads_lift; [reflexivity|].
    eapply reads_lift; [apply uadd_ok; lia|].
    replace (N.of_nat (40 + 24 * k) =? 40 + 4 * N.of_nat (2 * k) + 16 * N.of_nat k + (16 + N.of_nat k * 8))%N with false
      by (symmetry; apply N.eqb_neq; lia).
    replace (N.of_nat (40 + 24 * k) =? 40 + 4 * N.of_nat (2 * k) + 16 * N.of_nat k)%N with true
      by (symmetry; apply N.eqb_eq; lia).
    cbn [orb]. eapply reads_bind0; [apply reads_ret|].
    eapply reads_lift; [apply uadd_ok; lia|].
    eapply reads_lift; [apply reserve_ok; lia|].
    rewrite Nat2N.id. rewrite <- (forth_length k).
    eapply reads_bind0.
    { apply (reads_list_map _ _ _ N.of_nat). intros x r Hx. apply forth_bound in Hx.
      rewrite <- as_usize_nat by lia. apply reads_map. apply reads_count. lia. }
    eapply reads_bind0.
    { apply (reads_xy (repeat origin k)); [now rewrite repeat_length|lia|].
      apply Forall_forall. intros c Hc. apply repeat_spec in Hc. subst. split; reflexivity. }
    eapply reads_bind0; [apply reads_ret|]. eapply reads_bind0; [apply reads_ret|]. apply reads_ret.
  Qed.

  Lemma forth_part : forall d i s e, s <= k -> e <= k ->
    exists l, process_part false (dz d || dm d) (dz d && filled (mp_z forth_parts)) (dm d && filled (mp_m forth_parts))
                forth_parts i (N.of_nat s, N.of_nat e) = ok_calls l /\ length l = 2 + (e - s).
  Proof.
    intros d i s e Hs He. unfold process_part.
    destruct (usub false (N.of_nat e) (N.of_nat s)) as [n|x] eqn:Eu.
    2: { unfold usub in Eu. destruct (_ <=? _)%N; discriminate. }
    cbn [plift pbind].
    assert (Hem : exists l, emit_points (dz d || dm d) (dz d && filled (mp_z forth_parts)) (dm d && filled (mp_m forth_parts))
              (mp_coords forth_parts) (mp_z forth_parts) (mp_m forth_parts) (N.of_nat s)
              (N.to_nat (N.of_nat e - N.of_nat s)) 0 = ok_calls l /\ length l = e - s).
    { replace (N.to_nat (N.of_nat e - N.of_nat s)) with (e - s) by lia.
      destruct (Nat.le_gt_cases e s) as [Hle|Hgt].
      { replace (e - s) with 0 by lia. exists []. split; reflexivity. }
      pose proof (emit_points_ok (dz d || dm d) d Flat false (repeat origin s) (repeat origin (k - e)) (repeat origin (e - s)) []) as H.
      cbv zeta in H. rewrite !repeat_length in H. cbn [app length] in H.
      rewrite <- !repeat_app in H. replace (s + (e - s + (k - e))) with k in H by lia.
      eexists. split; [|]. 
      - change (zs_of Flat (repeat origin k)) with (@nil f64) in H.
        change (ms_of false (repeat origin k)) with (@nil f64) in H. apply H.
        + destruct (dz d), (dm d); cbn; intros; try discriminate; auto.
        + apply Forall_forall. intros c Hc. apply repeat_spec in Hc. subst. repeat constructor.
      - clear. generalize (repeat origin (e - s)) (repeat_length origin (e - s)). intros l <-.
        rewrite <- (map_length (visible d) l). generalize (map (visible d) l). clear. intros l. generalize 0.
        induction l as [|c l IH]; intros i; cbn [mapi length]; [reflexivity|]. now rewrite IH. }
    destruct Hem as [l [E Hl]]. rewrite E, !pcall_calls, !pthen_calls.
    eexists. split; [reflexivity|]. cbn [app length]. rewrite app_length. cbn [length]. lia.
  Qed.

  Definition sum_of (ws : list (nat * nat)) : nat := fold_right (fun w n => 2 + (snd w - fst w) + n) 0 ws.
  Lemma forth_for : forall d ws i, (forall s e, In (s, e) ws -> s <= k /\ e <= k) ->
    exists l, pfor (process_part false (dz d || dm d) (dz d && filled (mp_z forth_parts)) (dm d && filled (mp_m forth_parts)) forth_parts)
                i (map span_N ws) = ok_calls l /\ length l = sum_of ws.
  Proof.
    intros d. induction ws as [|[s e] ws IH]; intros i H; cbn [map pfor]; [exists []; split; reflexivity|].
    destruct (forth_part d i s e) as [l1 [E1 H1]]; [apply (H s e); now left|apply (H s e); now left|].
    destruct (IH (S i)) as [l2 [E2 H2]]; [intros; apply H; now right|].
    unfold span_N at 1. cbn [fst snd]. rewrite E1, E2, pthen_calls. eexists. split; [reflexivity|].
    rewrite app_length, H1, H2. reflexivity.
  Qed.
  Lemma forth_sum : forall j, j * k <= sum_of (windows2 (forth j ++ [k])).
  Proof.
    induction j as [|j IH]; [cbn; lia|]. cbn [forth app].
    destruct (forth j ++ [k]) as [|x r] eqn:E; [destruct (forth j); discriminate|].
    change (windows2 (0 :: k :: x :: r)) with ((0, k) :: (k, x) :: windows2 (x :: r)).
    cbn [sum_of fold_right fst snd]. fold (sum_of (windows2 (x :: r))). lia.
  Qed.
  Lemma windows_in : forall A (l : list A) x y, In (x, y) (windows2 l) -> In x l /\ In y l.
  Proof.
    induction l as [|a l IH]; intros x y; [contradiction|]. destruct l as [|b l]; [contradiction|].
    change (windows2 (a :: b :: l)) with ((a, b) :: windows2 (b :: l)). intros [Ei|Hi].
    - injection Ei as <- <-. split; [now left|right; now left].
    - destruct (IH _ _ Hi). split; now right.
  Qed.

  Lemma forth_process : forall d, exists l,
    process_multipart false d false forth_parts = ok_calls l /\ k * k <= length l.
  Proof.
    intros d. unfold process_multipart. cbn [pbind pret].
    set (n := num_parts forth_parts).
    assert (Hn : length (mp_parts forth_parts) = S n).
    { unfold n, num_parts, forth_parts. cbn [mp_parts]. rewrite app_length. cbn [length]. lia. }
    cbn [windows2 pfor]. unfold process_geom_part. rewrite usub_ok by lia. cbn [plift pbind].
    assert (Hsl : slice (mp_parts forth_parts) (N.of_nat 0) (N.of_nat n + 1) = Ok (mp_parts forth_parts)).
    { unfold slice. rewrite Hn. replace ((N.of_nat 0 <=? N.of_nat n + 1) && (N.of_nat n + 1 <=? N.of_nat (S n)))%N with true
        by (symmetry; apply andb_true_iff; split; apply N.leb_le; lia).
      cbn [N.of_nat]. rewrite N.sub_0_r. replace (N.to_nat (N.of_nat n + 1)) with (S n) by lia. rewrite <- Hn.
      cbn [N.to_nat skipn]. now rewrite firstn_all. }
    unfold pthen. cbn [pbind pret pcall]. rewrite Hsl. cbn [plift pbind].
    destruct (forth_for d (windows2 (forth k ++ [k])) 0) as [l [E Hl]].
    { intros s e Hin. apply windows_in in Hin as [H1 H2]. apply in_app_or in H1, H2.
      cbn [In] in *. split; [destruct H1 as [H|[H|[]]]|destruct H2 as [H|[H|[]]]]; try (apply forth_bound in H); lia. }
    replace (windows2 (mp_parts forth_parts)) with (map span_N (windows2 (forth k ++ [k]))).
    2: { unfold forth_parts. cbn [mp_parts]. change [N.of_nat k] with (map N.of_nat [k]).
         rewrite <- map_app, windows_map. reflexivity. }
    rewrite E. unfold ok_calls. rewrite !pbind_calls. cbn [pbind pret].
    exists (MultiLineStringBegin n 0 :: l ++ [MultiLineStringEnd 0]). split; [cbn [calls]; now rewrite calls_app|].
    cbn [length]. rewrite app_length, Hl. pose proof (forth_sum k). lia.
  Qed.

  Theorem forth_makes : forall d, exists l,
    makes (read_shape false d forth_record) l (Ok ((1, Z.of_nat (22 + 12 * k))%Z, [])) /\ k * k <= length l.
  Proof.
    intros d. destruct (forth_process d) as [l [E Hl]]. exists l. split; [|exact Hl].
    assert (H : reads (read_shape false d) forth_record l (1, Z.of_nat (22 + 12 * k))%Z []).
    { unfold read_shape, forth_record.
      eapply reads_bind0; [apply reads_be32; unfold is_i32; lia|].
      eapply reads_bind0; [apply reads_be32; unfold is_i32; lia|].
      eapply reads_lift; [apply i32_op_ok; unfold is_i32; lia|].
      replace (Z.of_nat (22 + 12 * k) * 2)%Z with (Z.of_nat (44 + 24 * k)) by lia. rewrite as_usize_nat by lia.
      rewrite <- (app_nil_r l). eapply reads_bind; [|apply reads_ret].
      unfold read_shape_rec. eapply reads_bind0; [apply (reads_type 3 Polyline); [unfold is_i32; lia|reflexivity]|].
      eapply reads_lift; [apply usub_ok; lia|].
      replace (N.of_nat (44 + 24 * k) - 4)%N with (N.of_nat (40 + 24 * k)) by lia.
      unfold read_parts. pose proof (forth_reads []) as H. rewrite app_nil_r in H.
      eapply reads_bind0; [exact H|]. now apply reads_prog. }
    rewrite H. apply makes_of_calls.
  Qed.
End BackAndForth.

Theorem sane_count : forall ck d b, sane b -> exists l r, makes (read_shape ck d b) l r /\ length l <= length b.
Proof.
  intros ck d b Hs. destruct (shape_cost true d b) as [l [r [E H]]]. exists l, r. split.
  2: { unfold record_cost in H. destruct r as [[a rest]|e]; lia. }
  assert (Ht : makes (read_shape true d b) l r) by (rewrite E; apply makes_of_calls).
  destruct ck; [exact Ht|]. destruct (builds_agree d b l r Ht) as [[_ Hf]|[-> _]]; [exact Hf|].
  exfalso. destruct (record_quiet true d b Hs) as [l2 [r2 [E2 Hr]]]. rewrite E in E2.
  apply calls_inj in E2 as [_ <-]. now apply Hr.
Qed.
Theorem checked_count : forall d b, exists l r, makes (read_shape true d b) l r /\ length l <= length b.
Proof. intros. exact (record_count true d b). Qed.
Theorem unchecked_count : forall d b, exists l r, makes (read_shape false d b) l r /\
  length l <= length b + length b * length b / 256.
Proof. intros. exact (record_count false d b). Qed.
Theorem many_callbacks : forall d k, (N.of_nat k < 2 ^ 26)%N -> exists b l h,
  length b = 52 + 24 * k /\ makes (read_shape false d b) l (Ok (h, [])) /\ k * k <= length l.
Proof.
  intros d k Hk. destruct (forth_makes k Hk d) as [l [H1 H2]]. exists (forth_record k), l. eexists.
  repeat split; [now apply record_length|exact H1|exact H2].
Qed.
