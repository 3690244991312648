(** Robustness of the shapefile record reader (C40). *)
From Coq Require Import String Ascii.
From Coq Require Import List NArith ZArith Lia Bool ZifyBool ZifyNat ZifyN.
From Coq Require Import Init.Byte.
From Verif Require Import Base BaseLemmas Float Event EventLemmas Claims Geom FeatureSpec WkbModel WkbRead ShpModel ShpSpec ShpTop.
Import ListNotations.
Local Open Scope nat_scope.
Local Open Scope list_scope.

(** the program is a list of callbacks and a result that is not a panic *)
Definition quiet {A} (g : prog A) : Prop :=
  exists l r, g = calls l (Done r) /\ r <> Err EPanic.
(** moreover a result meets [P] *)
Definition safe {A} (P : A -> Prop) (g : prog A) : Prop :=
  exists l r, g = calls l (Done r) /\ r <> Err EPanic /\ forall a, r = Ok a -> P a.
Lemma safe_quiet : forall A P (g : prog A), safe P g -> quiet g.
Proof. intros A P g [l [r [H1 [H2 _]]]]. now exists l, r. Qed.
Lemma quiet_safe : forall A (g : prog A), quiet g -> safe (fun _ => True) g.
Proof. intros A g [l [r [H1 H2]]]. exists l, r. auto. Qed.
Lemma safe_fail : forall A (P : A -> Prop) e, e <> EPanic -> safe P (Done (Err e)).
Proof. intros A P e H. exists [], (Err e). repeat split; congruence. Qed.
Lemma safe_ret : forall A (P : A -> Prop) a, P a -> safe P (pret a).
Proof. intros A P a H. exists [], (Ok a). repeat split; congruence. Qed.
Lemma safe_bind : forall A B (P : A -> Prop) (g : prog A) (f : A -> prog B),
  safe P g -> (forall a, P a -> quiet (f a)) -> quiet (pbind g f).
Proof.
  intros A B P g f [l [r [-> [Hr HP]]]] H. rewrite pbind_calls. destruct r as [a|e]; cbn [pbind].
  - destruct (H a (HP a eq_refl)) as [l2 [r2 [-> H2]]]. exists (l ++ l2), r2. split; [now rewrite calls_app|exact H2].
  - exists l, (Err e). split; [reflexivity|]. congruence.
Qed.

Lemma quiet_done : forall A (r : res A), r <> Err EPanic -> quiet (Done r).
Proof. intros A r H. now exists [], r. Qed.
Lemma quiet_ret : forall A (a : A), quiet (pret a).
Proof. intros. apply quiet_done. discriminate. Qed.
Lemma quiet_call : forall e, quiet (pcall e).
Proof. intros. exists [e], (Ok tt). split; [reflexivity|discriminate]. Qed.
Lemma quiet_bind : forall A B (g : prog A) (f : A -> prog B),
  quiet g -> (forall a l, g = calls l (Done (Ok a)) -> quiet (f a)) -> quiet (pbind g f).
Proof.
  intros A B g f [l [r [-> Hr]]] H. rewrite pbind_calls. destruct r as [a|e]; cbn [pbind].
  - destruct (H a l eq_refl) as [l2 [r2 [-> H2]]]. exists (l ++ l2), r2. split; [now rewrite calls_app|exact H2].
  - exists l, (Err e). split; [reflexivity|]. congruence.
Qed.
Lemma quiet_then : forall A (g : prog unit) (h : prog A), quiet g -> quiet h -> quiet (pthen g h).
Proof. intros. apply quiet_bind; auto. Qed.
Lemma quiet_for : forall A (f : nat -> A -> prog unit) l i,
  (forall k a, In a l -> quiet (f k a)) -> quiet (pfor f i l).
Proof.
  induction l as [|a l IH]; intros i H; cbn [pfor]; [apply quiet_ret|].
  apply quiet_then; [apply H; now left|]. apply IH. intros. apply H. now right.
Qed.
Lemma quiet_lift : forall A B (r : res A) a (g : A -> prog B),
  r = Ok a -> quiet (g a) -> quiet (pbind (plift r) g).
Proof. intros * -> H. exact H. Qed.

(** ** Reading at an offset *)
Lemma skipn_plus : forall A n k (b : list A), skipn n (skipn k b) = skipn (k + n) b.
Proof.
  intros A n k. induction k as [|k IH]; intros b; [reflexivity|].
  destruct b as [|x b]; cbn [skipn Nat.add]; [now rewrite skipn_nil|apply IH].
Qed.

Lemma step_take : forall B n b k (g : list byte -> rd B) P,
  (forall x, length x = n -> x = firstn n (skipn k b) -> safe P (g x (skipn (k + n) b))) ->
  safe P (rbind (rtake n) g (skipn k b)).
Proof.
  intros B n b k g P H. unfold rbind, rtake.
  destruct (Nat.ltb_spec (length (skipn k b)) n) as [Hl|Hl].
  - apply safe_fail. discriminate.
  - cbn [pbind pret fst snd]. rewrite skipn_plus. apply H; [|reflexivity].
    rewrite firstn_length. lia.
Qed.

Lemma step_val : forall A B (h : list byte -> A) n b k (g : A -> rd B) P,
  (forall x, length x = n -> x = firstn n (skipn k b) -> safe P (g (h x) (skipn (k + n) b))) ->
  safe P (rbind (rmap h (rtake n)) g (skipn k b)).
Proof.
  intros A B h n b k g P H. unfold rbind, rmap, rbind, rtake, rret.
  destruct (Nat.ltb_spec (length (skipn k b)) n) as [Hl|Hl].
  - apply safe_fail. discriminate.
  - cbn [pbind pret fst snd]. rewrite skipn_plus. apply H; [|reflexivity].
    rewrite firstn_length. lia.
Qed.
Lemma step_val2 : forall A A2 B (h : list byte -> A) (h2 : A -> A2) n b k (g : A2 -> rd B) P,
  (forall x, length x = n -> x = firstn n (skipn k b) -> safe P (g (h2 (h x)) (skipn (k + n) b))) ->
  safe P (rbind (rmap h2 (rmap h (rtake n))) g (skipn k b)).
Proof.
  intros A A2 B h h2 n b k g P H. unfold rbind, rmap, rbind, rtake, rret.
  destruct (Nat.ltb_spec (length (skipn k b)) n) as [Hl|Hl].
  - apply safe_fail. discriminate.
  - cbn [pbind pret fst snd]. rewrite skipn_plus. apply H; [|reflexivity].
    rewrite firstn_length. lia.
Qed.

Lemma step_i32 : forall B e b k (g : Z -> rd B) P,
  (forall z, int_at e b k = Some z -> safe P (g z (skipn (k + 4) b))) ->
  safe P (rbind (r_i32 e) g (skipn k b)).
Proof.
  intros B e b k g P H. apply step_val2. intros x Hx E. apply H. unfold int_at.
  rewrite <- E, Hx. reflexivity.
Qed.
Lemma step_f64 : forall B e b k (g : f64 -> rd B) P,
  (forall x, safe P (g x (skipn (k + 8) b))) -> safe P (rbind (r_f64 e) g (skipn k b)).
Proof. intros. apply step_val. auto. Qed.

(** a reader of values of [w] bytes *)
Definition reads_w {A} (f : rd A) (w : nat) (v : list byte -> A) : Prop :=
  forall b, f b = if Nat.ltb (length b) w then pfail EIo else pret (v (firstn w b), skipn w b).

Lemma list_at : forall A (f : rd A) w v n b k, reads_w f w v ->
  r_list f n (skipn k b) = pfail EIo \/
  exists l, r_list f n (skipn k b) = pret (l, skipn (k + w * n) b) /\ length l = n /\
    (forall i a, nth_error l i = Some a ->
       a = v (firstn w (skipn (k + w * i) b)) /\ length (firstn w (skipn (k + w * i) b)) = w).
Proof.
  intros A f w v n b k Hf. revert k. induction n as [|n IH]; intros k; cbn [r_list].
  - right. exists []. unfold rret. rewrite Nat.mul_0_r, Nat.add_0_r. repeat split.
    + intros. destruct i; discriminate.
    + destruct i; discriminate.
  - assert (E1 : rbind f (fun x => l <- r_list f n ;; rret (x :: l)) (skipn k b) =
      if Nat.ltb (length (skipn k b)) w then pfail EIo
      else pbind (r_list f n (skipn (k + w) b))
             (fun al => pret (v (firstn w (skipn k b)) :: fst al, snd al))).
    { unfold rbind. rewrite Hf. destruct (Nat.ltb (length (skipn k b)) w); [reflexivity|].
      cbn [pbind pret fst snd]. now rewrite skipn_plus. }
    rewrite E1. clear E1.
    destruct (Nat.ltb_spec (length (skipn k b)) w) as [Hl|Hl]; [left; reflexivity|].
    destruct (IH (k + w)) as [E|[l [E [El En]]]]; rewrite E; [left; reflexivity|].
    right. exists (v (firstn w (skipn k b)) :: l).
    split; [replace (k + w * S n) with (k + w + w * n) by lia; reflexivity|].
    split; [cbn [length]; now rewrite El|].
    intros [|i] a Hi; cbn [nth_error] in Hi.
    + injection Hi as <-. rewrite Nat.mul_0_r, Nat.add_0_r. split; [reflexivity|]. rewrite firstn_length. lia.
    + replace (k + w * S i) with (k + w + w * i) by lia. now apply En.
Qed.

Lemma step_list : forall A B (f : rd A) w v n b k (g : list A -> rd B) P, reads_w f w v ->
  (forall l, length l = n ->
     (forall i a, nth_error l i = Some a ->
        a = v (firstn w (skipn (k + w * i) b)) /\ length (firstn w (skipn (k + w * i) b)) = w) ->
     safe P (g l (skipn (k + w * n) b))) ->
  safe P (rbind (r_list f n) g (skipn k b)).
Proof.
  intros A B f w v n b k g P Hf H. unfold rbind.
  destruct (list_at A f w v n b k Hf) as [E|[l [E [El En]]]]; rewrite E.
  - apply safe_fail. discriminate.
  - cbn [pbind pret fst snd]. now apply H.
Qed.

Lemma f64_w : reads_w (r_f64 LE) 8 (val_of LE).
Proof.
  intros b. unfold r_f64, rmap, rbind, rtake, rret. destruct (Nat.ltb (length b) 8); reflexivity.
Qed.
Lemma i32_w : reads_w (rmap as_usize (r_i32 LE)) 4 (fun x => as_usize (u32_to_i32 (val_of LE x))).
Proof.
  intros b. unfold r_i32, r_u32, rmap, rbind, rtake, rret. destruct (Nat.ltb (length b) 4); reflexivity.
Qed.
Lemma xy_w : exists v, reads_w (x <- r_f64 LE ;; y <- r_f64 LE ;; rret (x, y)) 16 v.
Proof.
  exists (fun x => (val_of LE (firstn 8 x), val_of LE (skipn 8 x))).
  intros b. unfold r_f64, rmap, rbind, rtake, rret.
  destruct (Nat.ltb_spec (length b) 8) as [H|H]; destruct (Nat.ltb_spec (length b) 16) as [H2|H2]; try lia.
  - reflexivity.
  - cbn [pbind pret fst snd]. rewrite skipn_length. destruct (Nat.ltb_spec (length b - 8) 8); [reflexivity|lia].
  - cbn [pbind pret fst snd]. rewrite skipn_length. destruct (Nat.ltb_spec (length b - 8) 8); [lia|].
    cbn [pbind pret fst snd]. rewrite skipn_plus. unfold pret. f_equal. f_equal. f_equal. f_equal.
    + rewrite firstn_firstn. reflexivity.
    + f_equal. now rewrite skipn_firstn_comm.
Qed.

Lemma f64s_list : forall e n, r_f64s e n = r_list (r_f64 e) n.
Proof. induction n as [|n IH]; cbn [r_f64s r_list]; [reflexivity|now rewrite IH]. Qed.

Lemma step_box : forall B dims b k (g : list f64 -> rd B) P,
  (forall l, safe P (g l (skipn (k + 16 * dims) b))) -> safe P (rbind (read_bbox dims) g (skipn k b)).
Proof.
  intros B dims b k g P H. unfold read_bbox. rewrite f64s_list. apply (step_list _ _ _ 8 _ _ _ _ _ _ f64_w).
  intros l _ _. replace (k + 8 * (2 * dims)) with (k + 16 * dims) by lia. apply H.
Qed.

Lemma step_ok : forall A B (r : res A) a (g : A -> rd B) b P,
  r = Ok a -> safe P (g a b) -> safe P (rthen r g b).
Proof. intros * -> H. exact H. Qed.

(** composite readers as first steps *)
Lemma rbind_assoc_ok : forall A B C (f : rd A) (h : A -> rd B) (g : B -> rd C) b a rest,
  f b = pret (a, rest) -> rbind (rbind f h) g b = rbind (h a) g rest.
Proof. intros * H. unfold rbind. rewrite H. reflexivity. Qed.
Lemma rbind_assoc_err : forall A B C (f : rd A) (h : A -> rd B) (g : B -> rd C) b e,
  f b = pfail e -> rbind (rbind f h) g b = pfail e.
Proof. intros * H. unfold rbind. rewrite H. reflexivity. Qed.

Lemma step_xy : forall B (n : N) b k (g : list (f64 * f64) -> rd B) P, (n < 2 ^ 40)%N ->
  (forall l, N.of_nat (length l) = n -> safe P (g l (skipn (k + 16 * N.to_nat n) b))) ->
  safe P (rbind (read_xy n) g (skipn k b)).
Proof.
  intros B n b k g P Hn H. unfold read_xy, rthen.
  rewrite (rbind_assoc_ok _ _ _ _ _ _ _ tt (skipn k b)) by (rewrite reserve_ok by lia; reflexivity).
  destruct xy_w as [v Hv]. apply (step_list _ _ _ 16 v _ _ _ _ _ Hv).
  intros l Hl _. apply H. lia.
Qed.

Lemma step_dim : forall B (n : N) b k (g : list f64 -> rd B) P, (n < 2 ^ 40)%N ->
  (forall l k2, N.of_nat (length l) = n -> safe P (g l (skipn k2 b))) ->
  safe P (rbind (read_dim_values n) g (skipn k b)).
Proof.
  intros B n b k g P Hn H. unfold read_dim_values, read_bbox. rewrite f64s_list.
  destruct (list_at _ _ 8 _ (2 * 1) b k f64_w) as [E|[r [E _]]].
  - rewrite (rbind_assoc_err _ _ _ _ _ _ _ EIo E). apply safe_fail. discriminate.
  - rewrite (rbind_assoc_ok _ _ _ _ _ _ _ _ _ E). unfold rthen.
    match goal with |- safe P (rbind _ g (skipn ?k2 b)) =>
      rewrite (rbind_assoc_ok _ _ _ _ _ _ _ tt (skipn k2 b)) by (rewrite reserve_ok by lia; reflexivity) end.
    apply (step_list _ _ _ 8 _ _ _ _ _ _ f64_w). intros l Hl _. apply H. lia.
Qed.

(** optional blocks *)
Lemma step_dim_if : forall B (c : bool) (n : N) b k (g : list f64 -> rd B) P, (n < 2 ^ 40)%N ->
  (forall l k2, l = [] \/ N.of_nat (length l) = n -> safe P (g l (skipn k2 b))) ->
  safe P (rbind (if c then read_dim_values n else rret []) g (skipn k b)).
Proof.
  intros B [] n b k g P Hn H.
  - apply step_dim; auto.
  - unfold rbind, rret. cbn [pbind pret fst snd]. apply H. now left.
Qed.

(** ** Callbacks *)
Lemma at_index_ok : forall A (l : list A) i, (i < N.of_nat (length l))%N -> exists a, at_index l i = Ok a.
Proof.
  intros A l i H. unfold at_index. destruct (N.ltb_spec i (N.of_nat (length l))); [|lia].
  destruct (nth_error l (N.to_nat i)) eqn:E; [eauto|]. apply nth_error_None in E. lia.
Qed.

Lemma emit_point_quiet : forall multi gz gm coords zs ms ofs idx,
  (ofs < N.of_nat (length coords))%N ->
  (gz = true -> length zs = length coords) -> (gm = true -> length ms = length coords) ->
  quiet (emit_point multi gz gm coords zs ms ofs idx).
Proof.
  intros multi gz gm coords zs ms ofs idx Ho Hz Hm. unfold emit_point.
  destruct (at_index_ok _ coords ofs Ho) as [c Hc]. apply (quiet_lift _ _ _ c _ Hc).
  destruct multi; [|apply quiet_call].
  destruct gz.
  - destruct (at_index_ok _ zs ofs) as [z Ez]; [rewrite Hz; auto|].
    apply (quiet_lift _ _ _ (Some z)); [now rewrite Ez|].
    destruct gm.
    + destruct (at_index_ok _ ms ofs) as [m Em]; [rewrite Hm; auto|].
      apply (quiet_lift _ _ _ (Some m)); [now rewrite Em|]. apply quiet_call.
    + apply quiet_call.
  - cbn [pbind pret]. destruct gm.
    + destruct (at_index_ok _ ms ofs) as [m Em]; [rewrite Hm; auto|].
      apply (quiet_lift _ _ _ (Some m)); [now rewrite Em|]. apply quiet_call.
    + apply quiet_call.
Qed.

Lemma emit_points_quiet : forall multi gz gm coords zs ms start n idx,
  (start + N.of_nat (idx + n) <= N.of_nat (length coords))%N ->
  (gz = true -> length zs = length coords) -> (gm = true -> length ms = length coords) ->
  quiet (emit_points multi gz gm coords zs ms start n idx).
Proof.
  intros multi gz gm coords zs ms start. induction n as [|n IH]; intros idx H Hz Hm; cbn [emit_points].
  - apply quiet_ret.
  - apply quiet_then; [apply emit_point_quiet; auto; lia|]. apply IH; auto. lia.
Qed.

Lemma filled_ok : forall (c : bool) (l : list f64) n, (l = [] \/ length l = n) ->
  (c && filled l)%bool = true -> length l = n.
Proof.
  intros c l n [->|H] E; [|exact H]. cbn [filled] in E. rewrite andb_false_r in E. discriminate.
Qed.

(** ** Parts *)
Lemma windows_nth : forall A (l : list A) a c, In (a, c) (windows2 l) ->
  exists i, nth_error l i = Some a /\ nth_error l (S i) = Some c.
Proof.
  induction l as [|x l IH]; intros a c H; [contradiction|].
  destruct l as [|y l]; [contradiction|]. cbn [windows2 In] in H. destruct H as [E|H].
  - injection E as <- <-. exists 0. split; reflexivity.
  - destruct (IH a c H) as [i [H1 H2]]. exists (S i). split; assumption.
Qed.
Lemma nth_windows : forall A (l : list A) i a c,
  nth_error l i = Some a -> nth_error l (S i) = Some c -> In (a, c) (windows2 l).
Proof.
  induction l as [|x l IH]; intros i a c H1 H2; [destruct i; discriminate|].
  destruct l as [|y l]; [destruct i; discriminate|]. cbn [windows2 In].
  destruct i as [|i].
  - cbn in H1, H2. left. congruence.
  - right. exact (IH i a c H1 H2).
Qed.
Lemma nth_error_slice : forall A (l : list A) n k i a,
  nth_error (firstn n (skipn k l)) i = Some a -> nth_error l (k + i) = Some a /\ i < n.
Proof.
  intros A l n k i a H.
  assert (Hi : i < n).
  { assert (i < length (firstn n (skipn k l))) by (apply nth_error_Some; congruence).
    rewrite firstn_length in *. lia. }
  split; [|exact Hi]. revert n i H Hi. induction n as [|n IH]; intros i H Hi; [lia|].
  clear IH. assert (E : nth_error (firstn (S n) (skipn k l)) i = nth_error (skipn k l) i).
  { clear H. revert i Hi. generalize (skipn k l). generalize (S n). clear.
    induction n as [|n IH]; intros l i Hi; [lia|]. destruct l as [|x l]; [reflexivity|].
    destruct i as [|i]; [reflexivity|]. cbn. apply IH. lia. }
  rewrite E in H. clear E. revert k H. clear. intros k. revert i. revert l.
  induction k as [|k IH]; intros l i H; [exact H|].
  destruct l as [|x l]; [destruct i; discriminate|]. cbn in *. now apply IH.
Qed.
Lemma windows_slice : forall A (l : list A) n k w,
  In w (windows2 (firstn n (skipn k l))) -> In w (windows2 l).
Proof.
  intros A l n k [a c] H. apply windows_nth in H. destruct H as [i [H1 H2]].
  apply nth_error_slice in H1. apply nth_error_slice in H2.
  apply (nth_windows _ l (k + i)); [apply H1|]. destruct H2 as [H2 _]. rewrite Nat.add_succ_r in H2. exact H2.
Qed.

Definition bounded (coords : nat) (w : N * N) : Prop :=
  (fst w <= snd w)%N /\ (snd w <= N.of_nat coords)%N.

Lemma detect_loop_safe : forall coords l idx,
  Forall (bounded (length coords)) l ->
  exists polys, detect_loop coords l idx = Ok polys /\
    (forall x, In x polys -> idx <= x < idx + length l) /\
    (forall g, In g (windows2 (polys ++ [idx + length l])) -> fst g <= snd g <= idx + length l).
Proof.
  intros coords. induction l as [|[s e] l IH]; intros idx H; cbn [detect_loop].
  - exists []. split; [reflexivity|]. split; intros; contradiction.
  - inversion H as [|? ? [H1 H2] H3]; subst. cbn [fst snd] in *.
    destruct (IH (S idx) H3) as [polys [E [Hin Hw]]].
    replace (S idx + length l) with (idx + length ((s, e) :: l)) in * by (cbn [length]; lia).
    assert (Hsl : exists first, (if Nat.eqb idx 0 then Ok true else res_map outer_ring (slice coords s e)) = Ok first).
    { destruct (Nat.eqb idx 0); [eauto|]. unfold slice.
      destruct (N.leb_spec s e); [|lia]. destruct (N.leb_spec e (N.of_nat (length coords))); [|lia].
      cbn [andb res_map]. eauto. }
    destruct Hsl as [first ->]. cbn [res_bind]. rewrite E. cbn [res_map].
    eexists. split; [reflexivity|].
    assert (Hin2 : forall x, In x polys -> idx <= x < idx + length ((s, e) :: l))
      by (intros x Hx; specialize (Hin x Hx); lia).
    destruct first; [|split; assumption].
    split.
    + intros x [<-|Hx]; [cbn [length]; lia|auto].
    + intros g. cbn [app]. destruct (polys ++ [idx + length ((s, e) :: l)]) as [|y r] eqn:Ey.
      { destruct polys; discriminate. }
      intros Hg. change (windows2 (idx :: y :: r)) with ((idx, y) :: windows2 (y :: r)) in Hg.
      destruct Hg as [<-|Hg]; [|apply Hw; exact Hg].
      cbn [fst snd]. assert (Hy : In y (polys ++ [idx + length ((s, e) :: l)])) by (rewrite Ey; now left).
      apply in_app_iff in Hy. destruct Hy as [Hy|[<-|[]]]; [apply Hin2 in Hy; lia|cbn [length]; lia].
Qed.

Lemma windows_length : forall A (l : list A), length (windows2 l) = length l - 1.
Proof.
  induction l as [|a l IH]; [reflexivity|]. destruct l as [|c l]; [reflexivity|].
  change (windows2 (a :: c :: l)) with ((a, c) :: windows2 (c :: l)).
  cbn [length] in *. rewrite IH. lia.
Qed.

Lemma process_quiet : forall ck d as_poly mp,
  0 < length (mp_parts mp) ->
  Forall (bounded (length (mp_coords mp))) (windows2 (mp_parts mp)) ->
  (mp_z mp = [] \/ length (mp_z mp) = length (mp_coords mp)) ->
  (mp_m mp = [] \/ length (mp_m mp) = length (mp_coords mp)) ->
  quiet (process_multipart ck d as_poly mp).
Proof.
  intros ck d as_poly mp Hp Hw Hz Hm. unfold process_multipart.
  assert (Hgp : exists gp, (if as_poly then plift (detect_polys mp) else pret [0; num_parts mp]) = Done (Ok gp) /\
    forall g, In g (windows2 gp) -> fst g <= snd g <= num_parts mp).
  { destruct as_poly.
    - unfold detect_polys. destruct (detect_loop_safe (mp_coords mp) _ 0 Hw) as [polys [E [_ Hg]]].
      rewrite E. cbn [res_map plift]. eexists. split; [reflexivity|].
      rewrite windows_length in Hg. exact Hg.
    - eexists. split; [reflexivity|]. intros g [<-|[]]. cbn. lia. }
  destruct Hgp as [gp [-> Hg]]. cbn [pbind].
  apply quiet_then; [destruct as_poly; apply quiet_call|].
  apply quiet_then; [|destruct as_poly; apply quiet_call].
  apply quiet_for. intros gi [gs ge] Hin. apply Hg in Hin. cbn [fst snd] in Hin.
  unfold process_geom_part. rewrite usub_ok by lia. cbn [plift pbind].
  apply quiet_then; [destruct as_poly; [apply quiet_call|apply quiet_ret]|].
  unfold slice. unfold num_parts in Hin.
  destruct (N.leb_spec (N.of_nat gs) (N.of_nat ge + 1)); [|lia].
  destruct (N.leb_spec (N.of_nat ge + 1) (N.of_nat (length (mp_parts mp)))); [|lia].
  cbn [andb plift pbind].
  apply quiet_then; [|destruct as_poly; [apply quiet_call|apply quiet_ret]].
  apply quiet_for. intros ri [s e] Hse. apply windows_slice in Hse.
  apply (proj1 (Forall_forall _ _) Hw) in Hse. destruct Hse as [H1 H2]. cbn [fst snd] in *.
  unfold process_part. rewrite usub_ok by lia. cbn [plift pbind].
  apply quiet_then; [apply quiet_call|]. apply quiet_then; [|apply quiet_call].
  apply emit_points_quiet; [lia| |]; apply filled_ok; assumption.
Qed.

(** ** Records *)
Lemma int_at_i32 : forall e b k z, int_at e b k = Some z -> is_i32 z.
Proof.
  intros e b k z H. unfold int_at in H.
  destruct (Nat.eqb_spec (length (firstn 4 (skipn k b))) 4) as [E|]; [|discriminate].
  injection H as <-. set (x := firstn 4 (skipn k b)) in *.
  assert (Hv : (val_of e x < 2 ^ 32)%N).
  { pose proof (val_of_lt e x) as Hb. rewrite E in Hb. exact Hb. }
  now apply u32_to_i32_range.
Qed.

Lemma as_usize_pos : forall z, (0 <= z)%Z -> is_i32 z -> as_usize z = Z.to_N z /\ (as_usize z < 2 ^ 31)%N.
Proof.
  intros z H0 [_ H1]. unfold as_usize. rewrite Z.mod_small by lia. lia.
Qed.

Lemma sorted_last : forall (l : list N) last,
  (forall a c, In (a, c) (windows2 (l ++ [last])) -> (a <= c)%N) ->
  forall x, In x (l ++ [last]) -> (x <= last)%N.
Proof.
  induction l as [|y l IH]; intros last H x Hx; cbn [app] in *.
  - destruct Hx as [<-|[]]. lia.
  - assert (Hl : forall a c, In (a, c) (windows2 (l ++ [last])) -> (a <= c)%N).
    { intros a c Hac. apply H. destruct (l ++ [last]) as [|z r] eqn:E; [destruct l; discriminate|].
      change (windows2 (y :: z :: r)) with ((y, z) :: windows2 (z :: r)). now right. }
    destruct Hx as [<-|Hx]; [|now apply IH].
    destruct (l ++ [last]) as [|z r] eqn:E; [destruct l; discriminate|].
    specialize (H y z). change (windows2 (y :: z :: r)) with ((y, z) :: windows2 (z :: r)) in H.
    assert (y <= z)%N by (apply H; now left).
    assert (z <= last)%N by (apply (IH last); rewrite E; [exact Hl|now left]). lia.
Qed.

Definition good (mp : multipart) : Prop :=
  0 < length (mp_parts mp) /\
  Forall (bounded (length (mp_coords mp))) (windows2 (mp_parts mp)) /\
  (mp_z mp = [] \/ length (mp_z mp) = length (mp_coords mp)) /\
  (mp_m mp = [] \/ length (mp_m mp) = length (mp_coords mp)).

Lemma multipart_safe : forall ck b size has_z,
  (forall parts points, int_at LE b 44 = Some parts -> int_at LE b 48 = Some points ->
     (0 <= parts)%Z /\ (0 <= points)%Z /\
     forall i a c, (Z.of_nat i < parts)%Z ->
       part_at b parts points i = Some a -> part_at b parts points (S i) = Some c -> (0 <= a <= c)%Z) ->
  safe (fun r => good (fst r)) (read_multipart ck size has_z (skipn 12 b)).
Proof.
  intros ck b size has_z H. unfold read_multipart. apply step_box. intros _.
  apply step_i32. intros parts Ep. apply step_i32. intros points En.
  destruct (H parts points Ep En) as [H0 [H1 Hasc]].
  destruct (as_usize_pos parts H0 (int_at_i32 _ _ _ _ Ep)) as [Up Lp].
  destruct (as_usize_pos points H1 (int_at_i32 _ _ _ _ En)) as [Un Ln].
  set (np := as_usize parts) in *. set (nn := as_usize points) in *.
  eapply step_ok; [apply record_size_ok; lia|]. eapply step_ok; [apply dim_value_size_ok; lia|].
  assert (Hs : exists v, (if has_z then uadd ck (40 + 4 * np + 16 * nn) (16 + nn * 8)
                          else Ok (40 + 4 * np + 16 * nn))%N = Ok v /\ (v < 2 ^ 40)%N).
  { destruct has_z; [rewrite uadd_ok by lia|]; (eexists; split; [reflexivity|lia]). }
  destruct Hs as [v [Ev Lv]]. eapply step_ok; [exact Ev|]. eapply step_ok; [apply uadd_ok; lia|].
  set (has_m := (size =? v + (16 + nn * 8))%N).
  destruct ((size =? v)%N || has_m); [|apply safe_fail; discriminate].
  unfold rbind at 1, rret at 1. cbn [pbind pret fst snd].
  eapply step_ok; [apply uadd_ok; lia|]. eapply step_ok; [apply reserve_ok; lia|].
  apply (step_list _ _ _ 4 _ _ _ _ _ _ i32_w). intros index Li Hi.
  apply step_xy; [lia|]. intros coords Lc.
  apply step_dim_if; [lia|]. intros zs k2 Lz. apply step_dim_if; [lia|]. intros ms k3 Lm.
  apply safe_ret. cbn [fst]. unfold good. cbn [mp_parts mp_coords mp_z mp_m].
  split; [rewrite app_length; cbn; lia|].
  split; [|split; [destruct Lz; [now left|right; lia]|destruct Lm; [now left|right; lia]]].
  assert (Hpa : forall i x, nth_error (index ++ [nn]) i = Some x ->
            exists z, part_at b parts points i = Some z /\ x = as_usize z /\ is_i32 z).
  { intros i x Hx. unfold part_at. destruct (Nat.ltb_spec i (length index)) as [Hlt|Hge].
    - rewrite nth_error_app1 in Hx by exact Hlt. destruct (Hi i x Hx) as [-> Hw].
      destruct (Z.ltb_spec (Z.of_nat i) parts); [|lia].
      change (12 + 16 * 2 + 4 + 4) with 52 in *.
      assert (E : int_at LE b (52 + 4 * i) = Some (u32_to_i32 (val_of LE (firstn 4 (skipn (52 + 4 * i) b))))).
      { unfold int_at. rewrite Hw. reflexivity. }
      rewrite E. eexists. split; [reflexivity|]. split; [reflexivity|exact (int_at_i32 _ _ _ _ E)].
    - assert (i = length index).
      { assert (i < length (index ++ [nn])) by (apply nth_error_Some; congruence).
        rewrite app_length in *. cbn in *. lia. }
      subst i. rewrite nth_error_app2, Nat.sub_diag in Hx by lia. cbn in Hx. injection Hx as <-.
      destruct (Z.ltb_spec (Z.of_nat (length index)) parts); [lia|].
      exists points. split; [reflexivity|]. split; [reflexivity|exact (int_at_i32 _ _ _ _ En)]. }
  assert (Hw : forall a c, In (a, c) (windows2 (index ++ [nn])) -> (a <= c)%N).
  { intros a c Hac. apply windows_nth in Hac. destruct Hac as [i [Ha Hc]].
    assert (i < length index).
    { assert (S i < length (index ++ [nn])) by (apply nth_error_Some; congruence).
      rewrite app_length in *. cbn in *. lia. }
    destruct (Hpa _ _ Ha) as [za [Pa [-> Ia]]]. destruct (Hpa _ _ Hc) as [zc [Pc [-> Ic]]].
    assert (Hz : (0 <= za <= zc)%Z) by (apply (Hasc i); [lia|assumption|assumption]).
    destruct (as_usize_pos za) as [-> _]; [lia|exact Ia|].
    destruct (as_usize_pos zc) as [-> _]; [lia|exact Ic|]. lia. }
  apply Forall_forall. intros [a c] Hac. unfold bounded. cbn [fst snd]. split; [now apply Hw|].
  rewrite Lc. apply (sorted_last index nn Hw). apply windows_nth in Hac. destruct Hac as [i [_ Hc]].
  exact (nth_error_In _ _ Hc).
Qed.

Lemma parts_quiet : forall ck d b size has_z as_poly,
  (forall parts points, int_at LE b 44 = Some parts -> int_at LE b 48 = Some points ->
     (0 <= parts)%Z /\ (0 <= points)%Z /\
     forall i a c, (Z.of_nat i < parts)%Z ->
       part_at b parts points i = Some a -> part_at b parts points (S i) = Some c -> (0 <= a <= c)%Z) ->
  quiet (read_parts ck d size has_z as_poly (skipn 12 b)).
Proof.
  intros ck d b size has_z as_poly H. unfold read_parts, rbind.
  eapply safe_bind; [apply multipart_safe; exact H|]. intros [mp rest] [G1 [G2 [G3 G4]]]. cbn [fst snd] in *.
  unfold rprog. apply quiet_bind; [now apply process_quiet|]. intros. apply quiet_ret.
Qed.

Lemma multipoint_quiet : forall ck d b size has_z,
  (forall points, int_at LE b 44 = Some points -> (0 <= points)%Z) ->
  quiet (read_multipoint ck d size has_z (skipn 12 b)).
Proof.
  intros ck d b size has_z H. apply (safe_quiet _ (fun _ => True)). unfold read_multipoint.
  apply step_box. intros _. apply step_i32. intros points En.
  destruct (as_usize_pos points (H _ En) (int_at_i32 _ _ _ _ En)) as [Un Ln].
  set (nn := as_usize points) in *.
  eapply step_ok; [apply umul_ok; lia|]. eapply step_ok; [apply uadd_ok; lia|].
  eapply step_ok; [apply dim_value_size_ok; lia|].
  assert (Hs : exists v, (if has_z then uadd ck (36 + 16 * nn) (16 + nn * 8)
                          else Ok (36 + 16 * nn))%N = Ok v /\ (v < 2 ^ 40)%N).
  { destruct has_z; [rewrite uadd_ok by lia|]; (eexists; split; [reflexivity|lia]). }
  destruct Hs as [v [Ev Lv]]. eapply step_ok; [exact Ev|]. eapply step_ok; [apply uadd_ok; lia|].
  set (has_m := (size =? v + (16 + nn * 8))%N).
  destruct ((size =? (if has_m then v + (16 + nn * 8) else v))%N); [|apply safe_fail; discriminate].
  unfold rbind at 1, rret at 1. cbn [pbind pret fst snd].
  apply step_xy; [lia|]. intros coords Lc.
  apply step_dim_if; [lia|]. intros zs k2 Lz. apply step_dim_if; [lia|]. intros ms k3 Lm.
  apply quiet_safe. unfold rprog. apply quiet_bind; [|intros; apply quiet_ret].
  apply quiet_then; [apply quiet_call|]. apply quiet_then; [|apply quiet_call].
  apply emit_points_quiet; [lia| |]; apply filled_ok.
  - destruct Lz; [now left|right; lia].
  - destruct Lm; [now left|right; lia].
Qed.

Lemma point_quiet : forall d b size t, quiet (read_point d size t (skipn 12 b)).
Proof.
  intros d b size t. apply (safe_quiet _ (fun _ => True)). unfold read_point.
  match goal with |- safe _ (rbind (if ?c then _ else _) _ _) => destruct c end;
    [|apply safe_fail; discriminate].
  unfold rbind at 1, rret at 1. cbn [pbind pret fst snd].
  apply step_f64. intros x. apply step_f64. intros y.
  assert (Hopt : forall B (c : bool) k (g : option f64 -> rd B),
    (forall o k2, safe (fun _ => True) (g o (skipn k2 b))) ->
    safe (fun _ => True) (rbind (if c then rmap Some (r_f64 LE) else rret None) g (skipn k b))).
  { intros B [] k g Hg.
    - apply step_val2. intros. apply Hg.
    - unfold rbind, rret. cbn [pbind pret fst snd]. apply Hg. }
  apply Hopt. intros z k2. apply Hopt. intros m k3. apply quiet_safe.
  assert (Hcall : forall e c, quiet (rcall e c)).
  { intros e c. exists [e], (Ok (tt, c)). split; [reflexivity|discriminate]. }
  apply quiet_bind; [apply Hcall|]. intros [? ?] ? _.
  apply quiet_bind; [destruct (multi_dim d); apply Hcall|]. intros [? ?] ? _. apply Hcall.
Qed.

Lemma i32_at : forall e b k, r_i32 e (skipn k b) = pfail EIo \/
  exists z, int_at e b k = Some z /\ r_i32 e (skipn k b) = pret (z, skipn (k + 4) b).
Proof.
  intros e b k. unfold r_i32, r_u32, rmap, rbind, rtake, rret, int_at.
  destruct (Nat.ltb_spec (length (skipn k b)) 4) as [H|H]; [left; reflexivity|right].
  assert (E : length (firstn 4 (skipn k b)) = 4) by (rewrite firstn_length; lia).
  eexists. split; [now rewrite E|]. cbn [pbind pret fst snd]. now rewrite skipn_plus.
Qed.

Theorem record_quiet : forall ck d b, sane b -> quiet (read_shape ck d b).
Proof.
  intros ck d b [H1 [H2 H3]]. change b with (skipn 0 b) at 1.
  apply (safe_quiet _ (fun _ => True)). unfold read_shape.
  apply step_i32. intros number _. apply step_i32. intros size Es. specialize (H1 size Es).
  eapply step_ok; [apply i32_op_ok; unfold is_i32; lia|]. apply quiet_safe. unfold rbind at 1.
  apply quiet_bind; [|intros; apply quiet_ret].
  assert (Hu : as_usize (size * 2) = Z.to_N (size * 2) /\ (as_usize (size * 2) < 2 ^ 31)%N).
  { apply as_usize_pos; [lia|unfold is_i32; lia]. }
  destruct Hu as [Hu Lu]. unfold read_shape_rec, read_shape_type.
  change (0 + 4 + 4) with 8.
  destruct (i32_at LE b 8) as [E|[code [Ec E]]].
  - rewrite (rbind_assoc_err _ _ _ _ _ _ _ _ E). apply quiet_done. discriminate.
  - rewrite (rbind_assoc_ok _ _ _ _ _ _ _ _ _ E). change (8 + 4) with 12.
    destruct (shape_type_of code) as [t|] eqn:Et; [|apply quiet_done; discriminate].
    unfold rbind at 1, rret at 1. cbn [pbind pret fst snd].
    unfold rthen, rbind, rlift. rewrite usub_ok by lia. cbn [pbind pret fst snd].
    assert (Hp : In code [8; 18; 28]%Z -> forall points, int_at LE b 44 = Some points -> (0 <= points)%Z).
    { intros Hin points. now apply (H2 code). }
    assert (Hm : In code [3; 13; 23; 5; 15; 25]%Z -> forall parts points,
      int_at LE b 44 = Some parts -> int_at LE b 48 = Some points ->
      (0 <= parts)%Z /\ (0 <= points)%Z /\
      forall i a c, (Z.of_nat i < parts)%Z ->
        part_at b parts points i = Some a -> part_at b parts points (S i) = Some c -> (0 <= a <= c)%Z).
    { intros Hin parts points. now apply (H3 code). }
    clear H2 H3 E Ec.
    assert (Hc : match t with
      | Multipoint | MultipointM | MultipointZ => In code [8; 18; 28]%Z
      | Polyline | PolylineM | PolylineZ | Polygon | PolygonM | PolygonZ =>
          In code [3; 13; 23; 5; 15; 25]%Z
      | _ => True end).
    { destruct code as [|c|c]; cbn in Et; try discriminate; [now injection Et as <-|].
      do 6 (try match goal with q : positive |- _ => destruct q; try discriminate end); injection Et as <-; cbn; auto 10. }
    destruct t; try (apply point_quiet); try (apply multipoint_quiet; auto);
      try (apply parts_quiet; auto); [apply quiet_ret|].
    apply (safe_quiet _ (fun _ => True)). unfold read_multipatch.
    eapply step_ok; [apply reserve_ok; lia|]. apply step_take. intros. now apply safe_ret.
Qed.

(** ** Truncated records *)
Lemma int_at_prefix : forall e b k o z, int_at e (firstn k b) o = Some z -> int_at e b o = Some z.
Proof.
  intros e b k o z H. unfold int_at in *.
  destruct (Nat.eqb_spec (length (firstn 4 (skipn o (firstn k b)))) 4) as [E|]; [|discriminate].
  rewrite <- H. clear H. rewrite skipn_firstn_comm, firstn_firstn in *.
  assert (Hm : Nat.min 4 (k - o) = 4) by (rewrite firstn_length in E; lia).
  rewrite Hm in *. rewrite E. reflexivity.
Qed.

Lemma sane_prefix : forall b k, sane b -> sane (firstn k b).
Proof.
  intros b k [H1 [H2 H3]]. repeat split.
  - apply int_at_prefix in H. now apply H1.
  - apply int_at_prefix in H. now apply H1.
  - intros t points Ht Hin Hp. apply int_at_prefix in Ht, Hp. now apply (H2 t).
  - apply int_at_prefix in H, H4, H5. now apply (H3 t parts points).
  - apply int_at_prefix in H, H4, H5. now apply (H3 t parts points).
  - apply int_at_prefix in H, H4, H5. destruct (H3 t parts points H H0 H4 H5) as [_ [_ Ha]].
    intros. apply (Ha i a c H6); unfold part_at in *.
    + destruct (Z.ltb (Z.of_nat i) parts); [now apply int_at_prefix in H7|exact H7].
    + destruct (Z.ltb (Z.of_nat (S i)) parts); [now apply int_at_prefix in H8|exact H8].
  - apply int_at_prefix in H, H4, H5. destruct (H3 t parts points H H0 H4 H5) as [_ [_ Ha]].
    intros. apply (Ha i a c H6); unfold part_at in *.
    + destruct (Z.ltb (Z.of_nat i) parts); [now apply int_at_prefix in H7|exact H7].
    + destruct (Z.ltb (Z.of_nat (S i)) parts); [now apply int_at_prefix in H8|exact H8].
Qed.

Lemma int_at_app : forall e a z r k, length a = k -> is_i32 z ->
  int_at e (a ++ bytes_of e 4 (i32_to_u32 z) ++ r) k = Some z.
Proof.
  intros e a z r k <- Hz. unfold int_at.
  set (v := bytes_of e 4 (i32_to_u32 z)).
  assert (L : length v = 4) by apply bytes_of_length.
  assert (E : firstn 4 (skipn (length a) (a ++ v ++ r)) = v).
  { rewrite skipn_app, skipn_all, Nat.sub_diag, app_nil_l. change (skipn 0 (v ++ r)) with (v ++ r).
    rewrite firstn_app, L, Nat.sub_diag, (firstn_all2 (n := 4)) by lia. apply app_nil_r. }
  rewrite E, L. cbn [Nat.eqb]. f_equal. subst v.
  rewrite val_of_bytes_of; [now apply u32_to_i32_to_u32|]. apply i32_to_u32_lt.
Qed.

Lemma starts_ascend : forall A (parts : list (list A)) k i a,
  nth_error (starts k parts) i = Some a ->
  (forall c, nth_error (starts k parts) (S i) = Some c -> a <= c) /\ a <= k + length (concat parts).
Proof.
  induction parts as [|p parts IH]; intros k i a H; [destruct i; discriminate|].
  cbn [starts concat] in *. rewrite app_length. destruct i as [|i]; cbn [nth_error] in *.
  - injection H as <-. split; [|lia]. intros c Hc. destruct parts; [discriminate|]. cbn in Hc. injection Hc as <-. lia.
  - destruct (IH _ _ _ H) as [H1 H2]. split; [exact H1|lia].
Qed.

Lemma content_size : forall sh, well_formed sh -> 4 <= length (content sh).
Proof.
  intros sh _. destruct sh; cbn [content]; rewrite ?app_length, le32_length; lia.
Qed.
Lemma words_range : forall sh, well_formed sh -> (2 <= words sh < 2 ^ 30)%Z.
Proof.
  intros sh H. pose proof (content_size sh H). destruct H as [H _]. unfold words.
  split; [apply Z.div_le_lower_bound; lia|apply Z.div_lt_upper_bound; lia].
Qed.

Lemma parts_table : forall v m e parts head i s rest,
  length head = 12 -> extent_ok e -> (N.of_nat (length (parts_bytes v m e parts)) < 2 ^ 31)%N ->
  nth_error (starts 0 parts) i = Some s ->
  int_at LE (head ++ parts_bytes v m e parts ++ rest) (52 + 4 * i) = Some (Z.of_nat s).
Proof.
  intros v m e parts head i s rest Hh He Hl Hs. pose proof (parts_length v m e parts He) as Hpl.
  destruct (nth_error_split _ _ Hs) as [l1 [l2 [El Ll]]].
  unfold parts_bytes. rewrite El, flat_map_app. cbn [flat_map].
  pose proof (starts_ascend _ parts 0 i s Hs) as [_ Hb].
  replace (head ++ (flat_map le64 (e_box e) ++ count32 (length parts) ++ count32 (length (concat parts)) ++
     (flat_map count32 l1 ++ count32 s ++ flat_map count32 l2) ++ points_bytes v m e (concat parts)) ++ rest)
    with ((head ++ flat_map le64 (e_box e) ++ count32 (length parts) ++ count32 (length (concat parts)) ++
     flat_map count32 l1) ++ count32 s ++ (flat_map count32 l2 ++ points_bytes v m e (concat parts) ++ rest))
    by (rewrite <- !app_assoc; reflexivity).
  apply int_at_app.
  - rewrite !app_length, (flat_map_const _ le64 8), (flat_map_const _ count32 4) by (intros; apply le32_length || apply le64_length).
    unfold count32. rewrite !le32_length. destruct He as [-> _]. lia.
  - apply count_i32. rewrite Hpl, (points_length _ _ _ _ He) in Hl. cbn [Nat.add] in Hb. lia.
Qed.

Lemma parts_sane : forall v m e l head rest,
  length head = 12 -> extent_ok e -> (N.of_nat (length (parts_bytes v m e l)) < 2 ^ 31)%N ->
  let b := head ++ parts_bytes v m e l ++ rest in
  forall parts points, int_at LE b 44 = Some parts -> int_at LE b 48 = Some points ->
  (0 <= parts)%Z /\ (0 <= points)%Z /\
  forall i a c, (Z.of_nat i < parts)%Z ->
    part_at b parts points i = Some a -> part_at b parts points (S i) = Some c -> (0 <= a <= c)%Z.
Proof.
  intros v m e l head rest Hh He Hl b parts points Ep En.
  pose proof (parts_length v m e l He) as Hpl. pose proof (points_length v m e (concat l) He) as Hpt.
  assert (E44 : int_at LE b 44 = Some (Z.of_nat (length l))).
  { unfold b, parts_bytes. rewrite <- !app_assoc. rewrite (app_assoc head). apply int_at_app.
    - rewrite app_length, (flat_map_const _ le64 8) by (intros; apply le64_length). destruct He as [-> _]. lia.
    - apply count_i32. lia. }
  assert (E48 : int_at LE b 48 = Some (Z.of_nat (length (concat l)))).
  { unfold b, parts_bytes. rewrite <- !app_assoc. rewrite (app_assoc head).
    rewrite (app_assoc (head ++ _)). apply int_at_app.
    - rewrite !app_length, (flat_map_const _ le64 8) by (intros; apply le64_length).
      unfold count32. rewrite le32_length. destruct He as [-> _]. lia.
    - apply count_i32. lia. }
  rewrite E44 in Ep. rewrite E48 in En. injection Ep as <-. injection En as <-.
  split; [lia|]. split; [lia|]. intros i a c Hi Ha Hc. unfold part_at in Ha, Hc.
  destruct (Z.ltb_spec (Z.of_nat i) (Z.of_nat (length l))); [|lia].
  destruct (nth_error (starts 0 l) i) as [s|] eqn:Es.
  2: { apply nth_error_None in Es. rewrite starts_length in Es. lia. }
  unfold b in Ha. rewrite (parts_table _ _ _ _ _ _ _ _ Hh He Hl Es) in Ha. injection Ha as <-.
  destruct (starts_ascend _ _ _ _ _ Es) as [Hnext Hlast]. cbn [Nat.add] in Hlast.
  destruct (Z.ltb_spec (Z.of_nat (S i)) (Z.of_nat (length l))) as [Hlt|Hge].
  - destruct (nth_error (starts 0 l) (S i)) as [s2|] eqn:Es2.
    2: { apply nth_error_None in Es2. rewrite starts_length in Es2. lia. }
    unfold b in Hc. rewrite (parts_table _ _ _ _ _ _ _ _ Hh He Hl Es2) in Hc. injection Hc as <-.
    specialize (Hnext s2 eq_refl). lia.
  - injection Hc as <-. lia.
Qed.

Lemma record_sane : forall n sh rest, is_i32 n -> well_formed sh -> sane (record_bytes n sh ++ rest).
Proof.
  intros n sh rest Hn Hw. pose proof (words_range sh Hw) as Hr.
  assert (L1 : length (be32 n) = 4) by apply bytes_of_length.
  assert (L2 : length (be32 (words sh)) = 4) by apply bytes_of_length.
  assert (Hsz : int_at BE (record_bytes n sh ++ rest) 4 = Some (words sh)).
  { unfold record_bytes. rewrite <- !app_assoc. apply int_at_app; [exact L1|unfold is_i32; lia]. }
  assert (Ht : forall code r, content sh = le32 code ++ r -> is_i32 code ->
     int_at LE (record_bytes n sh ++ rest) 8 = Some code).
  { intros code r E Hc. unfold record_bytes. rewrite E, <- !app_assoc, (app_assoc (be32 n)).
    apply int_at_app; [rewrite app_length; lia|exact Hc]. }
  assert (Hcode : exists code r, content sh = le32 code ++ r /\ is_i32 code /\
     (In code [8; 18; 28]%Z -> exists v m e l, sh = ManyPoints v m e l) /\
     (In code [3; 13; 23; 5; 15; 25]%Z ->
        exists v m e l, well_formed sh /\ extent_ok e /\ r = parts_bytes v m e l)).
  { destruct sh as [|v c|v m e l|v m e l|v m e l|b]; cbn [content].
    - exists 0%Z, []. rewrite app_nil_r. repeat split; try (cbn; lia); cbn; intuition discriminate.
    - eexists _, _. split; [reflexivity|]. destruct v; (repeat split; try (cbn; lia); cbn; intuition discriminate).
    - eexists _, _. split; [reflexivity|].
      split; [destruct v; unfold is_i32; cbn; lia|]. split; [intros; eauto|].
      destruct v; cbn; intuition discriminate.
    - eexists _, _. split; [reflexivity|]. split; [destruct v; unfold is_i32; cbn; lia|].
      split; [destruct v; cbn; intuition discriminate|]. intros _. exists v, m, e, l.
      split; [exact Hw|]. split; [apply Hw|reflexivity].
    - eexists _, _. split; [reflexivity|]. split; [destruct v; unfold is_i32; cbn; lia|].
      split; [destruct v; cbn; intuition discriminate|]. intros _. exists v, m, e, l.
      split; [exact Hw|]. split; [apply Hw|reflexivity].
    - eexists _, _. split; [reflexivity|]. repeat split; try (cbn; lia); cbn; intuition discriminate. }
  destruct Hcode as [code [r [Ec [Ic [Hmany Hparts]]]]]. specialize (Ht code r Ec Ic).
  split; [|split].
  - intros size Es. rewrite Hsz in Es. injection Es as <-. exact Hr.
  - intros t points Et Hin Ep. rewrite Ht in Et. injection Et as <-.
    destruct (Hmany Hin) as [v [m [e [l ->]]]]. destruct Hw as [Hlen [_ [He _]]].
    cbn [content] in Hlen. rewrite !app_length, (points_length _ _ _ _ He) in Hlen.
    assert (E44 : int_at LE (record_bytes n (ManyPoints v m e l) ++ rest) 44 = Some (Z.of_nat (length l))).
    { unfold record_bytes. cbn [content]. rewrite <- !app_assoc.
      rewrite (app_assoc (be32 n)), (app_assoc (be32 n ++ _)), (app_assoc ((be32 n ++ _) ++ _)).
      apply int_at_app.
      - rewrite !app_length, L1, L2, le32_length, (flat_map_const _ le64 8) by (intros; apply le64_length).
        destruct He as [-> _]. lia.
      - apply count_i32. lia. }
    rewrite E44 in Ep. injection Ep as <-. lia.
  - intros t parts points Et Hin Ep En. rewrite Ht in Et. injection Et as <-.
    destruct (Hparts Hin) as [v [m [e [l [_ [He ->]]]]]].
    assert (Eb : record_bytes n sh ++ rest =
              (be32 n ++ be32 (words sh) ++ le32 code) ++ parts_bytes v m e l ++ rest).
    { unfold record_bytes. rewrite Ec, <- !app_assoc. reflexivity. }
    rewrite Eb in *. apply (parts_sane v m e l); [| |  |exact Ep|exact En].
    + rewrite !app_length, L1, L2, le32_length. reflexivity.
    + exact He.
    + destruct Hw as [Hlen _]. rewrite Ec, app_length in Hlen. lia.
Qed.

Theorem truncated_quiet : forall ck d n sh rest k, is_i32 n -> well_formed sh ->
  quiet (read_shape ck d (firstn k (record_bytes n sh ++ rest))).
Proof. intros. apply record_quiet, sane_prefix, record_sane; assumption. Qed.
