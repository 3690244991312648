(** Lemmas behind C86_shape_type and C86_shape_size. *)
From Coq Require Import List NArith ZArith Lia Bool.
From Coq Require Import Init.Byte.
From Verif Require Import Base BaseLemmas Event WkbModel ShpModel ShpSpec ShpSafe ShpPanic ShpPanicSpec ShpPanicTop RaiseSpec RaiseTop ShpKindSpec.
Import ListNotations.
Local Open Scope nat_scope.
Local Open Scope list_scope.

(** the result if every callback is accepted *)
Fixpoint ending {A} (g : prog A) : res A :=
  match g with
  | Done r => r
  | Call _ k => ending k
  | CallIgn _ k => ending k
  | CallProp _ _ _ k => ending (k false)
  end.
Lemma ending_observe : forall A (g : prog A) d s, snd (exec (recorder d false) g s) = ending g.
Proof. induction g as [r|e k IH|e k IH|i n v k IH]; intros d s; cbn; auto. Qed.
Lemma ending_bind : forall A B (g : prog A) (f : A -> prog B),
  ending (pbind g f) = match ending g with Ok a => ending (f a) | Err x => Err x end.
Proof. induction g as [[a|x]|e k IH|e k IH|i n v k IH]; intros f; cbn; auto. Qed.
Lemma ending_fin : forall A own (g : prog A) x, fin own g -> ending g = Err x -> In x own.
Proof.
  induction g as [[a|y]|e k IH|e k IH|i n v k IH]; intros x H E; cbn in *.
  - discriminate E.
  - injection E as <-. exact H.
  - auto.
  - destruct H.
  - eapply IH; [apply H|exact E].
Qed.

Definition goes {A} (x : error) (P : Prop) (g : prog A) : Prop := ending g = Err x <-> P.
Definition tail_own : list error := [EIo; EPanic].

Section Steps.
  Context {B : Type}.
  Variable x : error.
  Hypothesis Hx : ~ In x tail_own.
  Variable P : Prop.
  Lemma K_other : forall A y, In y tail_own -> ~ P -> goes x P (Done (Err y : res A)).
  Proof. intros A y H1 H2. unfold goes. cbn [ending]. split; [intros E; injection E as ->; contradiction|contradiction]. Qed.
  Lemma K_rest : forall A (g : prog A), fin tail_own g -> ~ P -> goes x P g.
  Proof. intros A g H1 H2. unfold goes. split; [intros E; destruct (Hx (ending_fin _ _ _ _ H1 E))|contradiction]. Qed.
  Lemma K_i32 : forall e b k (g : Z -> rd B),
    (int_at e b k = None -> ~ P) -> (forall z, int_at e b k = Some z -> goes x P (g z (skipn (k + 4) b))) ->
    goes x P (rbind (r_i32 e) g (skipn k b)).
  Proof.
    intros e b k g H1 H2. destruct (i32_at e b k) as [E|[z [Ez E]]]; unfold rbind; rewrite E; cbn [pbind pret pfail fst snd].
    - apply K_other; [cbn; auto|]. apply H1. destruct (int_at e b k) as [z|] eqn:F; [|reflexivity]. apply int_at_len in F. exfalso.
      revert E. unfold r_i32, r_u32, rmap, rbind, rtake, rret. rewrite skipn_length.
      destruct (Nat.ltb_spec (length b - k) 4); [lia|]. discriminate.
    - now apply H2.
  Qed.
  Lemma K_ok : forall A (r : res A) a (g : A -> rd B) b, r = Ok a -> goes x P (g a b) -> goes x P (rthen r g b).
  Proof. intros * -> H. exact H. Qed.
  Lemma K_panic : forall A (r : res A) (g : A -> rd B) b, r = Err EPanic -> ~ P -> goes x P (rthen r g b).
  Proof. intros * -> H. apply K_other; [cbn; auto|exact H]. Qed.
  Lemma K_box : forall dims b k (g : list f64 -> rd B), k <= length b ->
    (length b < k + 16 * dims -> ~ P) -> (forall l, k + 16 * dims <= length b -> goes x P (g l (skipn (k + 16 * dims) b))) ->
    goes x P (rbind (read_bbox dims) g (skipn k b)).
  Proof.
    intros dims b k g Hk H1 H2. unfold read_bbox. rewrite f64s_list. unfold rbind.
    destruct (Nat.lt_ge_cases (length b) (k + 16 * dims)) as [L|L].
    - rewrite (list_exact _ _ 8 _ (2 * dims) b k ltac:(lia) f64_w ltac:(lia) ltac:(lia)). apply K_other; [cbn; auto|auto].
    - destruct (list_at _ _ 8 _ (2 * dims) b k f64_w) as [E|[l [E _]]]; rewrite E; cbn [pbind pret pfail fst snd].
      + exfalso. assert (G : forall n k, k + 8 * n <= length b -> r_list (r_f64 LE) n (skipn k b) <> pfail EIo).
        { clear. induction n as [|n IH]; intros k L E; [discriminate|]. cbn [r_list] in E.
          unfold rbind at 1 in E. rewrite f64_w, skipn_length in E.
          destruct (Nat.ltb_spec (length b - k) 8) as [G|G]; [lia|].
          cbn [pbind pret fst snd] in E. rewrite skipn_plus in E. unfold rbind in E.
          destruct (list_at _ _ 8 _ n b (k + 8) f64_w) as [E2|[l [E2 _]]].
          - apply (IH (k + 8)); [lia|exact E2].
          - rewrite E2 in E. discriminate. }
        apply (G (2 * dims) k); [lia|exact E].
      + replace (k + 8 * (2 * dims)) with (k + 16 * dims) by lia. now apply H2.
  Qed.
End Steps.

(** ** After the checks of the lengths *)
Ltac panic2 := intros y Ey; right; left; symmetry; revert Ey; solve
  [apply index_err|apply uadd_err|apply umul_err|apply usub_err|apply i32_err|apply reserve_err|apply slice_err
  |apply some_index_err; intros ?; apply index_err|apply some_index_err; intros ?; apply detect_err|discriminate].
Lemma emit_point_tail : forall a b c d e f g i, fin tail_own (emit_point a b c d e f g i).
Proof. intros. unfold emit_point. fine; panic2. Qed.
Lemma emit_points_tail : forall a b c d e f g n i, fin tail_own (emit_points a b c d e f g n i).
Proof. induction n as [|n IH]; intros i; cbn [emit_points]; fine; [apply emit_point_tail|apply IH]. Qed.
Lemma multipart_tail : forall ck d b mp, fin tail_own (process_multipart ck d b mp).
Proof.
  intros. unfold process_multipart, process_geom_part, process_part, detect_polys. fine; try apply emit_points_tail; panic2.
Qed.
Lemma dim_values_tail : forall n, rfin tail_own (read_dim_values n).
Proof. intros. unfold read_dim_values, read_bbox. rfine; panic2. Qed.
Lemma xy_tail : forall n, rfin tail_own (read_xy n).
Proof. intros. unfold read_xy. rfine; panic2. Qed.

Definition size_case (x : error) (Q : Prop) : Prop := x = EShp 5 /\ Q.
Lemma K_size : forall A x (Q : Prop) (c : bool) (g : rd A) b, ~ In x tail_own -> (c = false <-> Q) -> rfin tail_own g ->
  goes x (size_case x Q) (rbind (if c then rret tt else rfail InvalidShapeRecordSize) (fun _ => g) b).
Proof.
  intros A x Q c g b Hx Hc Hg. destruct c; unfold rbind, rret, rfail; cbn [pbind pret pfail fst snd].
  - apply K_rest; [exact Hx|apply Hg|]. intros [_ H]. apply Hc in H. discriminate.
  - unfold goes, size_case. cbn [ending]. split; [intros E; injection E as <-; split; [reflexivity|now apply Hc]|intros [-> _]; reflexivity].
Qed.

Lemma goes_iff : forall A x (P Q : Prop) (g : prog A), (P <-> Q) -> goes x P g -> goes x Q g.
Proof. intros A x P Q g H G. unfold goes in *. now rewrite G. Qed.

Definition point_wrong (t : shape_type) (n4 : Z) : Prop :=
  match t with
  | PointZ => n4 <> 24%Z /\ n4 <> 32%Z
  | PointM => n4 <> 24%Z
  | _ => n4 <> 16%Z
  end.
Lemma usize_is : forall n4 k, (- 2 ^ 40 < n4 < 2 ^ 40)%Z -> (0 <= k < 100)%Z -> (as_usize n4 =? Z.to_N k)%N = (n4 =? k)%Z.
Proof. intros n4 k H K. rewrite (const_usize k) by lia. apply usize_eqb. lia. Qed.
Lemma point_kind : forall x d n4 t b, ~ In x tail_own -> (- 2 ^ 40 < n4 < 2 ^ 40)%Z ->
  goes x (size_case x (point_wrong t n4)) (read_point d (as_usize n4) t b).
Proof.
  intros x d n4 t b Hx Hn. unfold read_point.
  apply K_size; [exact Hx| |destruct t; rfine].
  pose proof (usize_is n4 16 Hn ltac:(lia)) as E16. pose proof (usize_is n4 24 Hn ltac:(lia)) as E24.
  pose proof (usize_is n4 32 Hn ltac:(lia)) as E32. cbn [Z.to_N] in E16, E24, E32.
  destruct t; cbn [point_wrong];
    try (change ((2 + 0 + 0) * 8)%N with 16%N; rewrite E16; apply Z.eqb_neq);
    try (change ((2 + 0 + 1) * 8)%N with 24%N; rewrite E24; apply Z.eqb_neq).
  rewrite E32. destruct (Z.eqb_spec n4 32) as [->|E].
  - change ((2 + 1 + 1) * 8)%N with 32%N. rewrite E32. split; [discriminate|intros [_ H]; contradiction].
  - change ((2 + 1 + 0) * 8)%N with 24%N. rewrite E24, Z.eqb_neq. tauto.
Qed.

Definition many_wrong (ck has_z : bool) (n4 : Z) (b : list byte) : Prop :=
  exists points, int_at LE b 44 = Some points /\ (ck = true -> 0 <= points)%Z /\ ~ fit has_z n4 36 points.
Lemma many_kind : forall x ck d b n4 has_z, ~ In x tail_own -> (- 2 ^ 40 < n4 < 2 ^ 40)%Z -> 12 <= length b ->
  goes x (size_case x (many_wrong ck has_z n4 b)) (read_multipoint ck d (as_usize n4) has_z (skipn 12 b)).
Proof.
  intros x ck d b n4 has_z Hx Hn Hb. unfold read_multipoint. apply K_box; [exact Hx|exact Hb| |].
  { intros L [_ [points [E _]]]. apply int_at_len in E. lia. }
  intros _ _. change (12 + 16 * 2) with 44. apply K_i32; [exact Hx| |].
  { intros E [_ [points [E' _]]]. congruence. }
  intros points Ep. change (44 + 4) with 48. pose proof (int_at_i32 _ _ _ _ Ep) as Hi. pose proof Hi as [Li Lj].
  assert (HP : size_case x (many_wrong ck has_z n4 b) <-> size_case x ((ck = true -> 0 <= points)%Z /\ ~ fit has_z n4 36 points)).
  { unfold size_case, many_wrong. split; intros [H1 H2]; (split; [exact H1|]).
    - destruct H2 as [q [Eq H]]. rewrite Ep in Eq. injection Eq as <-. exact H.
    - exists points. auto. }
  assert (Hneg : ck = true /\ (points < 0)%Z \/ (ck = true -> 0 <= points)%Z).
  { destruct ck; [|right; discriminate]. destruct (Z.ltb_spec points 0); [left; auto|right; auto]. }
  destruct Hneg as [[-> Hneg]|Hpos].
  { apply K_panic; [exact Hx|apply mul_neg; [lia|exact Hi|exact Hneg]|]. rewrite HP. intros [_ [H _]]. specialize (H eq_refl). lia. }
  eapply goes_iff; [symmetry; exact HP|].
  change 16%N with (as_usize 16). eapply K_ok; [apply mul_hom; intros E; specialize (Hpos E); lia|].
  change 36%N with (as_usize 36). eapply K_ok; [apply add_hom; intros E; specialize (Hpos E); lia|].
  eapply K_ok; [apply dim_size_hom; [exact Hi|exact Hpos]|].
  set (block := (16 + 8 * points)%Z).
  set (base := (36 + 16 * points + (if has_z then block else 0))%Z).
  eapply (K_ok _ _ _ _ (as_usize base)).
  { unfold base, block. destruct has_z; [rewrite add_hom by (intros E; specialize (Hpos E); lia); reflexivity|f_equal; f_equal; lia]. }
  eapply K_ok; [apply add_hom; intros E; specialize (Hpos E); unfold base, block; destruct has_z; lia|].
  assert (Habs : (Z.abs (n4 - base) < 2 ^ 50 /\ Z.abs (n4 - (base + block)) < 2 ^ 50)%Z).
  { unfold base, block. destruct has_z; lia. }
  rewrite !usize_eqb by lia.
  apply K_size; [exact Hx| |].
  - unfold fit. fold block base. destruct (Z.eqb_spec n4 (base + block)) as [E|E]; rewrite usize_eqb by lia.
    + rewrite E, Z.eqb_refl. split; [discriminate|]. intros [_ H]. tauto.
    + rewrite Z.eqb_neq. tauto.
  - rfine; auto using xy_tail, dim_values_tail; fine; try apply emit_points_tail.
Qed.

Definition parts_wrong (ck has_z : bool) (n4 : Z) (b : list byte) : Prop :=
  exists parts points, int_at LE b 44 = Some parts /\ int_at LE b 48 = Some points /\
    (ck = true -> 0 <= parts /\ 0 <= points)%Z /\ ~ fit has_z n4 (40 + 4 * parts) points.
Lemma load_kind : forall x ck b n4 has_z, ~ In x tail_own -> (- 2 ^ 40 < n4 < 2 ^ 40)%Z -> 12 <= length b ->
  goes x (size_case x (parts_wrong ck has_z n4 b)) (read_multipart ck (as_usize n4) has_z (skipn 12 b)).
Proof.
  intros x ck b n4 has_z Hx Hn Hb. unfold read_multipart. apply K_box; [exact Hx|exact Hb| |].
  { intros L [_ [parts [points [E _]]]]. apply int_at_len in E. lia. }
  intros _ _. change (12 + 16 * 2) with 44. apply K_i32; [exact Hx| |].
  { intros E [_ [parts [points [E' _]]]]. congruence. }
  intros parts Ep. change (44 + 4) with 48. apply K_i32; [exact Hx| |].
  { intros E [_ [parts' [points [_ [E' _]]]]]. congruence. }
  intros points En. change (48 + 4) with 52.
  pose proof (int_at_i32 _ _ _ _ Ep) as Ip. pose proof (int_at_i32 _ _ _ _ En) as In'.
  pose proof Ip as [P1 P2]. pose proof In' as [N1 N2].
  assert (HP : size_case x (parts_wrong ck has_z n4 b) <->
               size_case x ((ck = true -> 0 <= parts /\ 0 <= points)%Z /\ ~ fit has_z n4 (40 + 4 * parts) points)).
  { unfold size_case, parts_wrong. split; intros [H1 H2]; (split; [exact H1|]).
    - destruct H2 as [q1 [q2 [E1 [E2 H]]]]. rewrite Ep in E1. rewrite En in E2. injection E1 as <-. injection E2 as <-. exact H.
    - exists parts, points. auto. }
  assert (Hneg : ck = true /\ (parts < 0 \/ points < 0)%Z \/ (ck = true -> 0 <= parts /\ 0 <= points)%Z).
  { destruct ck; [|right; discriminate]. destruct (Z.ltb_spec parts 0); [left; auto|].
    destruct (Z.ltb_spec points 0); [left; auto|right; auto]. }
  destruct Hneg as [[-> Hneg]|Hpos].
  { apply K_panic; [exact Hx|now apply size_neg|]. rewrite HP. intros [_ [H _]]. specialize (H eq_refl). lia. }
  eapply goes_iff; [symmetry; exact HP|].
  eapply K_ok; [apply size_hom; assumption|].
  eapply K_ok; [apply dim_size_hom; [assumption|intros E; specialize (Hpos E); lia]|].
  set (block := (16 + 8 * points)%Z).
  set (base := (40 + 4 * parts + 16 * points + (if has_z then block else 0))%Z).
  eapply (K_ok _ _ _ _ (as_usize base)).
  { unfold base, block. destruct has_z; [|f_equal; f_equal; lia].
    rewrite add_hom by (intros E; specialize (Hpos E); lia). reflexivity. }
  eapply K_ok; [apply add_hom; intros E; specialize (Hpos E); unfold base, block; destruct has_z; lia|].
  assert (Habs : (Z.abs (n4 - base) < 2 ^ 50 /\ Z.abs (n4 - (base + block)) < 2 ^ 50)%Z).
  { unfold base, block. destruct has_z; lia. }
  rewrite !usize_eqb by lia.
  apply K_size; [exact Hx| |].
  - unfold fit. fold block base. rewrite orb_false_iff, !Z.eqb_neq. tauto.
  - rfine; auto using xy_tail, dim_values_tail; panic2.
Qed.
Lemma parts_kind : forall x ck d b n4 has_z as_poly, ~ In x tail_own -> (- 2 ^ 40 < n4 < 2 ^ 40)%Z -> 12 <= length b ->
  goes x (size_case x (parts_wrong ck has_z n4 b)) (read_parts ck d (as_usize n4) has_z as_poly (skipn 12 b)).
Proof.
  intros x ck d b n4 has_z as_poly Hx Hn Hb. pose proof (load_kind x ck b n4 has_z Hx Hn Hb) as G.
  unfold goes in *. rewrite <- G. unfold read_parts, rbind. rewrite ending_bind.
  destruct (ending (read_multipart ck (as_usize n4) has_z (skipn 12 b))) as [[mp r]|y].
  - split; [|discriminate]. intros E. exfalso. apply Hx. eapply ending_fin; [|exact E].
    cbn [fst snd]. assert (R : rfin tail_own (rprog (process_multipart ck d as_poly mp))) by (apply rfin_rprog, multipart_tail). apply R.
  - split; intros E; injection E as <-; reflexivity.
Qed.

Definition type_wrong (ck : bool) (t : shape_type) (n : Z) (b : list byte) : Prop :=
  match t with
  | NullShape | Multipatch => False
  | Point | PointM | PointZ => point_wrong t (n - 4)
  | Multipoint | MultipointM => many_wrong ck false (n - 4) b
  | MultipointZ => many_wrong ck true (n - 4) b
  | Polyline | PolylineM | Polygon | PolygonM => parts_wrong ck false (n - 4) b
  | PolylineZ | PolygonZ => parts_wrong ck true (n - 4) b
  end.
Definition refused (x : error) (ck : bool) (b : list byte) : Prop :=
  exists n code, announces ck b n code /\
    (x = EShp 2 /\ shape_type_of code = None \/
     exists t, shape_type_of code = Some t /\ (ck = true -> ~ (0 <= n < 4)%Z) /\ size_case x (type_wrong ck t n b)).

Theorem record_kind : forall x ck d b, ~ In x tail_own -> goes x (refused x ck b) (read_shape ck d b).
Proof.
  intros x ck d b Hx. change (read_shape ck d b) with (read_shape ck d (skipn 0 b)). unfold read_shape.
  apply K_i32; [exact Hx| |].
  { intros E [n [code [[size [E2 _]] _]]]. destruct (int_at_some BE b 0) as [z Ez]; [apply int_at_len in E2; lia|congruence]. }
  intros number _. change (0 + 4) with 4. apply K_i32; [exact Hx| |].
  { intros E [n [code [[size [E2 _]] _]]]. congruence. }
  intros size Es. change (4 + 4) with 8. pose proof (int_at_i32 _ _ _ _ Es) as [S1 S2].
  assert (Hop : i32_op ck (size * 2) = Err EPanic /\ ck = true /\ ~ (- 2 ^ 30 <= size < 2 ^ 30)%Z \/
                i32_op ck (size * 2) = Ok (low32 (2 * size)) /\ (ck = true -> - 2 ^ 30 <= size < 2 ^ 30)%Z).
  { unfold i32_op. replace (2 * size)%Z with (size * 2)%Z by lia.
    destruct (fits_i32 (size * 2)) eqn:E.
    - apply fits_i32_spec in E. right. rewrite low32_small by exact E. unfold is_i32 in E. split; [reflexivity|lia].
    - assert (~ is_i32 (size * 2)) as G by (rewrite <- fits_i32_spec; congruence). unfold is_i32 in G.
      destruct ck; [left|right]; [repeat split; lia|]. rewrite low32_wrap. split; [reflexivity|discriminate]. }
  destruct Hop as [[E [Hck Hno]]|[E Hyes]].
  { apply K_panic; [exact Hx|exact E|]. intros [n [code [[size' [E2 [H _]]] _]]]. rewrite Es in E2. injection E2 as <-. auto. }
  eapply K_ok; [exact E|]. clear E. set (n := low32 (2 * size)) in *.
  pose proof (low32_range (2 * size)) as [R1 R2]. fold n in R1, R2.
  assert (Hrec : goes x (refused x ck b) (read_shape_rec ck d (as_usize n) (skipn 8 b))).
  2: { unfold goes in *. rewrite <- Hrec. unfold rbind. rewrite ending_bind.
       destruct (ending (read_shape_rec ck d (as_usize n) (skipn 8 b))) as [[u r]|y]; [cbn; split; discriminate|].
       split; intros E; injection E as <-; reflexivity. }
  unfold read_shape_rec, read_shape_type.
  destruct (i32_at LE b 8) as [E|[code [Ec E]]].
  { rewrite (rbind_assoc_err _ _ _ _ _ _ _ _ E). apply K_other; [exact Hx|cbn; auto|].
    intros [n' [code [[size' [_ [_ [_ Ec]]]] _]]]. apply int_at_len in Ec.
    revert E. unfold r_i32, r_u32, rmap, rbind, rtake, rret. rewrite skipn_length.
    destruct (Nat.ltb_spec (length b - 8) 4); [lia|]. discriminate. }
  rewrite (rbind_assoc_ok _ _ _ _ _ _ _ _ _ E). change (8 + 4) with 12. pose proof (int_at_len _ _ _ _ Ec) as Hlen.
  assert (HP : refused x ck b <->
     (x = EShp 2 /\ shape_type_of code = None \/
      exists t, shape_type_of code = Some t /\ (ck = true -> ~ (0 <= n < 4)%Z) /\ size_case x (type_wrong ck t n b))).
  { split.
    - intros [n' [code' [[size' [E1 [_ [-> E2]]]] H]]]. rewrite Es in E1. injection E1 as <-. rewrite Ec in E2. injection E2 as <-. exact H.
    - intros H. exists n, code. split; [|exact H]. exists size. auto. }
  eapply goes_iff; [symmetry; exact HP|].
  destruct (shape_type_of code) as [t|] eqn:Et.
  2: { unfold goes, rbind, rfail. cbn. split.
       - intros G. injection G as <-. left. auto.
       - intros [[-> _]|[t [H _]]]; [reflexivity|discriminate]. }
  unfold rbind at 1, rret at 1. cbn [pbind pret fst snd].
  assert (Hsub : usub ck (as_usize n) 4 = Err EPanic /\ ck = true /\ (0 <= n < 4)%Z \/
                 usub ck (as_usize n) 4 = Ok (as_usize (n - 4)) /\ (ck = true -> ~ (0 <= n < 4)%Z)).
  { change 4%N with (as_usize 4). destruct ck.
    - destruct (Z.ltb_spec n 0) as [L|L]; [|destruct (Z.ltb_spec n 4) as [L2|L2]].
      + right. split; [apply sub_hom; lia|lia].
      + left. split; [|lia]. unfold usub. pose proof (usize_nonneg n ltac:(lia)). change (as_usize 4) with 4%N.
        destruct (N.leb_spec 4 (as_usize n)); [lia|reflexivity].
      + right. split; [apply sub_hom; lia|lia].
    - right. split; [apply sub_hom; [discriminate|lia|lia]|discriminate]. }
  destruct Hsub as [[E2 [-> Hlow]]|[E2 Hlow]]; unfold rthen, rbind, rlift; rewrite E2; cbn [pbind pret pfail fst snd].
  { apply K_other; [exact Hx|cbn; auto|]. intros [[_ H]|[t' [_ [H _]]]]; [discriminate|]. exact (H eq_refl Hlow). }
  apply (goes_iff _ _ (size_case x (type_wrong ck t n b))).
  { split.
    - intros H. right. exists t. auto.
    - intros [[_ H]|[t' [H1 [_ H2]]]]; [discriminate|]. injection H1 as <-. exact H2. }
  destruct t; cbn [type_wrong];
    try (apply point_kind; [exact Hx|lia]); try (apply many_kind; [exact Hx|lia|lia]); try (apply parts_kind; [exact Hx|lia|lia]).
  - apply K_rest; [exact Hx|exact I|intros [_ []]].
  - apply K_rest; [exact Hx| |intros [_ []]].
    assert (R : rfin tail_own (read_multipatch (as_usize (n - 4)))) by (unfold read_multipatch; rfine; panic2). apply R.
Qed.

Lemma unknown_none : forall code, shape_type_of code = None <-> ~ In code known_types.
Proof.
  intros code. split.
  - intros E H. destruct (known_type code H) as [t Et]. congruence.
  - intros H. destruct (shape_type_of code) as [t|] eqn:E; [|reflexivity]. exfalso. apply H. apply types_table in E.
    cbn [In] in E. unfold known_types. cbn [In].
    repeat (destruct E as [E|E]; [injection E as <- _; tauto|]). contradiction.
Qed.
Theorem type_exact : forall ck d b, snd (exec (recorder d false) (read_shape ck d b) []) = Err (EShp 2) <-> unknown_type ck b.
Proof.
  intros ck d b. rewrite ending_observe.
  pose proof (record_kind (EShp 2) ck d b ltac:(cbn; intuition discriminate)) as K. unfold goes in K. rewrite K. clear K.
  unfold refused, unknown_type, size_case. split.
  - intros [n [code [H [[_ E]|[t [_ [_ [C _]]]]]]]]; [|discriminate]. exists n, code. split; [exact H|now apply unknown_none].
  - intros [n [code [H E]]]. exists n, code. split; [exact H|]. left. split; [reflexivity|now apply unknown_none].
Qed.

Lemma many_same : forall ck t n b, In t multipoints ->
  (many_wrong ck (existsb (Z.eqb t) with_z) (n - 4) b <->
   exists points, int_at LE b 44 = Some points /\ (ck = true -> 0 <= points)%Z /\ ~ fits t n 40 points).
Proof.
  intros ck t n b _. unfold many_wrong. split; intros [points [E [H1 H2]]]; exists points; (split; [exact E|split; [exact H1|]]).
  - intros F. apply H2. apply (fit_fits t n 40 points). exact F.
  - intros F. apply H2. apply (fit_fits t n 40 points). exact F.
Qed.
Lemma parts_same : forall ck t n b,
  (parts_wrong ck (existsb (Z.eqb t) with_z) (n - 4) b <->
   exists parts points, int_at LE b 44 = Some parts /\ int_at LE b 48 = Some points /\
      (ck = true -> 0 <= parts /\ 0 <= points)%Z /\ ~ fits t n (44 + 4 * parts) points).
Proof.
  intros ck t n b. unfold parts_wrong. split; intros [parts [points [E1 [E2 [H1 H2]]]]]; exists parts, points;
    (split; [exact E1|split; [exact E2|split; [exact H1|]]]); intros F; apply H2; revert F;
    rewrite <- (fit_fits t n (44 + 4 * parts) points); replace (44 + 4 * parts - 4)%Z with (40 + 4 * parts)%Z by lia; auto.
Qed.
Lemma type_same : forall ck code t n b, shape_type_of code = Some t ->
  (type_wrong ck t n b <->
   ((code = 1%Z /\ n <> 20%Z) \/ (code = 11%Z /\ n <> 28%Z /\ n <> 36%Z) \/ (code = 21%Z /\ n <> 28%Z) \/
   (In code multipoints /\ exists points, int_at LE b 44 = Some points /\
      (ck = true -> 0 <= points)%Z /\ ~ fits code n 40 points) \/
   (In code (polylines ++ polygons) /\ exists parts points, int_at LE b 44 = Some parts /\ int_at LE b 48 = Some points /\
      (ck = true -> 0 <= parts /\ 0 <= points)%Z /\ ~ fits code n (44 + 4 * parts) points))).
Proof.
  intros ck code t n b H. apply types_table in H. cbn [In] in H.
  assert (M : In code multipoints -> t <> Point -> type_wrong ck t n b <-> many_wrong ck (existsb (Z.eqb code) with_z) (n - 4) b).
  { intros G _. unfold multipoints in G. cbn [In] in G.
    repeat (destruct H as [H|H]; [injection H as <- <-; try reflexivity; exfalso; lia|]). contradiction. }
  assert (L : In code (polylines ++ polygons) -> type_wrong ck t n b <-> parts_wrong ck (existsb (Z.eqb code) with_z) (n - 4) b).
  { intros G. unfold polylines, polygons in G. cbn [In app] in G.
    repeat (destruct H as [H|H]; [injection H as <- <-; try reflexivity; exfalso; lia|]). contradiction. }
  assert (T : (In code multipoints /\ t <> Point) \/ In code (polylines ++ polygons) \/
              (~ In code multipoints /\ ~ In code (polylines ++ polygons) /\
               (type_wrong ck t n b <-> (code = 1%Z /\ n <> 20%Z) \/ (code = 11%Z /\ n <> 28%Z /\ n <> 36%Z) \/ (code = 21%Z /\ n <> 28%Z)))).
  { clear M L. unfold multipoints, polylines, polygons. cbn [In app].
    repeat (destruct H as [H|H]; [injection H as <- <-; try (left; split; [tauto|discriminate]); try (right; left; tauto);
      (right; right; split; [lia|split; [lia|]]; cbn [type_wrong point_wrong]; split; intros W; try contradiction; lia)|]). contradiction. }
  destruct T as [[G G2]|[G|[G1 [G2 G3]]]].
  - rewrite (M G G2), (many_same ck code n b G). split; [intros X; right; right; right; left; auto|].
    assert (~ In code (polylines ++ polygons)) by (revert G; unfold multipoints, polylines, polygons; cbn [In app]; lia).
    assert (code <> 1 /\ code <> 11 /\ code <> 21)%Z by (revert G; unfold multipoints; cbn [In]; lia). tauto.
  - rewrite (L G), (parts_same ck code n b). split; [intros X; right; right; right; right; auto|].
    assert (~ In code multipoints) by (revert G; unfold multipoints, polylines, polygons; cbn [In app]; lia).
    assert (code <> 1 /\ code <> 11 /\ code <> 21)%Z by (revert G; unfold polylines, polygons; cbn [In app]; lia). tauto.
  - rewrite G3. tauto.
Qed.
Lemma sized_known : forall code (P1 P2 P3 P4 P5 : Prop),
  (code = 1%Z /\ P1) \/ (code = 11%Z /\ P2) \/ (code = 21%Z /\ P3) \/ (In code multipoints /\ P4) \/ (In code (polylines ++ polygons) /\ P5) ->
  exists t, shape_type_of code = Some t.
Proof.
  intros code P1 P2 P3 P4 P5 H. apply known_type. unfold multipoints, polylines, polygons, known_types in *. cbn [In app] in *. lia.
Qed.
Theorem size_exact : forall ck d b, snd (exec (recorder d false) (read_shape ck d b) []) = Err (EShp 5) <-> wrong_size ck b.
Proof.
  intros ck d b. rewrite ending_observe.
  pose proof (record_kind (EShp 5) ck d b ltac:(cbn; intuition discriminate)) as K. unfold goes in K. rewrite K. clear K.
  unfold refused, wrong_size, size_case. split.
  - intros [n [code [H [[C _]|[t [Et [Hn [_ W]]]]]]]]; [discriminate|]. exists n, code. split; [exact H|split; [exact Hn|]].
    now apply (type_same ck code t n b Et).
  - intros [n [code [H [Hn W]]]]. exists n, code. split; [exact H|right].
    destruct (sized_known _ _ _ _ _ _ W) as [t Et]. exists t. split; [exact Et|split; [exact Hn|split; [reflexivity|]]].
    now apply (type_same ck code t n b Et).
Qed.

(** a polyline of no parts and no points whose length is that of a polyline with one, and a record of type 2 *)
Definition blank_shape (t size : byte) : list byte :=
  [x00; x00; x00; x01; x00; x00; x00; size; t; x00; x00; x00] ++ repeat x00 40.
Lemma type_met : forall ck, unknown_type ck (blank_shape x02 x16).
Proof. intros ck. exists 44%Z, 2%Z. split; [exists 22%Z; repeat split; try reflexivity; lia|]. unfold known_types. cbn [In]. lia. Qed.
Lemma size_met : forall ck, wrong_size ck (blank_shape x03 x18) /\ ~ wrong_size ck (blank_shape x03 x16).
Proof.
  intros ck. split.
  - exists 48%Z, 3%Z. split; [exists 24%Z; repeat split; try reflexivity; lia|]. split; [lia|]. right; right; right; right.
    split; [cbn; auto|]. exists 0%Z, 0%Z. split; [reflexivity|split; [reflexivity|split; [lia|]]]. unfold fits. cbn. lia.
  - rewrite <- (size_exact ck xy_dims). destruct ck; vm_compute; discriminate.
Qed.
