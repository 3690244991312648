(** Proofs about the shapefile reader: decoding of well-formed records (C39). *)
From Coq Require Import String Ascii.
From Coq Require Import List NArith ZArith Lia Bool ZifyBool ZifyNat ZifyN.
From Coq Require Import Init.Byte.
From Verif Require Import Base BaseLemmas Float Event EventLemmas Claims Geom FeatureSpec WkbModel WkbRead ShpModel ShpSpec.
Import ListNotations.
Local Open Scope nat_scope.
Local Open Scope list_scope.

(** ** Reading primitives *)
Lemma reads_lift : forall A B (r : res A) a (g : A -> rd B) b l c b2,
  r = Ok a -> reads (g a) b l c b2 -> reads (rthen r g) b l c b2.
Proof.
  intros * -> H. unfold rthen. eapply reads_bind0; [|exact H]. reflexivity.
Qed.

Lemma reads_prog : forall (g : prog unit) l b, g = ok_calls l -> reads (rprog g) b l tt b.
Proof. intros * ->. unfold reads, rprog, ok_calls. now rewrite pbind_calls. Qed.

Lemma reads_list : forall A (f : rd A) (bytes : A -> list byte) l b,
  (forall a rest, In a l -> reads f (bytes a ++ rest) [] a rest) ->
  reads (r_list f (length l)) (flat_map bytes l ++ b) [] l b.
Proof.
  induction l as [|a l IH]; intros b H; cbn [length r_list flat_map].
  - apply reads_ret.
  - rewrite <- app_assoc. eapply reads_bind0; [apply H; now left|].
    eapply reads_bind0; [apply IH; intros; apply H; now right|]. apply reads_ret.
Qed.

Lemma reads_list_map : forall A B (f : rd B) (g : A -> B) (bytes : A -> list byte) l b,
  (forall a rest, In a l -> reads f (bytes a ++ rest) [] (g a) rest) ->
  reads (r_list f (length l)) (flat_map bytes l ++ b) [] (map g l) b.
Proof.
  induction l as [|a l IH]; intros b H; cbn [length r_list flat_map map].
  - apply reads_ret.
  - rewrite <- app_assoc. eapply reads_bind0; [apply H; now left|].
    eapply reads_bind0; [apply IH; intros; apply H; now right|]. apply reads_ret.
Qed.

Lemma reads_le32 : forall z b, is_i32 z -> reads (r_i32 LE) (le32 z ++ b) [] z b.
Proof. intros. now apply reads_i32. Qed.
Lemma reads_be32 : forall z b, is_i32 z -> reads (r_i32 BE) (be32 z ++ b) [] z b.
Proof. intros. now apply reads_i32. Qed.
Lemma reads_le64 : forall x b, f64_ok x -> reads (r_f64 LE) (le64 x ++ b) [] x b.
Proof. intros. now apply reads_f64. Qed.

Lemma count_i32 : forall n, (N.of_nat n < 2 ^ 31)%N -> is_i32 (Z.of_nat n).
Proof. unfold is_i32. lia. Qed.
Lemma as_usize_nat : forall n, (N.of_nat n < 2 ^ 31)%N -> as_usize (Z.of_nat n) = N.of_nat n.
Proof.
  intros n H. unfold as_usize. rewrite Z.mod_small by lia. lia.
Qed.
Lemma reads_count : forall n b, (N.of_nat n < 2 ^ 31)%N ->
  reads (r_i32 LE) (count32 n ++ b) [] (Z.of_nat n) b.
Proof. intros. apply reads_le32. now apply count_i32. Qed.

(** ** Arithmetic without overflow *)
Lemma uadd_ok : forall ck a b, (a + b < 2 ^ 64)%N -> uadd ck a b = Ok (a + b)%N.
Proof. intros. unfold uadd, usize_limit. destruct (N.ltb_spec (a + b) (2 ^ 64)); [reflexivity|lia]. Qed.
Lemma umul_ok : forall ck a b, (a * b < 2 ^ 64)%N -> umul ck a b = Ok (a * b)%N.
Proof. intros. unfold umul, usize_limit. destruct (N.ltb_spec (a * b) (2 ^ 64)); [reflexivity|lia]. Qed.
Lemma usub_ok : forall ck a b, (b <= a)%N -> usub ck a b = Ok (a - b)%N.
Proof. intros. unfold usub. destruct (N.leb_spec b a); [reflexivity|lia]. Qed.
Lemma i32_op_ok : forall ck z, is_i32 z -> i32_op ck z = Ok z.
Proof.
  intros ck z [H1 H2]. unfold i32_op, fits_i32.
  destruct (Z.leb_spec (- 2 ^ 31) z); [|lia]. destruct (Z.ltb_spec z (2 ^ 31)); [reflexivity|lia].
Qed.
Lemma reserve_ok : forall e n, (n * e < 2 ^ 63)%N -> reserve e n = Ok tt.
Proof. intros. unfold reserve. destruct (N.ltb_spec (n * e) (2 ^ 63)); [reflexivity|lia]. Qed.

Lemma dim_value_size_ok : forall ck n, (n < 2 ^ 40)%N ->
  multipart_dim_value_size ck n = Ok (16 + n * 8)%N.
Proof.
  intros. unfold multipart_dim_value_size. rewrite umul_ok by lia. cbn [res_bind].
  rewrite uadd_ok by lia. reflexivity.
Qed.
Lemma record_size_ok : forall ck n k, (n < 2 ^ 40)%N -> (k < 2 ^ 40)%N ->
  multipart_record_size ck n k = Ok (40 + 4 * k + 16 * n)%N.
Proof.
  intros. unfold multipart_record_size. rewrite umul_ok by lia. cbn [res_bind].
  rewrite uadd_ok by lia. cbn [res_bind]. rewrite umul_ok by lia. cbn [res_bind].
  rewrite uadd_ok by lia. reflexivity.
Qed.

(** ** Blocks of values *)
Lemma reads_box : forall k l b, length l = 2 * k -> Forall f64_ok l ->
  reads (read_bbox k) (flat_map le64 l ++ b) [] l b.
Proof. intros k l b H Hl. unfold read_bbox. rewrite <- H. now apply reads_f64s. Qed.

Definition xy_of (c : coord) : f64 * f64 := (cx c, cy c).
Lemma reads_xy : forall l n b, n = N.of_nat (length l) -> (n < 2 ^ 40)%N ->
  Forall (fun c => f64_ok (cx c) /\ f64_ok (cy c)) l ->
  reads (read_xy n) (flat_map xy_bytes l ++ b) [] (map xy_of l) b.
Proof.
  intros l n b -> Hn H. unfold read_xy. eapply reads_lift; [apply reserve_ok; lia|].
  rewrite Nat2N.id. apply reads_list_map. intros c rest Hc.
  destruct (proj1 (Forall_forall _ _) H c Hc) as [Hx Hy].
  unfold xy_bytes. rewrite <- app_assoc.
  eapply reads_bind0; [now apply reads_le64|].
  eapply reads_bind0; [now apply reads_le64|]. apply reads_ret.
Qed.

Lemma reads_dim_values : forall (pick : coord -> option f64) r l n b,
  n = N.of_nat (length l) -> (n < 2 ^ 40)%N -> length r = 2 -> Forall f64_ok r ->
  Forall (fun c => opt_ok (pick c)) l ->
  reads (read_dim_values n)
    ((flat_map le64 r ++ flat_map (fun c => le64 (value (pick c))) l) ++ b) []
    (map (fun c => value (pick c)) l) b.
Proof.
  intros pick r l n b -> Hn Hr Hro H. unfold read_dim_values. rewrite <- app_assoc.
  eapply reads_bind0; [apply (reads_box 1); assumption|].
  eapply reads_lift; [apply reserve_ok; lia|].
  rewrite Nat2N.id. apply reads_list_map. intros c rest Hc.
  pose proof (proj1 (Forall_forall _ _) H c Hc) as Hx. apply reads_le64.
  unfold value. cbv beta in Hx. destruct (pick c); [exact Hx|]. unfold f64_ok. cbn [opt_default]. lia.
Qed.

(** what is in memory after reading the points of a shape *)
Definition zs_of (v : variant) (l : list coord) : list f64 :=
  if is_tall v then map (fun c => value (cz c)) l else [].
Definition ms_of (m : bool) (l : list coord) : list f64 :=
  if m then map (fun c => value (cm c)) l else [].

Definition reads_points_goal (has_z has_m : bool) (n : N) (v : variant) m e l : Prop :=
  forall B (k : list (f64 * f64) -> list f64 -> list f64 -> rd B) b ev c b2,
    reads (k (map xy_of l) (zs_of v l) (ms_of m l)) b ev c b2 ->
    reads (coords <- read_xy n ;;
           zs <- (if has_z then read_dim_values n else rret []) ;;
           ms <- (if has_m then read_dim_values n else rret []) ;;
           k coords zs ms) (points_bytes v m e l ++ b) ev c b2.

Lemma reads_points : forall v m e l n,
  n = N.of_nat (length l) -> (n < 2 ^ 40)%N -> extent_ok e -> Forall (coord_fits v m) l ->
  reads_points_goal (is_tall v) m n v m e l.
Proof.
  intros v m e l n Hn Hb [He1 [He2 [He3 [He4 [He5 He6]]]]] Hl B k b ev c b2 Hk.
  unfold points_bytes. rewrite <- !app_assoc.
  eapply reads_bind0.
  { apply reads_xy; [exact Hn|exact Hb|]. eapply Forall_impl; [|exact Hl]. intros a Ha. split; apply Ha. }
  eapply reads_bind0 with (a := zs_of v l).
  { unfold zs_of. destruct (is_tall v).
    - apply reads_dim_values; try assumption. eapply Forall_impl; [|exact Hl]. intros a Ha. apply Ha.
    - apply reads_ret. }
  eapply reads_bind0 with (a := ms_of m l).
  { unfold ms_of. destruct m.
    - apply reads_dim_values; try assumption. eapply Forall_impl; [|exact Hl]. intros a Ha. apply Ha.
    - apply reads_ret. }
  exact Hk.
Qed.

(** ** Callbacks for coordinates *)
Lemma nth_middle_error : forall A (l1 l2 : list A) a, nth_error (l1 ++ a :: l2) (length l1) = Some a.
Proof. induction l1; intros; cbn; auto. Qed.

Lemma at_index_nat : forall A (l : list A) i a, nth_error l i = Some a -> at_index l (N.of_nat i) = Ok a.
Proof.
  intros A l i a H. unfold at_index. assert (i < length l) by (apply nth_error_Some; congruence).
  destruct (N.ltb_spec (N.of_nat i) (N.of_nat (length l))); [|lia]. now rewrite Nat2N.id, H.
Qed.

Lemma filled_map : forall A B (f : A -> B) l a k, nth_error l k = Some a -> filled (map f l) = true.
Proof. intros A B f [|x l] a k H; [destruct k; discriminate|reflexivity]. Qed.

Lemma emit_point_ok : forall multi d v m all ofs idx c,
  (multi = false -> dz d = false /\ dm d = false) ->
  Forall (coord_fits v m) all -> nth_error all ofs = Some c ->
  emit_point multi (dz d && filled (zs_of v all)) (dm d && filled (ms_of m all))
    (map xy_of all) (zs_of v all) (ms_of m all) (N.of_nat ofs) idx
  = ok_calls [ev_coord multi idx (visible d c)].
Proof.
  intros multi d v m all ofs idx c Hmu Hall Hc.
  assert (Hf : coord_fits v m c)
    by (apply (proj1 (Forall_forall _ _) Hall); eapply nth_error_In; exact Hc).
  destruct Hf as [_ [_ [_ [_ [Hz Hm]]]]].
  unfold emit_point. rewrite (at_index_nat _ _ _ (xy_of c)) by (rewrite nth_error_map, Hc; reflexivity).
  cbn [plift pbind]. unfold ev_coord, visible, ok_calls. cbn [cx cy cz cm].
  destruct multi; [|reflexivity].
  replace (if dz d && filled (zs_of v all) then plift (res_map Some (at_index (zs_of v all) (N.of_nat ofs))) else pret None)
    with (pret (if dz d then cz c else None)).
  2:{ unfold zs_of. destruct (is_tall v).
      - rewrite (filled_map _ _ _ _ _ _ Hc). rewrite andb_true_r.
        rewrite (at_index_nat _ _ _ (value (cz c))) by (rewrite nth_error_map, Hc; reflexivity).
        destruct (dz d); [|reflexivity]. unfold value. destruct (cz c); [reflexivity|discriminate].
      - cbn [filled]. rewrite andb_false_r. destruct (cz c); [discriminate|]. now destruct (dz d). }
  cbn [pbind].
  replace (if dm d && filled (ms_of m all) then plift (res_map Some (at_index (ms_of m all) (N.of_nat ofs))) else pret None)
    with (pret (if dm d then cm c else None)).
  2:{ unfold ms_of. destruct m.
      - rewrite (filled_map _ _ _ _ _ _ Hc). rewrite andb_true_r.
        rewrite (at_index_nat _ _ _ (value (cm c))) by (rewrite nth_error_map, Hc; reflexivity).
        destruct (dm d); [|reflexivity]. unfold value. destruct (cm c); [reflexivity|discriminate].
      - cbn [filled]. rewrite andb_false_r. destruct (cm c); [discriminate|]. now destruct (dm d). }
  reflexivity.
Qed.

Lemma emit_points_ok : forall multi d v m pre post todo seen,
  (multi = false -> dz d = false /\ dm d = false) ->
  let all := pre ++ (seen ++ todo) ++ post in
  Forall (coord_fits v m) all ->
  emit_points multi (dz d && filled (zs_of v all)) (dm d && filled (ms_of m all))
    (map xy_of all) (zs_of v all) (ms_of m all) (N.of_nat (length pre)) (length todo) (length seen)
  = ok_calls (mapi (ev_coord multi) (length seen) (map (visible d) todo)).
Proof.
  intros multi d v m pre post todo. induction todo as [|c todo IH]; intros seen Hmu all Hall.
  - reflexivity.
  - cbn [length emit_points map mapi].
    rewrite <- Nat2N.inj_add.
    rewrite (emit_point_ok multi d v m all _ _ c Hmu Hall).
    2:{ unfold all. rewrite <- app_length. rewrite <- !app_assoc. rewrite app_assoc. cbn [app].
        apply nth_middle_error. }
    replace (S (length seen)) with (length (seen ++ [c])) by (rewrite app_length; cbn; lia).
    assert (Hall2 : all = pre ++ ((seen ++ [c]) ++ todo) ++ post).
    { unfold all. rewrite <- !app_assoc. reflexivity. }
    rewrite Hall2. rewrite Hall2 in Hall. specialize (IH (seen ++ [c]) Hmu Hall). cbv zeta in IH.
    rewrite IH. rewrite pthen_calls. reflexivity.
Qed.

(** ** Parts *)
Definition total {A} (l : list (list A)) : nat := length (concat l).

(** part boundaries with the end *)
Fixpoint cuts {A} (k : nat) (l : list (list A)) : list nat :=
  match l with [] => [k] | p :: r => k :: cuts (k + length p) r end.
Fixpoint spans {A} (k : nat) (l : list (list A)) : list (nat * nat) :=
  match l with [] => [] | p :: r => (k, k + length p) :: spans (k + length p) r end.

Lemma total_cons : forall A (p : list A) l, total (p :: l) = length p + total l.
Proof. intros. unfold total. cbn [concat]. apply app_length. Qed.

Lemma starts_cuts : forall A (l : list (list A)) k, starts k l ++ [k + total l] = cuts k l.
Proof.
  induction l as [|p l IH]; intros k; cbn [starts cuts app].
  - unfold total. cbn. now rewrite Nat.add_0_r.
  - rewrite total_cons, Nat.add_assoc, IH. reflexivity.
Qed.
Lemma cuts_head : forall A (l : list (list A)) k, exists r, cuts k l = k :: r.
Proof. intros A [|p l] k; cbn; eauto. Qed.
Lemma windows_cuts : forall A (l : list (list A)) k, windows2 (cuts k l) = spans k l.
Proof.
  induction l as [|p l IH]; intros k; cbn [cuts spans]; [reflexivity|].
  rewrite <- IH. destruct (cuts_head _ l (k + length p)) as [r ->]. reflexivity.
Qed.
Lemma cuts_length : forall A (l : list (list A)) k, length (cuts k l) = S (length l).
Proof. induction l as [|p l IH]; intros k; cbn [cuts length]; [reflexivity|now rewrite IH]. Qed.
Lemma starts_length : forall A (l : list (list A)) k, length (starts k l) = length l.
Proof. induction l as [|p l IH]; intros k; cbn [starts length]; [reflexivity|now rewrite IH]. Qed.
Lemma cuts_firstn : forall A (a b : list (list A)) k, firstn (S (length a)) (cuts k (a ++ b)) = cuts k a.
Proof.
  induction a as [|p a IH]; intros b k.
  - cbn [length app cuts]. destruct (cuts_head _ b k) as [r ->]. reflexivity.
  - cbn [length app cuts]. rewrite <- (IH b). reflexivity.
Qed.
Lemma cuts_skipn : forall A (a b : list (list A)) k,
  skipn (length a) (cuts k (a ++ b)) = cuts (k + total a) b.
Proof.
  induction a as [|p a IH]; intros b k; cbn [length app cuts skipn].
  - unfold total. cbn. now rewrite Nat.add_0_r.
  - rewrite IH, total_cons, Nat.add_assoc. reflexivity.
Qed.
Lemma windows_map : forall A B (f : A -> B) l,
  windows2 (map f l) = map (fun w => (f (fst w), f (snd w))) (windows2 l).
Proof.
  induction l as [|a [|b l] IH]; [reflexivity|reflexivity|].
  cbn [map windows2] in *. rewrite IH. reflexivity.
Qed.
Definition span_N (w : nat * nat) : N * N := (N.of_nat (fst w), N.of_nat (snd w)).

Lemma spans_forall2 : forall A (R : nat * nat -> list A -> Prop) l k,
  (forall before p after, l = before ++ p :: after ->
     R (k + total before, k + total before + length p) p) ->
  Forall2 R (spans k l) l.
Proof.
  induction l as [|p l IH]; intros k H; cbn [spans]; constructor.
  - specialize (H [] p l eq_refl). unfold total in H. cbn in H. now rewrite Nat.add_0_r in H.
  - apply IH. intros before q after E. subst l.
    specialize (H (p :: before) q after eq_refl). rewrite total_cons, Nat.add_assoc in H. exact H.
Qed.

Lemma pfor_forall2 : forall A B (f : nat -> A -> prog unit) (ev : nat -> B -> list event) l1 l2,
  Forall2 (fun a b => forall i, f i a = ok_calls (ev i b)) l1 l2 ->
  forall i, pfor f i l1 = ok_calls (flat_mapi ev i l2).
Proof.
  induction 1 as [|a b l1 l2 H Hl IH]; intros i; cbn [pfor flat_mapi]; [reflexivity|].
  rewrite H, IH, pthen_calls. reflexivity.
Qed.

Lemma slice_cuts : forall A (before group after : list (list A)),
  slice (map N.of_nat (cuts 0 (before ++ group ++ after)))
    (N.of_nat (length before)) (N.of_nat (length before + length group) + 1)
  = Ok (map N.of_nat (cuts (total before) group)).
Proof.
  intros. unfold slice.
  assert (Hb : (N.of_nat (length before) <=? N.of_nat (length before + length group) + 1)%N = true)
    by (apply N.leb_le; lia).
  assert (He : (N.of_nat (length before + length group) + 1
                <=? N.of_nat (length (map N.of_nat (cuts 0 (before ++ group ++ after)))))%N = true).
  { apply N.leb_le. rewrite map_length, cuts_length, !app_length. lia. }
  rewrite Hb, He. cbn [andb]. f_equal.
  replace (N.to_nat (N.of_nat (length before + length group) + 1 - N.of_nat (length before)))
    with (S (length group)) by lia.
  rewrite Nat2N.id, skipn_map, firstn_map, cuts_skipn, Nat.add_0_l, cuts_firstn. reflexivity.
Qed.

Lemma slice_part : forall A (pre p post : list A),
  slice (pre ++ p ++ post) (N.of_nat (length pre)) (N.of_nat (length pre + length p)) = Ok p.
Proof.
  intros. unfold slice.
  assert (Hb : (N.of_nat (length pre) <=? N.of_nat (length pre + length p))%N = true)
    by (apply N.leb_le; lia).
  assert (He : (N.of_nat (length pre + length p) <=? N.of_nat (length (pre ++ p ++ post)))%N = true)
    by (apply N.leb_le; rewrite !app_length; lia).
  rewrite Hb, He. cbn [andb]. f_equal.
  replace (N.to_nat (N.of_nat (length pre + length p) - N.of_nat (length pre))) with (length p) by lia.
  rewrite Nat2N.id, skipn_app, skipn_all, Nat.sub_diag. cbn [skipn app].
  rewrite firstn_app, firstn_all, Nat.sub_diag. cbn [firstn]. now rewrite app_nil_r.
Qed.

(** the multipart in memory *)
Definition memory (v : variant) (m : bool) (parts : list (list coord)) : multipart :=
  mkMultipart (map N.of_nat (cuts 0 parts)) (map xy_of (concat parts))
    (zs_of v (concat parts)) (ms_of m (concat parts)).

Lemma process_part_ok : forall ck d v m parts before p after i,
  let multi := (dz d || dm d)%bool in
  parts = before ++ p :: after -> Forall (Forall (coord_fits v m)) parts ->
  process_part ck multi (dz d && filled (mp_z (memory v m parts)))
    (dm d && filled (mp_m (memory v m parts))) (memory v m parts) i
    (span_N (total before, total before + length p))
  = ok_calls (ev_line multi false i (map (visible d) p)).
Proof.
  intros ck d v m parts before p after i multi E H. unfold process_part, span_N. cbn [fst snd memory mp_coords mp_z mp_m].
  rewrite usub_ok by lia. cbn [plift pbind].
  replace (N.to_nat (N.of_nat (total before + length p) - N.of_nat (total before))) with (length p) by lia.
  assert (Ec : concat parts = concat before ++ ([] ++ p) ++ concat after).
  { subst parts. rewrite concat_app. reflexivity. }
  rewrite Ec. unfold total.
  pose proof (emit_points_ok multi d v m (concat before) (concat after) p []) as He.
  cbv zeta in He. cbn [length] in He. rewrite He.
  - rewrite !pcall_calls, !pthen_calls. unfold ev_line, ev_coords. rewrite map_length. reflexivity.
  - unfold multi. destruct (dz d), (dm d); intros Hf; try discriminate Hf; split; reflexivity.
  - rewrite <- Ec. apply Forall_concat. exact H.
Qed.

Lemma process_parts_ok : forall ck d v m parts before group after,
  let multi := (dz d || dm d)%bool in
  parts = before ++ group ++ after -> Forall (Forall (coord_fits v m)) parts ->
  forall i,
  pfor (process_part ck multi (dz d && filled (mp_z (memory v m parts)))
    (dm d && filled (mp_m (memory v m parts))) (memory v m parts)) i
    (windows2 (map N.of_nat (cuts (total before) group)))
  = ok_calls (flat_mapi (fun i p => ev_line multi false i (map (visible d) p)) i group).
Proof.
  intros ck d v m parts before group after multi E H. rewrite windows_map, windows_cuts.
  apply pfor_forall2.
  assert (Hs : Forall2 (fun w p => forall i,
    process_part ck multi (dz d && filled (mp_z (memory v m parts)))
      (dm d && filled (mp_m (memory v m parts))) (memory v m parts) i (span_N w)
    = ok_calls (ev_line multi false i (map (visible d) p))) (spans (total before) group) group).
  { apply spans_forall2. intros b2 p a2 E2 i. subst group.
    replace (total before + total b2) with (total (before ++ b2))
      by (unfold total; now rewrite concat_app, app_length).
    apply (process_part_ok ck d v m parts (before ++ b2) p (a2 ++ after)).
    - rewrite E. rewrite <- !app_assoc. reflexivity.
    - exact H. }
  clear -Hs. induction Hs as [|w p l1 l2 Hw Hs IH]; cbn [map]; constructor; [exact Hw|exact IH].
Qed.

Lemma geom_part_ok : forall ck d v m as_poly parts before group after i,
  let multi := (dz d || dm d)%bool in
  parts = before ++ group ++ after -> Forall (Forall (coord_fits v m)) parts ->
  process_geom_part ck multi (dz d && filled (mp_z (memory v m parts)))
    (dm d && filled (mp_m (memory v m parts))) as_poly (memory v m parts) i
    (length before, length before + length group)
  = ok_calls
     ((if as_poly then [PolygonBegin false (length group) i] else []) ++
      flat_mapi (fun i p => ev_line multi false i (map (visible d) p)) 0 group ++
      (if as_poly then [PolygonEnd false i] else [])).
Proof.
  intros ck d v m as_poly parts before group after i multi E H. unfold process_geom_part.
  rewrite usub_ok by lia. cbn [plift pbind].
  replace (N.to_nat (N.of_nat (length before + length group) - N.of_nat (length before)))
    with (length group) by lia.
  change (mp_parts (memory v m parts)) with (map N.of_nat (cuts 0 parts)).
  pose proof (slice_cuts _ before group after) as Hs. rewrite <- E in Hs. rewrite Hs.
  cbn [plift pbind].
  pose proof (process_parts_ok ck d v m parts before group after E H 0) as Hp. cbv zeta in Hp.
  unfold multi. rewrite Hp.
  destruct as_poly.
  - rewrite !pcall_calls, !pthen_calls. reflexivity.
  - change (pret tt) with (ok_calls []). rewrite !pthen_calls. reflexivity.
Qed.

(** ** Grouping of rings *)
Fixpoint chunks {A} (cw : A -> bool) (l : list A) : list A * list (list A) :=
  match l with
  | [] => ([], [])
  | r :: rest =>
      let (pre, gs) := chunks cw rest in
      if cw r then ([], (r :: pre) :: gs) else (r :: pre, gs)
  end.
Definition groups {A} (cw : A -> bool) (l : list A) : list (list A) :=
  match l with
  | [] => []
  | r :: rest => let (pre, gs) := chunks cw rest in (r :: pre) :: gs
  end.

Lemma chunks_spec : forall A (cw : A -> bool) l,
  fst (chunks cw l) ++ concat (snd (chunks cw l)) = l /\
  Forall (fun h => cw h = false) (fst (chunks cw l)) /\
  Forall (fun p => exists r holes, p = r :: holes /\ cw r = true /\ Forall (fun h => cw h = false) holes)
    (snd (chunks cw l)).
Proof.
  induction l as [|r rest [IH1 [IH2 IH3]]]; cbn [chunks]; [repeat split; constructor|].
  destruct (chunks cw rest) as [pre gs]. cbn [fst snd] in *.
  destruct (cw r) eqn:E; cbn [fst snd concat app].
  - rewrite IH1. repeat split; [constructor|]. constructor; [|assumption]. exists r, pre. auto.
  - rewrite IH1. repeat split; [|assumption]. now constructor.
Qed.

Lemma groups_grouped : forall A (cw : A -> bool) l, grouped cw l (groups cw l).
Proof.
  intros A cw [|r rest]; unfold groups.
  - repeat split; constructor.
  - pose proof (chunks_spec _ cw rest) as [H1 [H2 H3]]. destruct (chunks cw rest) as [pre gs].
    cbn [fst snd] in *. repeat split.
    + cbn [concat app]. now rewrite H1.
    + constructor; [exists r, pre; auto|]. eapply Forall_impl; [|exact H3].
      intros p [a [h [E [_ Hh]]]]. eauto.
    + cbn [tl]. eapply Forall_impl; [|exact H3]. intros p [a [h [E [Ha _]]]]. eauto.
Qed.

Fixpoint positions {A} (cw : A -> bool) (i : nat) (l : list A) : list nat :=
  match l with
  | [] => []
  | r :: rest => if cw r then i :: positions cw (S i) rest else positions cw (S i) rest
  end.
Lemma positions_starts : forall A (cw : A -> bool) l i,
  positions cw i l = starts (i + length (fst (chunks cw l))) (snd (chunks cw l)).
Proof.
  induction l as [|r rest IH]; intros i; cbn [positions chunks]; [reflexivity|].
  rewrite IH. destruct (chunks cw rest) as [pre gs]. cbn [fst snd].
  destruct (cw r); cbn [fst snd length starts].
  - rewrite Nat.add_0_r. f_equal. f_equal. lia.
  - f_equal. lia.
Qed.

Lemma terms_shoelace : forall l acc,
  fold_left f64_add
    (map (fun w : (f64 * f64) * (f64 * f64) =>
            let '((x0, y0), (x1, y1)) := w in f64_mul (f64_sub x1 x0) (f64_add y1 y0))
         (windows2 (map xy_of l))) acc
  = shoelace acc l.
Proof.
  induction l as [|a [|b l] IH]; intros acc; [reflexivity|reflexivity|].
  specialize (IH (f64_add acc (f64_mul (f64_sub (cx b) (cx a)) (f64_add (cy b) (cy a))))).
  cbn [map windows2 fold_left shoelace xy_of] in *. exact IH.
Qed.
Lemma outer_clockwise : forall l, outer_ring (map xy_of l) = clockwise l.
Proof. intros l. unfold outer_ring, clockwise. now rewrite terms_shoelace. Qed.

Lemma detect_loop_ok : forall rings (before after : list coord) idx all,
  (0 < idx)%nat -> all = before ++ concat rings ++ after ->
  detect_loop (map xy_of all) (map span_N (spans (length before) rings)) idx
  = Ok (positions clockwise idx rings).
Proof.
  induction rings as [|r rings IH]; intros before after idx all Hi E; cbn [spans map detect_loop positions]; [reflexivity|].
  cbn [span_N fst snd]. destruct (Nat.eqb_spec idx 0); [lia|].
  cbn [concat] in E. rewrite <- app_assoc in E.
  assert (Hs : slice (map xy_of all) (N.of_nat (length before)) (N.of_nat (length before + length r))
               = Ok (map xy_of r)).
  { rewrite E, !map_app. rewrite <- (map_length xy_of before), <- (map_length xy_of r). apply slice_part. }
  rewrite Hs. cbn [res_map res_bind]. rewrite outer_clockwise.
  rewrite <- app_length. rewrite (IH (before ++ r) after (S idx) all) by (rewrite ?E, <- ?app_assoc; auto; lia).
  cbn [res_map]. destruct (clockwise r); reflexivity.
Qed.

Lemma detect_polys_ok : forall v m rings,
  detect_polys (memory v m rings) = Ok (cuts 0 (groups clockwise rings)).
Proof.
  intros v m rings. unfold detect_polys, num_parts. cbn [memory mp_coords mp_parts].
  rewrite windows_map, windows_cuts, map_length, cuts_length. cbn [Nat.sub]. rewrite Nat.sub_0_r.
  destruct rings as [|r rest]; [reflexivity|].
  change (fun w : nat * nat => (N.of_nat (fst w), N.of_nat (snd w))) with span_N.
  cbn [spans map detect_loop span_N fst snd Nat.eqb res_bind]. rewrite Nat.add_0_l.
  rewrite (detect_loop_ok rest r [] 1) by (try lia; cbn [concat]; now rewrite app_nil_r).
  cbn [res_map res_bind]. f_equal. rewrite positions_starts. unfold groups.
  pose proof (chunks_spec _ clockwise rest) as [H1 _]. destruct (chunks clockwise rest) as [pre gs].
  cbn [fst snd] in *. cbn [cuts app]. f_equal. cbn [length]. rewrite Nat.add_0_l.
  change (1 + length pre) with (S (length pre)). rewrite <- starts_cuts. f_equal. f_equal.
  rewrite <- H1, app_length. unfold total. lia.
Qed.

Lemma process_ok : forall ck d v m as_poly parts,
  Forall (Forall (coord_fits v m)) parts ->
  process_multipart ck d as_poly (memory v m parts)
  = ok_calls (gevents (dz d || dm d) 0
      (if as_poly then GMultiPolygon (map (map (map (visible d))) (groups clockwise parts))
       else GMultiLineString (map (map (visible d)) parts))).
Proof.
  intros ck d v m as_poly parts H. unfold process_multipart. destruct as_poly.
  - rewrite detect_polys_ok. cbn [plift pbind]. rewrite windows_cuts, cuts_length.
    cbn [Nat.sub]. rewrite Nat.sub_0_r.
    assert (Hp : forall i, pfor (process_geom_part ck (dz d || dm d)
        (dz d && filled (mp_z (memory v m parts))) (dm d && filled (mp_m (memory v m parts))) true
        (memory v m parts)) i (spans 0 (groups clockwise parts))
      = ok_calls (flat_mapi (fun i g => ev_polygon (dz d || dm d) false i (map (map (visible d)) g)) i
           (groups clockwise parts))).
    { apply pfor_forall2. apply spans_forall2. intros before g after E i. rewrite Nat.add_0_l.
      pose proof (proj1 (groups_grouped _ clockwise parts)) as Hc. rewrite E in Hc.
      rewrite concat_app in Hc. cbn [concat] in Hc.
      unfold total.
      pose proof (geom_part_ok ck d v m true parts (concat before) g (concat after) i (eq_sym Hc) H) as Hg.
      cbv zeta in Hg. rewrite Hg. cbn [app]. unfold ev_polygon. rewrite map_length, flat_mapi_map. reflexivity. }
    rewrite Hp, !pcall_calls, !pthen_calls. cbn [gevents]. rewrite map_length, flat_mapi_map. reflexivity.
  - assert (Hn : num_parts (memory v m parts) = length parts)
      by (unfold num_parts; cbn [memory mp_parts]; rewrite map_length, cuts_length; lia).
    rewrite Hn. cbn [pbind pret windows2 pfor].
    pose proof (geom_part_ok ck d v m false parts [] parts [] 0) as Hg. cbv zeta in Hg.
    cbn [length Nat.add app] in Hg. rewrite app_nil_r in Hg. specialize (Hg eq_refl H).
    rewrite Hg. rewrite app_nil_r.
    change (pret tt) with (ok_calls []). rewrite !pcall_calls, !pthen_calls. rewrite app_nil_r.
    cbn [gevents]. rewrite map_length, flat_mapi_map. reflexivity.
Qed.

(** ** Lengths *)
Lemma le64_length : forall x, length (le64 x) = 8.
Proof. intros. apply bytes_of_length. Qed.
Lemma le32_length : forall x, length (le32 x) = 4.
Proof. intros. apply bytes_of_length. Qed.
Lemma flat_map_const : forall A (f : A -> list byte) k l,
  (forall a, length (f a) = k) -> length (flat_map f l) = k * length l.
Proof.
  intros A f k l H. induction l as [|a l IH]; cbn [flat_map length]; [lia|].
  rewrite app_length, H, IH. lia.
Qed.
Definition block (n : nat) : nat := 16 + 8 * n.
Lemma points_length : forall v m e l, extent_ok e ->
  length (points_bytes v m e l) =
  16 * length l + (if is_tall v then block (length l) else 0) + (if m then block (length l) else 0).
Proof.
  intros v m e l [He1 [He2 [He3 _]]]. unfold points_bytes, block. rewrite !app_length.
  rewrite (flat_map_const _ xy_bytes 16) by (intros; unfold xy_bytes; rewrite app_length, !le64_length; reflexivity).
  destruct (is_tall v), m; rewrite ?app_length; repeat rewrite (flat_map_const _ _ 8) by (intros; apply le64_length);
    rewrite ?He2, ?He3; cbn [length]; lia.
Qed.
Lemma parts_length : forall v m e parts, extent_ok e ->
  length (parts_bytes v m e parts) =
  40 + 4 * length parts + length (points_bytes v m e (concat parts)).
Proof.
  intros v m e parts [He1 _]. unfold parts_bytes. rewrite !app_length.
  rewrite (flat_map_const _ le64 8) by (intros; apply le64_length).
  rewrite (flat_map_const _ count32 4) by (intros; apply le32_length).
  rewrite starts_length, He1. unfold count32. rewrite !le32_length. lia.
Qed.

(** ** Multipart records *)
Lemma starts_bound : forall A (l : list (list A)) k x, In x (starts k l) -> x <= k + total l.
Proof.
  induction l as [|p l IH]; intros k x H; cbn [starts In] in H; [contradiction|].
  rewrite total_cons. destruct H as [<-|H]; [lia|]. apply IH in H. lia.
Qed.

Lemma has_m_detected : forall (size blk : nat) (m : bool),
  0 < blk ->
  (N.of_nat (size + (if m then blk else 0)) =? N.of_nat size + N.of_nat blk)%N = m.
Proof. intros size blk [] H; [apply N.eqb_eq|apply N.eqb_neq]; lia. Qed.

Lemma block_N : forall n, (16 + N.of_nat n * 8)%N = N.of_nat (block n).
Proof. intros. unfold block. lia. Qed.

Lemma reads_multipart : forall ck v m e parts rest,
  extent_ok e -> Forall (Forall (coord_fits v m)) parts ->
  (N.of_nat (length (parts_bytes v m e parts)) < 2 ^ 31)%N ->
  reads (read_multipart ck (N.of_nat (length (parts_bytes v m e parts))) (is_tall v))
    (parts_bytes v m e parts ++ rest) [] (memory v m parts) rest.
Proof.
  intros ck v m e parts rest He Hp Hlen.
  rewrite parts_length, points_length in * by assumption.
  set (n := length (concat parts)) in *. set (k := length parts) in *.
  unfold read_multipart, parts_bytes. rewrite <- !app_assoc.
  eapply reads_bind0; [apply (reads_box 2); apply He|].
  eapply reads_bind0; [apply reads_count; fold k; lia|].
  eapply reads_bind0; [apply reads_count; fold n; lia|].
  fold n k. cbv zeta. rewrite !as_usize_nat by lia.
  assert (Hblk : block n = 16 + 8 * n) by reflexivity.
  eapply reads_lift; [apply record_size_ok; lia|].
  eapply reads_lift; [apply dim_value_size_ok; lia|].
  rewrite block_N.
  replace (40 + 4 * N.of_nat k + 16 * N.of_nat n)%N with (N.of_nat (40 + 4 * k + 16 * n)) by lia.
  eapply reads_lift with (a := N.of_nat (40 + 4 * k + 16 * n + (if is_tall v then block n else 0))).
  { destruct (is_tall v).
    - rewrite uadd_ok by lia. f_equal. lia.
    - f_equal. lia. }
  eapply reads_lift; [apply uadd_ok; lia|].
  replace (40 + 4 * k + (16 * n + (if is_tall v then block n else 0) + (if m then block n else 0)))
    with (40 + 4 * k + 16 * n + (if is_tall v then block n else 0) + (if m then block n else 0)) by lia.
  rewrite has_m_detected by (unfold block; lia).
  set (base := 40 + 4 * k + 16 * n + (if is_tall v then block n else 0)) in *.
  assert (Hck : ((N.of_nat (base + (if m then block n else 0)) =? N.of_nat base)%N || m)%bool = true).
  { destruct m; [apply orb_true_r|]. rewrite Nat.add_0_r, N.eqb_refl. reflexivity. }
  rewrite Hck. eapply reads_bind0; [apply reads_ret|].
  eapply reads_lift; [apply uadd_ok; lia|].
  eapply reads_lift; [apply reserve_ok; lia|].
  rewrite Nat2N.id. unfold k. rewrite <- (starts_length _ parts 0).
  eapply reads_bind0.
  { apply (reads_list_map _ _ _ N.of_nat). intros x r Hx. apply starts_bound in Hx.
    rewrite <- as_usize_nat by (unfold total in Hx; fold n in Hx; lia).
    apply reads_map. apply reads_count. unfold total in Hx; fold n in Hx; lia. }
  apply (reads_points v m e (concat parts) (N.of_nat n)).
  - reflexivity.
  - lia.
  - exact He.
  - now apply Forall_concat.
  - unfold memory. rewrite <- starts_cuts, map_app. cbn [map]. rewrite Nat.add_0_l.
    unfold total. fold n. apply reads_ret.
Qed.

Lemma reads_parts : forall ck d v m e as_poly parts rest,
  extent_ok e -> Forall (Forall (coord_fits v m)) parts ->
  (N.of_nat (length (parts_bytes v m e parts)) < 2 ^ 31)%N ->
  reads (read_parts ck d (N.of_nat (length (parts_bytes v m e parts))) (is_tall v) as_poly)
    (parts_bytes v m e parts ++ rest)
    (gevents (dz d || dm d) 0
      (if as_poly then GMultiPolygon (map (map (map (visible d))) (groups clockwise parts))
       else GMultiLineString (map (map (visible d)) parts))) tt rest.
Proof.
  intros. unfold read_parts. eapply reads_bind0; [now apply reads_multipart|].
  apply reads_prog. now apply process_ok.
Qed.

(** ** Points *)
Lemma multi_false : forall d, multi_dim d = false -> dz d = false /\ dm d = false.
Proof. intros d. unfold multi_dim. destruct (dz d), (dm d); cbn; intuition discriminate. Qed.

Lemma reads_multipoint : forall ck d v m e l rest,
  extent_ok e -> Forall (coord_fits v m) l ->
  let b := flat_map le64 (e_box e) ++ count32 (length l) ++ points_bytes v m e l in
  (N.of_nat (length b) < 2 ^ 31)%N ->
  reads (read_multipoint ck d (N.of_nat (length b)) (is_tall v)) (b ++ rest)
    (gevents (multi_dim d) 0 (GMultiPoint (map (visible d) l))) tt rest.
Proof.
  intros ck d v m e l rest He Hl b Hlen.
  assert (Hb : length b = 36 + 16 * length l + (if is_tall v then block (length l) else 0)
                          + (if m then block (length l) else 0)).
  { unfold b. rewrite !app_length, points_length by assumption.
    rewrite (flat_map_const _ le64 8) by (intros; apply le64_length).
    unfold count32. rewrite le32_length, (proj1 He). lia. }
  rewrite Hb in *. unfold b. set (n := length l) in *.
  unfold read_multipoint. rewrite <- !app_assoc.
  eapply reads_bind0; [apply (reads_box 2); apply He|].
  eapply reads_bind0; [apply reads_count; fold n; lia|].
  fold n. cbv zeta. rewrite !as_usize_nat by lia.
  assert (Hblk : block n = 16 + 8 * n) by reflexivity.
  eapply reads_lift; [apply umul_ok; lia|].
  eapply reads_lift; [apply uadd_ok; lia|].
  eapply reads_lift; [apply dim_value_size_ok; lia|].
  rewrite block_N.
  replace (36 + 16 * N.of_nat n)%N with (N.of_nat (36 + 16 * n)) by lia.
  eapply reads_lift with (a := N.of_nat (36 + 16 * n + (if is_tall v then block n else 0))).
  { destruct (is_tall v).
    - rewrite uadd_ok by lia. f_equal. lia.
    - f_equal. lia. }
  eapply reads_lift; [apply uadd_ok; lia|].
  rewrite has_m_detected by (unfold block; lia).
  set (base := 36 + 16 * n + (if is_tall v then block n else 0)) in *.
  assert (Hck : (N.of_nat (base + (if m then block n else 0)) =?
                 (if m then N.of_nat base + N.of_nat (block n) else N.of_nat base))%N = true)
    by (apply N.eqb_eq; destruct m; lia).
  rewrite Hck. eapply reads_bind0; [apply reads_ret|].
  apply (reads_points v m e l (N.of_nat n)); try assumption; [reflexivity|lia|].
  apply reads_prog. rewrite Nat2N.id.
  pose proof (emit_points_ok (multi_dim d) d v m [] [] l [] (multi_false d)) as Hem.
  cbv zeta in Hem. cbn [length app] in Hem. rewrite app_nil_r in Hem. specialize (Hem Hl).
  fold n in Hem. change (N.of_nat 0) with 0%N in Hem. rewrite Hem.
  rewrite !pcall_calls, !pthen_calls. cbn [gevents]. unfold ev_coords. rewrite map_length. reflexivity.
Qed.

Definition point_type (v : variant) : shape_type :=
  match v with Flat => Point | Measured => PointM | Tall => PointZ end.

Lemma reads_point : forall d v c rest,
  coord_fits v (some (cm c)) c ->
  match v with Flat => cm c = None | Measured => cm c <> None | Tall => True end ->
  let b := xy_bytes c ++ (if is_tall v then le64 (value (cz c)) else []) ++
           match cm c with Some x => le64 x | None => [] end in
  reads (read_point d (N.of_nat (length b)) (point_type v)) (b ++ rest)
    (gevents (multi_dim d) 0 (GPoint (visible d c))) tt rest.
Proof.
  intros d v c rest [Hx [Hy [Hz [Hm [Ez Em]]]]] Hv b.
  assert (Hb : length b = 16 + (if is_tall v then 8 else 0) + (if some (cm c) then 8 else 0)).
  { unfold b, xy_bytes. rewrite !app_length, !le64_length. destruct (is_tall v), (cm c); cbn [some];
      rewrite ?le64_length; cbn [length]; lia. }
  rewrite Hb. unfold b, xy_bytes. rewrite <- !app_assoc.
  unfold read_point. cbv zeta.
  assert (E1 : match point_type v with PointZ => true | _ => false end = is_tall v) by (destruct v; reflexivity).
  rewrite E1.
  assert (E2 : match point_type v with
               | PointM => true
               | PointZ => (N.of_nat (16 + (if is_tall v then 8 else 0) + (if some (cm c) then 8 else 0)) =? 32)%N
               | _ => false end = some (cm c)).
  { destruct v; cbn [point_type is_tall].
    - now rewrite Hv.
    - destruct (cm c); [reflexivity|contradiction].
    - destruct (cm c); reflexivity. }
  rewrite E2.
  assert (E3 : (N.of_nat (16 + (if is_tall v then 8 else 0) + (if some (cm c) then 8 else 0)) =?
                (2 + (if is_tall v then 1 else 0) + (if some (cm c) then 1 else 0)) * 8)%N = true)
    by (destruct (is_tall v), (some (cm c)); reflexivity).
  rewrite E3. eapply reads_bind0; [apply reads_ret|].
  eapply reads_bind0; [now apply reads_le64|].
  eapply reads_bind0; [now apply reads_le64|].
  eapply reads_bind0 with (a := cz c) (b1 := match cm c with Some x => le64 x | None => [] end ++ rest).
  { destruct (is_tall v).
    - unfold value. destruct (cz c); [|discriminate]. apply reads_map. now apply reads_le64.
    - destruct (cz c); [discriminate|]. apply reads_ret. }
  eapply reads_bind0 with (a := cm c) (b1 := rest).
  { destruct (cm c); cbn [some].
    - apply reads_map. now apply reads_le64.
    - apply reads_ret. }
  cbn [gevents]. apply reads_call_bind. unfold ev_coord, visible. cbn [cx cy cz cm].
  destruct (multi_dim d); (apply reads_call_bind; apply reads_call).
Qed.

(** ** Records *)
Lemma reads_type : forall z t rest, is_i32 z -> shape_type_of z = Some t ->
  reads read_shape_type (le32 z ++ rest) [] t rest.
Proof.
  intros z t rest Hz Ht. unfold read_shape_type. eapply reads_bind0; [now apply reads_le32|].
  rewrite Ht. apply reads_ret.
Qed.

Lemma reads_rec : forall ck d sh rest, well_formed sh ->
  exists l, shape_events d sh l /\
    reads (read_shape_rec ck d (N.of_nat (length (content sh)))) (content sh ++ rest) l tt rest.
Proof.
  intros ck d sh rest [Hlen Hwf].
  assert (Hsub : forall b1 b : list byte, length b1 = 4 ->
    usub ck (N.of_nat (length (b1 ++ b))) 4 = Ok (N.of_nat (length b))).
  { intros b1 b E. rewrite app_length, E. rewrite usub_ok by lia. f_equal. lia. }
  destruct sh as [|v c|v m e l|v m e parts|v m e rings|b].
  - exists []. split; [reflexivity|]. unfold read_shape_rec. cbn [content].
    eapply reads_bind0; [apply (reads_type 0 NullShape); [unfold is_i32; lia|reflexivity]|].
    rewrite le32_length. eapply reads_lift; [apply usub_ok; lia|]. apply reads_ret.
  - destruct Hwf as [Hf Hv]. cbn [content] in *.
    exists (gevents (multi_dim d) 0 (GPoint (visible d c))). split.
    { exists (GPoint (visible d c)). split; [constructor|reflexivity]. }
    unfold read_shape_rec. rewrite <- app_assoc.
    eapply reads_bind0 with (a := point_type v).
    { apply reads_type; destruct v; unfold is_i32; cbn; (reflexivity || lia). }
    eapply reads_lift; [apply Hsub, le32_length|].
    pose proof (reads_point d v c rest Hf Hv) as H. cbv zeta in H.
    destruct v; exact H.
  - destruct Hwf as [Hm [He Hl]]. cbn [content] in *.
    exists (gevents (multi_dim d) 0 (GMultiPoint (map (visible d) l))). split.
    { eexists. split; [constructor|reflexivity]. }
    unfold read_shape_rec. rewrite <- app_assoc.
    eapply reads_bind0 with (a := match v with Flat => Multipoint | Measured => MultipointM | Tall => MultipointZ end).
    { apply reads_type; destruct v; unfold is_i32; cbn; (reflexivity || lia). }
    eapply reads_lift; [apply Hsub, le32_length|].
    pose proof (reads_multipoint ck d v m e l rest He Hl) as H. cbv zeta in H.
    destruct v; apply H; rewrite app_length in Hlen; lia.
  - destruct Hwf as [Hm [He Hl]]. cbn [content] in *.
    exists (gevents (dz d || dm d) 0 (GMultiLineString (map (map (visible d)) parts))). split.
    { eexists. split; [constructor|reflexivity]. }
    unfold read_shape_rec. rewrite <- app_assoc.
    eapply reads_bind0 with (a := match v with Flat => Polyline | Measured => PolylineM | Tall => PolylineZ end).
    { apply reads_type; destruct v; unfold is_i32; cbn; (reflexivity || lia). }
    eapply reads_lift; [apply Hsub, le32_length|].
    pose proof (reads_parts ck d v m e false parts rest He Hl) as H.
    destruct v; apply H; rewrite app_length in Hlen; lia.
  - destruct Hwf as [Hm [He Hl]]. cbn [content] in *.
    exists (gevents (dz d || dm d) 0 (GMultiPolygon (map (map (map (visible d))) (groups clockwise rings)))). split.
    { eexists. split; [constructor; apply groups_grouped|reflexivity]. }
    unfold read_shape_rec. rewrite <- app_assoc.
    eapply reads_bind0 with (a := match v with Flat => Polygon | Measured => PolygonM | Tall => PolygonZ end).
    { apply reads_type; destruct v; unfold is_i32; cbn; (reflexivity || lia). }
    eapply reads_lift; [apply Hsub, le32_length|].
    pose proof (reads_parts ck d v m e true rings rest He Hl) as H.
    destruct v; apply H; rewrite app_length in Hlen; lia.
  - exists []. split; [reflexivity|]. unfold read_shape_rec. cbn [content] in *. rewrite <- app_assoc.
    eapply reads_bind0; [apply (reads_type 31 Multipatch); [unfold is_i32; lia|reflexivity]|].
    eapply reads_lift; [apply Hsub, le32_length|].
    unfold read_multipatch. rewrite app_length in Hlen. eapply reads_lift; [apply reserve_ok; lia|].
    rewrite Nat2N.id. eapply reads_bind0; [apply reads_take; reflexivity|]. apply reads_ret.
Qed.

Lemma content_even : forall sh, well_formed sh ->
  (words sh * 2 = Z.of_nat (length (content sh)))%Z.
Proof.
  intros sh [_ Hwf]. unfold words.
  assert (H : exists k, length (content sh) = 2 * k).
  { destruct sh as [|v c|v m e l|v m e parts|v m e rings|b]; cbn [content]; rewrite ?app_length, le32_length.
    - now exists 2.
    - unfold xy_bytes. rewrite !app_length, !le64_length.
      destruct (is_tall v), (cm c); rewrite ?le64_length; cbn [length];
        [exists 18|exists 14|exists 14|exists 10]; lia.
    - destruct Hwf as [_ [He _]]. rewrite points_length by assumption.
      rewrite (flat_map_const _ le64 8) by (intros; apply le64_length).
      unfold count32. rewrite le32_length, (proj1 He). unfold block.
      exists (20 + 8 * length l + (if is_tall v then 8 + 4 * length l else 0)
              + (if m then 8 + 4 * length l else 0)).
      destruct (is_tall v), m; lia.
    - destruct Hwf as [_ [He _]]. rewrite parts_length, points_length by assumption.
      unfold block. destruct (is_tall v), m.
      + exists (22 + 2 * length parts + 8 * length (concat parts) + (8 + 4 * length (concat parts)) + (8 + 4 * length (concat parts))); lia.
      + exists (22 + 2 * length parts + 8 * length (concat parts) + (8 + 4 * length (concat parts))); lia.
      + exists (22 + 2 * length parts + 8 * length (concat parts) + (8 + 4 * length (concat parts))); lia.
      + exists (22 + 2 * length parts + 8 * length (concat parts)); lia.
    - destruct Hwf as [_ [He _]]. rewrite parts_length, points_length by assumption.
      unfold block. destruct (is_tall v), m.
      + exists (22 + 2 * length rings + 8 * length (concat rings) + (8 + 4 * length (concat rings)) + (8 + 4 * length (concat rings))); lia.
      + exists (22 + 2 * length rings + 8 * length (concat rings) + (8 + 4 * length (concat rings))); lia.
      + exists (22 + 2 * length rings + 8 * length (concat rings) + (8 + 4 * length (concat rings))); lia.
      + exists (22 + 2 * length rings + 8 * length (concat rings)); lia.
    - destruct Hwf as [k Hk]. exists (2 + k). lia. }
  destruct H as [k ->]. pose proof (Z.div_mul (Z.of_nat k) 2). lia.
Qed.

Lemma record_reads : forall ck d n sh rest, is_i32 n -> well_formed sh ->
  exists l, shape_events d sh l /\
    reads (read_shape ck d) (record_bytes n sh ++ rest) l (n, words sh) rest.
Proof.
  intros ck d n sh rest Hn Hwf. pose proof (content_even sh Hwf) as Hw. pose proof (proj1 Hwf) as Hlen.
  destruct (reads_rec ck d sh rest Hwf) as [l [Hl Hr]]. exists l. split; [exact Hl|].
  unfold read_shape, record_bytes. rewrite <- !app_assoc.
  eapply reads_bind0; [now apply reads_be32|].
  eapply reads_bind0; [apply reads_be32; unfold is_i32; lia|].
  eapply reads_lift; [apply i32_op_ok; unfold is_i32; lia|].
  rewrite Hw. rewrite as_usize_nat by lia.
  rewrite <- (app_nil_r l). eapply reads_bind; [exact Hr|]. apply reads_ret.
Qed.
