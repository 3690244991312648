(** Proofs: rings as areas, polygons of shapefiles, witnesses. *)
From Coq Require Import List NArith ZArith Lia Bool Reals Lra.
From Flocq Require Import Core.Core.
From Verif Require Import Base Float Event Claims Geom ShpModel ShpSpec ShpTop ShpMore RingSpec RingTop.
From Verif Require MvtSpec.
Import ListNotations.
Local Open Scope R_scope.
Local Open Scope list_scope.

(** ** The area *)
Lemma area2_app : forall l a r, area2 (l ++ a :: r) = area2 (l ++ [a]) + area2 (a :: r).
Proof.
  induction l as [|x l IH]; intros a r.
  - cbn [app]. change (area2 [a]) with 0. lra.
  - destruct l as [|y l].
    + cbn [app]. rewrite !area2_cons. change (area2 [a]) with 0. lra.
    + cbn [app] in *. rewrite !area2_cons, IH. lra.
Qed.
Lemma area2_rev : forall l, area2 (rev l) = - area2 l.
Proof.
  induction l as [|a l IH]; [cbn; lra|]. destruct l as [|b l]; [cbn; lra|].
  rewrite area2_cons. cbn [rev] in *. rewrite <- app_assoc. cbn [app]. rewrite area2_app.
  rewrite IH, area2_cons. change (area2 [a]) with 0. lra.
Qed.
Lemma area2_ends : forall l a b, area2 (a :: l ++ [b]) = px b * py b - px a * py a - cross2 (a :: l ++ [b]).
Proof.
  induction l as [|x l IH]; intros a b.
  - cbn. lra.
  - cbn [app]. rewrite area2_cons, IH.
    change (cross2 (a :: x :: l ++ [b])) with ((px a * py x - px x * py a) + cross2 (x :: l ++ [b])). lra.
Qed.
Lemma area2_closed : forall a l, area2 (a :: l ++ [a]) = - cross2 (a :: l ++ [a]).
Proof. intros a l. rewrite area2_ends. lra. Qed.
Lemma area2_start : forall a b l, area2 (b :: l ++ [a; b]) = area2 (a :: b :: l ++ [a]).
Proof.
  intros a b l. change (b :: l ++ [a; b]) with ((b :: l) ++ a :: [b]). rewrite area2_app.
  rewrite !area2_cons. cbn [app]. change (area2 [b]) with 0. lra.
Qed.
Lemma area2_moved : forall dx dy l l' a b a' b', Forall2 (moved dx dy) l l' -> moved dx dy a a' -> moved dx dy b b' ->
  area2 (a' :: l' ++ [b']) = area2 (a :: l ++ [b]) + 2 * dy * (px b - px a).
Proof.
  intros dx dy l l' a b a' b' H. revert a a'. induction H as [|x x' l l' [X Y] H IH]; intros a a' [A1 A2] [B1 B2].
  - cbn. rewrite A1, A2, B1, B2. lra.
  - cbn [app]. rewrite !area2_cons, (IH x x'); [|split; assumption|split; assumption]. rewrite A1, A2, X, Y. lra.
Qed.
Lemma area2_translated : forall dx dy l l' a a', Forall2 (moved dx dy) l l' -> moved dx dy a a' ->
  area2 (a' :: l' ++ [a']) = area2 (a :: l ++ [a]).
Proof. intros dx dy l l' a a' H A. rewrite (area2_moved dx dy l l' a a a' a' H A A). lra. Qed.
Lemma area2_triangle : forall a b c, area2 [a; b; c; a] = - ((px b - px a) * (py c - py a) - (px c - px a) * (py b - py a)).
Proof. intros a b c. cbn. lra. Qed.

(** ** Reversed rings *)
Lemma decided_rev : forall l, decided l -> decided (rev l).
Proof.
  intros l [[k (A & B & C & D)]|[e [k (A & B & C & D)]]]; [left; exists k|right; exists e, k]; repeat split; try lia.
  - now rewrite rev_length.
  - now apply Forall_rev.
  - rewrite rev_length, area2_rev, Rabs_Ropp. exact D.
  - now rewrite rev_length.
  - now apply Forall_rev.
Qed.
Lemma reversed_orientation : forall l, decided l -> area2 l <> 0 -> clockwise (rev l) = negb (clockwise l).
Proof.
  intros l D N. pose proof (decided_clockwise l D) as H. pose proof (decided_clockwise _ (decided_rev l D)) as H'.
  rewrite area2_rev in H'. destruct (clockwise l), (clockwise (rev l)); cbn; try reflexivity; exfalso.
  - assert (0 <= area2 l) by now apply H. assert (0 <= - area2 l) by now apply H'. lra.
  - destruct (Rle_or_lt 0 (area2 l)); [assert (false = true) by now apply H|assert (false = true) by (apply H'; lra)]; discriminate.
Qed.

(** ** The polygons of a record *)
Lemma chunks_holes : forall A (cw : A -> bool) l rest, Forall (fun h => cw h = false) l ->
  chunks cw (l ++ rest) = (l ++ fst (chunks cw rest), snd (chunks cw rest)).
Proof.
  intros A cw l rest H. induction H as [|h l Hh H IH]; cbn [app chunks]; [now destruct (chunks cw rest)|].
  now rewrite IH, Hh.
Qed.
Lemma chunks_unique : forall A (cw : A -> bool) polys,
  Forall (fun p => exists r holes, p = r :: holes /\ Forall (fun h => cw h = false) holes) polys ->
  Forall (fun p => exists r holes, p = r :: holes /\ cw r = true) polys ->
  chunks cw (concat polys) = ([], polys).
Proof.
  intros A cw polys H1 H2. induction polys as [|p polys IH]; [reflexivity|].
  inversion H1 as [|? ? (r & hs & E & Hh) H1']; subst. inversion H2 as [|? ? (r' & hs' & E' & Hr) H2']; subst.
  injection E' as <- <-. cbn [concat app chunks]. rewrite (chunks_holes _ cw hs _ Hh), (IH H1' H2'). cbn [fst snd].
  now rewrite app_nil_r, Hr.
Qed.
Lemma groups_unique : forall A (cw : A -> bool) rings polys, grouped cw rings polys -> polys = groups cw rings.
Proof.
  intros A cw rings polys (<- & H1 & H2). destruct polys as [|p polys]; [reflexivity|].
  inversion H1 as [|? ? (r & hs & -> & Hh) H1']; subst. cbn [tl concat app groups] in *.
  rewrite (chunks_holes _ cw hs _ Hh), (chunks_unique _ cw polys H1' H2). cbn [fst snd]. now rewrite app_nil_r.
Qed.
Lemma wound_grouped : forall polys, Forall wound polys -> grouped clockwise (concat polys) polys.
Proof.
  intros polys H. assert (T : Forall wound (tl polys)) by (destruct H; [constructor|assumption]).
  split; [reflexivity|]. split.
  - eapply Forall_impl; [|exact H]. intros p (r & hs & -> & _ & _ & Hh). exists r, hs. split; [reflexivity|].
    eapply Forall_impl; [|exact Hh]. intros h [D N]. destruct (clockwise h) eqn:E; [|reflexivity].
    apply (decided_clockwise h D) in E. lra.
  - eapply Forall_impl; [|exact T]. intros p (r & hs & -> & D & P & _). exists r, hs. split; [reflexivity|].
    now apply (decided_clockwise r D).
Qed.
Lemma wound_record : forall ck n v m e polys rest S (p : proc S) s, is_i32 n ->
  well_formed (Areas v m e (concat polys)) -> Forall wound polys ->
  let d := p_dims p in
  exec p (read_shape ck d (record_bytes n (Areas v m e (concat polys)) ++ rest)) s =
  match run p (gevents (dz d || dm d) 0 (GMultiPolygon (map (map (map (visible d))) polys))) s with
  | (s', Ok _) => (s', Ok ((n, words (Areas v m e (concat polys))), rest))
  | (s', Err x) => (s', Err x)
  end.
Proof.
  intros ck n v m e polys rest S p s Hn Hw H d.
  subst d. destruct (record_exec ck n _ rest S p s Hn Hw) as (l & (g & R & ->) & E). rewrite E.
  inversion R as [| | |? ? ? ? polys' G]; subst. rewrite (groups_unique _ _ _ _ G).
  now rewrite <- (groups_unique _ _ _ _ (wound_grouped polys H)).
Qed.

(** ** Numbers *)
Lemma value_as : forall x m e, MvtSpec.negative x = false -> (MvtSpec.exponent x =? 0)%N = false ->
  (let q := (Z.of_N (MvtSpec.exponent x) - 1075)%Z in
   (e <= q)%Z /\ m = (Z.of_N (2 ^ 52 + MvtSpec.fraction x) * 2 ^ (q - e))%Z \/
   (q <= e)%Z /\ (m * 2 ^ (e - q))%Z = Z.of_N (2 ^ 52 + MvtSpec.fraction x)) ->
  MvtSpec.value x = IZR m * powerRZ 2 e.
Proof.
  intros x m e N X H. unfold MvtSpec.value, MvtSpec.magnitude. rewrite N, X. cbv zeta in H.
  set (q := (Z.of_N (MvtSpec.exponent x) - 1075)%Z) in *. set (f := Z.of_N (2 ^ 52 + MvtSpec.fraction x)) in *.
  assert (P : forall i, (0 <= i)%Z -> IZR (2 ^ i) = powerRZ 2 i).
  { intros i I. rewrite <- (bpow_powerRZ radix2). exact (IZR_Zpower radix2 i I). }
  destruct H as [[L ->]|[L <-]].
  - rewrite mult_IZR, P by lia. rewrite Rmult_assoc, <- powerRZ_add by lra. f_equal. f_equal. lia.
  - rewrite mult_IZR, P by lia. rewrite Rmult_assoc, <- powerRZ_add by lra. f_equal. f_equal. lia.
Qed.
Lemma value_zero : forall e, MvtSpec.value 0%N = IZR 0 * powerRZ 2 e.
Proof. intros e. unfold MvtSpec.value, MvtSpec.magnitude. cbn. lra. Qed.

(** ** A small triangle near 7 degrees east, 52 degrees north *)
Definition near_here (x y : f64) : coord := mkC x y None None.
Definition sliver : list coord :=
  [near_here 0x401C000000000180 0x404A000000000008; near_here 0x401C000000000100 0x404A000000000010;
   near_here 0x401C000000000040 0x404A000000000018; near_here 0x401C000000000180 0x404A000000000008]%N.
Lemma sliver_area : area2 sliver < 0.
Proof.
  set (ps := [(7881299347898752, 58546795155816512); (7881299347898624, 58546795155816576);
              (7881299347898432, 58546795155816640); (7881299347898752, 58546795155816512)]%Z).
  rewrite (grid_area (-50) sliver ps).
  - pose proof (bpow_gt_0 radix2 (2 * -50)).
    assert (L : (area_z ps < 0)%Z) by (vm_compute; reflexivity). apply IZR_lt in L. nra.
  - repeat constructor; unfold px, py; apply value_as; try reflexivity; left; (split; [vm_compute; discriminate|vm_compute; reflexivity]).
Qed.
Lemma sliver_misread : Forall finite_coord sliver /\ area2 sliver < 0 /\ clockwise sliver = true.
Proof.
  split; [repeat constructor|]. split; [exact sliver_area|vm_compute; reflexivity].
Qed.
(** ** The rings of [island] *)
Lemma corner_grid : forall c, In c (square f0 ++ square f1) ->
  finite_coord c /\ exists m n, (Z.abs m <= 2 ^ 1)%Z /\ (Z.abs n <= 2 ^ 1)%Z /\
    px c = IZR m * powerRZ 2 0 /\ py c = IZR n * powerRZ 2 0.
Proof.
  assert (V0 : MvtSpec.value f0 = IZR 0 * powerRZ 2 0) by apply value_zero.
  assert (V1 : MvtSpec.value f1 = IZR 1 * powerRZ 2 0) by (apply value_as; try reflexivity; right; split; [vm_compute; discriminate|reflexivity]).
  assert (V2 : MvtSpec.value f2 = IZR 2 * powerRZ 2 0) by (apply value_as; try reflexivity; right; split; [vm_compute; discriminate|reflexivity]).
  intros c H. cbn [square app In] in H.
  repeat destruct H as [<-|H]; try contradiction; (split; [split; reflexivity|]); do 2 eexists; unfold px, py; cbn [tall_at cx cy];
    (split; [|split; [|split; eassumption]]); cbn; lia.
Qed.
Lemma square_grid : forall l, (length l = 5)%nat -> (forall c, In c l -> In c (square f0 ++ square f1)) -> on_grid 0 1 l.
Proof.
  intros l L H. unfold on_grid. rewrite L.
  split; [lia|]. split; [lia|]. split; [vm_compute; discriminate|].
  apply Forall_forall. intros c Hc. exact (corner_grid c (H c Hc)).
Qed.
Lemma square_value : forall x, (x = f0 \/ x = f1) -> area2 (square x) = 2 * (2 - MvtSpec.value x).
Proof.
  assert (V0 : MvtSpec.value f0 = 0) by (unfold f0; rewrite (value_zero 0); cbn; lra).
  assert (V1 : MvtSpec.value f1 = 1) by (rewrite (value_as f1 1 0); try reflexivity; [cbn; lra|right; split; [vm_compute; discriminate|reflexivity]]).
  assert (V2 : MvtSpec.value f2 = 2) by (rewrite (value_as f2 2 0); try reflexivity; [cbn; lra|right; split; [vm_compute; discriminate|reflexivity]]).
  intros x _. unfold square. rewrite !area2_cons. change (area2 [tall_at x f0 f1 f2]) with 0.
  unfold px, py, tall_at. cbn [cx cy]. rewrite V0, V1, V2. lra.
Qed.
Lemma island_wound : Forall wound [[square f0; rev (square f1)]; [square f1]].
Proof.
  assert (V0 : MvtSpec.value f0 = 0) by (unfold f0; rewrite (value_zero 0); cbn; lra).
  assert (V1 : MvtSpec.value f1 = 1) by (rewrite (value_as f1 1 0); try reflexivity; [cbn; lra|right; split; [vm_compute; discriminate|reflexivity]]).
  assert (D0 : decided (square f0)) by (right; exists 0%Z, 1%Z; apply square_grid; [reflexivity|intros c; rewrite in_app_iff; tauto]).
  assert (D1 : decided (square f1)) by (right; exists 0%Z, 1%Z; apply square_grid; [reflexivity|intros c; rewrite in_app_iff; tauto]).
  constructor; [|constructor; [|constructor]].
  - exists (square f0), [rev (square f1)]. split; [reflexivity|]. split; [exact D0|].
    split; [rewrite square_value by tauto; lra|]. constructor; [|constructor]. split; [now apply decided_rev|].
    rewrite area2_rev, square_value by tauto. lra.
  - exists (square f1), []. split; [reflexivity|]. split; [exact D1|]. split; [rewrite square_value by tauto; lra|constructor].
Qed.
Lemma square_area : has_area 1 (square f0).
Proof.
  unfold has_area. split; [lia|]. split; [vm_compute; discriminate|]. split.
  - apply Forall_forall. intros c Hc. assert (Hc' : In c (square f0 ++ square f1)) by (rewrite in_app_iff; now left).
    destruct (corner_grid c Hc') as (F & m & n & M & N & X & Y).
    split; [exact F|]. change (powerRZ 2 0) with 1 in X, Y. rewrite X, Y, !Rmult_1_r. apply IZR_le in M. apply IZR_le in N.
    rewrite abs_IZR in M, N. change (2 ^ 1)%Z with 2%Z in *. assert (P1 : powerRZ 2 1 = 2) by apply powerRZ_1. rewrite P1. split; assumption.
  - rewrite square_value by tauto. change (MvtSpec.value f0) with (MvtSpec.value 0%N). rewrite (value_zero 0). change (powerRZ 2 0) with 1. change (length (square f0)) with 5%nat.
    rewrite Rabs_pos_eq by lra. change (2 * 1 - 53)%Z with (-51)%Z. change 2 with (IZR radix2) at 1. rewrite <- bpow_powerRZ.
    apply Rle_lt_trans with (20 * INR 5 * INR 5 * bpow radix2 (-10)).
    + apply Rmult_le_compat_l; [cbn; lra|]. apply bpow_le. lia.
    + cbn. lra.
Qed.
