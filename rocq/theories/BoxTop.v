(** Proofs about boxes put together (helper lemmas for C90). *)
From Coq Require Import String Ascii.
From Coq Require Import List NArith ZArith Lia Bool.
From Verif Require Import Base BaseLemmas Float Event EventLemmas Claims Geom WkbRead ProcModel ProcSpec ProcTop BoxSpec.
Import ListNotations.
Local Open Scope list_scope.

(** ** Comparisons *)
Lemma leb_num : forall x y, f64_leb x y = true -> num x /\ num y.
Proof.
  intros x y H. unfold num. split; apply not_true_is_false; intros N; apply cmp_nan in N;
    unfold f64_leb, f64_cmp in H; rewrite N in H; [discriminate|].
  destruct (f64_decode x) as [[]|[]| |[]]; discriminate.
Qed.
Lemma ltb_num : forall x y, f64_ltb x y = true -> num x /\ num y.
Proof.
  intros x y H. apply leb_num. unfold f64_ltb in H. unfold f64_leb. destruct (f64_cmp x y) as [[]|]; congruence.
Qed.
Lemma eqb_leb : forall x y, f64_leb x y = true -> f64_leb y x = true -> f64_eqb x y = true.
Proof.
  intros x y A B. destruct (leb_num x y A) as [X Y].
  pose proof (ltb_leb x y X Y) as E. rewrite B in E. cbn [negb] in E.
  unfold f64_ltb in E. unfold f64_leb in A. unfold f64_eqb. destruct (f64_cmp x y) as [[]|]; congruence.
Qed.

(** ** Running minimum and maximum are joins *)
Lemma lower_assoc : forall m v x, num v -> lower (lower m v) x = lower m (lower v x).
Proof.
  intros m v x V. unfold lower.
  destruct (f64_is_nan m) eqn:M.
  { rewrite !(ltb_nan_r _ m) by exact M. reflexivity. }
  destruct (f64_is_nan x) eqn:X.
  { rewrite !(ltb_nan_l x) by exact X. reflexivity. }
  rewrite (ltb_leb v m), (ltb_leb x v) by assumption.
  destruct (f64_leb m v) eqn:E1; cbn [negb].
  - destruct (f64_leb v x) eqn:E2; cbn [negb]; rewrite ?(ltb_leb x m), ?(ltb_leb v m), ?(ltb_leb x v) by assumption.
    + rewrite (leb_trans m v x), E1 by assumption. reflexivity.
    + reflexivity.
  - destruct (f64_leb v x) eqn:E2; cbn [negb]; rewrite ?(ltb_leb x m), ?(ltb_leb v m), ?(ltb_leb x v) by assumption.
    + rewrite E1, E2. reflexivity.
    + rewrite E2. destruct (f64_leb m x) eqn:E3; cbn [negb]; [|reflexivity].
      pose proof (leb_total v x V X E2) as E4. rewrite (leb_trans m x v) in E1 by assumption. discriminate.
Qed.
Lemma upper_assoc : forall m v x, num v -> upper (upper m v) x = upper m (upper v x).
Proof.
  intros m v x V. unfold upper.
  destruct (f64_is_nan m) eqn:M.
  { rewrite !(ltb_nan_l m) by exact M. reflexivity. }
  destruct (f64_is_nan x) eqn:X.
  { rewrite !(ltb_nan_r _ x) by exact X. reflexivity. }
  rewrite (ltb_leb m v), (ltb_leb v x) by assumption.
  destruct (f64_leb v m) eqn:E1; cbn [negb].
  - destruct (f64_leb x v) eqn:E2; cbn [negb]; rewrite ?(ltb_leb m x), ?(ltb_leb m v), ?(ltb_leb v x) by assumption.
    + rewrite (leb_trans x v m), E1 by assumption. reflexivity.
    + reflexivity.
  - destruct (f64_leb x v) eqn:E2; cbn [negb]; rewrite ?(ltb_leb m x), ?(ltb_leb m v), ?(ltb_leb v x) by assumption.
    + rewrite E1, E2. reflexivity.
    + rewrite E2. destruct (f64_leb x m) eqn:E3; cbn [negb]; [|reflexivity].
      pose proof (leb_total x v X V E2) as E4. rewrite (leb_trans v x m) in E1 by assumption. discriminate.
Qed.
Lemma lower_num : forall v x, num v -> num (lower v x).
Proof. intros v x V. unfold lower. destruct (f64_ltb x v) eqn:E; [apply (ltb_num x v E)|exact V]. Qed.
Lemma upper_num : forall v x, num v -> num (upper v x).
Proof. intros v x V. unfold upper. destruct (f64_ltb v x) eqn:E; [apply (ltb_num v x E)|exact V]. Qed.
Lemma lower_fold : forall l m v, num v -> fold_left lower l (lower m v) = lower m (fold_left lower l v).
Proof.
  induction l as [|x l IH]; intros m v V; [reflexivity|]. cbn [fold_left].
  rewrite lower_assoc by exact V. apply IH, lower_num, V.
Qed.
Lemma upper_fold : forall l m v, num v -> fold_left upper l (upper m v) = upper m (fold_left upper l v).
Proof.
  induction l as [|x l IH]; intros m v V; [reflexivity|]. cbn [fold_left].
  rewrite upper_assoc by exact V. apply IH, upper_num, V.
Qed.

(** ** Streams one after the other *)
Lemma feed_box : forall l, taken l -> feed bounds_proc l None = (box_of (positions l), Ok tt).
Proof. intros l H. rewrite bounds_fold, fold_box0 by exact H. reflexivity. Qed.
Lemma positions_app : forall a b, positions (a ++ b) = positions a ++ positions b.
Proof. induction a as [|[[]|] a IH]; intros b; cbn [app positions]; rewrite ?IH; reflexivity. Qed.
Lemma taken_app : forall a b, taken (a ++ b) <-> taken a /\ taken b.
Proof. intros a b. unfold taken. rewrite existsb_app, orb_false_iff. reflexivity. Qed.

Lemma box_app : forall a b,
  match b with [] => True | (x, y) :: _ => num x /\ num y end ->
  box_of (a ++ b) = around_both (box_of a) (box_of b).
Proof.
  intros [|[x y] a] b H; [reflexivity|]. cbn [app box_of].
  destruct b as [|[v w] b]; [rewrite app_nil_r; reflexivity|]. destruct H as [V W].
  cbn [box_of around_both around min_x min_y max_x max_y]. rewrite !map_app, !fold_left_app. cbn [map fst snd fold_left].
  rewrite !lower_fold, !upper_fold by assumption. reflexivity.
Qed.
Lemma join : forall l1 l2, taken l1 -> taken l2 -> starts_with_numbers l2 ->
  feed bounds_proc (l1 ++ l2) None =
    (around_both (fst (feed bounds_proc l1 None)) (fst (feed bounds_proc l2 None)), Ok tt).
Proof.
  intros l1 l2 A B H. rewrite !feed_box by (assumption || now apply taken_app). cbn [fst].
  rewrite positions_app, box_app; [reflexivity|exact H].
Qed.
Lemma around_fold : forall ls a, Forall starts_with_numbers ls -> 
  box_of (a ++ positions (concat ls)) = fold_left around_both (map (fun l => box_of (positions l)) ls) (box_of a).
Proof.
  induction ls as [|l ls IH]; intros a H; cbn [concat map fold_left positions].
  - rewrite app_nil_r. reflexivity.
  - inversion H as [|? ? H1 H2]; subst. rewrite positions_app, app_assoc, IH by exact H2.
    rewrite box_app by exact H1. reflexivity.
Qed.
Lemma several : forall ls, Forall taken ls -> Forall starts_with_numbers ls ->
  feed bounds_proc (concat ls) None = (around_all (map (fun l => fst (feed bounds_proc l None)) ls), Ok tt).
Proof.
  intros ls T H. assert (C : taken (concat ls)).
  { clear H. induction T as [|l ls T Ts IH]; [reflexivity|]. cbn [concat]. apply taken_app. split; assumption. }
  rewrite feed_box by exact C. f_equal. pose proof (around_fold ls [] H) as E. cbn [app] in E. rewrite E.
  unfold around_all. cbn [box_of]. f_equal. apply map_ext_in. intros l I.
  rewrite feed_box; [reflexivity|]. rewrite Forall_forall in T. now apply T.
Qed.

(** ** Sets of positions *)
Lemma some_box : forall l, taken l -> numbers l -> positions l <> [] ->
  exists b, feed bounds_proc l None = (Some b, Ok tt) /\
    least (min_x b) (map fst (positions l)) /\ greatest (max_x b) (map fst (positions l)) /\
    least (min_y b) (map snd (positions l)) /\ greatest (max_y b) (map snd (positions l)) /\
    num (min_x b) /\ num (max_x b) /\ num (min_y b) /\ num (max_y b).
Proof.
  intros l T H P. destruct (bounds_exact l T) as (b & E & _ & K). destruct (positions l) as [|[x y] r] eqn:Q; [easy|].
  destruct (H x y) as [X Y]; [rewrite Q; now left|].
  destruct (K x y r eq_refl X Y) as (b' & -> & R). exists b'. split; [exact E|exact R].
Qed.
Lemma num_fst : forall l x, numbers l -> In x (map fst (positions l)) -> num x.
Proof. intros l x H I. apply in_map_iff in I. destruct I as ([a b] & <- & I). apply (H a b I). Qed.
Lemma num_snd : forall l y, numbers l -> In y (map snd (positions l)) -> num y.
Proof. intros l y H I. apply in_map_iff in I. destruct I as ([a b] & <- & I). apply (H a b I). Qed.
Lemma part : forall l1 l2 b1, taken l1 -> taken l2 -> numbers l2 -> incl (positions l1) (positions l2) ->
  feed bounds_proc l1 None = (Some b1, Ok tt) ->
  exists b2, feed bounds_proc l2 None = (Some b2, Ok tt) /\ inside b1 b2.
Proof.
  intros l1 l2 b1 T1 T2 H2 I E1.
  assert (H1 : numbers l1) by (intros x y K; apply H2, I, K).
  assert (P1 : positions l1 <> []).
  { intros Q. rewrite feed_box, Q in E1 by exact T1. discriminate. }
  assert (P2 : positions l2 <> []).
  { intros Q. destruct (positions l1) as [|q r]; [easy|]. specialize (I q (or_introl eq_refl)). rewrite Q in I. destruct I. }
  destruct (some_box l1 T1 H1 P1) as (c1 & F1 & [A1 _] & [A2 _] & [A3 _] & [A4 _] & N1 & N2 & N3 & N4).
  rewrite E1 in F1. injection F1 as <-.
  destruct (some_box l2 T2 H2 P2) as (b2 & F2 & [_ B1] & [_ B2] & [_ B3] & [_ B4] & _).
  exists b2. split; [exact F2|]. repeat split;
    [apply B1|apply B3|apply B2|apply B4]; try assumption;
    [apply (incl_map fst I)|apply (incl_map snd I)|apply (incl_map fst I)|apply (incl_map snd I)]; assumption.
Qed.
Lemma same_positions : forall l1 l2 b1, taken l1 -> taken l2 -> numbers l1 ->
  (forall q, In q (positions l1) <-> In q (positions l2)) ->
  feed bounds_proc l1 None = (Some b1, Ok tt) ->
  exists b2, feed bounds_proc l2 None = (Some b2, Ok tt) /\ same_box b1 b2.
Proof.
  intros l1 l2 b1 T1 T2 H1 I E1.
  assert (H2 : numbers l2) by (intros x y K; apply H1, I, K).
  destruct (part l1 l2 b1 T1 T2 H2 (fun q => proj1 (I q)) E1) as (b2 & E2 & P1 & P2 & P3 & P4).
  destruct (part l2 l1 b2 T2 T1 H1 (fun q => proj2 (I q)) E2) as (b & E & Q1 & Q2 & Q3 & Q4).
  rewrite E1 in E. injection E as <-. exists b2. split; [exact E2|]. repeat split; apply eqb_leb; assumption.
Qed.

(** ** Positions moved *)
Lemma moved_positions : forall f g l, positions (map (on_xy_obs (fun x y => (f x, g y))) l) =
  map (fun q => (f (fst q), g (snd q))) (positions l).
Proof. intros f g l. induction l as [|[[]|] l IH]; cbn [map positions on_xy_obs on_xy fst snd]; rewrite ?IH; reflexivity. Qed.
Lemma swapped_positions : forall l, positions (map (on_xy_obs (fun x y => (y, x))) l) =
  map (fun q => (snd q, fst q)) (positions l).
Proof. intros l. induction l as [|[[]|] l IH]; cbn [map positions on_xy_obs on_xy fst snd]; rewrite ?IH; reflexivity. Qed.
Lemma moved_taken : forall f l, taken l -> taken (map (on_xy_obs f) l).
Proof.
  intros f l. unfold taken. induction l as [|[[]|] l IH]; cbn [map existsb on_xy_obs on_xy is_empty_point orb]; auto; discriminate.
Qed.
Lemma map_fst_pair : forall f g (l : list (f64 * f64)), map fst (map (fun q => (f (fst q) : f64, g (snd q) : f64)) l) = map f (map fst l).
Proof. intros. rewrite !map_map. reflexivity. Qed.
Lemma map_snd_pair : forall f g (l : list (f64 * f64)), map snd (map (fun q => (f (fst q) : f64, g (snd q) : f64)) l) = map g (map snd l).
Proof. intros. rewrite !map_map. reflexivity. Qed.

(** a least (greatest) number is mapped to a least (greatest) one *)
Lemma rising_num : forall f l x, rising f l -> In x l -> num x -> num (f x).
Proof. intros f l x R I N. apply (leb_num (f x) (f x)). apply R; try assumption. now apply leb_refl. Qed.
Lemma falling_num : forall f l x, falling f l -> In x l -> num x -> num (f x).
Proof. intros f l x R I N. apply (leb_num (f x) (f x)). apply R; try assumption. now apply leb_refl. Qed.
Lemma least_eqb : forall a b l, least a l -> least b l -> num a -> num b -> f64_eqb a b = true.
Proof. intros a b l [A1 A2] [B1 B2] NA NB. apply eqb_leb; [now apply A2|now apply B2]. Qed.
Lemma greatest_eqb : forall a b l, greatest a l -> greatest b l -> num a -> num b -> f64_eqb a b = true.
Proof. intros a b l [A1 A2] [B1 B2] NA NB. apply eqb_leb; [now apply B2|now apply A2]. Qed.
Section Mapped.
  Variables (f : f64 -> f64) (l : list f64) (m : f64).
  Hypothesis N : forall x, In x l -> num x.
  Lemma rising_least : rising f l -> least m l -> least (f m) (map f l).
  Proof.
    intros R [A B]. split; [now apply in_map|]. intros x I _. apply in_map_iff in I. destruct I as (y & <- & I).
    apply R; try assumption. apply B; [assumption|now apply N].
  Qed.
  Lemma rising_greatest : rising f l -> greatest m l -> greatest (f m) (map f l).
  Proof.
    intros R [A B]. split; [now apply in_map|]. intros x I _. apply in_map_iff in I. destruct I as (y & <- & I).
    apply R; try assumption. apply B; [assumption|now apply N].
  Qed.
  Lemma falling_least : falling f l -> greatest m l -> least (f m) (map f l).
  Proof.
    intros R [A B]. split; [now apply in_map|]. intros x I _. apply in_map_iff in I. destruct I as (y & <- & I).
    apply R; try assumption. apply B; [assumption|now apply N].
  Qed.
  Lemma falling_greatest : falling f l -> least m l -> greatest (f m) (map f l).
  Proof.
    intros R [A B]. split; [now apply in_map|]. intros x I _. apply in_map_iff in I. destruct I as (y & <- & I).
    apply R; try assumption. apply B; [assumption|now apply N].
  Qed.
End Mapped.

Lemma moved_numbers : forall f g l, numbers l ->
  (forall x, In x (map fst (positions l)) -> num (f x)) -> (forall y, In y (map snd (positions l)) -> num (g y)) ->
  numbers (map (on_xy_obs (fun x y => (f x, g y))) l).
Proof.
  intros f g l H A B x y I. rewrite moved_positions in I. apply in_map_iff in I. destruct I as ([a b] & E & I).
  cbn [fst snd] in E. injection E as <- <-. split; [apply A|apply B]; apply in_map_iff; exists (a, b); auto.
Qed.
Ltac sides T H E1 C F2 :=
  match goal with |- exists b2, feed bounds_proc (map (on_xy_obs (fun x y => (?f x, ?g y))) ?l) None = _ /\ _ =>
    assert (T2 := moved_taken (fun x y => (f x, g y)) l T);
    assert (P : positions l <> []) by (intros Q; rewrite feed_box, Q in E1 by exact T; discriminate);
    assert (P2 : positions (map (on_xy_obs (fun x y => (f x, g y))) l) <> [])
      by (rewrite moved_positions; destruct (positions l); [easy|discriminate])
  end.
Lemma moved_box : forall f g l b, taken l -> numbers l ->
  rising f (map fst (positions l)) -> rising g (map snd (positions l)) ->
  feed bounds_proc l None = (Some b, Ok tt) ->
  exists b2, feed bounds_proc (map (on_xy_obs (fun x y => (f x, g y))) l) None = (Some b2, Ok tt) /\
    same_box b2 (mkBounds (f (min_x b)) (g (min_y b)) (f (max_x b)) (g (max_y b))).
Proof.
  intros f g l b T H F G E1. sides T H E1 C F2.
  assert (NX := num_fst l). assert (NY := num_snd l).
  assert (H2 : numbers (map (on_xy_obs (fun x y => (f x, g y))) l)).
  { apply moved_numbers; [exact H| |]; intros v I; [eapply rising_num; [exact F|exact I|now apply NX]|eapply rising_num; [exact G|exact I|now apply NY]]. }
  destruct (some_box l T H P) as (c & F1 & A1 & A2 & A3 & A4 & N1 & N2 & N3 & N4). rewrite E1 in F1. injection F1 as <-.
  destruct (some_box _ T2 H2 P2) as (b2 & F2 & B1 & B2 & B3 & B4 & M1 & M2 & M3 & M4).
  rewrite moved_positions, map_fst_pair in B1, B2. rewrite moved_positions, map_snd_pair in B3, B4.
  exists b2. split; [exact F2|]. unfold same_box. cbn [min_x min_y max_x max_y]. repeat split.
  - eapply least_eqb; [exact B1| |exact M1|eapply rising_num; [exact F|apply A1|exact N1]]. apply rising_least; auto.
  - eapply least_eqb; [exact B3| |exact M3|eapply rising_num; [exact G|apply A3|exact N3]]. apply rising_least; auto.
  - eapply greatest_eqb; [exact B2| |exact M2|eapply rising_num; [exact F|apply A2|exact N2]]. apply rising_greatest; auto.
  - eapply greatest_eqb; [exact B4| |exact M4|eapply rising_num; [exact G|apply A4|exact N4]]. apply rising_greatest; auto.
Qed.
Lemma mirrored_box : forall f g l b, taken l -> numbers l ->
  falling f (map fst (positions l)) -> rising g (map snd (positions l)) ->
  feed bounds_proc l None = (Some b, Ok tt) ->
  exists b2, feed bounds_proc (map (on_xy_obs (fun x y => (f x, g y))) l) None = (Some b2, Ok tt) /\
    same_box b2 (mkBounds (f (max_x b)) (g (min_y b)) (f (min_x b)) (g (max_y b))).
Proof.
  intros f g l b T H F G E1. sides T H E1 C F2.
  assert (NX := num_fst l). assert (NY := num_snd l).
  assert (H2 : numbers (map (on_xy_obs (fun x y => (f x, g y))) l)).
  { apply moved_numbers; [exact H| |]; intros v I; [eapply falling_num; [exact F|exact I|now apply NX]|eapply rising_num; [exact G|exact I|now apply NY]]. }
  destruct (some_box l T H P) as (c & F1 & A1 & A2 & A3 & A4 & N1 & N2 & N3 & N4). rewrite E1 in F1. injection F1 as <-.
  destruct (some_box _ T2 H2 P2) as (b2 & F2 & B1 & B2 & B3 & B4 & M1 & M2 & M3 & M4).
  rewrite moved_positions, map_fst_pair in B1, B2. rewrite moved_positions, map_snd_pair in B3, B4.
  exists b2. split; [exact F2|]. unfold same_box. cbn [min_x min_y max_x max_y]. repeat split.
  - eapply least_eqb; [exact B1| |exact M1|eapply falling_num; [exact F|apply A2|exact N2]]. apply falling_least; auto.
  - eapply least_eqb; [exact B3| |exact M3|eapply rising_num; [exact G|apply A3|exact N3]]. apply rising_least; auto.
  - eapply greatest_eqb; [exact B2| |exact M2|eapply falling_num; [exact F|apply A1|exact N1]]. apply falling_greatest; auto.
  - eapply greatest_eqb; [exact B4| |exact M4|eapply rising_num; [exact G|apply A4|exact N4]]. apply rising_greatest; auto.
Qed.
Lemma swapped_box : forall l, taken l ->
  feed bounds_proc (map (on_xy_obs (fun x y => (y, x))) l) None =
    (option_map (fun b => mkBounds (min_y b) (min_x b) (max_y b) (max_x b)) (fst (feed bounds_proc l None)), Ok tt).
Proof.
  intros l T. rewrite !feed_box by (try apply moved_taken; exact T). rewrite swapped_positions. f_equal.
  destruct (positions l) as [|[x y] r]; [reflexivity|]. cbn [map box_of option_map fst snd min_x min_y max_x max_y].
  rewrite !map_map. cbn [fst snd]. reflexivity.
Qed.
Lemma moved_wrapped : forall f g l b, taken l -> numbers l ->
  rising f (map fst (positions l)) -> rising g (map snd (positions l)) ->
  feed bounds_proc l None = (Some b, Ok tt) ->
  exists b2, feed (wrapped_xy (fun x y => (f x, g y)) bounds_proc) l None = (Some b2, Ok tt) /\
    same_box b2 (mkBounds (f (min_x b)) (g (min_y b)) (f (max_x b)) (g (max_y b))).
Proof. intros f g l b T H F G E. rewrite wrap_feed. now apply moved_box. Qed.
Lemma mirrored_wrapped : forall f g l b, taken l -> numbers l ->
  falling f (map fst (positions l)) -> rising g (map snd (positions l)) ->
  feed bounds_proc l None = (Some b, Ok tt) ->
  exists b2, feed (wrapped_xy (fun x y => (f x, g y)) bounds_proc) l None = (Some b2, Ok tt) /\
    same_box b2 (mkBounds (f (max_x b)) (g (min_y b)) (f (min_x b)) (g (max_y b))).
Proof. intros f g l b T H F G E. rewrite wrap_feed. now apply mirrored_box. Qed.
Lemma swapped_wrapped : forall l, taken l ->
  feed (wrapped_xy (fun x y => (y, x)) bounds_proc) l None =
    (option_map (fun b => mkBounds (min_y b) (min_x b) (max_y b) (max_x b)) (fst (feed bounds_proc l None)), Ok tt).
Proof. intros l T. rewrite wrap_feed. now apply swapped_box. Qed.

(** ** Collections *)
Lemma number_free : forall g i, positions (map OEv (gevents false i g)) = positions (map OEv (gevents false 0 g)) /\
  existsb is_empty_point (map OEv (gevents false i g)) = existsb is_empty_point (map OEv (gevents false 0 g)).
Proof.
  destruct g; intros i; try (split; reflexivity); cbn [gevents];
    unfold ev_line, ev_arc, ev_polygon, ev_triangle, ev_compound, ev_curvepolygon;
    cbn [map positions existsb is_empty_point orb]; rewrite !map_app, !positions_app, !existsb_app; split; reflexivity.
Qed.
Definition lone (g : geom) : list obs := map OEv (gevents false 0 g).
Lemma members_box : forall gs i, Forall (fun g => taken (lone g)) gs -> Forall (fun g => starts_with_numbers (lone g)) gs ->
  taken (map OEv (flat_mapi (gevents false) i gs)) /\
  forall a, box_of (a ++ positions (map OEv (flat_mapi (gevents false) i gs))) =
    fold_left around_both (map (fun g => fst (feed bounds_proc (lone g) None)) gs) (box_of a).
Proof.
  induction gs as [|g gs IH]; intros i T H.
  - split; [reflexivity|]. intros a. cbn [flat_mapi map positions fold_left]. rewrite app_nil_r. reflexivity.
  - apply Forall_cons_iff in T. destruct T as [T1 T2]. apply Forall_cons_iff in H. destruct H as [H1 H2]. destruct (number_free g i) as [N1 N2].
    destruct (IH (S i) T2 H2) as [K1 K2]. cbn [flat_mapi map fold_left]. rewrite map_app. split.
    + apply taken_app. split; [|exact K1]. unfold taken. rewrite N2. exact T1.
    + intros a. rewrite positions_app, app_assoc, K2, N1, (feed_box (lone g)) by exact T1. cbn [fst].
      rewrite box_app by exact H1. reflexivity.
Qed.
Lemma collection : forall A (src : dims -> prog A) r gs,
  delivers src (fun multi => gevents multi 0 (GCollection gs)) (Ok r) ->
  Forall (fun g => taken (map OEv (gevents false 0 g))) gs ->
  Forall (fun g => starts_with_numbers (map OEv (gevents false 0 g))) gs ->
  exec bounds_proc (src (p_dims bounds_proc)) None =
    (around_all (map (fun g => fst (run bounds_proc (gevents false 0 g) None)) gs), Ok r).
Proof.
  intros A src r gs D T H. rewrite D. cbn [p_dims bounds_proc]. change (multi_dim xy_dims) with false.
  rewrite <- feed_run, gevents_collection. destruct (members_box gs 0 T H) as [K1 K2].
  rewrite feed_box.
  2:{ cbn [map]. rewrite map_app. change (OEv (CollectionBegin (length gs) 0) :: ?l) with ([OEv (CollectionBegin (length gs) 0)] ++ l).
      apply taken_app. split; [reflexivity|]. apply taken_app. split; [exact K1|reflexivity]. }
  cbn [map positions]. rewrite map_app, positions_app. cbn [map positions]. rewrite app_nil_r.
  specialize (K2 []). cbn [app] in K2. rewrite K2. unfold around_all. cbn [box_of]. f_equal. f_equal.
  apply map_ext. intros g. unfold lone. rewrite feed_run. reflexivity.
Qed.
