(** Proofs about the generic processors (helper lemmas for C29-C35). *)
From Coq Require Import String Ascii.
From Coq Require Import List NArith ZArith Lia Bool.
From Coq Require Import Floats.SpecFloat Numbers.DecimalString Numbers.DecimalZ Numbers.DecimalPos.
From Verif Require Import Base BaseLemmas Float Event EventLemmas Claims ProcModel ProcSpec.
Import ListNotations.
Local Open Scope list_scope.

Lemma feed_app : forall S (p : proc S) l1 l2 s,
  feed p (l1 ++ l2) s =
  match feed p l1 s with (s', Ok _) => feed p l2 s' | (s', Err x) => (s', Err x) end.
Proof.
  induction l1 as [|[e|i n v] l1 IH]; intros l2 s; cbn [feed app]; [reflexivity| |].
  - destruct (p_step p s e) as [s' [u|x]]; [apply IH|reflexivity].
  - destruct (p_prop p s i n v) as [s' [u|x]]; [apply IH|reflexivity].
Qed.
Lemma feed_run : forall S (p : proc S) l s, feed p (map OEv l) s = run p l s.
Proof.
  induction l as [|e l IH]; intros s; cbn [feed map run]; [reflexivity|].
  destruct (p_step p s e) as [s' [u|x]]; [apply IH|reflexivity].
Qed.

(** ** Multiplexer *)
Section Mux.
  Context {S1 S2 : Type}.
  Variable p1 : proc S1.
  Variable p2 : proc S2.
  Notation mx := (multiplexer p1 p2).


  Lemma mux_dropped : forall o l s, is_empty_point o = false -> passed o = false ->
    feed mx (o :: l) s = feed mx l s.
  Proof. intros [[]|] l st E P; try discriminate; reflexivity. Qed.

  Lemma mux_event : forall e s, is_empty_point (OEv e) = false -> passed (OEv e) = true ->
    p_step mx s e = mux_both p1 p2 s e.
  Proof. intros [] st E P; try discriminate; reflexivity. Qed.

  Lemma mux_filter : forall l s, existsb is_empty_point l = false ->
    feed mx l s = feed mx (filter passed l) s.
  Proof.
    induction l as [|o l IH]; intros s H; [reflexivity|].
    cbn [existsb] in H. apply orb_false_iff in H. destruct H as [Ho H].
    cbn [filter]. destruct (passed o) eqn:P; [|rewrite mux_dropped by assumption; now apply IH].
    destruct o as [e|i n v]; cbn [feed].
    - destruct (p_step mx s e) as [s' [u|x]]; [now apply IH|reflexivity].
    - destruct (p_prop mx s i n v) as [s' [u|x]]; [now apply IH|reflexivity].
  Qed.

  Lemma mux_one : forall o l s1 s2, is_empty_point o = false -> passed o = true ->
    feed mx (o :: l) (s1, s2) =
    match feed p1 [o] s1, feed p2 [o] s2 with
    | (t1, Ok _), (t2, Ok _) => feed mx l (t1, t2)
    | (t1, Ok _), (t2, Err x) => ((t1, t2), Err x)
    | (t1, Err x), (t2, _) => ((t1, match o with OEv _ => s2 | OProp _ _ _ => t2 end), Err x)
    end.
  Proof.
    intros [e|i n v] l s1 s2 E P; cbn [feed].
    - rewrite mux_event by assumption. unfold mux_both.
      destruct (p_step p1 s1 e) as [t1 [u|x]]; destruct (p_step p2 s2 e) as [t2 [u2|x2]]; reflexivity.
    - cbn [p_prop multiplexer]. unfold mux_prop.
      destruct (p_prop p1 s1 i n v) as [t1 [u|x]]; destruct (p_prop p2 s2 i n v) as [t2 [u2|x2]]; reflexivity.
  Qed.

  Lemma feed_one : forall S (p : proc S) o l s,
    feed p (o :: l) s = match feed p [o] s with (s', Ok _) => feed p l s' | (s', Err x) => (s', Err x) end.
  Proof. intros. apply (feed_app S p [o] l s). Qed.

  (** both succeed: each in the state it reaches alone, and the converse *)
  Lemma mux_success : forall l s1 s2 t1 t2,
    existsb is_empty_point l = false ->
    (feed mx l (s1, s2) = ((t1, t2), Ok tt) <->
     feed p1 (filter passed l) s1 = (t1, Ok tt) /\ feed p2 (filter passed l) s2 = (t2, Ok tt)).
  Proof.
    intros l s1 s2 t1 t2 H. rewrite mux_filter by exact H. revert s1 s2.
    induction l as [|o l IH]; intros s1 s2.
    { cbn. split; [intros E; injection E as -> ->; auto|intros [E1 E2]; congruence]. }
    cbn [existsb] in H. apply orb_false_iff in H. destruct H as [Ho H]. specialize (IH H).
    cbn [filter]. destruct (passed o) eqn:P; [|apply IH].
    rewrite mux_one by assumption. rewrite (feed_one _ p1 o (filter passed l) s1), (feed_one _ p2 o (filter passed l) s2).
    destruct (feed p1 [o] s1) as [u1 [v1|x1]], (feed p2 [o] s2) as [u2 [v2|x2]]; [apply IH| | |].
    all: split; [intros E; discriminate|intros [E1 E2]; discriminate].
  Qed.

  (** failure: the first callback at which one of them fails; the first processor's error wins *)
  Lemma mux_failure : forall l s1 s2 t1 t2 x,
    existsb is_empty_point l = false ->
    feed mx l (s1, s2) = ((t1, t2), Err x) ->
    exists l1 o l2 u1 u2, filter passed l = l1 ++ o :: l2 /\
      feed p1 l1 s1 = (u1, Ok tt) /\ feed p2 l1 s2 = (u2, Ok tt) /\
      ((feed p1 [o] u1 = (t1, Err x) /\ (t2 = u2 \/ t2 = fst (feed p2 [o] u2))) \/
       (feed p1 [o] u1 = (t1, Ok tt) /\ feed p2 [o] u2 = (t2, Err x))).
  Proof.
    intros l s1 s2 t1 t2 x H. rewrite mux_filter by exact H. revert s1 s2.
    induction l as [|o l IH]; intros s1 s2 E; [discriminate E|].
    cbn [existsb] in H. apply orb_false_iff in H. destruct H as [Ho H]. specialize (IH H).
    cbn [filter] in *. destruct (passed o) eqn:P; [|now apply IH].
    rewrite mux_one in E by assumption.
    destruct (feed p1 [o] s1) as [w1 [[]|x1]] eqn:E1, (feed p2 [o] s2) as [w2 [[]|x2]] eqn:E2.
    - apply IH in E. destruct E as (l1 & o' & l2 & u1 & u2 & F & G1 & G2 & G3).
      exists (o :: l1), o', l2, u1, u2. rewrite F. split; [reflexivity|].
      rewrite (feed_one _ p1 o l1), (feed_one _ p2 o l1), E1, E2. auto.
    - injection E as <- <- <-. exists [], o, (filter passed l), s1, s2. cbn [app feed].
      repeat split; auto.
    - exists [], o, (filter passed l), s1, s2. rewrite E2. cbn [app fst].
      destruct o; injection E as <- <- <-; repeat split; auto.
    - exists [], o, (filter passed l), s1, s2. rewrite E2. cbn [app fst].
      destruct o; injection E as <- <- <-; repeat split; auto.
  Qed.
End Mux.

(** ** WrappedXYProcessor *)
Section Wrap.
  Context {S : Type}.
  Variable f : f64 -> f64 -> f64 * f64.
  Variable p : proc S.

  Lemma wrap_event : forall s e, p_step (wrapped_xy f p) s e = p_step p s (on_xy f e).
  Proof. intros st []; cbn; try reflexivity; destruct (f x y); reflexivity. Qed.

  Lemma wrap_exec : forall A (g : prog A) s,
    exec (wrapped_xy f p) g s = exec p (map_events (on_xy f) g) s.
  Proof.
    induction g as [r|e g IH|e g IH|i n v k IH]; intros s; cbn [exec map_events].
    - reflexivity.
    - rewrite wrap_event. destruct (p_step p s (on_xy f e)) as [s' [u|x]]; [apply IH|reflexivity].
    - rewrite wrap_event. apply IH.
    - change (p_prop (wrapped_xy f p) s i n v) with (p_prop p s i n v).
      destruct (p_prop p s i n v) as [s' [b|x]]; [apply IH|reflexivity].
  Qed.

  Lemma wrap_feed : forall l s, feed (wrapped_xy f p) l s = feed p (map (on_xy_obs f) l) s.
  Proof.
    induction l as [|[e|i n v] l IH]; intros s; cbn [feed map on_xy_obs]; [reflexivity| |].
    - rewrite wrap_event. destruct (p_step p s (on_xy f e)) as [s' [u|x]]; [apply IH|reflexivity].
    - change (p_prop (wrapped_xy f p) s i n v) with (p_prop p s i n v).
      destruct (p_prop p s i n v) as [s' [b|x]]; [apply IH|reflexivity].
  Qed.
End Wrap.

(** ** Geometry-only view *)
Section Ds.
  Context {S : Type}.
  Variable p : proc S.

  Lemma ds_feed : forall l s, existsb is_empty_point l = false ->
    feed (datasource_geom p) l s = feed p (filter ds_passed l) s.
  Proof.
    induction l as [|o l IH]; intros st H; [reflexivity|].
    cbn [existsb] in H. apply orb_false_iff in H. destruct H as [Ho H]. specialize (fun a => IH a H).
    destruct o as [[]|]; cbn [filter ds_passed is_feature is_collection is_srid negb andb feed
      datasource_geom p_step p_prop ds_step default_step default_prop]; try discriminate; try apply IH;
      match goal with |- context [p_step p ?a ?e] => destruct (p_step p a e) as [? [?|?]] end;
      (apply IH || reflexivity).
  Qed.
End Ds.

(** ** Order on bit patterns *)
Lemma cmp_nan : forall x, f64_decode x = S754_nan <-> f64_is_nan x = true.
Proof.
  intros x. unfold f64_decode, sf_decode, f64_is_nan.
  change (2 ^ 11 - 1)%N with 2047%N.
  destruct (N.eqb_spec ((x / 2 ^ 52) mod 2 ^ 11) 0) as [E|E].
  - rewrite E. cbn [N.eqb andb]. destruct (x mod 2 ^ 52)%N; split; discriminate.
  - destruct (N.eqb_spec ((x / 2 ^ 52) mod 2 ^ 11) 2047) as [E2|E2]; cbn [andb].
    + destruct (N.eqb_spec (x mod 2 ^ 52) 0); split; intros; try discriminate; reflexivity.
    + destruct (x mod 2 ^ 52 + 2 ^ 52)%N; split; discriminate.
Qed.

(** rank of a number: sign class, exponent, mantissa *)
Definition rank (f : spec_float) : Z * Z * Z :=
  match f with
  | S754_zero _ => (0, 0, 0)
  | S754_infinity s => (if s then -2 else 2, 0, 0)
  | S754_nan => (0, 0, 0)
  | S754_finite s m e => if s then (-1, - e, Zneg m) else (1, e, Zpos m)
  end%Z.
Definition lex (a b : Z * Z * Z) : comparison :=
  let '(a1, a2, a3) := a in
  let '(b1, b2, b3) := b in
  match (a1 ?= b1)%Z with
  | Eq => match (a2 ?= b2)%Z with Eq => (a3 ?= b3)%Z | c => c end
  | c => c
  end.

Lemma compare_rank : forall a b, a <> S754_nan -> b <> S754_nan ->
  SFcompare a b = Some (lex (rank a) (rank b)).
Proof.
  intros a b Ha Hb.
  destruct a as [s1|s1| |s1 m1 e1], b as [s2|s2| |s2 m2 e2]; try congruence;
    try (destruct s1; reflexivity); try (destruct s2; reflexivity);
    try (destruct s1, s2; reflexivity).
  destruct s1, s2; try reflexivity.
  - cbn [SFcompare rank lex]. change (-1 ?= -1)%Z with Eq. cbv iota.
    rewrite (Z.compare_opp e1 e2), (Z.compare_antisym e1 e2).
    destruct (e1 ?= e2)%Z; reflexivity.
Qed.

Lemma lex_refl : forall a, lex a a = Eq.
Proof. intros [[a b] c]. unfold lex. now rewrite !Z.compare_refl. Qed.
Ltac lexes := repeat match goal with
  | H : context [(?a ?= ?b)%Z] |- _ => destruct (Z.compare_spec a b)
  | |- context [(?a ?= ?b)%Z] => destruct (Z.compare_spec a b)
  end.
Lemma lex_trans : forall a b c, lex a b <> Gt -> lex b c <> Gt -> lex a c <> Gt.
Proof.
  intros [[a1 a2] a3] [[b1 b2] b3] [[c1 c2] c3]. unfold lex. intros H1 H2.
  lexes; try congruence; lia.
Qed.
Lemma lex_antisym : forall a b, lex b a = CompOpp (lex a b).
Proof.
  intros [[a1 a2] a3] [[b1 b2] b3]. unfold lex.
  rewrite (Z.compare_antisym a1 b1), (Z.compare_antisym a2 b2), (Z.compare_antisym a3 b3).
  destruct (a1 ?= b1)%Z, (a2 ?= b2)%Z, (a3 ?= b3)%Z; reflexivity.
Qed.

Definition num (x : f64) : Prop := f64_is_nan x = false.
Lemma num_decode : forall x, num x -> f64_decode x <> S754_nan.
Proof. intros x H E. apply cmp_nan in E. unfold num in H. congruence. Qed.

Lemma leb_rank : forall x y, num x -> num y ->
  f64_leb x y = match lex (rank (f64_decode x)) (rank (f64_decode y)) with Gt => false | _ => true end.
Proof.
  intros x y Hx Hy. unfold f64_leb, f64_cmp. rewrite compare_rank by now apply num_decode.
  destruct (lex _ _); reflexivity.
Qed.
Lemma leb_refl : forall x, num x -> f64_leb x x = true.
Proof. intros x H. rewrite leb_rank, lex_refl by assumption. reflexivity. Qed.
Lemma leb_trans : forall x y z, num x -> num y -> num z ->
  f64_leb x y = true -> f64_leb y z = true -> f64_leb x z = true.
Proof.
  intros x y z Hx Hy Hz. rewrite !leb_rank by assumption. intros H1 H2.
  pose proof (lex_trans (rank (f64_decode x)) (rank (f64_decode y)) (rank (f64_decode z))) as T.
  destruct (lex (rank (f64_decode x)) (rank (f64_decode y))); try discriminate;
  destruct (lex (rank (f64_decode y)) (rank (f64_decode z))); try discriminate;
  destruct (lex (rank (f64_decode x)) (rank (f64_decode z))); try reflexivity;
  exfalso; apply T; congruence.
Qed.
Lemma ltb_leb : forall x y, num x -> num y -> f64_ltb x y = negb (f64_leb y x).
Proof.
  intros x y Hx Hy. unfold f64_ltb. rewrite leb_rank by assumption. unfold f64_cmp.
  rewrite compare_rank by now apply num_decode. rewrite (lex_antisym (rank (f64_decode x))).
  destruct (lex _ _); reflexivity.
Qed.
Lemma ltb_nan_l : forall x y, f64_is_nan x = true -> f64_ltb x y = false.
Proof.
  intros x y H. unfold f64_ltb, f64_cmp. apply cmp_nan in H. rewrite H. reflexivity.
Qed.
Lemma ltb_nan_r : forall x y, f64_is_nan y = true -> f64_ltb x y = false.
Proof.
  intros x y H. unfold f64_ltb, f64_cmp. apply cmp_nan in H. rewrite H.
  destruct (f64_decode x); reflexivity.
Qed.
Lemma leb_total : forall x y, num x -> num y -> f64_leb x y = false -> f64_leb y x = true.
Proof.
  intros x y Hx Hy H. pose proof (ltb_leb y x Hy Hx) as E. rewrite H in E.
  unfold f64_ltb in E. unfold f64_leb. destruct (f64_cmp y x) as [[]|]; try discriminate; reflexivity.
Qed.

(** running minimum / maximum *)
Definition lower (m x : f64) : f64 := if f64_ltb x m then x else m.
Definition upper (m x : f64) : f64 := if f64_ltb m x then x else m.

Lemma extend_axes : forall b x y, extend b x y =
  mkBounds (lower (min_x b) x) (lower (min_y b) y) (upper (max_x b) x) (upper (max_y b) y).
Proof.
  intros [a b c d] x y. unfold extend, lower, upper. cbn [min_x min_y max_x max_y].
  destruct (f64_ltb x a); cbn [min_x min_y max_x max_y]; destruct (f64_ltb c x); cbn [min_x min_y max_x max_y];
  destruct (f64_ltb y b); cbn [min_x min_y max_x max_y]; destruct (f64_ltb d y); reflexivity.
Qed.

Lemma lower_least : forall l m seen, num m -> least m seen -> least (fold_left lower l m) (seen ++ l) /\ num (fold_left lower l m).
Proof.
  induction l as [|x l IH]; intros m seen Hm [H1 H2]; cbn [fold_left].
  { rewrite app_nil_r. split; [split; assumption|assumption]. }
  replace (seen ++ x :: l) with ((seen ++ [x]) ++ l) by (rewrite <- app_assoc; reflexivity).
  unfold lower at 2 4.
  destruct (f64_is_nan x) eqn:Nx.
  { rewrite ltb_nan_l by exact Nx. apply IH; [exact Hm|]. split; [apply in_or_app; now left|].
    intros y Hy Ny. apply in_app_or in Hy. destruct Hy as [Hy|[<-|[]]]; [now apply H2|congruence]. }
  rewrite ltb_leb by assumption. destruct (f64_leb m x) eqn:L; cbn [negb].
  - apply IH; [exact Hm|]. split; [apply in_or_app; now left|].
    intros y Hy Ny. apply in_app_or in Hy. destruct Hy as [Hy|[<-|[]]]; [now apply H2|assumption].
  - apply IH; [exact Nx|]. split; [apply in_or_app; right; now left|].
    intros y Hy Ny. apply in_app_or in Hy. destruct Hy as [Hy|[<-|[]]].
    + apply (leb_trans x m y); auto. apply leb_total; assumption.
    + now apply leb_refl.
Qed.
Lemma upper_greatest : forall l m seen, num m -> greatest m seen -> greatest (fold_left upper l m) (seen ++ l) /\ num (fold_left upper l m).
Proof.
  induction l as [|x l IH]; intros m seen Hm [H1 H2]; cbn [fold_left].
  { rewrite app_nil_r. split; [split; assumption|assumption]. }
  replace (seen ++ x :: l) with ((seen ++ [x]) ++ l) by (rewrite <- app_assoc; reflexivity).
  unfold upper at 2 4.
  destruct (f64_is_nan x) eqn:Nx.
  { rewrite ltb_nan_r by exact Nx. apply IH; [exact Hm|]. split; [apply in_or_app; now left|].
    intros y Hy Ny. apply in_app_or in Hy. destruct Hy as [Hy|[<-|[]]]; [now apply H2|congruence]. }
  rewrite ltb_leb by assumption. destruct (f64_leb x m) eqn:L; cbn [negb].
  - apply IH; [exact Hm|]. split; [apply in_or_app; now left|].
    intros y Hy Ny. apply in_app_or in Hy. destruct Hy as [Hy|[<-|[]]]; [now apply H2|assumption].
  - apply IH; [exact Nx|]. split; [apply in_or_app; right; now left|].
    intros y Hy Ny. apply in_app_or in Hy. destruct Hy as [Hy|[<-|[]]].
    + apply (leb_trans y m x); auto. apply leb_total; assumption.
    + now apply leb_refl.
Qed.

Definition box_of (l : list (f64 * f64)) : option bounds :=
  match l with
  | [] => None
  | (x, y) :: r => Some (mkBounds (fold_left lower (map fst r) x) (fold_left lower (map snd r) y)
                                  (fold_left upper (map fst r) x) (fold_left upper (map snd r) y))
  end.

Lemma bounds_fold : forall l o,
  existsb is_empty_point l = false ->
  feed bounds_proc l o = (fold_left (fun o q => bounds_xy o (fst q) (snd q)) (positions l) o, Ok tt).
Proof.
  induction l as [|o' l IH]; intros o H; [reflexivity|].
  cbn [existsb] in H. apply orb_false_iff in H. destruct H as [Ho H].
  destruct o' as [[]|]; try discriminate; cbn; apply IH; exact H.
Qed.
Lemma fold_box : forall r b,
  fold_left (fun o q => bounds_xy o (fst q) (snd q)) r (Some b) =
  Some (mkBounds (fold_left lower (map fst r) (min_x b)) (fold_left lower (map snd r) (min_y b))
                 (fold_left upper (map fst r) (max_x b)) (fold_left upper (map snd r) (max_y b))).
Proof.
  induction r as [|[x y] r IH]; intros b; cbn [fold_left map fst snd bounds_xy].
  - destruct b; reflexivity.
  - rewrite IH, extend_axes. reflexivity.
Qed.
Lemma fold_box0 : forall l, fold_left (fun o q => bounds_xy o (fst q) (snd q)) l None = box_of l.
Proof.
  intros [|[x y] r]; [reflexivity|]. cbn [fold_left bounds_xy fst snd]. rewrite fold_box. reflexivity.
Qed.

Lemma bounds_exact : forall l,
  existsb is_empty_point l = false ->
  exists b, feed bounds_proc l None = (b, Ok tt) /\
    (b = None <-> positions l = []) /\
    (forall x y r, positions l = (x, y) :: r -> f64_is_nan x = false -> f64_is_nan y = false ->
     exists b', b = Some b' /\
       least (min_x b') (map fst (positions l)) /\ greatest (max_x b') (map fst (positions l)) /\
       least (min_y b') (map snd (positions l)) /\ greatest (max_y b') (map snd (positions l)) /\
       f64_is_nan (min_x b') = false /\ f64_is_nan (max_x b') = false /\
       f64_is_nan (min_y b') = false /\ f64_is_nan (max_y b') = false).
Proof.
  intros l H. exists (box_of (positions l)). rewrite bounds_fold, fold_box0 by exact H.
  split; [reflexivity|]. split; [destruct (positions l) as [|[x y] r]; split; (reflexivity || discriminate)|].
  intros x y r E Nx Ny. rewrite E. eexists. split; [reflexivity|]. cbn [min_x max_x min_y max_y map fst snd].
  assert (A : forall v, num v -> least v [v]).
  { intros v Hv. split; [now left|]. intros w [<-|[]] _. now apply leb_refl. }
  assert (B : forall v, num v -> greatest v [v]).
  { intros v Hv. split; [now left|]. intros w [<-|[]] _. now apply leb_refl. }
  destruct (lower_least (map fst r) x [x] Nx (A x Nx)), (upper_greatest (map fst r) x [x] Nx (B x Nx)),
    (lower_least (map snd r) y [y] Ny (A y Ny)), (upper_greatest (map snd r) y [y] Ny (B y Ny)).
  repeat split; try assumption; try apply H0; try apply H2; try apply H4; try apply H6.
Qed.

Lemma lower_nan : forall l m, f64_is_nan m = true -> fold_left lower l m = m.
Proof.
  induction l as [|x l IH]; intros m H; [reflexivity|]. cbn [fold_left]. unfold lower at 2.
  rewrite ltb_nan_r by exact H. apply IH, H.
Qed.
Lemma upper_nan : forall l m, f64_is_nan m = true -> fold_left upper l m = m.
Proof.
  induction l as [|x l IH]; intros m H; [reflexivity|]. cbn [fold_left]. unfold upper at 2.
  rewrite ltb_nan_l by exact H. apply IH, H.
Qed.
Lemma spans_of : forall v r, spans (fold_left lower r v) (fold_left upper r v) (v :: r).
Proof.
  intros v r. cbn [spans]. destruct (f64_is_nan v) eqn:N.
  - split; [apply lower_nan|apply upper_nan]; exact N.
  - assert (A : least v [v]) by (split; [now left|]; intros w [<-|[]] _; now apply leb_refl).
    assert (B : greatest v [v]) by (split; [now left|]; intros w [<-|[]] _; now apply leb_refl).
    destruct (lower_least r v [v] N A), (upper_greatest r v [v] N B). auto.
Qed.
Lemma bounds_all : forall l x y r,
  existsb is_empty_point l = false -> positions l = (x, y) :: r ->
  exists b, feed bounds_proc l None = (Some b, Ok tt) /\
    spans (min_x b) (max_x b) (map fst (positions l)) /\ spans (min_y b) (max_y b) (map snd (positions l)).
Proof.
  intros l x y r H E. rewrite bounds_fold, fold_box0, E by exact H. eexists. split; [reflexivity|].
  cbn [min_x max_x min_y max_y map fst snd]. split; apply spans_of.
Qed.

(** ** Properties *)
Section Props.
  Variable fmt32 : N -> string.
  Variable fmt : f64 -> string.

  Lemma lookup_name : forall src l t name, offers src l ->
    feature_property fmt32 fmt src t name =
    match first_by (named name) l with
    | Some (_, _, v) => get_value fmt32 fmt t v
    | None => Err EColumnNotFound
    end.
  Proof.
    intros src l t name H. unfold feature_property. rewrite H. clear H.
    generalize (@Err pval EColumnNotFound) as d.
    induction l as [|[[i n] v] l IH]; intros d; cbn; [reflexivity|].
    unfold named at 1. cbn [fst snd]. destruct (String.eqb n name); [reflexivity|apply IH].
  Qed.
  Lemma lookup_idx : forall src l t k, offers src l ->
    feature_property_n fmt32 fmt src t k =
    match first_by (numbered k) l with
    | Some (_, _, v) => get_value fmt32 fmt t v
    | None => Err EColumnNotFound
    end.
  Proof.
    intros src l t k H. unfold feature_property_n. rewrite H. clear H.
    generalize (@Err pval EColumnNotFound) as d.
    induction l as [|[[i n] v] l IH]; intros d; cbn; [reflexivity|].
    unfold numbered at 1. cbn [fst snd]. destruct (Nat.eqb i k); [reflexivity|apply IH].
  Qed.

  Lemma lookup_insert : forall m k v k', lookup (insert m k v) k' =
    if String.eqb k' k then Some v else lookup m k'.
  Proof.
    induction m as [|[a b] m IH]; intros k v k'; cbn.
    - destruct (String.eqb k' k); reflexivity.
    - destruct (String.eqb_spec k a) as [->|N]; cbn.
      + destruct (String.eqb k' a); reflexivity.
      + destruct (String.eqb_spec k' a) as [->|N'].
        * destruct (String.eqb_spec a k); [congruence|reflexivity].
        * apply IH.
  Qed.
  Lemma insert_keys : forall m k v, forall q, In q (map fst (insert m k v)) <-> q = k \/ In q (map fst m).
  Proof.
    induction m as [|[a b] m IH]; intros k v q; cbn.
    - intuition.
    - destruct (String.eqb_spec k a) as [->|N]; cbn; [intuition|]. rewrite IH. intuition.
  Qed.
  Lemma insert_nodup : forall m k v, NoDup (map fst m) -> NoDup (map fst (insert m k v)).
  Proof.
    induction m as [|[a b] m IH]; intros k v H; cbn.
    - repeat constructor. intros [].
    - destruct (String.eqb_spec k a) as [->|N]; [exact H|]. cbn. inversion H; subst.
      constructor; [|now apply IH]. rewrite insert_keys. intros [E|E]; [congruence|contradiction].
  Qed.

  Lemma offer_map : forall l m, offer (property_map fmt32 fmt) l m =
    (fold_left (fun m q => insert m (snd (fst q)) (show_colval fmt32 fmt (snd q))) l m, Ok false).
  Proof. induction l as [|[[i n] v] l IH]; intros m; cbn; [reflexivity|apply IH]. Qed.

  Lemma find_app : forall A (f : A -> bool) l1 l2, find f (l1 ++ l2) =
    match find f l1 with Some a => Some a | None => find f l2 end.
  Proof. induction l1 as [|a l1 IH]; intros l2; cbn; [reflexivity|]. destruct (f a); [reflexivity|apply IH]. Qed.

  Lemma map_lookup : forall l m n,
    lookup (fold_left (fun m q => insert m (snd (fst q)) (show_colval fmt32 fmt (snd q))) l m) n =
    match last_by (named n) l with
    | Some q => Some (show_colval fmt32 fmt (snd q))
    | None => lookup m n
    end.
  Proof.
    unfold last_by. induction l as [|[[i a] v] l IH]; intros m n; [reflexivity|].
    cbn [fold_left rev]. rewrite IH, find_app.
    destruct (find (named n) (rev l)) as [q|]; [reflexivity|].
    cbn [fst snd find]. unfold named. cbn [fst snd]. rewrite lookup_insert.
    rewrite (String.eqb_sym n a). destruct (String.eqb a n); reflexivity.
  Qed.
  Lemma map_nodup : forall (l : list prop) m, NoDup (map fst m) ->
    NoDup (map fst (fold_left (fun m q => insert m (snd (fst q)) (show_colval fmt32 fmt (snd q))) l m)).
  Proof. induction l as [|q l IH]; intros m H; cbn [fold_left]; [exact H|]. apply IH, insert_nodup, H. Qed.

  Lemma collected : forall src l, offers src l ->
    exists m, feature_properties fmt32 fmt src = Ok m /\ NoDup (map fst m) /\
      forall n, lookup m n = option_map (fun q => show_colval fmt32 fmt (snd q)) (last_by (named n) l).
  Proof.
    intros src l H. unfold feature_properties. rewrite H, offer_map. eexists. split; [reflexivity|].
    split; [apply map_nodup; constructor|]. intros n. rewrite map_lookup.
    destruct (last_by _ _); reflexivity.
  Qed.
End Props.

(** ** Feature framing *)
Lemma exec_pbind : forall S A B (p : proc S) (g : prog A) (f : A -> prog B) s,
  exec p (pbind g f) s =
  match exec p g s with (s', Ok a) => exec p (f a) s' | (s', Err x) => (s', Err x) end.
Proof.
  induction g as [r|e g IH|e g IH|i n v k IH]; intros f s; cbn [exec pbind].
  - destruct r; reflexivity.
  - destruct (p_step p s e) as [s' [u|x]]; [apply IH|reflexivity].
  - apply IH.
  - destruct (p_prop p s i n v) as [s' [b|x]]; [apply IH|reflexivity].
Qed.


Lemma offer_feed : forall S (p : proc S) l s,
  exists lp rest, l = lp ++ rest /\
    (exists b, offer p l s =
       match feed p (map prop_obs lp) s with (s', Ok _) => (s', Ok b) | (s', Err x) => (s', Err x) end) /\
    (rest = [] \/ exists l' i n v t t', lp = l' ++ [(i, n, v)] /\
                    feed p (map prop_obs l') s = (t, Ok tt) /\ p_prop p t i n v = (t', Ok true)).
Proof.
  induction l as [|[[i n] v] l IH]; intros s.
  - exists [], []. split; [reflexivity|]. split; [exists false; reflexivity|now left].
  - cbn [offer]. destruct (p_prop p s i n v) as [s' [[|]|x]] eqn:E.
    + exists [(i, n, v)], l. split; [reflexivity|]. cbn [map prop_obs feed]. rewrite E. split; [exists true; reflexivity|].
      right. exists [], i, n, v, s, s'. repeat split. exact E.
    + destruct (IH s') as (lp & rest & -> & (b & Hb) & Hr).
      exists ((i, n, v) :: lp), rest. split; [reflexivity|]. cbn [map prop_obs feed]. rewrite E.
      split; [exists b; exact Hb|]. destruct Hr as [Hr|(l' & i' & n' & v' & t & t' & -> & F & G)]; [now left|].
      right. exists ((i, n, v) :: l'), i', n', v', t, t'. cbn [app map prop_obs feed]. rewrite E. auto.
    + exists ((i, n, v) :: l), []. rewrite app_nil_r. split; [reflexivity|]. cbn [map prop_obs feed]. rewrite E.
      split; [exists true; reflexivity|now left].
Qed.

Lemma framing : forall idx props l gsrc lg,
  offers props l -> delivers gsrc lg (Ok tt) ->
  forall S (p : proc S) s,
  exists lp rest, l = lp ++ rest /\
    exec p (feature_process idx props (gsrc (p_dims p))) s =
    feed p (OEv (FeatureBegin idx) :: OEv PropertiesBegin :: map prop_obs lp ++
            OEv PropertiesEnd :: OEv GeometryBegin :: map OEv (lg (multi_dim (p_dims p))) ++
            [OEv GeometryEnd; OEv (FeatureEnd idx)]) s /\
    (rest <> [] -> forall t0, feed p [OEv (FeatureBegin idx); OEv PropertiesBegin] s = (t0, Ok tt) ->
       exists l' i n v t t', lp = l' ++ [(i, n, v)] /\
         feed p (map prop_obs l') t0 = (t, Ok tt) /\ p_prop p t i n v = (t', Ok true)).
Proof.
  intros idx props l gsrc lg Hp Hg S p s.
  unfold feature_process, pthen, pcall. cbn [pbind pret exec].
  destruct (feed p [OEv (FeatureBegin idx); OEv PropertiesBegin] s) as [t0 [[]|x]] eqn:E.
  - destruct (offer_feed S p l t0) as (lp & rest & El & (b & Hb) & Hr).
    exists lp, rest. split; [exact El|]. cbn [feed] in *.
    destruct (p_step p s (FeatureBegin idx)) as [s1 [u1|x1]]; [|discriminate].
    destruct (p_step p s1 PropertiesBegin) as [s2 [u2|x2]]; [|discriminate].
    injection E as ->. rewrite exec_pbind, Hp, Hb, feed_app.
    split.
    + destruct (feed p (map prop_obs lp) t0) as [s3 [u3|x3]]; [|reflexivity].
      cbn [exec feed]. destruct (p_step p s3 PropertiesEnd) as [s4 [u4|x4]]; [|reflexivity].
      destruct (p_step p s4 GeometryBegin) as [s5 [u5|x5]]; [|reflexivity].
      rewrite exec_pbind, Hg, feed_app, feed_run.
      destruct (run p _ s5) as [s6 [u6|x6]]; [|reflexivity]. cbn [exec feed].
      destruct (p_step p s6 GeometryEnd) as [s7 [u7|x7]]; [|reflexivity].
      destruct (p_step p s7 (FeatureEnd idx)) as [s8 [u8|x8]]; [|reflexivity].
      reflexivity.
    + intros Hn t1 Et. injection Et as <-. destruct Hr as [Hr|Hr]; [congruence|exact Hr].
  - exists l, []. rewrite app_nil_r. split; [reflexivity|]. cbn [feed] in *.
    split; [|congruence].
    destruct (p_step p s (FeatureBegin idx)) as [s1 [u1|x1]]; [|reflexivity].
    destruct (p_step p s1 PropertiesBegin) as [s2 [u2|x2]]; [discriminate|reflexivity].
Qed.

Section Texts.
  Variable fmt32 : N -> string.
  Variable fmt : f64 -> string.

  Lemma decimal_show : forall z, decimal z (show_z z).
  Proof.
    intros z. unfold decimal, show_z. split; [|reflexivity].
    rewrite NilZero.isi; [cbn [option_map]; now rewrite DecimalZ.of_to| |];
      destruct z; cbn; try discriminate; intros E; injection E; apply DecimalPos.Unsigned.to_uint_nonnil.
  Qed.
  Lemma show_text : forall v, text_of fmt32 fmt v (show_colval fmt32 fmt v).
  Proof. intros []; cbn; try constructor; try apply decimal_show. destruct v; constructor. Qed.
  Lemma text_show : forall v s, text_of fmt32 fmt v s -> s = show_colval fmt32 fmt v.
  Proof. intros v s H. destruct H as [z s [_ H]|z s [_ H]|z s [_ H]|z s [_ H]|z s [_ H]|z s [_ H]|z s [_ H]|z s [_ H]| | | | | | | | ]; cbn; auto. Qed.

  Lemma get_value_spec : forall t v,
    (forall w, reads_as fmt32 fmt t v w -> get_value fmt32 fmt t v = Ok w) /\
    ((forall w, ~ reads_as fmt32 fmt t v w) -> get_value fmt32 fmt t v = Err EColumnType).
  Proof.
    intros t v. split.
    - intros w H. destruct H; try reflexivity. apply text_show in H. subst s. reflexivity.
    - intros H. destruct t, v; try reflexivity; exfalso; eapply H; try constructor; try apply show_text.
  Qed.

  Lemma property_spec : forall src l t name, offers src l ->
    let r := feature_property fmt32 fmt src t name in
    (first_by (named name) l = None -> r = Err EColumnNotFound) /\
    (forall q, first_by (named name) l = Some q ->
       (forall w, reads_as fmt32 fmt t (snd q) w -> r = Ok w) /\
       ((forall w, ~ reads_as fmt32 fmt t (snd q) w) -> r = Err EColumnType)).
  Proof.
    intros src l t name H r. subst r. rewrite (lookup_name fmt32 fmt src l t name H).
    split; [now intros ->|]. intros [[i n] v] ->. apply get_value_spec.
  Qed.
  Lemma property_n_spec : forall src l t k, offers src l ->
    let r := feature_property_n fmt32 fmt src t k in
    (first_by (numbered k) l = None -> r = Err EColumnNotFound) /\
    (forall q, first_by (numbered k) l = Some q ->
       (forall w, reads_as fmt32 fmt t (snd q) w -> r = Ok w) /\
       ((forall w, ~ reads_as fmt32 fmt t (snd q) w) -> r = Err EColumnType)).
  Proof.
    intros src l t k H r. subst r. rewrite (lookup_idx fmt32 fmt src l t k H).
    split; [now intros ->|]. intros [[i n] v] ->. apply get_value_spec.
  Qed.

  (** the readers answer "stop" exactly at the match *)
  Lemma reader_stops : forall t name s i n v,
    snd (p_prop (property_reader fmt32 fmt t name) s i n v) = Ok (String.eqb n name).
  Proof. intros. cbn. destruct (String.eqb n name); reflexivity. Qed.
  Lemma reader_idx_stops : forall t k s i n v,
    snd (p_prop (property_reader_idx fmt32 fmt t k) s i n v) = Ok (Nat.eqb i k).
  Proof. intros. cbn. destruct (Nat.eqb i k); reflexivity. Qed.

  Lemma map_spec : forall src l, offers src l ->
    exists m, feature_properties fmt32 fmt src = Ok m /\ NoDup (map fst m) /\
      forall n s, lookup m n = Some s <-> exists q, last_by (named n) l = Some q /\ text_of fmt32 fmt (snd q) s.
  Proof.
    intros src l H. destruct (collected fmt32 fmt src l H) as (m & E & N & L).
    exists m. split; [exact E|]. split; [exact N|]. intros n s. rewrite L.
    destruct (last_by (named n) l) as [q|]; cbn [option_map].
    - split.
      + intros F. injection F as <-. exists q. split; [reflexivity|apply show_text].
      + intros (q' & F & T). injection F as <-. apply text_show in T. now subst s.
    - split; [discriminate|intros (q & F & _); discriminate].
  Qed.
End Texts.

Fixpoint offering (l : list prop) : prog bool :=
  match l with
  | [] => Done (Ok false)
  | (i, n, v) :: r => CallProp i n v (fun b => if b then Done (Ok true) else offering r)
  end.
Lemma offering_offers : forall l, offers (offering l) l.
Proof.
  induction l as [|[[i n] v] l H]; intros S p s; [reflexivity|]. cbn [exec offer offering].
  destruct (p_prop p s i n v) as [s' [[|]|x]]; [reflexivity|apply H|reflexivity].
Qed.

(** ** A source that fails *)
Fixpoint broken (l : list prop) (e : error) : prog bool :=
  match l with
  | [] => Done (Err e)
  | (i, n, v) :: r => CallProp i n v (fun b => if b then Done (Ok true) else broken r e)
  end.
Lemma broken_breaks : forall l e, breaks_off (broken l e) l e.
Proof.
  induction l as [|[[i n] v] l H]; intros e S p s; [reflexivity|]. cbn [exec offer broken].
  destruct (p_prop p s i n v) as [s' [[|]|x]]; [reflexivity|apply H|reflexivity].
Qed.
Section Broken.
  Variable fmt32 : N -> string.
  Variable fmt : f64 -> string.
  Lemma property_broken : forall src l e t name, breaks_off src l e ->
    let r := feature_property fmt32 fmt src t name in
    (first_by (named name) l = None -> r = Err e) /\
    (forall q, first_by (named name) l = Some q ->
       (forall w, reads_as fmt32 fmt t (snd q) w -> r = Ok w) /\
       ((forall w, ~ reads_as fmt32 fmt t (snd q) w) -> r = Err EColumnType)).
  Proof.
    intros src l e t name H r.
    assert (E : r = match first_by (named name) l with
                    | Some (_, _, v) => get_value fmt32 fmt t v
                    | None => Err e
                    end).
    { subst r. unfold feature_property. rewrite H. clear H. generalize (@Err pval EColumnNotFound) as d.
      induction l as [|[[i n] v] l IH]; intros d; cbn; [reflexivity|].
      unfold named at 1. cbn [fst snd]. destruct (String.eqb n name); [reflexivity|apply IH]. }
    rewrite E. split; [now intros ->|]. intros [[i n] v] ->. apply get_value_spec.
  Qed.
  Lemma property_n_broken : forall src l e t k, breaks_off src l e ->
    let r := feature_property_n fmt32 fmt src t k in
    (first_by (numbered k) l = None -> r = Err e) /\
    (forall q, first_by (numbered k) l = Some q ->
       (forall w, reads_as fmt32 fmt t (snd q) w -> r = Ok w) /\
       ((forall w, ~ reads_as fmt32 fmt t (snd q) w) -> r = Err EColumnType)).
  Proof.
    intros src l e t k H r.
    assert (E : r = match first_by (numbered k) l with
                    | Some (_, _, v) => get_value fmt32 fmt t v
                    | None => Err e
                    end).
    { subst r. unfold feature_property_n. rewrite H. clear H. generalize (@Err pval EColumnNotFound) as d.
      induction l as [|[[i n] v] l IH]; intros d; cbn; [reflexivity|].
      unfold numbered at 1. cbn [fst snd]. destruct (Nat.eqb i k); [reflexivity|apply IH]. }
    rewrite E. split; [now intros ->|]. intros [[i n] v] ->. apply get_value_spec.
  Qed.
  Lemma map_broken : forall src l e, breaks_off src l e -> feature_properties fmt32 fmt src = Err e.
  Proof.
    intros src l e H. unfold feature_properties. rewrite H. clear H.
    generalize (@nil (string * string)) as m. induction l as [|[[i n] v] l IH]; intros m; cbn; [reflexivity|]. apply IH.
  Qed.
End Broken.

Lemma wrap_twice : forall S (f g : f64 -> f64 -> f64 * f64) (p : proc S) l s,
  feed (wrapped_xy g (wrapped_xy f p)) l s =
  feed p (map (on_xy_obs (fun x y => f (fst (g x y)) (snd (g x y)))) l) s.
Proof.
  intros S f g p l s. rewrite !wrap_feed, map_map. f_equal. apply map_ext.
  intros [[]|]; reflexivity.
Qed.

Lemma ds_source : forall S (p : proc S) A (src : dims -> prog A) stream r s,
  delivers src stream r -> existsb is_empty_point (map OEv (stream false)) = false ->
  ds_process_geom p src s =
  match feed p (filter ds_passed (map OEv (stream false))) s with
  | (s', Ok _) => (s', r)
  | (s', Err x) => (s', Err x)
  end.
Proof.
  intros S p A src stream r s H E. unfold ds_process_geom. rewrite H.
  change (multi_dim (p_dims (datasource_geom p))) with false.
  rewrite <- feed_run, ds_feed by exact E. reflexivity.
Qed.
