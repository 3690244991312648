(** Proofs for C75: GDAL. *)
From Coq Require Import String Ascii.
From Coq Require Import List NArith ZArith Lia Bool.
From Verif Require Import Base Event DrivenSpec GdalModel.
Import ListNotations.

Definition since_multi (l : list event) : Prop :=
  exists a n i k, l = a ++ MultiPolygonBegin n i :: k /\ existsb adds_polygon k = false.
Definition named (k : kind) : bool :=
  match k with OPoint | OLineString | OPolygon | OMultiPoint | OMultiLineString | OMultiPolygon => true | _ => false end.
Definition good (h : list event) (g : og) : Prop :=
  named (o_kind g) = true /\ (o_kind g = OMultiPolygon -> o_kids g = [] -> since_multi h).
Lemma since_more : forall l e, since_multi l -> adds_polygon e = false -> since_multi (l ++ [e]).
Proof.
  intros l e (a & n & i & k & -> & K) E. exists a, n, i, (k ++ [e]).
  rewrite <- app_assoc, existsb_app, K. cbn. rewrite E. now split.
Qed.
(** same kind, as many members *)
Definition alike (a b : og) : Prop := o_kind a = o_kind b /\ length (o_kids a) = length (o_kids b).
Lemma set_alike : forall i p g, alike (set_point i p g) g.
Proof. intros i p [k z m pts kids]. unfold set_point. destruct k; try (split; reflexivity); destruct (c_int i) as [[|n]|]; split; reflexivity. Qed.
Lemma set_2d_alike : forall i x y g, alike (set_point_2d i x y g) g.
Proof. intros i x y [k z m pts kids]. unfold set_point_2d. destruct k; try (split; reflexivity); destruct (c_int i) as [[|n]|]; split; reflexivity. Qed.
Lemma at_nth_length : forall f l i, length (at_nth i f l) = length l.
Proof. intros f. induction l as [|a l IH]; intros i; [now destruct i|]. destruct i; cbn; [reflexivity|now rewrite IH]. Qed.
Lemma at_path_alike : forall f path g, (forall g, alike (f g) g) -> alike (at_path path f g) g.
Proof.
  intros f path g F. destruct path as [|i r]; cbn; [apply F|]. destruct g as [k z m pts kids]. split; [reflexivity|apply at_nth_length].
Qed.
Lemma alike_good : forall h e a b, alike a b -> adds_polygon e = false -> good h b -> good (h ++ [e]) a.
Proof.
  intros h e a b (K & L) E (N & S). split; [now rewrite K|]. intros M Z. apply since_more; [|exact E]. apply S; [now rewrite <- K|].
  rewrite Z in L. now destruct (o_kids b).
Qed.
Lemma add_good : forall h g a g', add g a = Ok g' -> named (o_kind g) = true -> good h g'.
Proof.
  intros h g a g'. unfold add. destruct (fits_in (o_kind g) (o_kind a)); [|discriminate].
  destruct g as [k z m pts kids]. cbn. intros H. injection H as <-. intros N. split; [exact N|]. cbn. intros _ Z.
  now destruct (map (lift (o_z a) (o_m a)) kids).
Qed.
Lemma add_errors : forall g a x, add g a = Err x -> x = EGeometry.
Proof.
  intros g a x. unfold add. destruct (fits_in (o_kind g) (o_kind a)); [|intros H; now inversion H].
  destruct (lift (o_z a) (o_m a) g). discriminate.
Qed.
Lemma six : forall g, named (o_kind g) = true -> (full_code g mod 1000 = 6)%N -> o_kind g = OMultiPolygon.
Proof. intros [k z m pts kids]. destruct k; cbn; try discriminate; try reflexivity; intros _; destruct z, m; vm_compute; discriminate. Qed.
Lemma on_line_good : forall h e s f, (forall g, alike (f g) g) -> adds_polygon e = false -> good h (g_geom s) ->
  match on_line s f with (s', Ok _) => good (h ++ [e]) (g_geom s') | (_, Err x) => x <> EPanic end.
Proof.
  intros h e s f F E G. unfold on_line. destruct (g_line s); cbn; try discriminate.
  - apply (alike_good h e _ (g_geom s)); [split; reflexivity|exact E|exact G].
  - apply (alike_good h e _ (g_geom s)); [now apply at_path_alike|exact E|exact G].
Qed.
Lemma try_add_good : forall h e s a, good h (g_geom s) ->
  match try_add s a with (s', Ok _) => good (h ++ [e]) (g_geom s') | (_, Err x) => x <> EPanic end.
Proof.
  intros h e s a (N & _). unfold try_add. destruct (add (g_geom s) a) as [g|x] eqn:A; cbn.
  - exact (add_good _ _ _ _ A N).
  - apply add_errors in A. now subst.
Qed.
Lemma fresh_good : forall h s k, named k = true -> k <> OMultiPolygon -> good h (g_geom (replace_geom s (empty_geom s k))).
Proof. intros h s k N M. split; [exact N|]. cbn. intros K. now contradiction M. Qed.
Lemma by_code : forall A (P : A -> Prop) n a b c d, P a -> P b -> P c -> P d ->
  P (match n with 1 | 2 => a | 4 => b | 5 | 3 | 6 => c | _ => d end)%N.
Proof. intros A P n a b c d Ha Hb Hc Hd. do 4 (try destruct n as [|n]; try assumption; try destruct n as [n|n|]; try assumption). Qed.
Lemma by_parent : forall A (P : A -> Prop) n a b d, P a -> (n = 6%N -> P b) -> P d ->
  P (match n with 5 | 3 => a | 6 => b | _ => d end)%N.
Proof. intros A P n a b d Ha Hb Hd. destruct n as [|n]; [exact Hd|]. do 4 (try assumption; try destruct n as [n|n|]; try assumption); now apply Hb. Qed.
Lemma step_good : forall s e h, good h (g_geom s) ->
  match gdal_step s e with
  | (s', Ok _) => good (h ++ [e]) (g_geom s')
  | (_, Err x) => x = EPanic -> since_multi h /\ exists n i, e = LineStringBegin false n i
  end.
Proof.
  intros s e h G.
  assert (W : forall r : gw * res unit,
    match r with (s', Ok _) => good (h ++ [e]) (g_geom s') | (_, Err x) => x <> EPanic end ->
    match r with (s', Ok _) => good (h ++ [e]) (g_geom s')
               | (_, Err x) => x = EPanic -> since_multi h /\ exists n i, e = LineStringBegin false n i end).
  { intros [s' [u|x]] H; [exact H|]. intros ->. now contradiction H. }
  unfold gdal_step.
  destruct e; cbn [default_step];
    try (match goal with |- good (_ ++ [?e]) (g_geom s) => apply (alike_good h e _ (g_geom s)); [split; reflexivity|reflexivity|exact G] end);
    try (apply fresh_good; [reflexivity|discriminate]).
  - apply W. apply (by_code _ (fun r : gw * res unit =>
      match r with (s', Ok _) => good (h ++ [Xy x y idx]) (g_geom s') | (_, Err x) => x <> EPanic end)).
    + apply (alike_good h _ _ (g_geom s)); [apply set_2d_alike|reflexivity|exact G].
    + now apply try_add_good.
    + apply on_line_good; [intros g; apply set_2d_alike|reflexivity|exact G].
    + discriminate.
  - apply W. apply (by_code _ (fun r : gw * res unit =>
      match r with (s', Ok _) => good (h ++ [Coord x y z m t tm idx]) (g_geom s') | (_, Err x) => x <> EPanic end)).
    + apply (alike_good h _ _ (g_geom s)); [apply set_alike|reflexivity|exact G].
    + now apply try_add_good.
    + apply on_line_good; [intros g; apply set_alike|reflexivity|exact G].
    + discriminate.
  - discriminate.
  - destruct tagged; [apply fresh_good; [reflexivity|discriminate]|].
    apply (by_parent _ (fun r : gw * res unit =>
      match r with (s', Ok _) => good (h ++ [LineStringBegin false size idx]) (g_geom s')
                 | (_, Err x) => x = EPanic -> since_multi h /\ exists n i, LineStringBegin false size idx = LineStringBegin false n i end)).
    + destruct (add (g_geom s) (empty_geom s OLineString)) as [g|x] eqn:A; cbn.
      * exact (add_good _ _ _ _ A (proj1 G)).
      * intros ->. apply add_errors in A. discriminate A.
    + intros Six. destruct (rev (o_kids (g_geom s))) as [|poly r] eqn:R.
      * intros _. split; [|now exists size, idx]. apply (proj2 G); [now apply six; [apply (proj1 G)|]|].
        rewrite <- (rev_involutive (o_kids (g_geom s))), R. reflexivity.
      * destruct (add poly (empty_geom s OLineString)) as [p'|x] eqn:A; cbn -[at_path].
        -- apply (alike_good h _ _ (g_geom s)); [|reflexivity|exact G].
           destruct (g_geom s) as [k z m pts kids]. split; [reflexivity|apply at_nth_length].
        -- intros ->. apply add_errors in A. discriminate A.
    + discriminate.
  - destruct tagged; [apply fresh_good; [reflexivity|discriminate]|]. apply W. now apply try_add_good.
  - split; [reflexivity|]. intros _ _. exists h, size, idx, []. now split.
Qed.
Lemma run_good : forall d l s h, good h (g_geom s) -> snd (run (gdal_writer d) l s) = Err EPanic ->
  exists a n i b, l = a ++ LineStringBegin false n i :: b /\ since_multi (h ++ a).
Proof.
  intros d. induction l as [|e l IH]; intros s h H R; [discriminate R|]. cbn -[gdal_step] in R. generalize (step_good s e h H).
  destruct (gdal_step s e) as [s' [u|x]]; cbn in R.
  - intros H'. destruct (IH s' (h ++ [e]) H' R) as (a & n & i & b & -> & B). exists (e :: a), n, i, b.
    split; [reflexivity|]. now rewrite <- app_assoc in B.
  - intros K. injection R as ->. destruct (K eq_refl) as (B & n & i & ->). exists [], n, i, l. now rewrite app_nil_r.
Qed.
Lemma gdal_panics : forall d l, snd (run (gdal_writer d) l (gw_with d)) = Err EPanic ->
  exists a n i k m j b, l = a ++ MultiPolygonBegin n i :: k ++ LineStringBegin false m j :: b /\
    existsb adds_polygon k = false.
Proof.
  intros d l R. destruct (run_good d l (gw_with d) [] ltac:(split; [reflexivity|discriminate]) R)
    as (a & m & j & b & -> & a' & n & i & k & E & K).
  cbn in E. subst a. exists a', n, i, k, m, j, b. rewrite <- app_assoc. now split.
Qed.
Lemma gdal_bare_ring : forall n i m j,
  snd (run (gdal_writer xy_dims) [MultiPolygonBegin n i; LineStringBegin false m j] (gw_with xy_dims)) = Err EPanic.
Proof. reflexivity. Qed.
Lemma gdal_kinds : forall s e x, snd (gdal_step s e) = Err x ->
  x = EGeometry \/ x = gdal_error \/ x = undefined \/ (x = EPanic /\ exists n i, e = LineStringBegin false n i).
Proof.
  intros s e x.
  assert (T : forall s a, snd (try_add s a) = Err x -> x = EGeometry).
  { intros s0 a. unfold try_add. destruct (add (g_geom s0) a) as [g|y] eqn:A; cbn; [discriminate|].
    intros H. injection H as <-. exact (add_errors _ _ _ A). }
  assert (L : forall s f, snd (on_line s f) = Err x -> x = undefined).
  { intros s0 f. unfold on_line. destruct (g_line s0); cbn; try discriminate. intros H. now injection H as <-. }
  unfold gdal_step. destruct e; cbn [default_step snd]; try discriminate.
  - match goal with |- snd _ = Err x -> ?Q => apply (by_code _ (fun r : gw * res unit => snd r = Err x -> Q)) end; try discriminate.
    + intros H. left. exact (T _ _ H).
    + intros H. right. right. left. exact (L _ _ H).
    + intros H. injection H as <-. right. left. reflexivity.
  - match goal with |- snd _ = Err x -> ?Q => apply (by_code _ (fun r : gw * res unit => snd r = Err x -> Q)) end; try discriminate.
    + intros H. left. exact (T _ _ H).
    + intros H. right. right. left. exact (L _ _ H).
    + intros H. injection H as <-. right. left. reflexivity.
  - intros H. injection H as <-. left. reflexivity.
  - destruct tagged; [discriminate|].
    match goal with |- snd _ = Err x -> ?Q => apply (by_parent _ (fun r : gw * res unit => snd r = Err x -> Q)) end.
    + destruct (add (g_geom s) (empty_geom s OLineString)) as [g|y] eqn:A; cbn; [discriminate|].
      intros H. injection H as <-. left. exact (add_errors _ _ _ A).
    + intros _. destruct (rev (o_kids (g_geom s))) as [|poly r] eqn:R.
      * cbn. intros H. injection H as <-. right. right. right. split; [reflexivity|now exists size, idx].
      * destruct (add poly (empty_geom s OLineString)) as [p'|y] eqn:A; cbn; [discriminate|].
        intros H. injection H as <-. left. exact (add_errors _ _ _ A).
    + intros H. injection H as <-. right. left. reflexivity.
  - destruct tagged; [discriminate|]. intros H. left. exact (T _ _ H).
Qed.
