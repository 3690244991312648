(** Lemmas for C56: a writer of more than two dimensions refuses the callback xy. *)
From Coq Require Import String.
From Coq Require Import List NArith ZArith Lia Bool.
From Verif Require Import Base BaseLemmas Float Event ProcModel Claims TraceTop GdalModel.
Import ListNotations.
Local Open Scope list_scope.

(** callbacks that start a geometry of its own *)
Definition starts_geometry (o : obs) : bool :=
  match o with
  | OEv (PointBegin _) | OEv (MultiPointBegin _ _) | OEv (LineStringBegin true _ _) | OEv (MultiLineStringBegin _ _)
  | OEv (PolygonBegin true _ _) | OEv (MultiPolygonBegin _ _) => true
  | _ => false
  end.
Definition deep (g : og) : bool := o_z g || o_m g.
Lemma deep_set : forall i p g, deep g = true -> deep (set_point i p g) = true.
Proof. intros i p [k z m pts kids] H. destruct k; cbn [set_point]; try exact H; destruct (c_int i) as [[|q]|]; try exact H; reflexivity. Qed.
Lemma deep_set2 : forall i x y g, deep g = true -> deep (set_point_2d i x y g) = true.
Proof. intros i x y [k z m pts kids] H. destruct k; cbn [set_point_2d]; try exact H; destruct (c_int i) as [[|q]|]; exact H. Qed.
Lemma deep_path : forall f path g, (forall q, deep q = true -> deep (f q) = true) -> deep g = true -> deep (at_path path f g) = true.
Proof. intros f [|i path] g Hf H; [exact (Hf g H)|]. destruct g; exact H. Qed.
Lemma deep_add : forall g a g', add g a = Ok g' -> deep g = true -> deep g' = true.
Proof.
  intros [k z m pts kids] a g' E H. unfold add in E. destruct (fits_in _ _); [|discriminate E]. cbn [lift] in E. injection E as <-.
  unfold deep in *. cbn in *. destruct z, m, (o_z a), (o_m a); try reflexivity; discriminate H.
Qed.
Lemma deep_try : forall s a s', try_add s a = (s', Ok tt) -> deep (g_geom s) = true -> deep (g_geom s') = true /\ g_dims s' = g_dims s.
Proof.
  intros s a s' E H. unfold try_add in E. destruct (add (g_geom s) a) eqn:A; [|discriminate E]. injection E as <-.
  split; [exact (deep_add _ _ _ A H)|reflexivity].
Qed.
Lemma deep_line : forall s f s', on_line s f = (s', Ok tt) -> (forall q, deep q = true -> deep (f q) = true) -> deep (g_geom s) = true ->
  deep (g_geom s') = true /\ g_dims s' = g_dims s.
Proof.
  intros s f s' E Hf H. unfold on_line in E. destruct (g_line s); [| |discriminate E]; injection E as <-; (split; [|reflexivity]); [exact H|].
  cbn. apply deep_path; assumption.
Qed.
Lemma deep_step : forall e s s', gdal_step s e = (s', Ok tt) -> deep (g_geom s) = true -> dz (g_dims s) || dm (g_dims s) = true ->
  deep (g_geom s') = true /\ g_dims s' = g_dims s.
Proof.
  intros e s s' E H D.
  destruct e; cbn [gdal_step] in E; try (injection E as <-; split; [exact H|reflexivity]); try (injection E as <-; split; [exact D|reflexivity]);
    try discriminate E.
  - repeat match type of E with context[match ?k with _ => _ end] => destruct k end; try discriminate E;
      try (injection E as <-; split; [apply deep_set2; exact H|reflexivity]);
      try (exact (deep_try _ _ _ E H)); apply (deep_line _ _ _ E); try exact H; intros q; apply deep_set2.
  - repeat match type of E with context[match ?k with _ => _ end] => destruct k end; try discriminate E;
      try (injection E as <-; split; [apply deep_set; exact H|reflexivity]);
      try (exact (deep_try _ _ _ E H)); apply (deep_line _ _ _ E); try exact H; intros q; apply deep_set.
  - destruct tagged; [injection E as <-; split; [exact D|reflexivity]|].
    destruct (add (g_geom s) _) as [g|x] eqn:A.
    + assert (P : forall q, (mkGw (g_dims s) g (At q), @Ok unit tt) = (s', Ok tt) -> deep (g_geom s') = true /\ g_dims s' = g_dims s)
        by (intros q Q; injection Q as <-; split; [exact (deep_add _ _ _ A H)|reflexivity]).
      repeat match type of E with context[match ?k with _ => _ end] => destruct k end; try discriminate E; try exact (P _ E);
        injection E as <-; (split; [|reflexivity]); destruct (g_geom s); exact H.
    + repeat match type of E with context[match ?k with _ => _ end] => destruct k end; try discriminate E;
        injection E as <-; (split; [|reflexivity]); destruct (g_geom s); exact H.
  - destruct tagged; [injection E as <-; split; [exact D|reflexivity]|exact (deep_try _ _ _ E H)].
Qed.
Lemma code_deep : forall g, deep g = true -> (1000 <= full_code g)%N.
Proof.
  intros [k z m pts kids] H. unfold full_code. cbn [o_kind o_z o_m]. destruct z, m; try discriminate H; try lia. destruct (code k <=? 7)%N; lia.
Qed.
Lemma deep_refused : forall s x y i, deep (g_geom s) = true -> gdal_step s (Xy x y i) = (s, Err gdal_error).
Proof.
  intros s x y i H. pose proof (code_deep _ H) as C. cbn [gdal_step].
  destruct (full_code (g_geom s)) as [|[[[p|p|]|[p|p|]|]|[[p|p|]|[p|p|]|]|]]; try reflexivity; lia.
Qed.
Lemma dims_step : forall e s s', gdal_step s e = (s', Ok tt) -> g_dims s' = g_dims s.
Proof.
  intros e s s' E. destruct e; cbn [gdal_step] in E; unfold try_add, on_line in E;
    repeat match type of E with context[match ?k with _ => _ end] => destruct k end; try discriminate E; injection E as <-; reflexivity.
Qed.
Lemma starts_deep : forall o s s', one (gdal_writer (g_dims s)) o s = (s', Ok tt) -> starts_geometry o = true -> dz (g_dims s) || dm (g_dims s) = true ->
  deep (g_geom s') = true.
Proof.
  intros [e|i n v] s s' E H D; [|discriminate H]. unfold one in E. cbn [feed p_step gdal_writer] in E.
  destruct (gdal_step s e) as [q [[]|x]] eqn:G; [|discriminate E]. injection E as <-.
  destruct e; try discriminate H; cbn [gdal_step] in G; try (destruct tagged; [|discriminate H]); injection G as <-; exact D.
Qed.
Lemma stream_deep : forall d l s, g_dims s = d -> dz d || dm d = true -> deep (g_geom s) = true \/ existsb starts_geometry l = true ->
  snd (feed (gdal_writer d) l s) = Ok tt -> deep (g_geom (fst (feed (gdal_writer d) l s))) = true.
Proof.
  intros d. induction l as [|o l IH]; intros s Hd D H E; [destruct H as [H|H]; [exact H|discriminate H]|].
  rewrite feed_cons in *. destruct (one (gdal_writer d) o s) as [s' [[]|x]] eqn:E1; [|discriminate E].
  assert (S' : g_dims s' = d /\ (deep (g_geom s) = true -> deep (g_geom s') = true)).
  { destruct o as [e|i n v]; unfold one in E1; cbn [feed p_step p_prop gdal_writer default_prop] in E1.
    - destruct (gdal_step s e) as [q [[]|x]] eqn:G; [|discriminate E1]. injection E1 as <-. split; [rewrite (dims_step _ _ _ G); exact Hd|].
      intros Q. apply (deep_step _ _ _ G Q). rewrite Hd. exact D.
    - injection E1 as <-. split; [exact Hd|exact (fun Q => Q)]. }
  destruct S' as [Hd' Hk]. apply IH; [exact Hd'|exact D| |exact E].
  destruct H as [H|H]; [left; exact (Hk H)|]. cbn [existsb] in H. apply orb_prop in H. destruct H as [H|H]; [left|right; exact H].
  subst d. apply (starts_deep o s s' E1 H). exact D.
Qed.
Theorem xy_refused : forall d l x y i, dz d || dm d = true -> existsb starts_geometry l = true ->
  snd (feed (gdal_writer d) l (gw_with d)) = Ok tt -> snd (feed (gdal_writer d) (l ++ [OEv (Xy x y i)]) (gw_with d)) = Err gdal_error.
Proof.
  intros d l x y i D H E. pose proof (stream_deep d l (gw_with d) eq_refl D (or_intror H) E) as P.
  rewrite feed_app. destruct (feed (gdal_writer d) l (gw_with d)) as [s [[]|q]]; [|discriminate E]. cbn [fst] in P.
  cbn [feed p_step gdal_writer]. rewrite (deep_refused s x y i P). reflexivity.
Qed.
