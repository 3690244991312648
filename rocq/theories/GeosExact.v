(** What GeosWriter makes of every geometry (helper lemmas for C54_exact). *)
From Coq Require Import String Ascii.
From Coq Require Import List NArith ZArith Lia Bool.
From Verif Require Import Base BaseLemmas Event EventLemmas Claims Geom GeosModel GeosSpec GeosTop GeosMore GeosExactSpec.
From Verif Require WkbModel WkbSpec WkbClaims WkbTop.
Import ListNotations.
Local Open Scope list_scope.

Lemma whole_simple : forall g w, In (Whole w) (pieces g) -> simple w = true.
Proof.
  assert (C : forall c w, ~ In (Whole w) (curve_pieces c)).
  { intros [l|l|l] w; cbn; try (intros [X|[]]; discriminate X). intros X. apply in_map_iff in X.
    destruct X as ([a|a] & X & _); discriminate X. }
  assert (C' : forall l w, ~ In (Whole w) (flat_map curve_pieces l)).
  { intros l w X. apply in_flat_map in X. destruct X as (c & _ & X). exact (C c w X). }
  induction g as [c| |l|l|l|l|l|l IH|l|l|l|l|l|l|l|l] using geom_ind'; intros w X; cbn [pieces] in X;
    try (destruct X as [X|[]]; (injection X as <-; reflexivity) || discriminate X).
  - apply in_flat_map in X. destruct X as (a & Ha & X). rewrite Forall_forall in IH. exact (IH a Ha w X).
  - apply in_map_iff in X. destruct X as ([a|a] & X & _); discriminate X.
  - destruct (C' _ _ X).
  - destruct (C' _ _ X).
  - apply in_flat_map in X. destruct X as ([r|c] & _ & X); [destruct X as [X|[]]; discriminate X|destruct (C' _ _ X)].
  - apply in_map_iff in X. destruct X as (a & X & _); discriminate X.
  - apply in_map_iff in X. destruct X as (a & X & _); discriminate X.
  - apply in_flat_map in X. destruct X as (a & _ & X). apply in_map_iff in X. destruct X as (b & X & _); discriminate X.
Qed.

Section Exact.
  Variable lib : geos_lib.
  Hypothesis Hlib : sane lib.
  Notation W := (geos_writer lib).

  (** the length of the last sequence held *)
  Definition room_of (s : gs) : option nat := match rev (s_cs s) with [] => None | c :: _ => Some (length c) end.
  Definition refusal (e : error) : Prop := e = EGeometry \/ e = geos_error \/ e = out_of_range lib.
  (** callbacks [ev] that stand for the pieces [l] *)
  Definition stands (ev : list event) (l : list piece) : Prop :=
    forall s, exists s' e, run W ev s = (s', if pass lib (room_of s) l then Ok tt else Err e) /\ refusal e /\
      (pass lib (room_of s) l = true ->
        s_srid s' = s_srid s /\ room_of s' = fold_left (fun r p => room_after p r) l (room_of s) /\
        s_geom s' = match last_whole l with Some g => mkVal (gvalue g) (opt_default 0%Z (s_srid s)) | None => s_geom s end).

  Lemma last_whole_app : forall l k,
    last_whole (l ++ k) = match last_whole k with Some g => Some g | None => last_whole l end.
  Proof.
    induction l as [|p l IH]; intros k; cbn [app last_whole]; [destruct (last_whole k); reflexivity|].
    rewrite IH. destruct (last_whole k); reflexivity.
  Qed.
  Lemma pass_app : forall l k r,
    pass lib r (l ++ k) = pass lib r l && pass lib (fold_left (fun r p => room_after p r) l r) k.
  Proof.
    induction l as [|p l IH]; intros k r; cbn [app pass fold_left]; [reflexivity|].
    rewrite IH, andb_assoc. reflexivity.
  Qed.
  Lemma stands_nil : stands [] [].
  Proof.
    intros s. exists s, EGeometry. split; [reflexivity|]. split; [now left|]. intros _. repeat split.
  Qed.
  Lemma stands_app : forall ev1 ev2 l1 l2, stands ev1 l1 -> stands ev2 l2 -> stands (ev1 ++ ev2) (l1 ++ l2).
  Proof.
    intros ev1 ev2 l1 l2 H1 H2 s. destruct (H1 s) as (s1 & e1 & E1 & R1 & F1). rewrite run_app, E1, pass_app.
    destruct (pass lib (room_of s) l1); cbn [andb].
    - destruct (F1 eq_refl) as (A & B & C). destruct (H2 s1) as (s2 & e2 & E2 & R2 & F2). rewrite B in *.
      exists s2, e2. split; [exact E2|]. split; [exact R2|]. intros P. destruct (F2 P) as (A2 & B2 & C2).
      split; [congruence|]. split; [rewrite fold_left_app; exact B2|].
      rewrite last_whole_app, C2, A. destruct (last_whole l2); [reflexivity|]. rewrite C. reflexivity.
    - exists s1, e1. split; [reflexivity|]. split; [exact R1|discriminate].
  Qed.
  Lemma stands_silent : forall e ev l, (forall s, geos_step lib s e = (s, Ok tt)) -> stands ev l -> stands (e :: ev) l.
  Proof. intros e ev l H K s. cbn [run p_step geos_writer]. rewrite H. apply K. Qed.
  Lemma stands_for : forall A (f : nat -> A -> list event) (p : A -> list piece) (l : list A) i,
    (forall k a, In a l -> stands (f k a) (p a)) -> stands (flat_mapi f i l) (flat_map p l).
  Proof.
    induction l as [|a l IH]; intros i H; cbn [flat_mapi flat_map]; [apply stands_nil|].
    apply stands_app; [apply H; now left|]. apply IH. intros k b B. apply H. now right.
  Qed.
  Lemma flat_map_one : forall A B (f : A -> B) l, flat_map (fun a => [f a]) l = map f l.
  Proof. induction l as [|a l IH]; cbn; [reflexivity|]. now rewrite IH. Qed.
  Lemma stands_one : forall A (f : nat -> A -> list event) (p : A -> piece) (l : list A) i,
    (forall k a, In a l -> stands (f k a) [p a]) -> stands (flat_mapi f i l) (map p l).
  Proof. intros A f p l i H. rewrite <- flat_map_one. apply stands_for. exact H. Qed.

  (** *** Lines *)
  Lemma stands_open : forall l i, short l -> stands (ev_line false false i l) [Open l].
  Proof.
    intros l i H s. exists (set_cs s (s_cs s ++ [seq_of l])), EGeometry.
    change (ev_line false false i l) with ((LineStringBegin false (length l) i :: ev_coords false l) ++ [LineStringEnd false i]).
    rewrite run_app, (run_line lib false l i s H). split; [reflexivity|]. split; [now left|]. intros _.
    split; [reflexivity|]. split; [|reflexivity]. unfold room_of. cbn [set_cs s_cs]. rewrite rev_app_distr. cbn [rev app fold_left room_after].
    unfold seq_of. rewrite map_length. reflexivity.
  Qed.

  (** *** Arcs *)
  Lemma set_at_some : forall l i p, (i < length l)%nat -> exists l', set_at i p l = Some l' /\ length l' = length l.
  Proof.
    induction l as [|a l IH]; intros i p H; [cbn in H; lia|]. destruct i as [|i]; cbn [set_at].
    - eexists. split; reflexivity.
    - cbn [length] in H. destruct (IH i p) as (l' & E & L); [lia|]. rewrite E. eexists. split; [reflexivity|]. cbn. now rewrite L.
  Qed.
  Lemma arc_in : forall l k cs c s, s_cs s = cs ++ [c] -> (k + length l <= length c)%nat ->
    exists c', length c' = length c /\ run W (mapi (ev_coord false) k l) s = (set_cs s (cs ++ [c']), Ok tt).
  Proof.
    induction l as [|p l IH]; intros k cs c s E H.
    - exists c. split; [reflexivity|]. rewrite <- E. destruct s; reflexivity.
    - cbn [length] in H. destruct (set_at_some c k (cx p, cy p)) as (c1 & E1 & L1); [lia|].
      cbn [mapi run]. cbn [p_step geos_writer ev_coord geos_step]. rewrite E, rev_app_distr. cbn [rev app]. rewrite E1, rev_involutive.
      destruct (IH (S k) cs c1 (set_cs s (cs ++ [c1]))) as (c2 & L2 & R2); [reflexivity|lia|].
      exists c2. split; [congruence|exact R2].
  Qed.
  Lemma arc_over : forall l k cs c s, s_cs s = cs ++ [c] -> (k <= length c)%nat -> (length c < k + length l)%nat ->
    exists s', run W (mapi (ev_coord false) k l) s = (s', Err (out_of_range lib)).
  Proof.
    induction l as [|p l IH]; intros k cs c s E H1 H2; cbn [length] in H2; [lia|].
    cbn [mapi run]. cbn [p_step geos_writer ev_coord geos_step]. rewrite E, rev_app_distr. cbn [rev app].
    destruct (Nat.eq_dec k (length c)) as [->|Hk].
    - rewrite set_at_none by lia. eexists. reflexivity.
    - destruct (set_at_some c k (cx p, cy p)) as (c1 & E1 & L1); [lia|]. rewrite E1, rev_involutive.
      apply (IH (S k) cs c1); [reflexivity|lia|lia].
  Qed.
  Lemma room_cs : forall s n, room_of s = Some n -> exists cs c, s_cs s = cs ++ [c] /\ length c = n.
  Proof.
    intros s n. unfold room_of. destruct (rev (s_cs s)) as [|c r] eqn:E; [discriminate|]. intros H. injection H as <-.
    exists (rev r), c. split; [|reflexivity]. rewrite <- (rev_involutive (s_cs s)), E. reflexivity.
  Qed.
  Lemma room_none : forall s, room_of s = None -> rev (s_cs s) = [].
  Proof. intros s. unfold room_of. destruct (rev (s_cs s)); [reflexivity|discriminate]. Qed.
  Lemma stands_arc : forall l i, stands (ev_arc false i l) [Arc l].
  Proof.
    intros l i s. unfold ev_arc. cbn [run p_step geos_writer geos_step default_step]. rewrite run_app.
    cbn [pass passes]. rewrite andb_true_r. destruct l as [|c l].
    - exists s, EGeometry. split; [reflexivity|]. split; [now left|]. intros _. repeat split.
    - destruct (room_of s) as [n|] eqn:R; cbn [fits].
      + destruct (room_cs s n R) as (cs & d & E & L). destruct (Nat.leb (length (c :: l)) n) eqn:Q.
        * apply Nat.leb_le in Q. destruct (arc_in (c :: l) 0 cs d s E) as (d' & L' & X); [lia|].
          unfold ev_coords. rewrite X. eexists _, EGeometry. split; [reflexivity|]. split; [now left|]. intros _.
          split; [reflexivity|]. split; [|reflexivity]. cbn [fold_left room_after]. unfold room_of. cbn [set_cs s_cs].
          rewrite rev_app_distr. cbn [rev app]. congruence.
        * apply Nat.leb_gt in Q. destruct (arc_over (c :: l) 0 cs d s E) as (s' & X); [lia|lia|].
          unfold ev_coords. rewrite X. exists s', (out_of_range lib). split; [reflexivity|]. split; [now right; right|discriminate].
      + unfold ev_coords. cbn [mapi run]. cbn [p_step geos_writer ev_coord geos_step]. rewrite (room_none s R).
        exists s, EGeometry. split; [reflexivity|]. split; [now left|discriminate].
  Qed.

  (** *** Polygons of surfaces *)
  Lemma stands_face : forall r i, short_rings r -> stands (ev_polygon false false i r) [Face r].
  Proof.
    intros r i H s. destruct (run_rings lib Hlib false r i s H) as (s' & E & F). exists s', (rings_error r).
    cbn [pass passes]. rewrite andb_true_r. split; [exact E|]. split; [destruct r; [now left|now right; left]|].
    intros A. rewrite (F A). repeat split.
  Qed.

  (** *** What GEOS knows *)
  Lemma cleared : forall g i s s' (e : res unit), simple g = true -> short_geom g -> accepted lib g = true ->
    run W (gevents false i g) s = (s', e) -> room_of s' = room_after (Whole g) (room_of s).
  Proof.
    intros g i s s' e P H A. destruct g as [c| |l|l|l|r|l|l|l|l|l|l|l|l|l|l]; try discriminate P; cbn [gevents accepted] in *.
    - intros X. assert (Y := f_equal fst X). cbn [fst] in Y. subst s'. reflexivity.
    - cbn [run p_step geos_writer geos_step]. unfold add_seq. cbn [short_geom] in H. rewrite new_short by exact H.
      cbn [set_cs s_cs app]. rewrite run_app.
      change (set_cs (set_cs s []) [repeat (f64_zero, f64_zero) (length l)])
        with (set_cs s ([] ++ [[] ++ repeat (f64_zero, f64_zero) (length l)])).
      unfold ev_coords. pose proof (run_coords lib l [] s []) as R. cbn [length] in R. rewrite R.
      intros X. assert (Y := f_equal fst X). cbn [fst] in Y. subst s'. reflexivity.
    - unfold ev_line.
      change (LineStringBegin true (length l) i :: ev_coords false l ++ [LineStringEnd true i])
        with ((LineStringBegin true (length l) i :: ev_coords false l) ++ [LineStringEnd true i]).
      rewrite run_app, run_line by exact H. cbn [app run p_step geos_writer geos_step set_cs s_cs rev].
      rewrite A. intros X. assert (Y := f_equal fst X). cbn [fst] in Y. subst s'. reflexivity.
    - destruct H as [H1 H2]. cbn [run p_step geos_writer geos_step]. rewrite capacity_seq by assumption.
      rewrite run_app, run_lines by exact H2. cbn [app run p_step geos_writer geos_step set_cs s_cs].
      intros X. assert (Y := f_equal fst X). destruct (forallb _ _) in Y; cbn [fst] in Y; subst s'; reflexivity.
    - destruct (run_rings lib Hlib true r i s H) as (s1 & E & F). rewrite E. intros X. assert (Y := f_equal fst X). cbn [fst] in Y. subst s'.
      rewrite (F A). reflexivity.
    - destruct H as [H1 H2]. cbn [run p_step geos_writer geos_step]. rewrite capacity_geom by assumption.
      rewrite run_app. destruct (run_polys lib Hlib l 0 (set_polys s []) H2) as (s1 & e1 & E & _ & F & F0). rewrite E, A.
      cbn [run p_step geos_writer geos_step]. intros X. assert (Y := f_equal fst X). cbn [fst] in Y. subst s'.
      destruct l as [|r l]; [rewrite F0 by reflexivity; reflexivity|].
      rewrite F by (assumption || discriminate). reflexivity.
  Qed.
  Lemma stands_whole : forall g i, simple g = true -> short_geom g -> stands (gevents false i g) [Whole g].
  Proof.
    intros g i P H s. destruct (geos_writes lib Hlib g i s P H) as (s' & e & E & He & F). exists s', e.
    cbn [pass passes]. rewrite andb_true_r. split; [exact E|]. split; [destruct He; [now left|now right; left]|].
    intros A. destruct (F A) as [F1 F2]. split; [exact F2|]. split; [exact (cleared g i s s' _ P H A E)|exact F1].
  Qed.

  (** *** Every geometry *)
  Lemma stands_segment : forall a i, short_piece (segment_piece a) -> stands (ev_segment false i a) [segment_piece a].
  Proof. intros [l|l] i H; cbn [ev_segment segment_piece] in *; [apply stands_open, H|apply stands_arc]. Qed.
  Ltac quiet := apply stands_silent; [intros ?; reflexivity|].
  Ltac closed x := rewrite <- (app_nil_r x); apply stands_app; [|quiet; apply stands_nil].
  Lemma stands_compound : forall l i, Forall short_piece (map segment_piece l) ->
    stands (ev_compound false i l) (map segment_piece l).
  Proof.
    intros l i H. unfold ev_compound. quiet. closed (map segment_piece l). apply stands_one.
    intros k a Ha. apply stands_segment. rewrite Forall_map, Forall_forall in H. apply H, Ha.
  Qed.
  Lemma short_in : forall A (p : A -> list piece) l a, Forall short_piece (flat_map p l) -> In a l -> Forall short_piece (p a).
  Proof.
    intros A p l a H Ha. rewrite Forall_forall in *. intros x X. apply H. apply in_flat_map. exists a. split; assumption.
  Qed.
  Lemma stands_curve : forall c i, Forall short_piece (curve_pieces c) -> stands (ev_curve false i c) (curve_pieces c).
  Proof.
    intros [l|l|l] i H; cbn [ev_curve curve_pieces] in *.
    - inversion H; subst. apply stands_open. assumption.
    - apply stands_arc.
    - apply stands_compound, H.
  Qed.
  Lemma stands_curves : forall l i, Forall short_piece (flat_map curve_pieces l) ->
    stands (flat_mapi (ev_curve false) i l) (flat_map curve_pieces l).
  Proof. intros l i H. apply stands_for. intros k a Ha. apply stands_curve. exact (short_in _ _ l a H Ha). Qed.
  Lemma stands_surface : forall c i, Forall short_piece (surface_pieces c) -> stands (ev_surface false i c) (surface_pieces c).
  Proof.
    intros [r|l] i H; cbn [ev_surface surface_pieces] in *.
    - inversion H; subst. apply stands_face. assumption.
    - unfold ev_curvepolygon. quiet. closed (flat_map curve_pieces l). apply stands_curves, H.
  Qed.
  Lemma stands_opens : forall r i, Forall short_piece (map Open r) -> stands (flat_mapi (ev_line false false) i r) (map Open r).
  Proof.
    intros r i H. apply stands_one. intros k a Ha. apply stands_open.
    rewrite Forall_map, Forall_forall in H. exact (H a Ha).
  Qed.
  Lemma stands_geom : forall g i, Forall short_piece (pieces g) -> stands (gevents false i g) (pieces g).
  Proof.
    induction g as [c| |l|l|l|l|l|l IH|l|l|l|l|l|l|l|l] using geom_ind'; intros i H;
      try (apply stands_whole; [reflexivity|inversion H; assumption]).
    - intros s. exists s, EGeometry. split; [reflexivity|]. split; [now left|discriminate].
    - cbn [gevents pieces] in *. quiet. closed (flat_map pieces l). generalize 0%nat.
      induction IH as [|a l Ha _ IHl]; intros k; [apply stands_nil|]. cbn [flat_map] in *. apply Forall_app in H. destruct H as [H1 H2].
      apply stands_app; [apply Ha, H1|]. apply IHl, H2.
    - apply stands_arc.
    - apply stands_compound, H.
    - cbn [gevents pieces] in *. unfold ev_curvepolygon. quiet. closed (flat_map curve_pieces l). apply stands_curves, H.
    - cbn [gevents pieces] in *. quiet. closed (flat_map curve_pieces l). apply stands_curves, H.
    - cbn [gevents pieces] in *. quiet. closed (flat_map surface_pieces l). apply stands_for.
      intros k a Ha. apply stands_surface. exact (short_in _ _ l a H Ha).
    - cbn [gevents pieces] in *. unfold ev_triangle. quiet. closed (map Open l). apply stands_opens, H.
    - cbn [gevents pieces] in *. quiet. closed (map Face l). apply stands_one.
      intros k a Ha. apply stands_face. rewrite Forall_map, Forall_forall in H. exact (H a Ha).
    - cbn [gevents pieces] in *. quiet. closed (flat_map (map Open) l). apply stands_for.
      intros k a Ha. unfold ev_triangle. quiet. closed (map Open a). apply stands_opens. exact (short_in _ _ l a H Ha).
  Qed.

  Theorem geos_exact : forall src l g r, delivers src (fun multi => l ++ gevents multi 0 g) (Ok r) -> srids l ->
    Forall short_piece (pieces g) ->
    (pass lib None (pieces g) = true -> to_geos lib src = Ok (left_of (pieces g) (last_srid None l))) /\
    (pass lib None (pieces g) = false -> exists e, to_geos lib src = Err e /\ refusal e).
  Proof.
    intros src l g r D R H. unfold to_geos. specialize (D _ W gs_init). cbn [p_dims geos_writer] in D.
    rewrite D. clear D. change (multi_dim xy_dims) with false. rewrite run_srids by exact R.
    lazymatch goal with |- context [run W _ ?s] => set (s0 := s) end.
    destruct (stands_geom g 0 H s0) as (s' & e & E & He & F). change (room_of s0) with (@None nat) in *.
    rewrite E. destruct (pass lib None (pieces g)).
    - split; [|discriminate]. intros _. destruct (F eq_refl) as (_ & _ & G). rewrite G. unfold left_of.
      destruct (last_whole (pieces g)); reflexivity.
    - split; [discriminate|]. intros _. exists e. split; [reflexivity|exact He].
  Qed.

  Lemma last_in : forall l w, last_whole l = Some w -> In (Whole w) l.
  Proof.
    induction l as [|p l IH]; intros w; cbn [last_whole]; [discriminate|]. destruct (last_whole l) as [v|].
    - intros X. right. apply IH. exact X.
    - destruct p; try discriminate. intros X. injection X as ->. now left.
  Qed.
  Lemma last_simple : forall g w, last_whole (pieces g) = Some w -> simple w = true.
  Proof. intros g w H. exact (whole_simple g w (last_in _ _ H)). Qed.
  Theorem geos_wkb_exact : forall dl d srid env ed ext emp o g tail,
    WkbSpec.encodable g -> (WkbSpec.levels g <= 128)%nat -> WkbClaims.srid_ok dl srid ->
    WkbClaims.env_ok dl ed env -> WkbClaims.order_ok dl o ->
    let g' := WkbSpec.retained (dz d) (dm d) g in Forall short_piece (pieces g') ->
    let r := geos_from_wkb lib dl (WkbClaims.std dl d srid env ed ext emp o g ++ tail) in
    (pass lib None (pieces g') = true -> r = Ok (left_of (pieces g') (WkbClaims.reported_srid dl srid))) /\
    (pass lib None (pieces g') = false -> exists e, r = Err e /\ refusal e).
  Proof.
    intros dl d srid env ed ext emp o g tail E L R V O g' P r. unfold r, geos_from_wkb.
    pose proof (WkbTop.delivers_std dl d srid env ed ext emp o g tail E L R V O) as D.
    specialize (D _ W gs_init). cbn [p_dims geos_writer] in D. rewrite D. clear D. fold g'.
    change (multi_dim xy_dims) with false.
    cbn [run]. cbn [p_step geos_writer geos_step].
    lazymatch goal with |- context [run W _ ?s] => set (s0 := s) end.
    destruct (stands_geom g' 0 P s0) as (s' & e & X & He & F). change (room_of s0) with (@None nat) in *.
    rewrite X. destruct (pass lib None (pieces g')).
    - split; [|discriminate]. intros _. destruct (F eq_refl) as (_ & _ & G). rewrite G. unfold left_of.
      destruct (last_whole (pieces g')); reflexivity.
    - split; [discriminate|]. intros _. exists e. split; [reflexivity|exact He].
  Qed.
  (** the value of the geometry itself *)
  Theorem geos_faithful : forall src l g r, delivers src (fun multi => l ++ gevents multi 0 g) (Ok r) -> srids l ->
    Forall short_piece (pieces g) ->
    ((exists v, to_geos lib src = Ok v /\ v_geom v = gvalue g) <-> simple g = true /\ accepted lib g = true).
  Proof.
    intros src l g r D R H. destruct (geos_exact src l g r D R H) as [P N]. split.
    - intros (v & V & E). destruct (pass lib None (pieces g)) eqn:A.
      + rewrite (P eq_refl) in V. injection V as <-. unfold left_of in E.
        destruct (simple g) eqn:S.
        * destruct g; try discriminate S; cbn [pieces pass passes] in A; rewrite andb_true_r in A; split; reflexivity || exact A.
        * exfalso. destruct (last_whole (pieces g)) as [w|] eqn:L.
          -- pose proof (last_simple g w L) as Q. cbn [v_geom] in E. destruct g; try discriminate S; destruct w; discriminate Q || discriminate E.
          -- cbn [v_geom] in E. destruct g; try discriminate S; discriminate E.
      + destruct (N eq_refl) as (e & X & _). congruence.
    - intros [S A].
      assert (Q : pieces g = [Whole g]) by (destruct g; try discriminate S; reflexivity).
      rewrite Q in P. cbn [pass passes] in P. rewrite A in P. eexists. split; [exact (P eq_refl)|reflexivity].
  Qed.
End Exact.
