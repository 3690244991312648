(** What the type of a shapefile record says about its callbacks, and opening shapefiles (C73, C74). *)
From Coq Require Import String Ascii.
From Coq Require Import List NArith ZArith Lia Bool ZifyBool ZifyNat ZifyN.
From Coq Require Import Init.Byte.
From Verif Require Import Base BaseLemmas Float Event EventLemmas Claims Geom FeatureSpec WkbModel WkbRead WkbInv WkbTop.
From Verif Require Import ShpModel ShpSpec ShpTop ShpFeatures ShpSafe ShpShort ShpMore ShpBound ShpTypeSpec.
Import ListNotations.
Local Open Scope nat_scope.
Local Open Scope list_scope.

(** ** Programs whose callbacks all meet [P] *)
Definition says {A} (P : event -> Prop) (g : prog A) : Prop :=
  exists l r, g = calls l (Done r) /\ Forall P l.

Lemma says_done : forall A P (r : res A), says P (Done r).
Proof. intros. exists [], r. split; [reflexivity|constructor]. Qed.
Lemma says_call : forall (P : event -> Prop) e, P e -> says P (pcall e).
Proof. intros. exists [e], (Ok tt). split; [reflexivity|now constructor]. Qed.
Lemma says_bind : forall A B P (g : prog A) (f : A -> prog B),
  says P g -> (forall a l, g = calls l (Done (Ok a)) -> says P (f a)) -> says P (pbind g f).
Proof.
  intros A B P g f [l [r [-> H]]] Hf. rewrite pbind_calls. destruct r as [a|e]; cbn [pbind].
  - destruct (Hf a l eq_refl) as [l2 [r2 [-> H2]]]. exists (l ++ l2), r2.
    split; [now rewrite calls_app|now apply Forall_app].
  - exists l, (Err e). now split.
Qed.
Lemma says_lift : forall A B P (r : res A) (f : A -> prog B),
  (forall a, r = Ok a -> says P (f a)) -> says P (pbind (plift r) f).
Proof. intros A B P [a|e] f H; [exact (H a eq_refl)|apply says_done]. Qed.
Lemma says_for : forall A P (f : nat -> A -> prog unit) l i,
  (forall k a, says P (f k a)) -> says P (pfor f i l).
Proof.
  induction l as [|a l IH]; intros i H; cbn [pfor]; [apply says_done|].
  apply says_bind; [apply H|]. intros. now apply IH.
Qed.
Lemma says_step : forall A B P Q (f : rd A) (g : A -> rd B) b, uses Q f ->
  (forall a rest k, Q a k -> says P (g a rest)) -> says P (rbind f g b).
Proof.
  intros * Hf H. unfold rbind. destruct (Hf b) as [[e ->]|[a [rest [k [-> [_ Hq]]]]]]; [apply says_done|].
  exact (H a rest k Hq).
Qed.
Lemma says_rlift : forall A B P (r : res A) (g : A -> rd B) b,
  (forall a, r = Ok a -> says P (g a b)) -> says P (rthen r g b).
Proof. intros A B P [a|e] g b H; [exact (H a eq_refl)|apply says_done]. Qed.
Lemma says_rprog : forall P (g : prog unit) b, says P g -> says P (rprog g b).
Proof. intros. apply says_bind; [assumption|]. intros. apply says_done. Qed.

(** ** One position *)
Section Positions.
  Variables (multi gz gm : bool) (coords : list (f64 * f64)) (zs ms : list f64).
  Variables (z m : bool) (f : family).
  Hypothesis Hf : f <> Silent.
  Hypothesis Hz : coords <> [] -> z = (multi && gz)%bool.
  Hypothesis Hm : coords <> [] -> m = (multi && gm)%bool.
  Let P (e : event) : Prop := carries z m e /\ belongs f e.

  Lemma says_point : forall ofs idx, says P (emit_point multi gz gm coords zs ms ofs idx).
  Proof.
    intros ofs idx. unfold emit_point. apply says_lift. intros c Hc.
    assert (Hn : coords <> []).
    { intros E. rewrite E in Hc. unfold at_index in Hc. cbn in Hc. destruct ofs; discriminate. }
    specialize (Hz Hn). specialize (Hm Hn). destruct multi; cbn [andb] in *.
    - subst z m. assert (Hl : forall (g : bool) (v : list f64),
        says P (if g then plift (res_map Some (at_index v ofs)) else pret None) /\
        forall o l, (if g then plift (res_map Some (at_index v ofs)) else pret None) = calls l (Done (Ok o)) -> some o = g).
      { intros [] v; [|split; [apply says_done|intros o [|e l] E; [injection E as <-; reflexivity|discriminate]]].
        split; [apply says_done|]. intros o [|e l] E; [|discriminate]. unfold plift in E. cbn [calls] in E.
        destruct (at_index v ofs); cbn in E; [injection E as <-; reflexivity|discriminate]. }
      apply says_bind; [apply Hl|]. intros oz l1 E1. apply (proj2 (Hl gz zs)) in E1.
      apply says_bind; [apply Hl|]. intros om l2 E2. apply (proj2 (Hl gm ms)) in E2.
      apply says_call. split; [|exact Hf]. repeat split; assumption.
    - apply says_call. subst z m. split; [split; reflexivity|exact Hf].
  Qed.
  Lemma says_points : forall start n idx, says P (emit_points multi gz gm coords zs ms start n idx).
  Proof.
    intros start n. induction n as [|n IH]; intros idx; cbn [emit_points]; [apply says_done|].
    apply says_bind; [apply says_point|]. intros. apply IH.
  Qed.
End Positions.

(** the z or m block of a record: as long as the list of positions, or absent *)
Lemma uses_block : forall (c : bool) n,
  uses (fun (l : list f64) _ => length l = if c then N.to_nat n else 0) (if c then read_dim_values n else rret []).
Proof.
  intros [] n; [|now apply uses_ret]. unfold read_dim_values, read_bbox. rewrite f64s_list.
  eapply uses_bind; [apply (uses_list _ _ 8 _ _ f64_w)|]. intros a k _. apply uses_lift. intros _ _.
  intros b. destruct (uses_list _ _ 8 _ (N.to_nat n) f64_w b) as [?|[x [r [j [? [? [? ?]]]]]]];
    [now left|right; exists x, r, j; auto].
Qed.
Lemma filled_block : forall (A : Type) (l : list f64) (coords : list A) (c : bool) n,
  length l = (if c then n else 0) -> length coords = n -> coords <> [] -> filled l = c.
Proof.
  intros A l coords c n Hl Hc Hn. destruct coords as [|x coords]; [congruence|].
  destruct c; destruct l; cbn in *; congruence + lia.
Qed.

(** ** The three kinds of records *)
Lemma point_says : forall d size t b, family_of t = Single ->
  says (fun e => carries (type_has_z t && dz d)
                   (match t with Point => false | PointM => dm d | _ => (size =? 32)%N && dm d end) e /\ belongs Single e)
    (read_point d size t b).
Proof.
  intros d size t b Ht. unfold read_point. cbv zeta.
  eapply says_step; [apply uses_guard|]. intros _ b1 k1 _.
  eapply says_step; [apply uses_f64|]. intros x b2 k2 _.
  eapply says_step; [apply uses_f64|]. intros y b3 k3 _.
  assert (Ho : forall c : bool, uses (fun (o : option f64) _ => some o = c) (if c then rmap Some (r_f64 LE) else rret None)).
  { intros []; [|now apply uses_ret]. eapply uses_bind; [apply uses_f64|]. intros. now apply uses_ret. }
  eapply says_step; [apply Ho|]. intros z b4 k4 Hz.
  eapply says_step; [apply Ho|]. intros m b5 k5 Hm.
  set (e := if multi_dim d then Coord x y (if dz d then z else None) (if dm d then m else None) None None 0 else Xy x y 0).
  exists [PointBegin 0; e; PointEnd 0], (Ok (tt, b5)). split; [unfold e; destruct (multi_dim d); reflexivity|].
  constructor; [split; [exact I|reflexivity]|]. constructor; [|constructor; [split; [exact I|reflexivity]|constructor]].
  split; [|unfold e; destruct (multi_dim d); cbn; discriminate]. unfold e.
  destruct t; try discriminate Ht; cbn [type_has_z andb] in *; destruct (size =? 32)%N; cbn [andb];
    destruct d as [[] [] [] []]; cbn; auto.
Qed.

Lemma multipoint_says : forall ck d size has_z b,
  exists bm, (bm = true -> dm d = true) /\
  says (fun e => carries (has_z && dz d) bm e /\ belongs Scattered e) (read_multipoint ck d size has_z b).
Proof.
  intros. unfold read_multipoint. cbv zeta.
  destruct (uses_box b) as [[e E]|[bb [b1 [k1 [E _]]]]];
    [exists false; split; [discriminate|]; unfold rbind; rewrite E; apply says_done|].
  unfold rbind at 1. rewrite E. cbn [pbind pret fst snd]. clear E.
  destruct (uses_i32 LE b1) as [[e E]|[num [b2 [k2 [E _]]]]];
    [exists false; split; [discriminate|]; unfold rbind; rewrite E; apply says_done|].
  unfold rbind at 1. rewrite E. cbn [pbind pret fst snd]. clear E.
  set (n := as_usize num).
  destruct (umul ck 16 n) as [v|x]; [|exists false; split; [discriminate|apply says_done]].
  unfold rthen at 1, rlift, rbind at 1. cbn [pbind pret fst snd].
  destruct (uadd ck 36 v) as [size1|x]; [|exists false; split; [discriminate|apply says_done]].
  unfold rthen at 1, rlift, rbind at 1. cbn [pbind pret fst snd].
  destruct (multipart_dim_value_size ck n) as [ds|x]; [|exists false; split; [discriminate|apply says_done]].
  unfold rthen at 1, rlift, rbind at 1. cbn [pbind pret fst snd].
  destruct (if has_z then uadd ck size1 ds else Ok size1) as [size2|x]; [|exists false; split; [discriminate|apply says_done]].
  unfold rthen at 1, rlift, rbind at 1. cbn [pbind pret fst snd].
  destruct (uadd ck size2 ds) as [with_m|x]; [|exists false; split; [discriminate|apply says_done]].
  unfold rthen at 1, rlift, rbind at 1. cbn [pbind pret fst snd].
  exists ((size =? with_m)%N && dm d)%bool. split; [destruct (size =? with_m)%N; cbn; congruence|].
  eapply says_step; [apply uses_guard|]. intros _ b3 k3 _.
  eapply says_step; [apply uses_xy|]. intros coords b4 k4 [Hc _].
  eapply says_step; [apply uses_block|]. intros zs b5 k5 Hz.
  eapply says_step; [apply uses_block|]. intros ms b6 k6 Hm.
  apply says_rprog. apply says_bind; [apply says_call; split; [exact I|reflexivity]|]. intros _ _ _.
  apply says_bind; [|intros; apply says_call; split; [exact I|reflexivity]].
  apply says_points; [discriminate| |].
  - intros Hn. rewrite (filled_block _ zs coords _ _ Hz Hc Hn). unfold multi_dim.
    destruct (dz d), has_z, (dm d), (dt d), (dtm d); reflexivity.
  - intros Hn. rewrite (filled_block _ ms coords _ _ Hm Hc Hn). unfold multi_dim.
    destruct (dm d), (size =? with_m)%N, (dz d), (dt d), (dtm d); reflexivity.
Qed.

Lemma multipart_says : forall ck d (as_poly : bool) mp (has_z has_m : bool),
  length (mp_z mp) = (if has_z then length (mp_coords mp) else 0) ->
  length (mp_m mp) = (if has_m then length (mp_coords mp) else 0) ->
  says (fun e => carries (has_z && dz d) (has_m && dm d) e /\ belongs (if as_poly then Filled else Lined) e)
    (process_multipart ck d as_poly mp).
Proof.
  intros ck d as_poly mp has_z has_m Hz Hm. unfold process_multipart. cbv zeta.
  match goal with |- says ?Q _ => set (P := Q) end.
  assert (Hc : forall e : event, match e with
      | MultiLineStringBegin _ _ | MultiLineStringEnd _ => as_poly = false
      | MultiPolygonBegin _ _ | MultiPolygonEnd _ | PolygonBegin false _ _ | PolygonEnd false _ => as_poly = true
      | LineStringBegin false _ _ | LineStringEnd false _ => True
      | _ => False end -> P e).
  { intros e He. unfold P. split; destruct e; try exact I; try contradiction; cbn [belongs];
      try (now rewrite He); destruct tagged; try contradiction; try (now rewrite He);
      destruct as_poly; auto. }
  apply says_bind; [destruct as_poly; apply says_done|]. intros gp _ _.
  apply says_bind; [destruct as_poly eqn:E; apply says_call, Hc; reflexivity|]. intros _ _ _.
  apply says_bind; [|intros; destruct as_poly eqn:E; apply says_call, Hc; reflexivity].
  apply says_for. intros gi [gs ge]. unfold process_geom_part. apply says_lift. intros nr _.
  apply says_bind; [destruct as_poly eqn:E; [apply says_call, Hc; reflexivity|apply says_done]|]. intros _ _ _.
  apply says_lift. intros index _.
  apply says_bind; [|intros; destruct as_poly eqn:E; [apply says_call, Hc; reflexivity|apply says_done]].
  apply says_for. intros ri [s e]. unfold process_part. apply says_lift. intros np _.
  apply says_bind; [apply says_call, Hc; exact I|]. intros _ _ _.
  apply says_bind; [|intros; apply says_call, Hc; exact I].
  apply says_points; [destruct as_poly; discriminate| |].
  - intros Hn. rewrite (filled_block _ (mp_z mp) (mp_coords mp) _ _ Hz eq_refl Hn). destruct (dz d), (dm d), has_z; reflexivity.
  - intros Hn. rewrite (filled_block _ (mp_m mp) (mp_coords mp) _ _ Hm eq_refl Hn). destruct (dz d), (dm d), has_m; reflexivity.
Qed.

Lemma read_multipart_blocks : forall ck size (has_z : bool),
  uses (fun mp _ => length (mp_z mp) = (if has_z then length (mp_coords mp) else 0) /\
                    exists has_m : bool, length (mp_m mp) = (if has_m then length (mp_coords mp) else 0))
    (read_multipart ck size has_z).
Proof.
  intros. unfold read_multipart. cbv zeta.
  eapply uses_bind; [apply uses_box|]. intros _ k1 _.
  eapply uses_bind; [apply uses_i32|]. intros parts k2 _.
  eapply uses_bind; [apply uses_i32|]. intros points k3 _.
  apply uses_lift. intros s1 _. apply uses_lift. intros s2 _. apply uses_lift. intros s3 _.
  apply uses_lift. intros s4 _.
  eapply uses_bind; [apply uses_guard|]. intros _ k4 _.
  apply uses_lift. intros s5 _. apply uses_lift. intros s6 _.
  eapply uses_bind; [apply (uses_list _ _ 4 _ _ i32_w)|]. intros index k5 _.
  eapply uses_bind; [apply uses_xy|]. intros coords k6 [H6 _].
  eapply uses_bind; [apply uses_block|]. intros zs k7 H7.
  eapply uses_bind; [apply uses_block|]. intros ms k8 H8.
  apply uses_ret. cbn [mp_z mp_m mp_coords]. rewrite H6. split; [exact H7|]. eexists. exact H8.
Qed.
Lemma parts_says : forall ck d size (has_z as_poly : bool) b,
  exists bm, (bm = true -> dm d = true) /\
  says (fun e => carries (has_z && dz d) bm e /\ belongs (if as_poly then Filled else Lined) e)
    (read_parts ck d size has_z as_poly b).
Proof.
  intros. unfold read_parts, rbind.
  destruct (read_multipart_blocks ck size has_z b) as [[e ->]|[mp [rest [k [-> [_ [Hz [has_m Hm]]]]]]]];
    [exists false; split; [discriminate|apply says_done]|].
  exists (has_m && dm d)%bool. split; [destruct has_m; cbn; congruence|]. cbn [pbind pret fst snd].
  apply says_rprog. now apply multipart_says.
Qed.

(** ** Records *)
Lemma belongs_weak : forall A (g : prog A) (P Q : event -> Prop), (forall e, P e -> Q e) -> says P g -> says Q g.
Proof. intros A g P Q H [l [r [-> Hl]]]. exists l, r. split; [reflexivity|]. eapply Forall_impl; eassumption. Qed.

Theorem record_says : forall ck d b t, int_at LE b 8 = Some (type_number t) ->
  exists bm, (bm = true -> dm d = true) /\ (t = Point -> bm = false) /\ (t = PointM -> bm = dm d) /\
  says (fun e => carries (type_has_z t && dz d) bm e /\ belongs (family_of t) e) (read_shape ck d b).
Proof.
  intros ck d b t Ht. unfold read_shape.
  assert (Hd : exists bm, (bm = true -> dm d = true) /\ (t = Point -> bm = false) /\ (t = PointM -> bm = dm d)).
  { exists (match t with PointM => dm d | _ => false end). destruct t; repeat split; congruence. }
  unfold rbind at 1. destruct (i32_at BE b 0) as [E|[n [_ E]]]; cbn [skipn] in E; rewrite E.
  { destruct Hd as [bm [? [? ?]]]. exists bm. repeat split; auto. apply says_done. }
  cbn [pbind pret fst snd]. unfold rbind at 1. destruct (i32_at BE b (0 + 4)) as [E2|[size [_ E2]]]; rewrite E2.
  { destruct Hd as [bm [? [? ?]]]. exists bm. repeat split; auto. apply says_done. }
  cbn [pbind pret fst snd]. change (0 + 4 + 4) with 8 in *. clear E E2.
  destruct (i32_op ck (size * 2)) as [z|e].
  2:{ destruct Hd as [bm [? [? ?]]]. exists bm. repeat split; auto. apply says_done. }
  unfold rthen at 1, rlift, rbind at 1. cbn [pbind pret fst snd].
  assert (Hg : exists bm, (bm = true -> dm d = true) /\ (t = Point -> bm = false) /\ (t = PointM -> bm = dm d) /\
  says (fun e => carries (type_has_z t && dz d) bm e /\ belongs (family_of t) e) (read_shape_rec ck d (as_usize z) (skipn 8 b))).
  { unfold read_shape_rec. unfold rbind at 1.
    assert (Et : read_shape_type (skipn 8 b) = pfail EIo \/ read_shape_type (skipn 8 b) = pret (t, skipn (8 + 4) b)).
    { unfold read_shape_type, rbind. destruct (i32_at LE b 8) as [E|[code [Ec E]]]; rewrite E; [now left|].
      rewrite Ht in Ec. injection Ec as <-. cbn [pbind pret fst snd]. rewrite type_of_number. now right. }
    destruct Et as [E|E]; rewrite E.
    { destruct Hd as [bm [? [? ?]]]. exists bm. repeat split; auto. apply says_done. }
    cbn [pbind pret fst snd].
    destruct (usub ck (as_usize z) 4) as [rs|e].
    2:{ destruct Hd as [bm [? [? ?]]]. exists bm. repeat split; auto. apply says_done. }
    unfold rthen at 1, rlift, rbind at 1. cbn [pbind pret fst snd].
    assert (H1 : forall t', t = t' -> family_of t' = Single -> exists bm, (bm = true -> dm d = true) /\ (t' = Point -> bm = false) /\ (t' = PointM -> bm = dm d) /\
  says (fun e => carries (type_has_z t' && dz d) bm e /\ belongs Single e) (read_point d rs t' (skipn (8 + 4) b))).
    { intros t' _ Hs. eexists. split; [|split; [|split; [|apply point_says; exact Hs]]];
        destruct t'; try discriminate Hs; destruct (rs =? 32)%N; cbn; congruence. }
    assert (H2 : forall has_z, exists bm, (bm = true -> dm d = true) /\
  says (fun e => carries (has_z && dz d) bm e /\ belongs Scattered e) (read_multipoint ck d rs has_z (skipn (8 + 4) b)))
      by (intros; apply multipoint_says).
    assert (H3 : forall (has_z as_poly : bool), exists bm, (bm = true -> dm d = true) /\
  says (fun e => carries (has_z && dz d) bm e /\ belongs (if as_poly then Filled else Lined) e)
         (read_parts ck d rs has_z as_poly (skipn (8 + 4) b))) by (intros; apply parts_says).
    destruct t; cbn [family_of type_has_z andb] in *; try (now apply H1);
      try (destruct (H2 false) as [bm [Hb Hs]]; exists bm; repeat split; auto; discriminate);
      try (destruct (H2 true) as [bm [Hb Hs]]; exists bm; repeat split; auto; discriminate).
    - exists false. repeat split; try discriminate. apply says_done.
    - destruct (H3 false false) as [bm [Hb Hs]]; exists bm; repeat split; auto; discriminate.
    - destruct (H3 false true) as [bm [Hb Hs]]; exists bm; repeat split; auto; discriminate.
    - destruct (H3 true false) as [bm [Hb Hs]]; exists bm; repeat split; auto; discriminate.
    - destruct (H3 true true) as [bm [Hb Hs]]; exists bm; repeat split; auto; discriminate.
    - destruct (H3 false false) as [bm [Hb Hs]]; exists bm; repeat split; auto; discriminate.
    - destruct (H3 false true) as [bm [Hb Hs]]; exists bm; repeat split; auto; discriminate.
    - exists false. repeat split; try discriminate. unfold read_multipatch. apply says_rlift. intros _ _.
      eapply says_step; [apply uses_take|]. intros. apply says_done. }
  destruct Hg as [bm [? [? [? Hs]]]]. exists bm. repeat split; auto.
  unfold rbind at 1. apply says_bind; [exact Hs|]. intros. apply says_done.
Qed.

Lemma makes_says : forall A (g : prog A) P l r, says P g -> makes g l r -> Forall P l.
Proof.
  intros A g P l r [l2 [r2 [E H]]] Hm. apply makes_calls in Hm; [|now exists l2, r2].
  rewrite E in Hm. apply calls_inj in Hm. destruct Hm as [<- _]. exact H.
Qed.
Theorem record_values : forall ck d b t l r, int_at LE b 8 = Some (type_number t) ->
  makes (read_shape ck d b) l r ->
  exists m, (m = true -> dm d = true) /\ (t = Point -> m = false) /\ (t = PointM -> m = dm d) /\
    Forall (carries (type_has_z t && dz d) m) l.
Proof.
  intros * Ht Hm. destruct (record_says ck d b t Ht) as [bm [? [? [? Hs]]]]. exists bm. repeat split; auto.
  eapply Forall_impl; [|apply (makes_says _ _ _ _ _ Hs Hm)]. now intros e [? _].
Qed.
Theorem record_family : forall ck d b t l r, int_at LE b 8 = Some (type_number t) ->
  makes (read_shape ck d b) l r ->
  Forall (belongs (family_of t)) l /\
  Forall (fun e => (about_part e = true -> type_multipart t = true) /\
                   (about_point e = true -> type_multipart t = false)) l.
Proof.
  intros * Ht Hm. destruct (record_says ck d b t Ht) as [bm [_ [_ [_ Hs]]]].
  pose proof (makes_says _ _ _ _ _ Hs Hm) as H.
  split; (eapply Forall_impl; [|exact H]); intros e [_ Hb]; [exact Hb|].
  destruct e; cbn [about_part about_point]; split; intros E; try discriminate E; cbn [belongs] in Hb;
    try (destruct tagged; [contradiction|]); destruct t; cbn in *; try reflexivity; try discriminate;
    destruct Hb; discriminate.
Qed.
Lemma codes : forall z t, shape_type_of z = Some t <-> z = type_number t.
Proof.
  intros z t. split; [|intros ->; apply type_of_number]. unfold shape_type_of.
  repeat match goal with |- context [match ?x with _ => _ end] => destruct x; try discriminate end;
    intros H; injection H as <-; reflexivity.
Qed.
Lemma unknown_code : forall ck d b code, int_at LE b 8 = Some code -> (forall t, code <> type_number t) ->
  (forall size, int_at BE b 4 = Some size -> (- 2 ^ 30 <= size < 2 ^ 30)%Z) ->
  makes (read_shape ck d b) [] (Err InvalidShapeType).
Proof.
  intros ck d b code Hc Hn Hs.
  assert (Hl : 12 <= length b).
  { unfold int_at in Hc. destruct (Nat.eqb_spec (length (firstn 4 (skipn 8 b))) 4) as [E|E]; [|discriminate].
    rewrite firstn_length, skipn_length in E. lia. }
  assert (Hr : forall e k, k + 4 <= length b -> exists z, int_at e b k = Some z /\ r_i32 e (skipn k b) = pret (z, skipn (k + 4) b)).
  { intros e k Hk. destruct (i32_at e b k) as [E|E]; [|exact E]. exfalso.
    unfold r_i32, r_u32, rmap, rbind, rtake in E.
    destruct (Nat.ltb_spec (length (skipn k b)) 4) as [H|H]; [rewrite skipn_length in H; lia|discriminate]. }
  assert (E : read_shape ck d b = Done (Err InvalidShapeType)); [|rewrite E; reflexivity].
  unfold read_shape, rbind. destruct (Hr BE 0) as [n [_ E0]]; [lia|]. cbn [skipn] in E0. rewrite E0.
  cbn [pbind pret fst snd]. destruct (Hr BE (0 + 4)) as [size [Es E1]]; [lia|]. rewrite E1.
  cbn [pbind pret fst snd]. specialize (Hs size Es). change (0 + 4 + 4) with 8.
  rewrite (i32_op_ok ck (size * 2)%Z) by (unfold is_i32; lia).
  unfold rthen, rlift, rbind. cbn [pbind pret fst snd].
  unfold read_shape_rec, read_shape_type, rbind. destruct (Hr LE 8) as [c [Ec E2]]; [lia|]. rewrite E2.
  rewrite Hc in Ec. injection Ec as <-. cbn [pbind pret fst snd].
  destruct (shape_type_of code) as [t|] eqn:Et; [|reflexivity].
  apply codes in Et. destruct (Hn t Et).
Qed.

(** a line without measures, by its type, that has a block of measures *)
Definition sneaky : list byte :=
  record_bytes 1 (Lines Flat true some_extent [[mkC f0 f0 None (Some f1); mkC f1 f1 None (Some f2)]]).
Definition m_dims : dims := mkDims false true false false.
Lemma sneaky_type : int_at LE sneaky 8 = Some (type_number Polyline) /\ type_has_m Polyline = false.
Proof. split; vm_compute; reflexivity. Qed.
Lemma sneaky_measures : forall ck, exists h,
  makes (read_shape ck m_dims sneaky)
    [MultiLineStringBegin 1 0; LineStringBegin false 2 0; Coord f0 f0 None (Some f1) None None 0;
     Coord f1 f1 None (Some f2) None None 1; LineStringEnd false 0; MultiLineStringEnd 0] (Ok (h, [])).
Proof. intros []; eexists; vm_compute; reflexivity. Qed.
Lemma no_data_shown : forall ck n rest, is_i32 n -> exists h,
  makes (read_shape ck m_dims (record_bytes n (OnePoint Measured (mkC f0 f1 None (Some NO_DATA))) ++ rest))
    [PointBegin 0; Coord f0 f1 None (Some NO_DATA) None None 0; PointEnd 0] (Ok (h, rest)).
Proof.
  intros ck n rest Hn. assert (Hw : well_formed (OnePoint Measured (mkC f0 f1 None (Some NO_DATA)))).
  { split; [vm_compute; reflexivity|]. cbn. repeat split; discriminate. }
  destruct (record_reads ck m_dims n _ rest Hn Hw) as [l [[g [Hg ->]] Hr]]. inversion Hg; subst.
  eexists. unfold reads in Hr. rewrite Hr. apply makes_of_calls.
Qed.

(** ** Opening *)
Section Opened.
  Variables (ck : bool) (dbase : list byte -> res dbf_reader) (ext : string -> string -> string).
  Variables (fs : file_system) (path : string) (unused : list byte) (h : header) (body : list byte).
  Hypothesis Hu : length unused = 20.
  Hypothesis Hh : header_ok h.
  Hypothesis Hs : fs_open fs path = Ok (header_bytes unused h ++ body).

  Lemma new_ok : reader_new (header_bytes unused h ++ body) = Ok (mkReader body h None None).
  Proof. unfold reader_new. now rewrite (header_makes unused h body Hu Hh). Qed.

  Lemma open_ok : forall dbf,
    index_harmless ck fs (ext path "shx"%string) -> attributes dbase fs (ext path "dbf"%string) dbf ->
    exists r, from_path ck dbase ext fs path = Ok r /\
      sr_source r = body /\ sr_header r = h /\ sr_dbf r = dbf.
  Proof.
    intros dbf Hx Hd. unfold from_path. cbv zeta. rewrite Hs. cbn [res_bind]. rewrite new_ok. cbn [res_bind].
    assert (E : exists i, (if fs_exists fs (ext path "shx"%string)
        then res_bind (fs_open fs (ext path "shx"%string)) (add_index_source ck (mkReader body h None None))
        else Ok (mkReader body h None None)) = Ok (mkReader body h i None)).
    { destruct Hx as [->|[b [[-> ->] [l [rest Hm]]]]]; [now exists None|]. exists (Some l). cbn [res_bind].
      unfold add_index_source. unfold makes in Hm. rewrite Hm. reflexivity. }
    destruct E as [i ->]. cbn [res_bind]. destruct dbf as [d|].
    - destruct Hd as [b [[-> ->] E]]. cbn [res_bind]. unfold add_dbf_source. rewrite E.
      eexists. split; [reflexivity|]. repeat split.
    - rewrite Hd. eexists. split; [reflexivity|]. repeat split.
  Qed.
  (** an index that cannot be read *)
  Lemma open_broken : forall b e, holds fs (ext path "shx"%string) b ->
    snd (observe (read_index_file ck b)) = Err e ->
    from_path ck dbase ext fs path = Err e.
  Proof.
    intros b e [H1 H2] He. unfold from_path. cbv zeta. rewrite Hs. cbn [res_bind]. rewrite new_ok. cbn [res_bind].
    rewrite H1, H2. cbn [res_bind]. unfold add_index_source. rewrite He. reflexivity.
  Qed.
End Opened.

Lemma open_features : forall ck dbase ext fs path unused h l rest d more S (p : proc S) leftover s,
  length unused = 20 -> header_ok h -> fs_open fs path = Ok (header_bytes unused h ++ shp_body l ++ rest) ->
  index_harmless ck fs (ext path "shx"%string) -> attributes dbase fs (ext path "dbf"%string) (Some d) ->
  Forall entry_ok l -> announces h l -> dr_records d = map (fun f => Ok (en_record f)) l ++ more ->
  exists r it evs, from_path ck dbase ext fs path = Ok r /\ reader_features ck r = Ok it /\
    events_of (p_dims p) l evs /\
    consume ck leftover p (Datatypes.S (length l)) it s =
    let (s', x) := perform p (file_acts (combine l evs)) s in (s', Some x).
Proof.
  intros * Hu Hh Hs Hx Hd Hl Ha Hr.
  destruct (open_ok ck dbase ext fs path unused h _ Hu Hh Hs (Some d) Hx Hd) as [r [Ho [E1 [E2 E3]]]].
  destruct (consume_file ck leftover S p h l rest more (dr_after d) s Hl Ha) as [it [evs [Hi [He Hc]]]].
  exists r, it, evs. split; [exact Ho|]. split; [|split; assumption].
  unfold reader_features. rewrite E1, E2, E3. cbn [option_map]. rewrite Hr. exact Hi.
Qed.
Lemma open_geometries : forall ck dbase ext fs path unused h l rest dbf S (p : proc S) leftover s,
  length unused = 20 -> header_ok h -> fs_open fs path = Ok (header_bytes unused h ++ shp_body l ++ rest) ->
  index_harmless ck fs (ext path "shx"%string) -> attributes dbase fs (ext path "dbf"%string) dbf ->
  Forall entry_ok l -> announces h l ->
  exists r it evs, from_path ck dbase ext fs path = Ok r /\ reader_geometries ck r = Ok it /\
    events_of (p_dims p) l evs /\
    consume_shapes ck leftover p (Datatypes.S (length l)) it s =
    let (s', x) := run p (concat evs) s in (s', Some x).
Proof.
  intros * Hu Hh Hs Hx Hd Hl Ha.
  destruct (open_ok ck dbase ext fs path unused h _ Hu Hh Hs dbf Hx Hd) as [r [Ho [E1 [E2 E3]]]].
  destruct (shapes_file ck leftover S p h l rest s Hl Ha) as [it [evs [Hi [He Hc]]]].
  exists r, it, evs. split; [exact Ho|]. split; [|split; assumption].
  unfold reader_geometries. rewrite E1, E2. exact Hi.
Qed.
Lemma open_bare : forall ck dbase ext fs path unused h body,
  length unused = 20 -> header_ok h -> fs_open fs path = Ok (header_bytes unused h ++ body) ->
  index_harmless ck fs (ext path "shx"%string) -> missing fs (ext path "dbf"%string) ->
  exists r, from_path ck dbase ext fs path = Ok r /\ sr_header r = h /\
    reader_features ck r = Err MissingDbf /\ read_records r = Err MissingDbf /\ dbf_fields r = Err MissingDbf.
Proof.
  intros * Hu Hh Hs Hx Hd.
  destruct (open_ok ck dbase ext fs path unused h _ Hu Hh Hs None Hx Hd) as [r [Ho [E1 [E2 E3]]]].
  exists r. unfold reader_features, read_records, dbf_fields. rewrite E3. repeat split; assumption.
Qed.
Lemma open_dbf : forall ck dbase ext fs path unused h body d,
  length unused = 20 -> header_ok h -> fs_open fs path = Ok (header_bytes unused h ++ body) ->
  index_harmless ck fs (ext path "shx"%string) -> attributes dbase fs (ext path "dbf"%string) (Some d) ->
  exists r names, from_path ck dbase ext fs path = Ok r /\ sr_header r = h /\
    (forall l, dr_read d = Ok l -> read_records r = Ok l) /\
    (forall e, dr_read d = Err e -> read_records r = Err DbaseError) /\
    dbf_fields r = Ok names /\
    (forall n, In n names <-> In n (dr_fields d) /\ n <> "DeletionFlag"%string) /\
    (~ In "DeletionFlag"%string (dr_fields d) -> names = dr_fields d).
Proof.
  intros * Hu Hh Hs Hx Hd.
  destruct (open_ok ck dbase ext fs path unused h _ Hu Hh Hs (Some d) Hx Hd) as [r [Ho [E1 [E2 E3]]]].
  eexists r, _. unfold read_records, dbf_fields. rewrite E3. split; [exact Ho|]. split; [exact E2|].
  split; [now intros l ->|]. split; [now intros e ->|]. split; [reflexivity|]. split.
  - intros n. rewrite filter_In. destruct (String.eqb_spec n "DeletionFlag"); cbn [negb]; intuition congruence.
  - intros Hn. clear - Hn. induction (dr_fields d) as [|a l IH]; [reflexivity|]. cbn [filter].
    destruct (String.eqb_spec a "DeletionFlag") as [->|Ha]; [destruct Hn; now left|]. cbn [negb]. f_equal.
    apply IH. intros H. apply Hn. now right.
Qed.
Lemma open_wrong : forall ck dbase ext fs path z rest, is_i32 z -> z <> 9994%Z ->
  fs_open fs path = Ok (be32 z ++ rest) -> from_path ck dbase ext fs path = Err InvalidFileCode.
Proof.
  intros * Hz Hn Hs. unfold from_path. cbv zeta. rewrite Hs. cbn [res_bind]. unfold reader_new.
  now rewrite (wrong_code_makes z rest Hz Hn).
Qed.
Lemma open_absent : forall ck dbase ext fs path e,
  fs_open fs path = Err e -> from_path ck dbase ext fs path = Err e.
Proof. intros * Hs. unfold from_path. cbv zeta. now rewrite Hs. Qed.
Lemma open_bad_dbf : forall ck dbase ext fs path unused h body b e,
  length unused = 20 -> header_ok h -> fs_open fs path = Ok (header_bytes unused h ++ body) ->
  index_harmless ck fs (ext path "shx"%string) -> holds fs (ext path "dbf"%string) b -> dbase b = Err e ->
  from_path ck dbase ext fs path = Err DbaseError.
Proof.
  intros * Hu Hh Hs Hx [H1 H2] He. unfold from_path. cbv zeta. rewrite Hs. cbn [res_bind].
  rewrite (new_ok unused h body Hu Hh). cbn [res_bind].
  destruct Hx as [->|[c [[-> ->] [l [rest Hm]]]]]; cbn [res_bind]; unfold add_index_source.
  - rewrite H1, H2. cbn [res_bind]. unfold add_dbf_source. now rewrite He.
  - unfold makes in Hm. rewrite Hm. cbn [snd res_bind]. rewrite H1, H2. cbn [res_bind]. unfold add_dbf_source. now rewrite He.
Qed.
(** a good shapefile with a damaged index *)
Lemma open_panics : forall ck dbase ext fs path unused h body,
  length unused = 20 -> header_ok h -> fs_open fs path = Ok (header_bytes unused h ++ body) ->
  holds fs (ext path "shx"%string) short_index -> from_path ck dbase ext fs path = Err EPanic.
Proof.
  intros * Hu Hh Hs Hx. apply (open_broken ck dbase ext fs path unused h body Hu Hh Hs short_index); [exact Hx|].
  rewrite panic_index. reflexivity.
Qed.
Lemma open_truncated_index : forall ck dbase ext fs path unused h body,
  length unused = 20 -> header_ok h -> fs_open fs path = Ok (header_bytes unused h ++ body) ->
  holds fs (ext path "shx"%string) [] -> from_path ck dbase ext fs path = Err EIo.
Proof.
  intros * Hu Hh Hs Hx. now apply (open_broken ck dbase ext fs path unused h body Hu Hh Hs []).
Qed.

(** a disk with the three files of [places] *)
Definition disk_dbf : dbf_reader :=
  mkDbf ["DeletionFlag"; "name"; "note"; "size"]%string (Ok (map en_record places)) (map (fun f => Ok (en_record f)) places) None.
Definition disk_ext (path ext : string) : string := String.append path (String.append "." ext).
Definition disk (path : string) : file_system :=
  mkFiles (fun _ => true)
    (fun q => if String.eqb q path then Ok (header_bytes (repeat x00 20) places_header ++ shp_body places)
              else if String.eqb q (disk_ext path "shx") then
                Ok (header_bytes (repeat x00 20) (mkHeader 54 (repeat f0 8) PolygonZ 1000) ++ index_bytes [(50, 20)%Z])
              else Ok []).
Lemma disk_fine : forall ck, let fs := disk "a" in
  fs_open fs "a" = Ok (header_bytes (repeat x00 20) places_header ++ shp_body places ++ []) /\
  index_harmless ck fs (disk_ext "a" "shx") /\
  attributes (fun _ => Ok disk_dbf) fs (disk_ext "a" "dbf") (Some disk_dbf) /\
  dr_records disk_dbf = map (fun f => Ok (en_record f)) places ++ [].
Proof.
  intros ck fs. split; [rewrite app_nil_r; reflexivity|]. split; [|split; [|now rewrite app_nil_r]].
  - right. eexists. split; [split; reflexivity|]. exists [(50, 20)%Z], []. destruct ck; vm_compute; reflexivity.
  - exists []. repeat split.
Qed.

Lemma no_data_value : exists s e m : N, NO_DATA = (s * 2 ^ 63 + e * 2 ^ 52 + m)%N /\ s = 1%N /\ (0 < e < 2047)%N /\ (m < 2 ^ 52)%N /\
  (2 * Z.abs ((2 ^ 52 + Z.of_N m) * 2 ^ (Z.of_N e - 1075) - 10 ^ 39) < 2 ^ (Z.of_N e - 1075))%Z.
Proof.
  exists 1%N, ((NO_DATA / 2 ^ 52) mod 2 ^ 11)%N, (NO_DATA mod 2 ^ 52)%N.
  split; [vm_compute; reflexivity|]. split; [reflexivity|]. split; [split; vm_compute; reflexivity|]. split; vm_compute; reflexivity.
Qed.
