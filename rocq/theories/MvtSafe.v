(** No panic when arbitrary bytes are decoded into a MvtWriter (the counterpart of GeoSafe.v). *)
From Coq Require Import String Ascii.
From Coq Require Import List NArith ZArith Lia Bool.
From Coq Require Import Init.Byte.
From Verif Require Import Base BaseLemmas Float Event EventLemmas Claims Geom ProcModel ProcTop.
From Verif Require Import WkbModel.
From Verif Require GeoModel.
From Verif Require Import MvtModel MvtSpec MvtTop.
Import ListNotations.
Local Open Scope N_scope.
Local Open Scope list_scope.

Section Safe.
  Variable gsize : N.
  Variable base64 : list byte -> string.
  Variable debug : bool.
  Variable cfg : mcfg.
  Notation W := (mvt_writer gsize base64 debug cfg).

  Definition calm (e : error) : Prop := e <> EPanic /\ e <> EFuel.
  Definition safe {A} (P : mw -> Prop) (f : rd A) (Q : mw -> Prop) : Prop := forall b s, P s ->
    match exec W (f b) s with (s', Ok _) => Q s' | (_, Err e) => calm e end.

  Lemma safe_ret : forall A (a : A) P, safe P (rret a) P.
  Proof. intros A a P b s H. exact H. Qed.
  Lemma safe_fail : forall A e P Q, calm e -> safe P (@rfail A e) Q.
  Proof. intros A e P Q H b s _. exact H. Qed.
  Lemma safe_bind : forall A B (f : rd A) (g : A -> rd B) P Q R,
    safe P f Q -> (forall a, safe Q (g a) R) -> safe P (rbind f g) R.
  Proof.
    intros A B f g P Q R Hf Hg b s Hs. unfold rbind. rewrite exec_pbind. specialize (Hf b s Hs).
    destruct (exec W (f b) s) as [s' [[a rest]|e]]; [|exact Hf]. apply Hg. exact Hf.
  Qed.
  Lemma safe_call : forall e (P Q : mw -> Prop), (forall s, P s -> match mvt_step gsize debug cfg s e with
                                            | (s', Ok _) => Q s' | (_, Err x) => calm x end) -> safe P (rcall e) Q.
  Proof.
    intros e P Q H b s Hs. cbn. specialize (H s Hs). destruct (mvt_step gsize debug cfg s e) as [s' [u|x]]; exact H.
  Qed.
  Lemma safe_take : forall n P, safe P (rtake n) P.
  Proof. intros n P b s Hs. unfold rtake. destruct (Nat.ltb _ _); cbn; [split; discriminate|exact Hs]. Qed.
  Lemma safe_map : forall A B (h : A -> B) f P Q, safe P f Q -> safe P (rmap h f) Q.
  Proof. intros. eapply safe_bind; [eassumption|]. intros. apply safe_ret. Qed.
  Lemma safe_for : forall (f : nat -> rd unit) P n i, (forall k, safe P (f k) P) -> safe P (rfor f n i) P.
  Proof.
    intros f P n. induction n as [|n IH]; intros i H; cbn; [apply safe_ret|].
    eapply safe_bind; [apply H|]. intros _. apply IH, H.
  Qed.
  Lemma safe_u8 : forall P, safe P r_u8 P. Proof. intros. apply safe_map, safe_take. Qed.
  Lemma safe_u32 : forall e P, safe P (r_u32 e) P. Proof. intros. apply safe_map, safe_take. Qed.
  Lemma safe_i32 : forall e P, safe P (r_i32 e) P. Proof. intros. apply safe_map, safe_u32. Qed.
  Lemma safe_f64 : forall e P, safe P (r_f64 e) P. Proof. intros. apply safe_map, safe_take. Qed.
  Lemma safe_f32 : forall e P, safe P (r_f32 e) P. Proof. intros. apply safe_map, safe_take. Qed.
  Lemma safe_f64s : forall e n P, safe P (r_f64s e n) P.
  Proof.
    intros e n P. induction n as [|n IH]; cbn; [apply safe_ret|].
    eapply safe_bind; [apply safe_f64|]. intros. eapply safe_bind; [apply IH|]. intros. apply safe_ret.
  Qed.
  Ltac hdr := repeat (first
    [ eapply safe_bind; [first [apply safe_u8 | apply safe_u32 | apply safe_i32 | apply safe_f64s]|intros]
    | apply safe_ret | apply safe_fail; split; discriminate
    | match goal with |- safe _ (if ?c then _ else _) _ => destruct c end
    | match goal with |- safe _ (match ?c with Ok _ => _ | Err _ => _ end) _ => destruct c eqn:? end ]).
  Lemma safe_wkb_header : forall P, safe P read_wkb_header P.
  Proof. intros. unfold read_wkb_header. hdr. Qed.
  Lemma safe_ewkb_header : forall P, safe P read_ewkb_header P.
  Proof.
    intros. unfold read_ewkb_header. hdr. eapply safe_bind; [|intros; apply safe_ret].
    destruct (has_flag _ _); [apply safe_map, safe_i32|apply safe_ret].
  Qed.
  Lemma gpkg_err : forall n e, gpkg_env_len n = Err e -> e = EGeometryFormat.
  Proof. intros n e. unfold gpkg_env_len. destruct n as [|[[[p|p|]|[p|p|]|]|[[p|p|]|[p|p|]|]|]]; try discriminate; congruence. Qed.
  Lemma safe_header : forall dl P, safe P (read_header dl) P.
  Proof.
    intros [] P; cbn [read_header].
    - apply safe_wkb_header.
    - apply safe_ewkb_header.
    - unfold read_gpkg_header. hdr.
      + eapply safe_bind; [apply safe_wkb_header|]. intros. apply safe_ret.
      + apply safe_fail. rewrite (gpkg_err _ _ Heqr). split; discriminate.
    - unfold read_mysql_header. hdr. eapply safe_bind; [apply safe_wkb_header|]. intros. hdr.
    - unfold read_spatialite_header. hdr.
  Qed.
  Lemma safe_nested : forall dl i P, safe P (nested_header dl i) P.
  Proof.
    intros [] i P; cbn [nested_header]; try apply safe_wkb_header; try apply safe_ewkb_header.
    unfold read_spatialite_nested_header. hdr.
  Qed.

  (** what is open: coordinates, line strings, polygons *)
  Definition some {A} (o : option A) : bool := match o with Some _ => true | None => false end.
  Definition shape (k l p : bool) (s : mw) : Prop :=
    some (mw_coords s) = k /\ some (mw_lines s) = l /\ some (mw_polys s) = p.

  Lemma finish_shape : forall k l p s g, shape k l p s ->
    match mfinish s g with (s', Ok _) => shape k l p s' | (_, Err x) => calm x end.
  Proof. intros k l p s g H. unfold mfinish. destruct (mw_coll s); exact H. Qed.

  Lemma ordinate_safe : forall b i P, safe P (read_coord_as b i) P.
  Proof.
    intros b i P. unfold read_coord_as. set (o := if b then _ else _).
    assert (O : safe P o P) by (subst o; destruct b; [apply safe_map, safe_f32|apply safe_f64]).
    eapply safe_bind; [exact O|]. intros. eapply safe_bind; [exact O|]. intros.
    eapply safe_bind; [destruct (i_z i); [apply safe_map, O|apply safe_ret]|]. intros.
    eapply safe_bind; [destruct (i_m i); [apply safe_map, safe_f64|apply safe_ret]|]. intros. apply safe_ret.
  Qed.
  Lemma xy_shape : forall k l p s x y, shape k l p s ->
    match m_xy cfg s x y with (s', Ok _) => shape k l p s' | (_, Err x) => calm x end.
  Proof.
    intros k l p s x y [H1 [H2 H3]]. unfold m_xy. destruct (mw_coords s); [|split; discriminate].
    unfold shape. cbn. auto.
  Qed.
  Lemma emit_safe : forall mu j c k l p, safe (shape k l p) (emit_coord mu j c) (shape k l p).
  Proof.
    intros mu j [[[x y] z] m] k l p. unfold emit_coord. eapply safe_bind; [|intros; apply safe_ret].
    apply safe_call. intros s H. destruct mu; [exact H|apply (xy_shape k l p s x y H)].
  Qed.
  Lemma coord_safe : forall mu i j k l p, safe (shape k l p) (process_coord mu i j) (shape k l p).
  Proof. intros. eapply safe_bind; [apply ordinate_safe|]. intros. apply emit_safe. Qed.
  Lemma comp_safe : forall mu i j c k l p, safe (shape k l p) (process_compressed_coord mu i j c) (shape k l p).
  Proof.
    intros. unfold process_compressed_coord. eapply safe_bind; [apply ordinate_safe|]. intros [[[rx ry] rz] rm].
    destruct c as [[[px py] pz] pm]. destruct mu.
    - eapply safe_bind; [|intros; apply safe_ret]. apply safe_call. intros s H. exact H.
    - eapply safe_bind; [|intros; apply safe_ret]. apply safe_call. intros s H. apply xy_shape, H.
  Qed.
  Lemma comp_loop_safe : forall mu i n j c k l p, safe (shape k l p) (compressed_loop mu i n j c) (shape k l p).
  Proof.
    induction n as [|n IH]; intros; cbn; [apply safe_ret|]. eapply safe_bind; [apply comp_safe|]. intros. apply IH.
  Qed.
  Lemma coords_safe : forall mu i n k l p, safe (shape k l p) (process_coords mu i n) (shape k l p).
  Proof.
    intros. unfold process_coords. apply safe_for. intros. eapply safe_bind; [apply coord_safe|]. intros. apply safe_ret.
  Qed.

  (** begin: the announced size may be refused, otherwise the buffer opens *)
  Lemma begin_coords : forall e l p,
    (exists t sz j, e = LineStringBegin t sz j) \/ (exists sz j, e = MultiPointBegin sz j) ->
    safe (shape false l p) (rcall e) (shape true l p).
  Proof.
    intros e l p He. apply safe_call. intros s [H1 [H2 H3]].
    destruct (mw_coords s) eqn:K; [discriminate|].
    destruct He as [[t [sz [j ->]]]|[sz [j ->]]]; cbn; rewrite K; cbn;
      unfold massert; rewrite andb_false_r; unfold mreserve, GeoModel.bounded_vec, GeoModel.validate_capacity;
      destruct (_ <? _); first [split; discriminate | unfold shape; cbn; auto].
  Qed.
  Lemma end_line : forall t j l p, safe (shape true l p) (rcall (LineStringEnd t j)) (shape false l p).
  Proof.
    intros t j l p. apply safe_call. intros s [H1 [H2 H3]]. cbn. destruct (mw_coords s) as [c|]; [|split; discriminate].
    assert (X : shape false l p (mset_coords s None)) by (unfold shape; cbn; auto).
    destruct t; [destruct (Nat.leb _ _); [split; discriminate|exact (finish_shape _ _ _ _ _ X)]|]. cbn. destruct (mw_lines s); [|split; discriminate].
    unfold shape. cbn. cbn in H2. auto.
  Qed.
  Lemma plain_call : forall e k l p, (forall s, mvt_step gsize debug cfg s e = (s, Ok tt)) -> safe (shape k l p) (rcall e) (shape k l p).
  Proof. intros e k l p H. apply safe_call. intros s Hs. rewrite H. exact Hs. Qed.

  Lemma line_safe : forall mu i t j l p, safe (shape false l p) (process_linestring mu i t j) (shape false l p).
  Proof.
    intros. unfold process_linestring. eapply safe_bind; [apply safe_u32|]. intros n.
    eapply safe_bind; [apply begin_coords; left; eauto|]. intros _.
    eapply safe_bind; [|intros _; apply end_line].
    destruct (i_compressed i && Nat.ltb 0 (N.to_nat n)).
    - eapply safe_bind; [apply coord_safe|]. intros. eapply safe_bind; [apply comp_loop_safe|]. intros.
      eapply safe_bind; [apply coord_safe|]. intros. apply safe_ret.
    - apply coords_safe.
  Qed.
  Lemma arc_safe : forall mu i j l p, safe (shape false l p) (process_circularstring mu i j) (shape false l p).
  Proof.
    intros. unfold process_circularstring. eapply safe_bind; [apply safe_u32|]. intros n.
    eapply safe_bind; [apply plain_call; reflexivity|]. intros _.
    eapply safe_bind; [apply coords_safe|]. intros _. apply plain_call; reflexivity.
  Qed.
  Lemma begin_lines : forall e p,
    (exists t sz j, e = PolygonBegin t sz j) \/ (exists sz j, e = MultiLineStringBegin sz j) ->
    safe (shape false false p) (rcall e) (shape false true p).
  Proof.
    intros e p He. apply safe_call. intros s [H1 [H2 H3]].
    destruct (mw_lines s) eqn:K; [discriminate|].
    destruct He as [[t [sz [j ->]]]|[sz [j ->]]]; cbn; rewrite K; cbn;
      unfold massert; rewrite andb_false_r; unfold mreserve, GeoModel.bounded_vec, GeoModel.validate_capacity;
      destruct (_ <? _); first [split; discriminate | unfold shape; cbn; auto].
  Qed.
  Lemma poly_safe : forall mu i t j p, safe (shape false false p) (process_polygon mu i t j) (shape false false p).
  Proof.
    intros. unfold process_polygon. eapply safe_bind; [apply safe_u32|]. intros n.
    eapply safe_bind; [apply begin_lines; left; eauto|]. intros _.
    eapply safe_bind; [apply safe_for; intros; apply line_safe|]. intros _.
    apply safe_call. intros s [H1 [H2 H3]]. cbn. destruct (mw_lines s) as [ls|]; [|split; discriminate].
    assert (X : shape false false p (mset_lines s None)) by (unfold shape; cbn; auto).
    destruct ls as [|e0 i0]; [split; discriminate|]. match goal with |- context [if ?c then _ else _] => destruct c; [split; discriminate|] end.
    destruct t; [exact (finish_shape _ _ _ _ _ X)|]. cbn. destruct (mw_polys s); [|split; discriminate].
    unfold shape. cbn. cbn in H3. auto.
  Qed.
  Lemma tri_safe : forall mu i t j p, safe (shape false false p) (process_triangle mu i t j) (shape false false p).
  Proof.
    intros. unfold process_triangle. eapply safe_bind; [apply safe_u32|]. intros n.
    eapply safe_bind; [apply plain_call; reflexivity|]. intros _.
    eapply safe_bind; [apply safe_for; intros; apply line_safe|]. intros _. apply plain_call; reflexivity.
  Qed.

  Notation idle := (shape false false false).
  Variable dl : dialect.
  Notation rh := (nested_header dl).

  Lemma compound_safe : forall mu i j d, safe idle (process_compoundcurve mu rh i j d) idle.
  Proof.
    intros. unfold process_compoundcurve. destruct (Nat.ltb _ _); [apply safe_fail; split; discriminate|].
    eapply safe_bind; [apply safe_u32|]. intros n. eapply safe_bind; [apply plain_call; reflexivity|]. intros _.
    eapply safe_bind; [|intros _; apply plain_call; reflexivity]. apply safe_for. intros k.
    eapply safe_bind; [apply safe_nested|]. intros ci.
    destruct (i_type ci); try (apply safe_fail; split; discriminate); [apply line_safe|apply arc_safe].
  Qed.
  Lemma curve_safe : forall mu i j d, safe idle (process_curve mu rh i j d) idle.
  Proof.
    intros. unfold process_curve. eapply safe_bind; [apply safe_nested|]. intros ci.
    destruct (i_type ci); try (apply safe_fail; split; discriminate); [apply line_safe|apply arc_safe|apply compound_safe].
  Qed.
  Lemma curvepoly_safe : forall mu i j d, safe idle (process_curvepolygon mu rh i j d) idle.
  Proof.
    intros. unfold process_curvepolygon. destruct (Nat.ltb _ _); [apply safe_fail; split; discriminate|].
    eapply safe_bind; [apply safe_u32|]. intros n. eapply safe_bind; [apply plain_call; reflexivity|]. intros _.
    eapply safe_bind; [|intros _; apply plain_call; reflexivity]. apply safe_for. intros. apply curve_safe.
  Qed.
  Lemma begin_polys : forall sz j, safe idle (rcall (MultiPolygonBegin sz j)) (shape false false true).
  Proof.
    intros sz j. apply safe_call. intros s [H1 [H2 H3]]. destruct (mw_polys s) eqn:K; [discriminate|].
    cbn; rewrite K; cbn;
      unfold massert; rewrite andb_false_r; unfold mreserve, GeoModel.bounded_vec, GeoModel.validate_capacity;
      destruct (_ <? _); first [split; discriminate | unfold shape; cbn; auto].
  Qed.

  Lemma point_safe : forall mu j c, safe idle (rcall (PointBegin j) ;;; emit_coord mu 0 c ;;; rcall (PointEnd j)) idle.
  Proof.
    intros mu j [[[x y] z] m] b s [H1 [H2 H3]].
    destruct s as [F R G C P L K]. cbn in H1, H2, H3. destruct K; [discriminate|]. cbn.
    unfold massert. rewrite andb_false_r. cbn.
    destruct mu; cbn; destruct C; cbn; unfold shape; cbn; first [split; discriminate|auto].
  Qed.

  Lemma geom_safe : forall fuel mu i j d, (d + fuel >= 130)%nat -> (fuel >= 1)%nat ->
    safe idle (process_geom_n fuel mu rh i j d) idle.
  Proof.
    induction fuel as [|fuel IH]; intros mu i j d F1 F2; [lia|].
    cbn [process_geom_n]. destruct (Nat.ltb max_nesting_depth d) eqn:D; [apply safe_fail; split; discriminate|].
    apply Nat.ltb_ge in D. unfold max_nesting_depth in D.
    destruct (i_type i); try (apply safe_fail; split; discriminate).
    - eapply safe_bind; [apply ordinate_safe|]. intros [[[x y] z] m].
      destruct (_ && _); [apply safe_call; intros; split; discriminate|]. apply point_safe.
    - apply line_safe.
    - apply poly_safe.
    - eapply safe_bind; [apply safe_u32|]. intros n. eapply safe_bind; [apply begin_coords; right; eauto|]. intros _.
      eapply safe_bind.
      + apply safe_for. intros k. eapply safe_bind; [apply safe_nested|]. intros. eapply safe_bind; [apply coord_safe|]. intros. apply safe_ret.
      + intros _. apply safe_call. intros s [H1 [H2 H3]]. cbn. destruct (mw_coords s); [|split; discriminate].
        apply finish_shape. unfold shape. cbn. auto.
    - eapply safe_bind; [apply safe_u32|]. intros n. eapply safe_bind; [apply begin_lines; right; eauto|]. intros _.
      eapply safe_bind.
      + apply safe_for. intros k. eapply safe_bind; [apply safe_nested|]. intros. apply line_safe.
      + intros _. apply safe_call. intros s [H1 [H2 H3]]. cbn. destruct (mw_lines s); [|split; discriminate].
        destruct (existsb _ _); [split; discriminate|]. apply finish_shape. unfold shape. cbn. auto.
    - eapply safe_bind; [apply safe_u32|]. intros n. eapply safe_bind; [apply begin_polys|]. intros _.
      eapply safe_bind.
      + apply safe_for. intros k. eapply safe_bind; [apply safe_nested|]. intros. apply poly_safe.
      + intros _. apply safe_call. intros s [H1 [H2 H3]]. cbn. destruct (mw_polys s); [|split; discriminate].
        apply finish_shape. unfold shape. cbn. auto.
    - eapply safe_bind; [apply safe_u32|]. intros n. eapply safe_bind.
      + apply (safe_call _ idle idle). intros s H. cbn. unfold GeoModel.bounded_vec, GeoModel.validate_capacity.
        destruct (_ <? _); [split; discriminate|]. exact H.
      + intros _. eapply safe_bind.
        * apply safe_for. intros k. eapply safe_bind; [apply safe_nested|]. intros. apply IH; lia.
        * intros _. apply safe_call. intros s H. cbn. destruct (mw_coll s); [split; discriminate|]. apply finish_shape. exact H.
    - apply arc_safe.
    - apply compound_safe.
    - apply curvepoly_safe.
    - eapply safe_bind; [apply safe_u32|]. intros n. eapply safe_bind; [apply plain_call; reflexivity|]. intros _.
      eapply safe_bind; [|intros _; apply plain_call; reflexivity]. apply safe_for. intros. apply curve_safe.
    - eapply safe_bind; [apply safe_u32|]. intros n. eapply safe_bind; [apply plain_call; reflexivity|]. intros _.
      eapply safe_bind; [|intros _; apply plain_call; reflexivity]. apply safe_for. intros k.
      eapply safe_bind; [apply safe_nested|]. intros ci.
      destruct (i_type ci); try (apply safe_fail; split; discriminate); [apply poly_safe|apply curvepoly_safe].
    - eapply safe_bind; [apply safe_u32|]. intros n. eapply safe_bind; [apply plain_call; reflexivity|]. intros _.
      eapply safe_bind; [|intros _; apply plain_call; reflexivity]. apply safe_for. intros k.
      eapply safe_bind; [apply safe_nested|]. intros. apply poly_safe.
    - eapply safe_bind; [apply safe_u32|]. intros n. eapply safe_bind; [apply plain_call; reflexivity|]. intros _.
      eapply safe_bind; [|intros _; apply plain_call; reflexivity]. apply safe_for. intros k.
      eapply safe_bind; [apply safe_nested|]. intros. apply tri_safe.
    - apply tri_safe.
  Qed.

  Lemma process_safe : forall d, safe idle (process_wkb_type_geom dl d) idle.
  Proof.
    intros d. unfold process_wkb_type_geom. eapply safe_bind; [apply safe_header|]. intros i.
    eapply safe_bind; [apply plain_call; reflexivity|]. intros _. apply geom_safe; unfold geom_fuel; lia.
  Qed.
End Safe.

Lemma mvt_from_wkb_no_panic : forall gsize base64 debug dl b,
  mvt_from_wkb gsize base64 debug dl b <> Err EPanic /\ mvt_from_wkb gsize base64 debug dl b <> Err EFuel.
Proof.
  intros gsize base64 debug dl b. unfold mvt_from_wkb, to_mvt_unscaled. cbn [mvt_unscaled N.eqb].
  match goal with |- context [mvt_writer gsize base64 debug ?c] => set (cfg := c) end.
  pose proof (process_safe gsize base64 debug cfg dl xy_dims b mw_init) as H.
  assert (I : shape false false false mw_init) by (unfold shape; cbn; auto). specialize (H I).
  destruct (exec (mvt_writer gsize base64 debug cfg) (process_wkb_type_geom dl xy_dims b) mw_init) as [s [[u rest]|e]].
  - unfold into_feature. destruct (mtake s) as [s' [g|]]; split; discriminate.
  - destruct H. split; congruence.
Qed.
