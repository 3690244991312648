(** What the tessellator makes of every geometry (helper lemmas for C57). *)
From Coq Require Import String Ascii.
From Coq Require Import List NArith ZArith Lia Bool.
From Verif Require Import Base BaseLemmas Event EventLemmas Claims Geom TessModel TessSpec TessTop TessMore TessExactSpec.
Import ListNotations.
Local Open Scope list_scope.

Lemma threes_mod : forall l, threes l = if Nat.eqb (length l mod 3) 0 then Ok (faces l) else Err EPanic.
Proof.
  assert (X : forall n l, (length l <= n)%nat -> threes l = if Nat.eqb (length l mod 3) 0 then Ok (faces l) else Err EPanic).
  { induction n as [|n IH]; intros l L; [destruct l; [reflexivity|cbn in L; lia]|].
    destruct l as [|a [|b [|c l]]]; [reflexivity..|]. cbn [threes faces length] in *. rewrite IH by lia.
    replace (Datatypes.S (Datatypes.S (Datatypes.S (length l)))) with (length l + 1 * 3)%nat by lia.
    rewrite Nat.mod_add by lia. now destruct (Nat.eqb (length l mod 3) 0). }
  intros l. exact (X _ l (le_n _)).
Qed.

Section Exact.
  Variable narrow : f64 -> N.
  Variable ly : lyon.
  Notation W := (tessellator narrow ly).
  Notation ok := (fun c => point_ok ly (pos_of narrow c)).
  Definition st (h : held) : ts := mkTs (h_open h) (h_path h) (h_open h) (h_out h).
  Definition stands (ev : list event) (ps : list part) : Prop := forall h,
    match takes narrow ly ps h with
    | Ok h' => run W ev (st h) = (st h', Ok tt)
    | Err e => exists s, run W ev (st h) = (s, Err e)
    end.
  Lemma stands_nil : stands [] [].
  Proof. intros h. reflexivity. Qed.
  Lemma takes_app : forall a b h, takes narrow ly (a ++ b) h = then_ (takes narrow ly a h) (takes narrow ly b).
  Proof.
    induction a as [|p a IH]; intros b h; [reflexivity|]. cbn [app takes]. destruct (take narrow ly p h) as [h'|e]; cbn [then_]; [apply IH|reflexivity].
  Qed.
  Lemma stands_app : forall a b pa pb, stands a pa -> stands b pb -> stands (a ++ b) (pa ++ pb).
  Proof.
    intros a b pa pb A B h. rewrite takes_app. specialize (A h). rewrite run_app. destruct (takes narrow ly pa h) as [h'|e]; cbn [then_].
    - rewrite A. apply B.
    - destruct A as (s & ->). exists s. reflexivity.
  Qed.
  Definition silent (e : event) : bool :=
    match e with Xy _ _ _ | LineStringEnd _ _ | PolygonEnd _ _ | EmptyPoint _ => false | _ => true end.
  Lemma stands_silent : forall e ev ps, silent e = true -> stands ev ps -> stands (e :: ev) ps.
  Proof.
    intros e ev ps Q H h. specialize (H h). cbn [run].
    assert (X : p_step W (st h) e = (st h, Ok tt)) by (destruct e; try discriminate Q; reflexivity).
    rewrite X. exact H.
  Qed.
  Lemma stands_wrap : forall b ev e ps, silent b = true -> silent e = true -> stands ev ps -> stands (b :: ev ++ [e]) ps.
  Proof.
    intros b ev e ps B E H. apply stands_silent; [exact B|]. rewrite <- (app_nil_r ps). apply stands_app; [exact H|].
    apply stands_silent; [exact E|apply stands_nil].
  Qed.
  Lemma stands_flat : forall A (f : nat -> A -> list event) (q : A -> list part) l k,
    (forall k a, In a l -> stands (f k a) (q a)) -> stands (flat_mapi f k l) (flat_map q l).
  Proof.
    induction l as [|a l IH]; intros k H; cbn [flat_mapi flat_map]; [apply stands_nil|].
    apply stands_app; [apply H; now left|apply IH; intros; apply H; now right].
  Qed.

  (** positions after the first *)
  Lemma more : forall l k p o, (0 < k)%nat ->
    if checks ly && negb (forallb ok l)
    then exists s, run W (mapi (ev_coord false) k l) (mkTs true p true o) = (s, Err EPanic)
    else run W (mapi (ev_coord false) k l) (mkTs true p true o) =
         (mkTs true (p ++ map (fun d => PLine (pos_of narrow d)) l) true o, Ok tt).
  Proof.
    induction l as [|c l IH]; intros k p o K; cbn [mapi map forallb].
    - rewrite andb_false_r. cbn [run]. now rewrite app_nil_r.
    - destruct k as [|k]; [lia|]. cbn [run]. unfold ev_coord at 1 3. cbn [p_step tessellator tess_step Nat.eqb].
      unfold b_line. cbn [ts_open ts_path ts_started ts_out]. change (pos32 narrow (cx c) (cy c)) with (pos_of narrow c).
      cbn [andb]. specialize (IH (Datatypes.S (Datatypes.S k)) (p ++ [PLine (pos_of narrow c)]) o ltac:(lia)).
      destruct (checks ly); cbn [andb negb] in *.
      + destruct (point_ok ly (pos_of narrow c)); cbn [andb negb].
        * fold W. destruct (negb (forallb ok l)); [exact IH|]. rewrite IH, <- app_assoc. reflexivity.
        * eexists. reflexivity.
      + fold W. rewrite IH, <- app_assoc. reflexivity.
  Qed.
  Lemma stands_trace : forall l, stands (ev_coords false l) [Loose l].
  Proof.
    intros [|c l] h; [destruct h; reflexivity|]. cbn [takes take traced]. unfold ev_coords. cbn [mapi run].
    change (ev_coord false 0 c) with (Xy (cx c) (cy c) 0). cbn [p_step tessellator tess_step Nat.eqb]. unfold b_begin, st. cbn [set_started ts_open ts_path ts_started ts_out].
    change (pos32 narrow (cx c) (cy c)) with (pos_of narrow c). cbn [forallb].
    pose proof (more l 1 (h_path h ++ [PBegin (pos_of narrow c)]) (h_out h) ltac:(lia)) as X.
    destruct (checks ly); cbn [andb] in *.
    - destruct (h_open h); cbn [orb] in *; [eexists; reflexivity|].
      destruct (point_ok ly (pos_of narrow c)); cbn [andb negb] in *; [|eexists; reflexivity].
      fold W. destruct (negb (forallb ok l)); cbn [then_]; [exact X|]. rewrite X, <- app_assoc. reflexivity.
    - fold W. cbn [then_ takes]. rewrite X, <- app_assoc. reflexivity.
  Qed.
  Lemma close_run : forall h, close_started ly (st h) = (st (closed h), Ok tt).
  Proof.
    intros [p [|] o]; unfold close_started, st, closed; cbn; [|reflexivity]. unfold b_close. cbn. now rewrite andb_false_r.
  Qed.
  Lemma closed_open : forall h, h_open (closed h) = false.
  Proof. intros [p [|] o]; reflexivity. Qed.
  Lemma stands_line : forall t k l, stands (ev_line false t k l) [if t then Alone l else Sub l].
  Proof.
    intros t k l. unfold ev_line. apply stands_silent; [reflexivity|]. intros h. rewrite run_app.
    pose proof (stands_trace l h) as X. cbn [takes take] in X.
    assert (E : takes narrow ly [if t then Alone l else Sub l] h =
                then_ (traced narrow ly l h) (fun h => if t then stroked ly (closed h) else Ok (closed h))).
    { destruct t; cbn [takes take]; destruct (traced narrow ly l h) as [h'|e]; cbn [then_]; try reflexivity.
      destruct (stroked ly (closed h')); reflexivity. }
    rewrite E. clear E. destruct (traced narrow ly l h) as [h'|e]; cbn [then_] in *.
    - rewrite X. cbn [run p_step tessellator tess_step]. rewrite close_run. cbn [andthen]. destruct t; [|reflexivity].
      unfold tessellate_line, stroked, st, fresh. cbn [ts_open ts_path ts_started ts_out]. rewrite closed_open, andb_false_r.
      destruct (stroke ly (h_path (closed h'))); [reflexivity|eexists; reflexivity].
    - destruct X as (s & ->). exists s. reflexivity.
  Qed.
  Lemma stands_rings : forall r k, stands (flat_mapi (ev_line false false) k r) (rings_parts r).
  Proof.
    intros r k. unfold rings_parts. replace (map Sub r) with (flat_map (fun l => [Sub l]) r) by (induction r; cbn; congruence).
    apply stands_flat. intros k' l _. exact (stands_line false k' l).
  Qed.
  Lemma stands_polygon : forall t k r, stands (ev_polygon false t k r) (polygon_parts r).
  Proof.
    intros t k r. unfold ev_polygon, polygon_parts. apply stands_silent; [reflexivity|]. apply stands_app; [apply stands_rings|].
    intros h. cbn [takes take run p_step tessellator tess_step]. rewrite close_run. cbn [andthen].
    unfold tessellate_poly, filled, st. cbn [ts_open ts_path ts_started ts_out]. rewrite closed_open, andb_false_r.
    destruct (fill ly (h_path (closed h))) as [[vs idx]|e]; cbn [then_]; [|eexists; reflexivity].
    rewrite threes_mod. destruct (Nat.eqb (length idx mod 3) 0); cbn [then_]; [reflexivity|eexists; reflexivity].
  Qed.
  Lemma stands_arc : forall k l, stands (ev_arc false k l) [Loose l].
  Proof. intros. unfold ev_arc. apply stands_wrap; [reflexivity..|apply stands_trace]. Qed.
  Lemma stands_segment : forall k s, stands (ev_segment false k s) (segment_parts s).
  Proof. intros k [l|l]; [exact (stands_line false k l)|apply stands_arc]. Qed.
  Lemma stands_compound : forall k l, stands (ev_compound false k l) (flat_map segment_parts l).
  Proof. intros. unfold ev_compound. apply stands_wrap; [reflexivity..|]. apply stands_flat. intros; apply stands_segment. Qed.
  Lemma stands_curve : forall k c, stands (ev_curve false k c) (curve_parts c).
  Proof. intros k [l|l|l]; [exact (stands_line false k l)|apply stands_arc|apply stands_compound]. Qed.
  Lemma stands_curvepolygon : forall k l, stands (ev_curvepolygon false k l) (flat_map curve_parts l).
  Proof. intros. unfold ev_curvepolygon. apply stands_wrap; [reflexivity..|]. apply stands_flat. intros; apply stands_curve. Qed.
  Lemma stands_surface : forall k s, stands (ev_surface false k s) (surface_parts s).
  Proof. intros k [r|c]; [apply stands_polygon|apply stands_curvepolygon]. Qed.
  Lemma stands_triangle : forall t k r, stands (ev_triangle false t k r) (rings_parts r).
  Proof. intros. unfold ev_triangle. apply stands_wrap; [reflexivity..|apply stands_rings]. Qed.
  Lemma stands_geom : forall g k, stands (gevents false k g) (geom_parts g).
  Proof.
    induction g as [c| |l|l|l|l|l|l IH|l|l|l|l|l|l|l|l] using geom_ind'; intros k; cbn [gevents geom_parts].
    - apply (stands_wrap (PointBegin k) [_] (PointEnd k)); [reflexivity..|]. exact (stands_trace [c]).
    - intros h. eexists. reflexivity.
    - apply stands_wrap; [reflexivity..|apply stands_trace].
    - exact (stands_line true k l).
    - apply stands_wrap; [reflexivity..|apply stands_rings].
    - apply stands_polygon.
    - apply stands_wrap; [reflexivity..|]. apply stands_flat. intros; apply stands_polygon.
    - apply stands_wrap; [reflexivity..|]. generalize 0%nat. induction IH as [|a r A _ IHr]; intros i; [apply stands_nil|].
      cbn [flat_map]. apply stands_app; [apply A|apply IHr].
    - apply stands_arc.
    - apply stands_compound.
    - apply stands_curvepolygon.
    - apply stands_wrap; [reflexivity..|]. apply stands_flat. intros; apply stands_curve.
    - apply stands_wrap; [reflexivity..|]. apply stands_flat. intros; apply stands_surface.
    - apply stands_triangle.
    - apply stands_wrap; [reflexivity..|]. apply stands_flat. intros; apply stands_polygon.
    - apply stands_wrap; [reflexivity..|]. apply stands_flat. intros; apply stands_triangle.
  Qed.

  Lemma tess_exact : forall src g (r : unit), delivers src (fun multi => gevents multi 0 g) (Ok r) ->
    match takes narrow ly (geom_parts g) nothing with
    | Ok h => exec W (src xy_dims) ts_init = (mkTs (h_open h) (h_path h) (h_open h) (h_out h), Ok r)
    | Err e => exists s, exec W (src xy_dims) ts_init = (s, Err e)
    end.
  Proof.
    intros src g r D. specialize (D _ W ts_init). cbn [p_dims tessellator] in D. change (multi_dim xy_dims) with false in D.
    pose proof (stands_geom g 0 nothing) as X. change (st nothing) with ts_init in X. fold W in D.
    destruct (takes narrow ly (geom_parts g) nothing) as [h|e].
    - rewrite D. cbn [p_dims tessellator] in *. change (multi_dim xy_dims) with false. rewrite X. reflexivity.
    - destruct X as (s & X). exists s. rewrite D. cbn [p_dims tessellator] in *. change (multi_dim xy_dims) with false. rewrite X. reflexivity.
  Qed.
  (** features in a row *)
  Lemma tess_features : forall gs i h,
    match takes narrow ly (flat_map geom_parts gs) h with
    | Ok h' => run W (flat_mapi feature i gs) (mkTs (h_open h) (h_path h) (h_open h) (h_out h)) =
               (mkTs (h_open h') (h_path h') (h_open h') (h_out h'), Ok tt)
    | Err e => exists s, run W (flat_mapi feature i gs) (mkTs (h_open h) (h_path h) (h_open h) (h_out h)) = (s, Err e)
    end.
  Proof.
    intros gs i. apply (stands_flat geom feature geom_parts). intros k g _. unfold feature.
    assert (S : stands (gevents false 0 g) (geom_parts g)) by apply stands_geom.
    do 4 (apply stands_silent; [reflexivity|]). rewrite <- (app_nil_r (geom_parts g)). apply stands_app; [exact S|].
    do 2 (apply stands_silent; [reflexivity|]). apply stands_nil.
  Qed.
End Exact.
