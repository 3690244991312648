(** More proofs about the tessellator (helper lemmas for C57). *)
From Coq Require Import String Ascii.
From Coq Require Import List NArith ZArith Lia Bool.
From Verif Require Import Base BaseLemmas Event EventLemmas Claims Geom TessModel TessSpec TessTop.
Import ListNotations.
Local Open Scope N_scope.
Local Open Scope list_scope.

Section More.
  Variable narrow : f64 -> N.
  Variable ly : lyon.
  Notation w := (tessellator narrow ly).
  (** the callbacks of a dataset of features without properties *)
  Definition feature (i : nat) (g : geom) : list event :=
    FeatureBegin i :: PropertiesBegin :: PropertiesEnd :: GeometryBegin :: gevents false 0 g ++
    [GeometryEnd; FeatureEnd i].
  Lemma features_run : forall gs i o, Forall (fun g => areal g = true /\ accepted narrow ly g) gs ->
    run w (flat_mapi feature i gs) (mkTs false [] false o) =
    (mkTs false [] false (o ++ flat_map (drawn narrow ly) (flat_map areas gs)), Ok tt).
  Proof.
    induction gs as [|g gs IH]; intros i o H; cbn [flat_mapi flat_map]; [now rewrite app_nil_r|].
    inversion H as [|? ? [A F] H']; subst. rewrite run_app. unfold feature at 1. cbn [run p_step tessellator tess_step default_step].
    fold w. rewrite run_app, fine_run by (exact A || now apply accepted_fine). cbn [run p_step tessellator tess_step default_step].
    fold w. rewrite IH by exact H'. now rewrite flat_map_app, app_assoc.
  Qed.
  Lemma tessellates : forall src g (r : unit), areal g = true -> accepted narrow ly g ->
    delivers src (fun multi => gevents multi 0 g) (Ok r) ->
    exec w (src xy_dims) ts_init = (mkTs false [] false (flat_map (drawn narrow ly) (areas g)), Ok r).
  Proof.
    intros src g r A F D. specialize (D _ w ts_init). cbn [p_dims tessellator] in D. fold w in D. rewrite D.
    change (multi_dim xy_dims) with false. unfold ts_init. rewrite fine_run by (exact A || now apply accepted_fine). reflexivity.
  Qed.
  (** what lines leave goes into the next polygon *)
  Lemma residue : forall ls i r k vs idx o, Forall (Forall (fun c => point_ok ly (pos_of narrow c) = true)) ls ->
    Forall (Forall (fun c => point_ok ly (pos_of narrow c) = true)) r ->
    fill ly (area_path narrow ls ++ area_path narrow r) = Ok (vs, idx) -> (exists n, length idx = (3 * n)%nat) ->
    run w (gevents false i (GMultiLineString ls) ++ gevents false k (GPolygon r)) (mkTs false [] false o) =
    (mkTs false [] false (o ++ map OVertex vs ++ faces idx), Ok tt).
  Proof.
    intros ls i r k vs idx o H1 H2 F L. rewrite run_app. cbn [gevents run p_step tessellator tess_step default_step]. fold w.
    rewrite run_app, rings_run by exact H1. cbn [run p_step tessellator tess_step default_step app].
    now apply poly_run.
  Qed.
  Lemma point_then : forall c d l r i k o, point_ok ly (pos_of narrow c) = true -> checks ly = true ->
    snd (run w (gevents false i (GPoint c) ++ gevents false k (GPolygon ((d :: l) :: r))) (mkTs false [] false o)) = Err EPanic.
  Proof.
    intros c d l r i k o Hc Ch. rewrite run_app. cbn [gevents run p_step tessellator tess_step default_step]. fold w.
    unfold ev_coord. cbn [tess_step Nat.eqb]. unfold b_begin. cbn [set_started ts_open ts_started ts_path ts_out].
    change (pos32 narrow (cx c) (cy c)) with (pos_of narrow c). rewrite Hc. cbn [orb negb]. rewrite andb_false_r.
    unfold ev_polygon. cbn. unfold b_begin. cbn [set_started ts_open]. rewrite Ch. reflexivity.
  Qed.
  Lemma fill_fails : forall r i t o e, Forall (Forall (fun c => point_ok ly (pos_of narrow c) = true)) r ->
    fill ly (area_path narrow r) = Err e ->
    snd (run w (ev_polygon false t i r) (mkTs false [] false o)) = Err EPanic.
  Proof.
    intros r i t o e H F. unfold ev_polygon. cbn [run p_step tessellator tess_step default_step]. fold w.
    rewrite run_app, rings_run by exact H. cbn [run p_step tessellator tess_step]. unfold close_started. cbn [ts_started andthen].
    unfold tessellate_poly. cbn [ts_open ts_path ts_out ts_started app]. rewrite andb_false_r, F. reflexivity.
  Qed.
  Lemma stroke_fails : forall l i o e, Forall (fun c => point_ok ly (pos_of narrow c) = true) l ->
    stroke ly (ring_path narrow l) = Err e ->
    snd (run w (ev_line false true i l) (mkTs false [] false o)) = Err EPanic.
  Proof.
    intros l i o e H St. unfold ev_line. cbn [run p_step tessellator tess_step default_step]. fold w. destruct l as [|c l].
    - cbn [ev_coords mapi app run p_step tessellator tess_step]. unfold close_started. cbn [ts_started andthen].
      unfold tessellate_line. cbn [ts_open ts_path]. rewrite andb_false_r. cbn [ring_path] in St. rewrite St. reflexivity.
    - rewrite run_app, coords_run by exact H. cbn [run p_step tessellator tess_step]. unfold close_started. cbn [ts_started].
      unfold b_close. cbn [set_started ts_open ts_path ts_out ts_started negb]. rewrite andb_false_r. cbn [andthen].
      unfold tessellate_line. cbn [ts_open ts_path app]. rewrite andb_false_r.
      cbn [ring_path] in St. cbn [app] in *. rewrite St. reflexivity.
  Qed.
  (** triangles of TINs are not filled *)
  Lemma tin_silent : forall l i k o, Forall (Forall (Forall (fun c => point_ok ly (pos_of narrow c) = true))) l ->
    exists E, run w (gevents false i (GTin l)) (mkTs false k false o) = (mkTs false (k ++ E) false o, Ok tt).
  Proof.
    intros l i k o H. cbn [gevents run p_step tessellator tess_step default_step]. fold w. rewrite run_app.
    assert (G : forall l j k, Forall (Forall (Forall (fun c => point_ok ly (pos_of narrow c) = true))) l ->
      exists E, run w (flat_mapi (ev_triangle false false) j l) (mkTs false k false o) = (mkTs false (k ++ E) false o, Ok tt)).
    { clear. induction l as [|r l IH]; intros j k H; [exists []; cbn; now rewrite app_nil_r|].
      inversion H; subst. cbn [flat_mapi]. rewrite run_app. unfold ev_triangle at 1. cbn [run p_step tessellator tess_step default_step].
      fold w. rewrite run_app, rings_run by assumption. cbn [run p_step tessellator tess_step default_step]. fold w.
      destruct (IH (S j) (k ++ area_path narrow r) ltac:(assumption)) as [E ->]. exists (area_path narrow r ++ E). now rewrite app_assoc. }
    destruct (G l 0%nat k H) as [E ->]. exists E. reflexivity.
  Qed.
End More.

(** ** OBJ *)
Section Obj.
  Variable oc : bool.
  Lemma obj_app : forall a b x y, obj_lines oc a = Ok x -> obj_lines oc b = Ok y -> obj_lines oc (a ++ b) = Ok (x ++ y).
  Proof.
    induction a as [|o a IH]; intros b x y A B; cbn in *; [injection A as <-; exact B|].
    destruct (obj_of oc o); [|discriminate]. destruct (obj_lines oc a) as [t|] eqn:E; [|discriminate]. injection A as <-.
    rewrite (IH b t y eq_refl B). reflexivity.
  Qed.
  Definition vlines (vs : list point32) : list obj_line := map (fun p => OV (fst p) (snd p) 0) vs.
  Fixpoint flines (l : list N) : list obj_line :=
    match l with a :: b :: c :: r => OF (a + 1) (b + 1) (c + 1) :: flines r | _ => [] end.
  Lemma obj_vertices : forall vs, obj_lines oc (map OVertex vs) = Ok (vlines vs).
  Proof. induction vs as [|[x y] vs IH]; cbn; [reflexivity|]. rewrite IH. reflexivity. Qed.
  Lemma three_ind : forall (P : list N -> Prop), (forall l, (length l < 3)%nat -> P l) ->
    (forall a b c r, P r -> P (a :: b :: c :: r)) -> forall l, P l.
  Proof.
    intros P H0 H3. assert (G : forall n l, (length l <= n)%nat -> P l).
    { induction n as [|n IH]; intros l L; [apply H0; lia|]. destruct l as [|a [|b [|c r]]]; try (apply H0; cbn; lia).
      apply H3, IH. cbn in L. lia. }
    intros l. exact (G (length l) l (le_n _)).
  Qed.
  Lemma next_small : forall i, i < 65535 -> next16 oc i = Ok (i + 1).
  Proof. intros i H. unfold next16. destruct (N.ltb_spec (i + 1) (2 ^ 16)) as [L|L]; [reflexivity|]. change (2 ^ 16) with 65536 in L. lia. Qed.
  Lemma obj_faces : forall l, Forall (fun i => i < 65535) l -> obj_lines oc (faces l) = Ok (flines l).
  Proof.
    refine (three_ind _ _ _).
    - intros [|a [|b [|c l]]] L H; cbn in L; try lia; reflexivity.
    - intros a b c r IH H. inversion H as [|? ? Ha H1]; subst. inversion H1 as [|? ? Hb H2]; subst. inversion H2 as [|? ? Hc H3]; subst.
      cbn [faces obj_lines obj_of flines]. rewrite !next_small by assumption. rewrite (IH H3). reflexivity.
  Qed.
  Lemma vertices_app : forall a b, vertices (a ++ b) = vertices a ++ vertices b.
  Proof. intros. apply flat_map_app. Qed.
  Lemma vertices_v : forall vs, vertices (vlines vs) = vs.
  Proof. induction vs as [|[x y] vs IH]; [reflexivity|]. change (vertices (vlines ((x, y) :: vs))) with ((x, y) :: vertices (vlines vs)). now rewrite IH. Qed.
  Lemma vertices_f : forall l, vertices (flines l) = [].
  Proof. refine (three_ind _ _ _); [intros [|a [|b [|c l]]] L; cbn in L; try lia; reflexivity|]. intros a b c r IH. exact IH. Qed.
  (** the faces of [l] looked up in [all] *)
  Definition look (all : list point32) (l : list obj_line) :=
    flat_map (fun o => match o with OF a b c => [(vertex_no all a, vertex_no all b, vertex_no all c)] | OV _ _ _ => [] end) l.
  Lemma look_v : forall all vs, look all (vlines vs) = [].
  Proof. intros all vs. induction vs as [|p vs IH]; cbn; [reflexivity|exact IH]. Qed.
  Lemma number : forall all i, vertex_no all (i + 1) = nth_error all (N.to_nat i).
  Proof.
    intros all i. unfold vertex_no. destruct (i + 1) eqn:E; [lia|]. rewrite <- E. f_equal. lia.
  Qed.
  Lemma look_f : forall all l, look all (flines l) = triangles all l.
  Proof.
    intros all. refine (three_ind _ _ _).
    - intros [|a [|b [|c l]]] L; cbn in L; try lia; reflexivity.
    - intros a b c r IH. cbn [flines triangles]. unfold look in *. cbn [flat_map app]. rewrite !number, IH. reflexivity.
  Qed.
  Lemma look_app : forall all a b, look all (a ++ b) = look all a ++ look all b.
  Proof. intros. apply flat_map_app. Qed.
  Lemma triangles_prefix : forall vs ws l, Forall (fun i => (N.to_nat i < length vs)%nat) l ->
    triangles (vs ++ ws) l = triangles vs l.
  Proof.
    intros vs ws. refine (three_ind _ _ _).
    - intros [|a [|b [|c l]]] L H; cbn in L; try lia; reflexivity.
    - intros a b c r IH H. inversion H as [|? ? Ha H1]; subst. inversion H1 as [|? ? Hb H2]; subst. inversion H2 as [|? ? Hc H3]; subst.
      cbn [triangles]. rewrite !nth_error_app1 by assumption. rewrite (IH H3). reflexivity.
  Qed.
  Definition whole (vs : list point32) (idx : list N) : list out := map OVertex vs ++ faces idx.
  Lemma obj_one : forall vs idx, Forall (fun i => i < 65535) idx ->
    exists f, obj_lines oc (whole vs idx) = Ok f /\ vertices f = vs /\ shown f = triangles vs idx.
  Proof.
    intros vs idx H. exists (vlines vs ++ flines idx). split; [apply obj_app; [apply obj_vertices|now apply obj_faces]|].
    assert (V : vertices (vlines vs ++ flines idx) = vs) by (rewrite vertices_app, vertices_v, vertices_f; apply app_nil_r).
    split; [exact V|]. unfold shown. rewrite V. fold (look vs (vlines vs ++ flines idx)). rewrite look_app, look_v, look_f. reflexivity.
  Qed.
  Lemma obj_two : forall vs idx ws jdx, Forall (fun i => i < 65535) idx -> Forall (fun i => i < 65535) jdx ->
    Forall (fun i => (N.to_nat i < length vs)%nat) idx -> Forall (fun i => (N.to_nat i < length vs)%nat) jdx ->
    exists f, obj_lines oc (whole vs idx ++ whole ws jdx) = Ok f /\ vertices f = vs ++ ws /\
      shown f = triangles vs idx ++ triangles vs jdx.
  Proof.
    intros vs idx ws jdx H1 H2 B1 B2. exists ((vlines vs ++ flines idx) ++ vlines ws ++ flines jdx).
    split; [apply obj_app; (apply obj_app; [apply obj_vertices|now apply obj_faces])|].
    assert (V : vertices ((vlines vs ++ flines idx) ++ vlines ws ++ flines jdx) = vs ++ ws)
      by (rewrite !vertices_app, !vertices_v, !vertices_f, !app_nil_r; reflexivity).
    split; [exact V|]. unfold shown. rewrite V. fold (look (vs ++ ws) ((vlines vs ++ flines idx) ++ vlines ws ++ flines jdx)).
    rewrite !look_app, !look_v, !look_f, !triangles_prefix by assumption. reflexivity.
  Qed.
  Lemma obj_big : forall a b, obj_lines true [OTriangle 65535 a b] = Err EPanic.
  Proof. reflexivity. Qed.
Lemma obj_wraps : forall a b c, a < 2 ^ 16 -> b < 2 ^ 16 -> c < 2 ^ 16 ->
  obj_lines false [OTriangle a b c] = Ok [OF ((a + 1) mod 2 ^ 16) ((b + 1) mod 2 ^ 16) ((c + 1) mod 2 ^ 16)].
Proof.
  assert (H : forall i, i < 2 ^ 16 -> next16 false i = Ok ((i + 1) mod 2 ^ 16)).
  { intros i I. unfold next16. destruct (i + 1 <? 2 ^ 16) eqn:E.
    - apply N.ltb_lt in E. rewrite N.mod_small by exact E. reflexivity.
    - apply N.ltb_ge in E. replace (i + 1) with (2 ^ 16) by lia. rewrite N.mod_same by discriminate. reflexivity. }
  intros a b c A B C. unfold obj_lines, obj_of. now rewrite !H.
Qed.
End Obj.
