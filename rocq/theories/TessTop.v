(** Proofs about the tessellator (helper lemmas for C57). *)
From Coq Require Import String Ascii.
From Coq Require Import List NArith ZArith Lia Bool.
From Verif Require Import Base BaseLemmas Event EventLemmas Claims Geom TessModel TessSpec.
Import ListNotations.
Local Open Scope N_scope.
Local Open Scope list_scope.

Lemma threes_faces : forall n l, length l = (3 * n)%nat -> threes l = Ok (faces l).
Proof.
  induction n as [|n IH]; intros l H.
  - destruct l; [reflexivity|discriminate].
  - destruct l as [|a [|b [|c r]]]; cbn [length] in H; try lia. cbn [threes faces]. rewrite IH by lia. reflexivity.
Qed.
Section Top.
  Variable narrow : f64 -> N.
  Variable ly : lyon.
  Notation w := (tessellator narrow ly).
  Notation ok := (fun c => point_ok ly (pos_of narrow c) = true).

  Lemma lines_run : forall l i E o, Forall ok l -> (0 < i)%nat ->
    run w (mapi (ev_coord false) i l) (mkTs true E true o) =
    (mkTs true (E ++ map (fun d => PLine (pos_of narrow d)) l) true o, Ok tt).
  Proof.
    induction l as [|c l IH]; intros i E o H P; cbn [mapi map].
    - now rewrite app_nil_r.
    - inversion H as [|? ? Hc Hl]; subst. cbn [run p_step tessellator]. unfold ev_coord at 1. cbn [tess_step].
      destruct i as [|i]; [lia|]. cbn [Nat.eqb]. unfold b_line. cbn [ts_open ts_started ts_path ts_out].
      change (pos32 narrow (cx c) (cy c)) with (pos_of narrow c). rewrite Hc, andb_false_r. fold w. rewrite IH by (assumption || lia).
      now rewrite <- app_assoc.
  Qed.
  (** a line on a builder that is not inside a sub path *)
  Lemma coords_run : forall c l E o, Forall ok (c :: l) ->
    run w (ev_coords false (c :: l)) (mkTs false E false o) =
    (mkTs true (E ++ PBegin (pos_of narrow c) :: map (fun d => PLine (pos_of narrow d)) l) true o, Ok tt).
  Proof.
    intros c l E o H. inversion H as [|? ? Hc Hl]; subst. unfold ev_coords. cbn [mapi run p_step tessellator].
    unfold ev_coord at 1. cbn [tess_step Nat.eqb]. unfold b_begin. cbn [set_started ts_open ts_started ts_path ts_out].
    change (pos32 narrow (cx c) (cy c)) with (pos_of narrow c). rewrite Hc. cbn [orb negb]. rewrite andb_false_r. fold w.
    rewrite lines_run by (assumption || lia). now rewrite <- app_assoc.
  Qed.
  Lemma ring_run : forall l i E o, Forall ok l ->
    run w (ev_line false false i l) (mkTs false E false o) = (mkTs false (E ++ ring_path narrow l) false o, Ok tt).
  Proof.
    intros l i E o H. unfold ev_line. cbn [run p_step tessellator tess_step default_step]. fold w. destruct l as [|c l].
    - cbn. now rewrite app_nil_r.
    - rewrite run_app, coords_run by exact H. cbn [run p_step tessellator tess_step]. unfold close_started. cbn [ts_started].
      unfold b_close. cbn [set_started ts_open ts_path ts_out ts_started andthen negb]. rewrite andb_false_r. cbn [andthen].
      cbn [ring_path]. rewrite <- app_assoc. reflexivity.
  Qed.
  Lemma rings_run : forall r i E o, Forall (Forall ok) r ->
    run w (flat_mapi (ev_line false false) i r) (mkTs false E false o) = (mkTs false (E ++ area_path narrow r) false o, Ok tt).
  Proof.
    unfold area_path. induction r as [|l r IH]; intros i E o H; cbn [flat_mapi flat_map].
    - now rewrite app_nil_r.
    - inversion H; subst. rewrite run_app, ring_run by assumption. rewrite IH by assumption. now rewrite app_assoc.
  Qed.
  Lemma poly_run : forall r t i E o vs idx, Forall (Forall ok) r ->
    fill ly (E ++ area_path narrow r) = Ok (vs, idx) -> (exists n, length idx = (3 * n)%nat) ->
    run w (ev_polygon false t i r) (mkTs false E false o) = (mkTs false [] false (o ++ map OVertex vs ++ faces idx), Ok tt).
  Proof.
    intros r t i E o vs idx H F [n L]. unfold ev_polygon. cbn [run p_step tessellator tess_step default_step]. fold w.
    rewrite run_app, rings_run by exact H. cbn [run p_step tessellator tess_step]. unfold close_started. cbn [ts_started andthen].
    unfold tessellate_poly. cbn [ts_open ts_path ts_out ts_started]. rewrite andb_false_r, F, (threes_faces n idx L). reflexivity.
  Qed.
  Definition can (r : rings) : Prop := Forall (Forall ok) r /\ exists vs idx, drawing narrow ly r vs idx.
  Lemma area_run : forall r t i o, can r ->
    run w (ev_polygon false t i r) (mkTs false [] false o) = (mkTs false [] false (o ++ drawn narrow ly r), Ok tt).
  Proof.
    intros r t i o [H (vs & idx & F & L)]. unfold drawn. rewrite F. now apply poly_run.
  Qed.
  Lemma areas_run : forall l i o, Forall can l ->
    run w (flat_mapi (ev_polygon false false) i l) (mkTs false [] false o) =
    (mkTs false [] false (o ++ flat_map (drawn narrow ly) l), Ok tt).
  Proof.
    induction l as [|r l IH]; intros i o H; cbn [flat_mapi flat_map].
    - now rewrite app_nil_r.
    - inversion H; subst. rewrite run_app, area_run by assumption. rewrite IH by assumption. now rewrite app_assoc.
  Qed.
  Lemma single_run : forall l i o, Forall ok l -> (exists u, stroke ly (ring_path narrow l) = Ok u) ->
    run w (ev_line false true i l) (mkTs false [] false o) = (mkTs false [] false o, Ok tt).
  Proof.
    intros l i o H [u St]. unfold ev_line. cbn [run p_step tessellator tess_step default_step]. fold w. destruct l as [|c l].
    - cbn [ev_coords mapi app run p_step tessellator tess_step]. unfold close_started. cbn [ts_started andthen].
      unfold tessellate_line. cbn [ts_open ts_path]. rewrite andb_false_r. cbn [ring_path] in St. rewrite St. reflexivity.
    - rewrite run_app, coords_run by exact H. cbn [run p_step tessellator tess_step]. unfold close_started. cbn [ts_started].
      unfold b_close. cbn [set_started ts_open ts_path ts_out ts_started negb]. rewrite andb_false_r. cbn [andthen].
      unfold tessellate_line. cbn [ts_open ts_path app]. rewrite andb_false_r.
      change ((PBegin (pos_of narrow c) :: map (fun d => PLine (pos_of narrow d)) l) ++ [PClose]) with (ring_path narrow (c :: l)).
      cbn [ring_path] in St. cbn [app] in *. rewrite St. reflexivity.
  Qed.
  Lemma flat_map_app : forall A B (f : A -> list B) l1 l2, flat_map f (l1 ++ l2) = flat_map f l1 ++ flat_map f l2.
  Proof. intros A B f l1 l2. induction l1 as [|a l IH]; cbn; [reflexivity|]. now rewrite IH, app_assoc. Qed.
  Definition fine (g : geom) : Prop :=
    Forall can (areas g) /\ Forall (fun l => Forall ok l /\ exists u, stroke ly (ring_path narrow l) = Ok u) (single_lines g).
  Lemma accepted_fine : forall g, accepted narrow ly g -> fine g.
  Proof.
    intros g (P & A & L). unfold positions in P. apply Forall_app in P. destruct P as [P1 P2]. split.
    - apply Forall_forall. intros r Hr. split.
      + apply Forall_forall. intros l Hl. apply Forall_forall. intros c Hc. rewrite Forall_forall in P1. apply P1.
        apply in_concat. exists l. split; [|exact Hc]. apply in_concat. now exists r.
      + rewrite Forall_forall in A. now apply A.
    - apply Forall_forall. intros l Hl. split.
      + apply Forall_forall. intros c Hc. rewrite Forall_forall in P2. apply P2. apply in_concat. now exists l.
      + rewrite Forall_forall in L. now apply L.
  Qed.
  Lemma fine_app : forall a l, fine (GCollection (a :: l)) -> fine a /\ fine (GCollection l).
  Proof.
    intros a l [A L]. cbn [areas single_lines flat_map] in *. apply Forall_app in A, L. destruct A, L. now repeat split.
  Qed.
  Lemma fine_run : forall g i o, areal g = true -> fine g ->
    run w (gevents false i g) (mkTs false [] false o) = (mkTs false [] false (o ++ flat_map (drawn narrow ly) (areas g)), Ok tt).
  Proof.
    fix IH 1. intros g i o A F. destruct g; try discriminate; cbn [gevents areas flat_map].
    - destruct F as [_ L]. inversion L as [|? ? [L1 L2] _]; subst. rewrite app_nil_r. now apply single_run.
    - destruct F as [L _]. inversion L; subst. rewrite app_nil_r. now apply area_run.
    - destruct F as [L _]. cbn [run p_step tessellator tess_step default_step]. fold w. rewrite run_app, areas_run by exact L. reflexivity.
    - cbn [run p_step tessellator tess_step default_step]. fold w. cbn [areal] in A.
      assert (G : forall l k o, forallb areal l = true -> fine (GCollection l) ->
        run w ((fix go (i : nat) (l : list geom) : list event :=
                match l with [] => [] | a :: r => gevents false i a ++ go (S i) r end) k l) (mkTs false [] false o) =
        (mkTs false [] false (o ++ flat_map (drawn narrow ly) (flat_map areas l)), Ok tt)).
      { clear l o A F. induction l as [|a l IHl]; intros k o A F; [cbn; now rewrite app_nil_r|].
        cbn [forallb] in A. apply andb_true_iff in A. destruct A as [A1 A2]. apply fine_app in F. destruct F as [F1 F2].
        rewrite run_app, (IH a k o A1 F1), (IHl (S k) _ A2 F2). cbn [flat_map]. now rewrite flat_map_app, app_assoc. }
      rewrite run_app, (G l 0%nat o A F). reflexivity.
    - cbn [run p_step tessellator tess_step default_step]. fold w. cbn [areal] in A. destruct F as [L _]. cbn [areas] in L.
      assert (G : forall l k o, forallb (fun s => match s with SfPolygon _ => true | _ => false end) l = true ->
        Forall can (flat_map (fun s => match s with SfPolygon r => [r] | _ => [] end) l) ->
        run w (flat_mapi (ev_surface false) k l) (mkTs false [] false o) =
        (mkTs false [] false (o ++ flat_map (drawn narrow ly) (flat_map (fun s => match s with SfPolygon r => [r] | _ => [] end) l)), Ok tt)).
      { clear l o A L. induction l as [|[r|c] l IHl]; intros k o A L; [cbn; now rewrite app_nil_r| |discriminate].
        cbn [flat_mapi ev_surface flat_map app] in *. inversion L; subst. rewrite run_app, area_run by assumption.
        cbn [forallb andb] in A. rewrite (IHl (S k) _ A) by assumption. now rewrite app_assoc. }
      rewrite run_app, (G l 0%nat o A L). reflexivity.
    - destruct F as [L _]. cbn [run p_step tessellator tess_step default_step]. fold w. rewrite run_app, areas_run by exact L. reflexivity.
  Qed.
End Top.
