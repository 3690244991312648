(** Callbacks of every parsed WKT tree. *)
From Coq Require Import List NArith ZArith Lia Bool.
From Verif Require Import Base BaseLemmas Event EventLemmas Claims Geom WktModel WktSpec WkbRead WkbTop WktTop WktTreeSpec InjTop.
Import ListNotations.
Local Open Scope list_scope.
Local Open Scope Z_scope.

Lemma owed_app : forall a b, owed (a ++ b) = owed a + owed b.
Proof. induction a as [|e a IH]; intros b; cbn [app owed]; [lia|]. rewrite IH. lia. Qed.
Lemma owed_mapi : forall A (f : nat -> A -> event), (forall k a, owes (f k a) = -1) ->
  forall l k, owed (mapi f k l) = - Z.of_nat (length l).
Proof. intros A f H. induction l as [|a l IH]; intros k; cbn [mapi owed length]; [reflexivity|]. rewrite H, IH. lia. Qed.
Lemma owed_flat : forall A (f : nat -> A -> list event) (c : A -> Z), forall l k,
  Forall (fun a => forall k, owed (f k a) = c a) l -> owed (flat_mapi f k l) = fold_right (fun a n => c a + n) 0 l.
Proof.
  intros A f c l k H. revert k. induction H as [|a l H _ IH]; intros k; cbn [flat_mapi owed fold_right]; [reflexivity|].
  rewrite owed_app, H, IH. lia.
Qed.
Lemma owed_same : forall A (f : nat -> A -> list event), (forall k a, owed (f k a) = -1) ->
  forall l k, owed (flat_mapi f k l) = - Z.of_nat (length l).
Proof.
  intros A f H l k. rewrite (owed_flat A f (fun _ => -1)) by (apply Forall_forall; auto).
  induction l as [|a l IH]; cbn [fold_right length]; lia.
Qed.
Lemma owes_coord : forall multi k c, owes (ev_coord multi k c) = -1.
Proof. intros [|] k c; reflexivity. Qed.
Ltac owe := intros; cbn [owed owes app]; rewrite ?owed_app; cbn [owed owes app].
Lemma owed_coords : forall multi l, owed (ev_coords multi l) = - Z.of_nat (length l).
Proof. intros. unfold ev_coords. apply owed_mapi. intros. apply owes_coord. Qed.
Lemma owed_line : forall multi t k l, owed (ev_line multi t k l) = -1.
Proof. unfold ev_line. owe. rewrite owed_coords. lia. Qed.
Lemma owed_arc : forall multi k l, owed (ev_arc multi k l) = -1.
Proof. unfold ev_arc. owe. rewrite owed_coords. lia. Qed.
Lemma owed_polygon : forall multi t k l, owed (ev_polygon multi t k l) = -1.
Proof. unfold ev_polygon. owe. rewrite owed_same by (intros; apply owed_line). lia. Qed.
Lemma owed_triangle : forall multi t k l, owed (ev_triangle multi t k l) = -1.
Proof. unfold ev_triangle. owe. rewrite owed_same by (intros; apply owed_line). lia. Qed.
Lemma owed_segment : forall multi k s, owed (ev_segment multi k s) = -1.
Proof. intros multi k [l|l]; [apply owed_line|apply owed_arc]. Qed.
Lemma owed_compound : forall multi k l, owed (ev_compound multi k l) = -1.
Proof. unfold ev_compound. owe. rewrite owed_same by (intros; apply owed_segment). lia. Qed.
Lemma owed_curve : forall multi k c, owed (ev_curve multi k c) = -1.
Proof. intros multi k [l|l|l]; [apply owed_line|apply owed_arc|apply owed_compound]. Qed.
Lemma owed_curvepolygon : forall multi k l, owed (ev_curvepolygon multi k l) = -1.
Proof. unfold ev_curvepolygon. owe. rewrite owed_same by (intros; apply owed_curve). lia. Qed.
Lemma owed_surface : forall multi k s, owed (ev_surface multi k s) = -1.
Proof. intros multi k [l|l]; [apply owed_polygon|apply owed_curvepolygon]. Qed.

Lemma owed_geom : forall multi g k, owed (gevents multi k g) = -1.
Proof.
  intros multi. induction g using geom_ind'; intros k;
    lazymatch goal with |- context[GCollection] => rewrite gevents_collection | _ => cbn [gevents] end.
  - cbn [owed owes]. rewrite owes_coord. reflexivity.
  - reflexivity.
  - owe. rewrite owed_coords. lia.
  - apply owed_line.
  - owe. rewrite owed_same by (intros; apply owed_line). lia.
  - apply owed_polygon.
  - owe. rewrite owed_same by (intros; apply owed_polygon). lia.
  - owe. rewrite (owed_flat _ _ (fun _ => -1)) by assumption.
    clear H. induction l as [|a l IH]; cbn [fold_right length] in *; lia.
  - apply owed_arc.
  - apply owed_compound.
  - apply owed_curvepolygon.
  - owe. rewrite owed_same by (intros; apply owed_curve). lia.
  - owe. rewrite owed_same by (intros; apply owed_surface). lia.
  - apply owed_triangle.
  - owe. rewrite owed_same by (intros; apply owed_polygon). lia.
  - owe. rewrite owed_same by (intros; apply owed_triangle). lia.
Qed.

(** ** Trees *)
Section WktInd.
  Variable P : wkt -> Prop.
  Hypothesis HP : forall c, P (WPoint c).
  Hypothesis HMP : forall l, P (WMultiPoint l).
  Hypothesis HL : forall l, P (WLineString l).
  Hypothesis HML : forall l, P (WMultiLineString l).
  Hypothesis HPg : forall l, P (WPolygon l).
  Hypothesis HMPg : forall l, P (WMultiPolygon l).
  Hypothesis HC : forall l, Forall P l -> P (WCollection l).
  Fixpoint wkt_ind' (w : wkt) : P w :=
    match w with
    | WPoint c => HP c
    | WMultiPoint l => HMP l
    | WLineString l => HL l
    | WMultiLineString l => HML l
    | WPolygon l => HPg l
    | WMultiPolygon l => HMPg l
    | WCollection l =>
        HC l ((fix go (l : list wkt) : Forall P l :=
                 match l with [] => Forall_nil P | a :: r => Forall_cons a (wkt_ind' a) (go r) end) l)
    end.
End WktInd.

Lemma tree_collection : forall multi i l,
  tree_events multi i (WCollection l) =
  CollectionBegin (length l) i :: flat_mapi (tree_events multi) 0 l ++ [CollectionEnd i].
Proof.
  intros multi i l. cbn [tree_events]. f_equal. f_equal. generalize 0%nat.
  induction l as [|a l IH]; intros k; cbn [flat_mapi]; [reflexivity|]. now rewrite <- IH.
Qed.

Lemma tree_calls : forall multi w i, process_wkt_geom_n multi i w = ok_calls (tree_events multi i w).
Proof.
  intros multi. induction w as [[c|]|l|l|l|l|l|l H] using wkt_ind'; intros i.
  - exact (wgeom_calls multi 0 (WPoint (Some c)) _ i (le_n _) eq_refl).
  - exact (wgeom_calls multi 0 (WPoint None) _ i (le_n _) eq_refl).
  - cbn [process_wkt_geom_n tree_events].
    rewrite (pfor_calls _ _ (fun k p => match p with Some c => [ev_coord multi k c] | None => [] end)).
    + now rewrite !pcall_calls, !pthen_calls.
    + intros k [c|] _; [apply wcoord_calls|reflexivity].
  - exact (wgeom_calls multi 0 (WLineString l) _ i (le_n _) eq_refl).
  - exact (wgeom_calls multi 0 (WMultiLineString l) _ i (le_n _) eq_refl).
  - exact (wgeom_calls multi 0 (WPolygon l) _ i (le_n _) eq_refl).
  - exact (wgeom_calls multi 0 (WMultiPolygon l) _ i (le_n _) eq_refl).
  - rewrite tree_collection. cbn [process_wkt_geom_n].
    assert (L : forall k, (fix go (i : nat) (l : list wkt) : prog unit :=
                   match l with [] => pret tt | a :: r => pthen (process_wkt_geom_n multi i a) (go (S i) r) end) k l
         = ok_calls (flat_mapi (tree_events multi) k l)).
    { clear i. induction H as [|a l A _ IH]; intros k; [reflexivity|]. cbn [flat_mapi]. now rewrite A, IH, pthen_calls. }
    now rewrite L, !pcall_calls, !pthen_calls.
Qed.
Lemma tree_delivers : forall w, delivers (process_wkt_geom w) (fun multi => tree_events multi 0 w) (Ok tt).
Proof. intros w. apply delivers_calls. intros d. apply tree_calls. Qed.

Fixpoint vacancies (l : list (option coord)) : Z :=
  match l with [] => 0 | None :: r => 1 + vacancies r | Some _ :: r => vacancies r end.
Lemma vacancies_some : forall l, 0 <= vacancies l /\
  (existsb (fun p => match p with None => true | _ => false end) l = true -> 0 < vacancies l).
Proof.
  induction l as [|[c|] l (A & B)]; cbn [vacancies existsb orb]; [split; [lia|discriminate]|auto|split; lia].
Qed.
Lemma owed_members : forall multi l k,
  owed (flat_mapi (fun k p => match p with Some c => [ev_coord multi k c] | None => [] end) k l) =
  vacancies l - Z.of_nat (length l).
Proof.
  intros multi. induction l as [|[c|] l IH]; intros k; cbn [flat_mapi app owed length vacancies]; [reflexivity| |];
    rewrite IH, ?owes_coord; lia.
Qed.
Lemma owed_tree : forall multi w i, -1 <= owed (tree_events multi i w) /\
  (empty_member w = true -> -1 < owed (tree_events multi i w)).
Proof.
  intros multi. induction w as [c|l|l|l|l|l|l H] using wkt_ind'; intros i.
  - destruct c as [c|]; cbn [tree_events empty_member]; rewrite owed_geom; split; (lia || discriminate).
  - cbn [tree_events empty_member]. owe. rewrite owed_members. destruct (vacancies_some l) as (A & B).
    split; [lia|]. intros E. specialize (B E). lia.
  - cbn [tree_events empty_member]; rewrite owed_geom; split; (lia || discriminate).
  - cbn [tree_events empty_member]; rewrite owed_geom; split; (lia || discriminate).
  - cbn [tree_events empty_member]; rewrite owed_geom; split; (lia || discriminate).
  - cbn [tree_events empty_member]; rewrite owed_geom; split; (lia || discriminate).
  - rewrite tree_collection. cbn [empty_member]. owe.
    assert (Q : forall k, - Z.of_nat (length l) <= owed (flat_mapi (tree_events multi) k l) /\
              (existsb empty_member l = true -> - Z.of_nat (length l) < owed (flat_mapi (tree_events multi) k l))).
    { induction H as [|a l A _ IH]; intros k; cbn [flat_mapi existsb length owed]; [split; [lia|discriminate]|].
      rewrite owed_app. destruct (A k) as (A1 & A2), (IH (S k)) as (B1 & B2). split; [lia|].
      intros E. apply orb_true_iff in E. destruct E as [E|E]; [specialize (A2 E)|specialize (B2 E)]; lia. }
    destruct (Q 0%nat) as (A & B). split; [lia|]. intros E. specialize (B E). lia.
Qed.

Lemma somes_all : forall A (l : list (option A)), (forall x, In x l -> x <> None) -> exists r, somes l = Some r.
Proof.
  induction l as [|[a|] l IH]; intros H; [eexists; reflexivity| |].
  - destruct IH as [r E]; [intros x X; apply H; now right|]. cbn. rewrite E. eexists. reflexivity.
  - exfalso. apply (H None); [now left|reflexivity].
Qed.
Lemma full_geom : forall w, empty_member w = false -> exists g, wkt_geom w = Some g.
Proof.
  induction w as [[c|]|l|l|l|l|l|l H] using wkt_ind'; intros E; cbn [wkt_geom]; try (eexists; reflexivity).
  - cbn [empty_member] in E. destruct (somes_all _ l) as [r R].
    + intros x X N. subst x. assert (T : existsb (fun p : option coord => match p with None => true | _ => false end) l = true)
        by (apply existsb_exists; exists None; auto). congruence.
    + rewrite R. eexists. reflexivity.
  - cbn [empty_member] in E. destruct (somes_all _ (map wkt_geom l)) as [r R].
    + intros x X N. subst x. apply in_map_iff in X. destruct X as (w & W & I). rewrite Forall_forall in H.
      destruct (H w I) as [g G]; [|congruence]. destruct (empty_member w) eqn:Q; [|reflexivity].
      assert (T : existsb empty_member l = true) by (apply existsb_exists; exists w; auto). congruence.
    + rewrite R. eexists. reflexivity.
Qed.

Lemma tree_exact : forall w,
  (exists g, delivers (process_wkt_geom w) (fun multi => gevents multi 0 g) (Ok tt)) <-> empty_member w = false.
Proof.
  intros w. split.
  - intros [g D]. destruct (delivers_same _ _ _ _ _ _ D (tree_delivers w)) as [E _].
    pose proof (f_equal owed (E false)) as Q. rewrite owed_geom in Q.
    destruct (empty_member w) eqn:M; [|reflexivity]. pose proof (proj2 (owed_tree false w 0) M). lia.
  - intros E. destruct (full_geom w E) as [g G]. exists g. exact (wkt_delivers w g G).
Qed.
