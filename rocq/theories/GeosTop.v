(** Proofs about the GEOS conversions (helper lemmas for C53, C54). *)
From Coq Require Import String Ascii.
From Coq Require Import List NArith ZArith Lia Bool.
From Coq Require Import Init.Byte.
From Verif Require Import Base BaseLemmas Event EventLemmas Claims Geom GeosModel GeosSpec.
Import ListNotations.
Local Open Scope N_scope.
Local Open Scope list_scope.

(** ** Reader *)
Section Ind.
  Variable P : gg -> Prop.
  Hypothesis H1 : forall s, P (KPoint s).
  Hypothesis H2 : forall s, P (KLineString s).
  Hypothesis H3 : forall s, P (KLinearRing s).
  Hypothesis H4 : forall e i, P (KPolygon e i).
  Hypothesis H5 : forall l, P (KMultiPoint l).
  Hypothesis H6 : forall l, P (KMultiLineString l).
  Hypothesis H7 : forall l, P (KMultiPolygon l).
  Hypothesis H8 : forall l, Forall P l -> P (KCollection l).
  Fixpoint gg_ind' (g : gg) : P g :=
    match g with
    | KPoint s => H1 s | KLineString s => H2 s | KLinearRing s => H3 s | KPolygon e i => H4 e i
    | KMultiPoint l => H5 l | KMultiLineString l => H6 l | KMultiPolygon l => H7 l
    | KCollection l => H8 l ((fix go (l : list gg) : Forall P l :=
        match l with [] => Forall_nil P | a :: r => Forall_cons a (gg_ind' a) (go r) end) l)
    end.
End Ind.

Lemma mapi_map : forall A B C (f : A -> B) (g : nat -> B -> C) l i,
  mapi g i (map f l) = mapi (fun k a => g k (f a)) i l.
Proof. induction l as [|a l IH]; intros i; cbn; [reflexivity|]. now rewrite IH. Qed.
Lemma flat_mapi_map : forall A B C (f : A -> B) (g : nat -> B -> list C) l i,
  flat_mapi g i (map f l) = flat_mapi (fun k a => g k (f a)) i l.
Proof. induction l as [|a l IH]; intros i; cbn; [reflexivity|]. now rewrite IH. Qed.
Lemma flat_mapi_shift : forall A B (g : nat -> A -> list B) l i k,
  flat_mapi g (i + k) l = flat_mapi (fun j => g (j + k)%nat) i l.
Proof. induction l as [|a l IH]; intros i k; cbn; [reflexivity|]. now rewrite <- IH. Qed.
Lemma mapi_ext : forall A B (f g : nat -> A -> B) l i,
  (forall k a, f k a = g k a) -> mapi f i l = mapi g i l.
Proof. induction l as [|a l IH]; intros i H; cbn; [reflexivity|]. now rewrite H, IH. Qed.

Section Read.
  Variable z : bool.
  Lemma coord_seq_calls : forall s k, r_coord_seq z s k = ok_calls (mapi (fun i c => ev_coord z (k + i) c) 0 (seq_line s)).
  Proof.
    intros [l|l] k; cbn [r_coord_seq seq_line]; rewrite mapi_map; apply pfor_mapi; intros i a _;
      unfold ev_coord; cbn; destruct z; reflexivity.
  Qed.
  Lemma line_size : forall s, length (seq_line s) = seq_size s.
  Proof. intros [l|l]; apply map_length. Qed.
  Lemma linestring_calls : forall t i s, r_linestring z t i s = ok_calls (ev_line z t i (seq_line s)).
  Proof.
    intros t i s. unfold r_linestring. rewrite coord_seq_calls, !pcall_calls, !pthen_calls.
    unfold ev_line, ev_coords. rewrite line_size. reflexivity.
  Qed.
  Lemma polygon_calls : forall t i e l, r_polygon z t i e l = ok_calls (ev_polygon z t i (seq_line e :: map seq_line l)).
  Proof.
    intros t i e l. unfold r_polygon. rewrite linestring_calls.
    rewrite (pfor_calls _ _ (fun k s => ev_line z false (k + 1) (seq_line s))) by (intros; apply linestring_calls).
    rewrite !pcall_calls, !pthen_calls. unfold ev_polygon. cbn [length flat_mapi]. rewrite map_length.
    rewrite flat_mapi_map. pose proof (flat_mapi_shift _ _ (fun k a => ev_line z false k (seq_line a)) l 0 1) as Q.
    cbn [Nat.add] in Q. rewrite Q. rewrite Nat.add_1_r. cbn [app]. rewrite <- app_assoc. reflexivity.
  Qed.
  Lemma points_calls : forall l i, Forall one l ->
    pfor (fun k s => r_coord_seq z s k) i l = ok_calls (mapi (ev_coord z) i (flat_map seq_line l)).
  Proof.
    induction l as [|s l IH]; intros i H; [reflexivity|]. inversion H as [|? ? [c E] H']; subst.
    cbn [pfor flat_map]. rewrite coord_seq_calls, E, IH, pthen_calls by assumption.
    cbn [mapi app]. rewrite Nat.add_0_r. reflexivity.
  Qed.
  Lemma points_size : forall l, Forall one l -> length (flat_map seq_line l) = length l.
  Proof. induction 1 as [|s l [c E] _ IH]; cbn; [reflexivity|]. rewrite E. cbn. now rewrite IH. Qed.

  Lemma geom_calls : forall g i, filled g -> r_geom_n z g i = ok_calls (gevents z i (gtree g)).
  Proof.
    induction g as [s|s|s|e l|l|l|l|l IH] using gg_ind'; intros i F; cbn [r_geom_n].
    - destruct F as [c E]. cbn [gtree]. rewrite E, coord_seq_calls, E, !pcall_calls, !pthen_calls. reflexivity.
    - apply linestring_calls.
    - apply linestring_calls.
    - apply polygon_calls.
    - cbn [filled] in F. rewrite points_calls by exact F. rewrite !pcall_calls, !pthen_calls.
      cbn [gtree gevents]. rewrite points_size by exact F. reflexivity.
    - rewrite (pfor_calls _ _ (fun k s => ev_line z false k (seq_line s))) by (intros; apply linestring_calls).
      rewrite !pcall_calls, !pthen_calls. cbn [gtree gevents]. rewrite map_length, flat_mapi_map. reflexivity.
    - rewrite (pfor_calls _ _ (fun k p => ev_polygon z false k (seq_line (fst p) :: map seq_line (snd p))))
        by (intros; apply polygon_calls).
      rewrite !pcall_calls, !pthen_calls. cbn [gtree gevents]. rewrite map_length, flat_mapi_map. reflexivity.
    - cbn [gtree gevents]. rewrite map_length. cbn [filled] in F.
      assert (G : forall k, (fix go (i : nat) (l : list gg) : prog unit :=
                 match l with [] => pret tt | a :: r => pthen (r_geom_n z a i) (go (S i) r) end) k l
               = ok_calls ((fix go (i : nat) (l : list geom) : list event :=
                match l with [] => [] | a :: r => gevents z i a ++ go (S i) r end) k (map gtree l))).
      { induction IH as [|a l Ha _ IHl]; intros k; [reflexivity|]. destruct F as [Fa Fl].
        cbn [map]. rewrite Ha, IHl, pthen_calls by assumption. reflexivity. }
      rewrite G, !pcall_calls, !pthen_calls. reflexivity.
  Qed.
End Read.

Lemma geos_reads : forall g, filled g -> forall S (p : proc S) s,
  exec p (geos_process g (p_dims p)) s = run p (gevents (dz (p_dims p)) 0 (gtree g)) s.
Proof.
  intros g F S p s. unfold geos_process. rewrite geom_calls by exact F. unfold ok_calls. rewrite exec_calls.
  destruct (run p _ s) as [s' [[]|x]]; reflexivity.
Qed.
(** a source that makes the documented callbacks for every processor *)
Definition geos_said (g : gg) (d : dims) : prog unit := ok_calls (gevents (multi_dim d) 0 (gtree g)).
Lemma said_delivers : forall g, delivers (geos_said g) (fun multi => gevents multi 0 (gtree g)) (Ok tt).
Proof.
  intros g S p s. unfold geos_said, ok_calls. rewrite exec_calls.
  destruct (run p _ s) as [s' [[]|x]]; reflexivity.
Qed.
Lemma said_same : forall g d, filled g -> multi_dim d = dz d -> geos_process g d = geos_said g d.
Proof. intros g d F E. unfold geos_process, geos_said. rewrite E. apply geom_calls, F. Qed.

(** ** Writer *)
Section Write.
  Variable lib : geos_lib.
  Hypothesis Hlib : sane lib.
  Notation W := (geos_writer lib).

  Lemma new_short : forall A (l : list A), short l -> new_seq (length l) = repeat (f64_zero, f64_zero) (length l).
  Proof.
    intros A l H. unfold new_seq. unfold short in H. rewrite N.mod_small by exact H. rewrite Nat2N.id. reflexivity.
  Qed.
  Lemma capacity_seq : forall A (l : list A), short l -> capacity_ok (seq_bytes lib) (length l) = true.
  Proof. intros A l H. unfold short in H. unfold capacity_ok. apply N.ltb_lt. destruct Hlib as [h _]. nia. Qed.
  Lemma capacity_geom : forall A (l : list A), short l -> capacity_ok (geom_bytes lib) (length l) = true.
  Proof. intros A l H. unfold short in H. unfold capacity_ok. apply N.ltb_lt. destruct Hlib as [_ h]. nia. Qed.

  Lemma set_at_app : forall l p a r, set_at (length l) p (l ++ a :: r) = Some (l ++ p :: r).
  Proof. induction l as [|b l IH]; intros p a r; cbn; [reflexivity|]. now rewrite IH. Qed.

  Lemma run_coords : forall l done s cs,
    run W (mapi (ev_coord false) (length done) l) (set_cs s (cs ++ [done ++ repeat (f64_zero, f64_zero) (length l)])) =
    (set_cs s (cs ++ [done ++ seq_of l]), Ok tt).
  Proof.
    induction l as [|c l IH]; intros done s cs; [reflexivity|].
    cbn [mapi run length repeat seq_of map]. cbn [p_step geos_writer ev_coord geos_step set_cs s_cs].
    rewrite rev_app_distr. cbn [rev app]. rewrite set_at_app, rev_involutive.
    specialize (IH (done ++ [(cx c, cy c)]) s cs). rewrite app_length in IH. cbn [length] in IH.
    rewrite Nat.add_1_r, <- app_assoc in IH. cbn [app] in IH. eapply eq_trans; [exact IH|].
    unfold seq_of. rewrite <- app_assoc. reflexivity.
  Qed.
  Lemma run_line : forall t l i s, short l ->
    run W (LineStringBegin t (length l) i :: ev_coords false l) s =
    (set_cs s ((if t then [] else s_cs s) ++ [seq_of l]), Ok tt).
  Proof.
    intros t l i s H. cbn [run p_step geos_writer geos_step]. unfold add_seq. rewrite new_short by exact H.
    unfold ev_coords.
    destruct t; [exact (run_coords l [] s [])|exact (run_coords l [] s (s_cs s))].
  Qed.
  Lemma run_lines : forall r i s, Forall short r ->
    run W (flat_mapi (ev_line false false) i r) s = (set_cs s (s_cs s ++ map seq_of r), Ok tt).
  Proof.
    induction r as [|l r IH]; intros i s H; cbn [flat_mapi map].
    - rewrite app_nil_r. destruct s; reflexivity.
    - inversion H; subst. unfold ev_line. rewrite run_app.
      change (LineStringBegin false (length l) i :: ev_coords false l ++ [LineStringEnd false i])
        with ((LineStringBegin false (length l) i :: ev_coords false l) ++ [LineStringEnd false i]).
      rewrite run_app, run_line by assumption.
      cbn [run p_step geos_writer geos_step]. rewrite IH by assumption.
      cbn [s_cs set_cs]. rewrite <- app_assoc. reflexivity.
  Qed.
  Definition rings_error (r : rings) : error := match r with [] => EGeometry | _ => geos_error end.
  Definition pair_of (r : rings) : list pos * list (list pos) :=
    match r with [] => ([], []) | e :: i => (seq_of e, map seq_of i) end.
  Lemma forallb_map : forall A B (f : A -> B) p l, forallb p (map f l) = forallb (fun a => p (f a)) l.
  Proof. induction l as [|a l IH]; cbn; [reflexivity|]. now rewrite IH. Qed.
  Lemma run_rings : forall t r i s, short_rings r ->
    exists s', run W (ev_polygon false t i r) s = (s', if rings_ok lib r then Ok tt else Err (rings_error r)) /\
      (rings_ok lib r = true ->
         s' = if t then set_geom (set_cs s []) (KPolygon (Flat (fst (pair_of r))) (map Flat (snd (pair_of r))))
              else set_polys (set_cs s []) (s_polys s ++ [pair_of r])).
  Proof.
    intros t r i s [Hr Hl]. unfold ev_polygon. cbn [run p_step geos_writer geos_step].
    rewrite capacity_seq by exact Hr. rewrite run_app, run_lines by exact Hl.
    cbn [run p_step geos_writer geos_step s_cs set_cs app].
    destruct r as [|e l]; cbn [map rings_ok rings_error].
    - eexists. split; [reflexivity|discriminate].
    - destruct (ring_ok lib (seq_of e)) eqn:E1; cbn [negb andb]; [|eexists; split; [reflexivity|discriminate]].
      rewrite forallb_map. destruct (forallb _ l) eqn:E2; cbn [andb]; [|eexists; split; [reflexivity|discriminate]].
      destruct (poly_ok lib _ _) eqn:E3; [|eexists; split; [reflexivity|discriminate]].
      destruct t; (eexists; split; [reflexivity|]); intros _; reflexivity.
  Qed.
  Lemma run_polys : forall l i s, Forall short_rings l ->
    exists s' e, run W (flat_mapi (ev_polygon false false) i l) s =
        (s', if forallb (rings_ok lib) l then Ok tt else Err e) /\ (e = EGeometry \/ e = geos_error) /\
      (forallb (rings_ok lib) l = true -> l <> [] -> s' = set_polys (set_cs s []) (s_polys s ++ map pair_of l)) /\
      (l = [] -> s' = s).
  Proof.
    induction l as [|r l IH]; intros i s H; cbn [flat_mapi map forallb].
    - exists s, EGeometry. split; [reflexivity|]. split; [now left|]. split; [now intros _ N|reflexivity].
    - inversion H as [|? ? Hr Hl]; subst. rewrite run_app. destruct (run_rings false r i s Hr) as (s1 & E1 & S1).
      rewrite E1. destruct (rings_ok lib r); cbn [andb].
      + destruct (IH (S i) s1 Hl) as (s2 & e & E2 & He & S2 & S3). exists s2, e. split; [exact E2|]. split; [exact He|].
        split; [|discriminate]. intros A _. rewrite S1 in * by reflexivity. destruct l as [|r' l'].
        * rewrite S3 by reflexivity. reflexivity.
        * rewrite S2 by (assumption || discriminate). unfold set_polys, set_cs. cbn. rewrite <- app_assoc. reflexivity.
      + exists s1, (rings_error r). split; [reflexivity|]. split; [destruct r; cbn; auto|]. split; [discriminate|discriminate].
  Qed.

  Definition final (s : gs) (g : geom) : gval := mkVal (gvalue g) (opt_default 0%Z (s_srid s)).
  Lemma set_geom_final : forall s s' g v, s_srid s' = s_srid s -> gvalue g = v ->
    s_geom (set_geom s' v) = final s g.
  Proof. intros s s' g v E <-. unfold set_geom, final. cbn. rewrite E. destruct (s_srid s); reflexivity. Qed.

  Theorem geos_writes : forall g i s, simple g = true -> short_geom g ->
    exists s' e, run W (gevents false i g) s = (s', if accepted lib g then Ok tt else Err e) /\
      (e = EGeometry \/ e = geos_error) /\
      (accepted lib g = true -> s_geom s' = final s g /\ s_srid s' = s_srid s).
  Proof.
    intros g i s P H. destruct g as [c| |l|l|l|r|l|l|l|l|l|l|l|l|l|l]; try discriminate P; cbn [gevents accepted].
    - eexists _, geos_error. split; [reflexivity|]. split; [now right|]. intros _.
      split; [apply set_geom_final; reflexivity|reflexivity].
    - exists (set_geom (set_cs s []) (KMultiPoint (map (fun p => Flat [p]) (seq_of l)))), geos_error.
      split; [|split; [now right|]; intros _; split; [apply set_geom_final; [reflexivity|]|reflexivity]].
      + cbn [run p_step geos_writer geos_step]. unfold add_seq. cbn [short_geom] in H. rewrite new_short by exact H.
        cbn [set_cs s_cs app]. rewrite run_app.
        change (set_cs (set_cs s []) [repeat (f64_zero, f64_zero) (length l)])
          with (set_cs s ([] ++ [[] ++ repeat (f64_zero, f64_zero) (length l)])).
        unfold ev_coords. pose proof (run_coords l [] s []) as R. cbn [length] in R. rewrite R. reflexivity.
      + cbn [gvalue]. unfold seq_of. rewrite map_map. reflexivity.
    - unfold ev_line.
      change (LineStringBegin true (length l) i :: ev_coords false l ++ [LineStringEnd true i])
        with ((LineStringBegin true (length l) i :: ev_coords false l) ++ [LineStringEnd true i]).
      rewrite run_app, run_line by exact H. cbn [app run p_step geos_writer geos_step set_cs s_cs rev].
      destruct (line_ok lib (seq_of l)); (eexists _, geos_error; split; [reflexivity|]; split; [now right|]); [|discriminate].
      intros _. split; [apply set_geom_final; reflexivity|reflexivity].
    - destruct H as [H1 H2]. cbn [run p_step geos_writer geos_step]. rewrite capacity_seq by exact H1.
      rewrite run_app, run_lines by exact H2. cbn [app run p_step geos_writer geos_step set_cs s_cs].
      rewrite forallb_map. destruct (forallb _ l); (eexists _, geos_error; split; [reflexivity|]; split; [now right|]); [|discriminate].
      intros _. split; [apply set_geom_final; [reflexivity|]|reflexivity]. cbn [gvalue]. rewrite map_map. reflexivity.
    - destruct (run_rings true r i s H) as (s' & E & F). exists s', (rings_error r). split; [exact E|].
      split; [destruct r; cbn; auto|]. intros A. rewrite (F A).
      split; [apply set_geom_final; [reflexivity|]|reflexivity].
      destruct r as [|e l]; [discriminate A|]. cbn. rewrite map_map. reflexivity.
    - destruct H as [H1 H2]. cbn [run p_step geos_writer geos_step]. rewrite capacity_geom by exact H1.
      rewrite run_app. destruct (run_polys l 0 (set_polys s []) H2) as (s' & e & E & He & F & F0). rewrite E.
      destruct (forallb (rings_ok lib) l) eqn:A.
      + eexists _, geos_error. split; [reflexivity|]. split; [now right|]. intros _.
        assert (Q : s_polys s' = map pair_of l /\ s_srid s' = s_srid s).
        { destruct l as [|r l]; [rewrite F0 by reflexivity; split; reflexivity|].
          rewrite F by (reflexivity || discriminate). split; reflexivity. }
        destruct Q as [Q1 Q2]. split; [|exact Q2]. apply set_geom_final; [exact Q2|]. rewrite Q1. cbn [gvalue]. f_equal.
        rewrite map_map. apply map_ext. intros [|x y]; cbn; unfold flat_poly; cbn; [reflexivity|]. rewrite map_map. reflexivity.
      + exists s', e. split; [reflexivity|]. split; [exact He|discriminate].
  Qed.
End Write.
