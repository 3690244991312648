(** Proofs about the GDAL conversions (helper lemmas for C55, C56). *)
From Coq Require Import String Ascii.
From Coq Require Import List NArith ZArith Lia Bool.
From Coq Require Import Init.Byte.
From Verif Require Import Base BaseLemmas Event EventLemmas Claims Geom GeosTop GdalModel GdalSpec.
From Verif Require WkbSpec.
Import ListNotations.
Local Open Scope N_scope.
Local Open Scope list_scope.

(** ** Reader *)
Section Ind.
  Variable P : og -> Prop.
  Hypothesis H : forall k z m pts kids, Forall P kids -> P (Og k z m pts kids).
  Fixpoint og_ind' (g : og) : P g :=
    match g with
    | Og k z m pts kids => H k z m pts kids ((fix go (l : list og) : Forall P l :=
        match l with [] => Forall_nil P | a :: r => Forall_cons a (og_ind' a) (go r) end) kids)
    end.
End Ind.

Lemma collect_length : forall A B (f : A -> option B) l s, collect f l = Some s -> length s = length l.
Proof.
  induction l as [|a l IH]; intros s H; cbn in H; [injection H as <-; reflexivity|].
  destruct (f a); [|discriminate]. fold (collect f) in H. destruct (collect f l); [|discriminate].
  injection H as <-. cbn. now rewrite (IH _ eq_refl).
Qed.
Section Read.
  Variable z : bool.
  Variable missing : pt.
  Lemma coord_calls : forall p i, r_coord z p i = ok_calls [ev_coord z i (pos_of p)].
  Proof. intros [[x y] v] i. unfold r_coord, ev_coord, pos_of. cbn. destruct z; reflexivity. Qed.
  Lemma coords_calls : forall l, pfor (fun i p => r_coord z p i) 0 l = ok_calls (ev_coords z (map pos_of l)).
  Proof. intros l. unfold ev_coords. rewrite mapi_map. apply pfor_mapi. intros i a _. apply coord_calls. Qed.
  Lemma linestring_calls : forall g t i, r_linestring z g t i = ok_calls (ev_line z t i (line_of g)).
  Proof.
    intros g t i. unfold r_linestring. rewrite coords_calls, !pcall_calls, !pthen_calls.
    unfold ev_line, line_of. rewrite map_length. reflexivity.
  Qed.
  Lemma circularstring_calls : forall g i, r_circularstring z g i = ok_calls (ev_arc z i (line_of g)).
  Proof.
    intros g i. unfold r_circularstring. rewrite coords_calls, !pcall_calls, !pthen_calls.
    unfold ev_arc, line_of. rewrite map_length. reflexivity.
  Qed.
  (** members: all have a tree, or an error comes *)
  Lemma collect_calls : forall B (f : og -> option B) (r : nat -> og -> prog unit) (ev : nat -> B -> list event) l i s,
    (forall k a b, f a = Some b -> r k a = ok_calls (ev k b)) ->
    collect f l = Some s -> pfor r i l = ok_calls (flat_mapi ev i s).
  Proof.
    intros B f r ev. induction l as [|a l IH]; intros i s H E; cbn in E; [injection E as <-; reflexivity|].
    fold (collect f) in E. destruct (f a) as [b|] eqn:F; [|discriminate]. destruct (collect f l) as [s'|]; [|discriminate].
    injection E as <-. cbn [pfor flat_mapi]. rewrite (H _ _ _ F), (IH (S i) s' H eq_refl), pthen_calls. reflexivity.
  Qed.
  Lemma seq_calls : forall g s, rings_tree g = Some s -> r_linestring_seq z g = ok_calls (flat_mapi (ev_line z false) 0 s).
  Proof.
    intros g s E. unfold r_linestring_seq. eapply collect_calls; [|exact E].
    intros k a b F. unfold line_tree in F. destruct (o_kind a); try discriminate. injection F as <-. apply linestring_calls.
  Qed.
  Lemma rings_length : forall g s, rings_tree g = Some s -> length s = length (o_kids g).
  Proof. intros g s E. exact (collect_length _ _ _ _ _ E). Qed.
  Lemma polygon_calls : forall g t i s, rings_tree g = Some s -> r_polygon z g t i = ok_calls (ev_polygon z t i s).
  Proof.
    intros g t i s E. unfold r_polygon. rewrite (seq_calls g s E), !pcall_calls, !pthen_calls. unfold ev_polygon.
    rewrite (rings_length g s E). reflexivity.
  Qed.
  Lemma triangle_calls : forall g t i s, rings_tree g = Some s -> r_triangle z g t i = ok_calls (ev_triangle z t i s).
  Proof.
    intros g t i s E. unfold r_triangle. rewrite (seq_calls g s E), !pcall_calls, !pthen_calls. unfold ev_triangle.
    rewrite (rings_length g s E). reflexivity.
  Qed.
  Lemma compound_calls : forall g i s, collect segment_tree (o_kids g) = Some s ->
    r_compoundcurve z g i = ok_calls (ev_compound z i s).
  Proof.
    intros g i s E. unfold r_compoundcurve. erewrite collect_calls; [|intros k a b F|exact E].
    - rewrite !pcall_calls, !pthen_calls. unfold ev_compound. rewrite (collect_length _ _ _ _ _ E). reflexivity.
    - unfold segment_tree in F. destruct (o_kind a); try discriminate; injection F as <-; [apply linestring_calls|apply circularstring_calls].
  Qed.
  Lemma curve_calls : forall g i c, curve_tree g = Some c -> r_curve z g i = ok_calls (ev_curve z i c).
  Proof.
    intros g i c E. unfold curve_tree in E. unfold r_curve. destruct (o_kind g); try discriminate.
    - injection E as <-. apply linestring_calls.
    - injection E as <-. apply circularstring_calls.
    - destruct (collect segment_tree (o_kids g)) as [s|] eqn:F; [|discriminate]. injection E as <-.
      cbn [ev_curve]. apply compound_calls, F.
  Qed.
  Lemma curvepolygon_calls : forall g i s, collect curve_tree (o_kids g) = Some s ->
    r_curvepolygon z g i = ok_calls (ev_curvepolygon z i s).
  Proof.
    intros g i s E. unfold r_curvepolygon. erewrite collect_calls; [|intros; apply curve_calls; eassumption|exact E].
    rewrite !pcall_calls, !pthen_calls. unfold ev_curvepolygon. rewrite (collect_length _ _ _ _ _ E). reflexivity.
  Qed.
  Lemma flat_one : forall A B (f : nat -> A -> B) l i, flat_mapi (fun k a => [f k a]) i l = mapi f i l.
  Proof. induction l as [|a l IH]; intros i; cbn; [reflexivity|]. now rewrite IH. Qed.

  Ltac om E s F := match type of E with option_map _ ?x = Some _ =>
    destruct x as [s|] eqn:F; [|discriminate E]; injection E as <- end.
  Lemma geom_calls : forall g i t, tree g = Some t -> WkbSpec.no_empty t ->
    r_geom_n z missing g i = ok_calls (gevents z i t).
  Proof.
    induction g as [k gz gm pts kids IH] using og_ind'; intros i t E N.
    destruct k; cbn [tree] in E; cbn [r_geom_n].
    - destruct pts as [|p [|q r]]; try discriminate; injection E as <-; [cbn in N; tauto|].
      unfold r_point. cbn [o_pts hd]. rewrite coord_calls, !pcall_calls, !pthen_calls. reflexivity.
    - injection E as <-. apply linestring_calls.
    - om E s F. apply polygon_calls, F.
    - om E s F. erewrite (collect_calls _ point_tree _ (fun k c => [ev_coord z k c])); [|intros k a b G|exact F].
      + rewrite !pcall_calls, !pthen_calls. cbn [gevents]. rewrite (collect_length _ _ _ _ _ F), flat_one. reflexivity.
      + unfold point_tree in G. unfold r_point. destruct (o_kind a); try discriminate.
        destruct (o_pts a) as [|p [|q r]]; try discriminate. injection G as <-. apply coord_calls.
    - om E s F. rewrite (seq_calls (Og OMultiLineString gz gm pts kids) s F), !pcall_calls, !pthen_calls. cbn [gevents].
      rewrite (collect_length _ _ _ _ _ F). reflexivity.
    - om E s F. erewrite (collect_calls _ polygon_tree); [|intros k a b G|exact F].
      + rewrite !pcall_calls, !pthen_calls. cbn [gevents]. rewrite (collect_length _ _ _ _ _ F). reflexivity.
      + unfold polygon_tree in G. destruct (o_kind a); try discriminate. apply polygon_calls, G.
    - om E s F. cbn [gevents]. rewrite (collect_length _ _ _ _ _ F).
      assert (G : forall k, (fix go (i : nat) (l : list og) : prog unit :=
                 match l with [] => pret tt | a :: r => pthen (r_geom_n z missing a i) (go (S i) r) end) k kids
               = ok_calls ((fix go (i : nat) (l : list geom) : list event :=
                match l with [] => [] | a :: r => gevents z i a ++ go (S i) r end) k s)).
      { clear i. revert s F N. induction IH as [|a l Ha _ IHl]; intros s F N k.
        - cbn in F. injection F as <-. reflexivity.
        - cbn in F. fold (collect tree) in F. destruct (tree a) as [b|] eqn:Ta; [|discriminate].
          destruct (collect tree l) as [s'|] eqn:Fl; [|discriminate]. injection F as <-.
          destruct N as [_ [N1 N2]]. rewrite (Ha k b eq_refl N1), (IHl s' eq_refl (conj I N2) (S k)), pthen_calls. reflexivity. }
      rewrite G, !pcall_calls, !pthen_calls. reflexivity.
    - injection E as <-. apply circularstring_calls.
    - om E s F. apply compound_calls, F.
    - om E s F. apply curvepolygon_calls, F.
    - om E s F. erewrite (collect_calls _ curve_tree); [|intros; apply curve_calls; eassumption|exact F].
      rewrite !pcall_calls, !pthen_calls. cbn [gevents]. rewrite (collect_length _ _ _ _ _ F). reflexivity.
    - om E s F. erewrite (collect_calls _ surface_tree _ (ev_surface z)); [|intros k a b G|exact F].
      + rewrite !pcall_calls, !pthen_calls. cbn [gevents]. rewrite (collect_length _ _ _ _ _ F). reflexivity.
      + unfold surface_tree in G. destruct (o_kind a); try discriminate.
        * om G r R. apply polygon_calls, R.
        * om G r R. apply curvepolygon_calls, R.
    - om E s F. erewrite (collect_calls _ patch_tree); [|intros k a b G|exact F].
      + rewrite !pcall_calls, !pthen_calls. cbn [gevents]. rewrite (collect_length _ _ _ _ _ F). reflexivity.
      + unfold patch_tree in G. destruct (o_kind a); try discriminate; apply polygon_calls, G.
    - om E s F. erewrite (collect_calls _ triangle_tree); [|intros k a b G|exact F].
      + rewrite !pcall_calls, !pthen_calls. cbn [gevents]. rewrite (collect_length _ _ _ _ _ F). reflexivity.
      + unfold triangle_tree in G. destruct (o_kind a); try discriminate. apply triangle_calls, G.
    - om E s F. apply triangle_calls, F.
    - discriminate.
  Qed.
End Read.

(** *** Empty points *)
Section Fill.
  Variable z : bool.
  Variable missing : pt.
  Lemma fill_point_kind : forall g, o_kind (fill_point missing g) = o_kind g.
  Proof. intros [[] ? ? ? ?]; reflexivity. Qed.
  Lemma fill_reads : forall g i, r_geom_n z missing (fill missing g) i = r_geom_n z missing g i.
  Proof.
    induction g as [k gz gm pts kids IH] using og_ind'; intros i. destruct k; try reflexivity.
    - cbn [fill r_geom_n]. rewrite map_length.
      assert (G : forall k, pfor (fun i a => match o_kind a with OPoint => r_point z missing a i | _ => pfail EGeometryFormat end) k
                  (map (fill_point missing) kids) =
                pfor (fun i a => match o_kind a with OPoint => r_point z missing a i | _ => pfail EGeometryFormat end) k kids).
      { clear IH i. induction kids as [|a l IHl]; intros k; [reflexivity|]. cbn [map pfor]. rewrite IHl, fill_point_kind.
        destruct a as [[] ? ? ? ?]; reflexivity. }
      rewrite G. reflexivity.
    - cbn [fill r_geom_n]. rewrite map_length.
      assert (G : forall k, (fix go (i : nat) (l : list og) : prog unit :=
                 match l with [] => pret tt | a :: r => pthen (r_geom_n z missing a i) (go (S i) r) end) k (map (fill missing) kids)
              = (fix go (i : nat) (l : list og) : prog unit :=
                 match l with [] => pret tt | a :: r => pthen (r_geom_n z missing a i) (go (S i) r) end) k kids).
      { clear i. induction IH as [|a l Ha _ IHl]; intros k; [reflexivity|]. cbn [map]. rewrite Ha, IHl. reflexivity. }
      rewrite G. reflexivity.
  Qed.
  Lemma flat_no_empty : forall t, t <> GEmptyPoint -> (forall l, t <> GCollection l) -> WkbSpec.no_empty t.
  Proof.
    assert (Ev : forall A (P : A -> Prop) l, (forall a, P a) -> Forall P l) by (intros A P l H; induction l; constructor; auto).
    set (P := fun _ : coord => True). set (Q := fun _ : nat => True).
    assert (Li : forall l, WkbSpec.on_line P Q l) by (intros l; split; [exact I|apply Ev; intros; exact I]).
    assert (Ri : forall l, WkbSpec.on_rings P Q l) by (intros l; split; [exact I|apply Ev; exact Li]).
    assert (Si : forall s, WkbSpec.on_segment P Q s) by (intros []; apply Li).
    assert (Ci : forall c, WkbSpec.on_curve P Q c) by (intros [l|l|l]; [apply Li|apply Li|split; [exact I|apply Ev; exact Si]]).
    assert (Fi : forall s, WkbSpec.on_surface P Q s) by (intros [l|l]; [apply Ri|split; [exact I|apply Ev; exact Ci]]).
    intros t NE NC. destruct t; try (exfalso; now apply NE); try (exfalso; eapply NC; reflexivity);
      first [exact (conj I I)|apply Li|apply Ri|split; [exact I|apply Ev; assumption]].
  Qed.
  Lemma fill_no_empty : forall g t, tree (fill missing g) = Some t -> WkbSpec.no_empty t.
  Proof.
    induction g as [k gz gm pts kids IH] using og_ind'; intros t E.
    destruct k; cbn [fill fill_point tree] in E; try discriminate;
      try (injection E as <-);
      try (match type of E with option_map _ ?x = Some _ => destruct x as [s|] eqn:F; [|discriminate E]; injection E as <- end);
      try (apply flat_no_empty; intros; discriminate).
    unfold WkbSpec.no_empty in *.
    cbn [WkbSpec.on_geom]. split; [exact I|]. revert s F. induction IH as [|a l Ha _ IHl]; intros s F.
    + cbn in F. injection F as <-. exact I.
    + cbn in F. fold (collect tree) in F. destruct (tree (fill missing a)) as [b|] eqn:Ta; [|discriminate].
      destruct (collect tree (map (fill missing) l)) as [s'|] eqn:Fl; [|discriminate]. injection F as <-.
      split; [exact (Ha b eq_refl)|exact (IHl s' eq_refl)].
  Qed.
End Fill.

(** *** Members of a wrong type *)
Definition refuses (p : prog unit) : Prop := exists l, p = calls l (Done (Err EGeometryFormat)).
Lemma refuse_now : refuses (pfail EGeometryFormat).
Proof. exists []. reflexivity. Qed.
Lemma refuse_left : forall p q, refuses p -> refuses (pthen p q).
Proof.
  intros p q [l ->]. exists l. induction l as [|e l IH]; [reflexivity|].
  cbn [calls]. unfold pthen in *. cbn [pbind]. now rewrite IH.
Qed.
Lemma refuse_right : forall l q, refuses q -> refuses (pthen (ok_calls l) q).
Proof.
  intros l q [r ->]. exists (l ++ r)%list. unfold ok_calls. induction l as [|e l IH]; [reflexivity|].
  cbn [calls app]. unfold pthen in *. cbn [pbind]. now rewrite IH.
Qed.
Section Refuse.
  Variable z : bool.
  Variable missing : pt.
  Lemma refuse_members : forall A B (f : A -> option B) (r : nat -> A -> prog unit) l,
    (forall k a b, f a = Some b -> exists ev, r k a = ok_calls ev) ->
    (forall k a, In a l -> f a = None -> refuses (r k a)) ->
    collect f l = None -> forall i, refuses (pfor r i l).
  Proof.
    intros A B f r l H. induction l as [|a l IH]; intros N E i; cbn in E; [discriminate|].
    fold (collect f) in E. cbn [pfor]. destruct (f a) as [b|] eqn:F.
    - destruct (H i a b F) as [ev ->]. apply refuse_right, IH.
      + intros k c Hc. apply N. now right.
      + destruct (collect f l); [discriminate|reflexivity].
    - apply refuse_left, N; [now left|exact F].
  Qed.
  Lemma refuse_in : forall e1 q e2, refuses q -> refuses (pthen (pcall e1) (pthen q (pcall e2))).
  Proof. intros e1 q e2 H. rewrite pcall_calls. apply refuse_right, refuse_left, H. Qed.
  Lemma seq_refuses : forall g, rings_tree g = None -> refuses (r_linestring_seq z g).
  Proof.
    intros g E. unfold r_linestring_seq. eapply refuse_members; [| |exact E]; unfold line_tree.
    - intros k a b F. destruct (o_kind a); try discriminate. eexists. apply linestring_calls.
    - intros k a _ F. destruct (o_kind a); try apply refuse_now. discriminate.
  Qed.
  Lemma compound_refuses : forall g i, collect segment_tree (o_kids g) = None -> refuses (r_compoundcurve z g i).
  Proof.
    intros g i E. unfold r_compoundcurve. apply refuse_in. eapply refuse_members; [| |exact E]; unfold segment_tree.
    - intros k a b F. destruct (o_kind a); try discriminate; eexists; [apply linestring_calls|apply circularstring_calls].
    - intros k a _ F. destruct (o_kind a); try apply refuse_now; discriminate.
  Qed.
  Lemma curve_refuses : forall g i, curve_tree g = None -> refuses (r_curve z g i).
  Proof.
    intros g i E. unfold curve_tree in E. unfold r_curve. destruct (o_kind g); try discriminate; try apply refuse_now.
    destruct (collect segment_tree (o_kids g)) eqn:F; [discriminate|]. now apply compound_refuses.
  Qed.
  Lemma curves_refuse : forall l i, collect curve_tree l = None -> refuses (pfor (fun i a => r_curve z a i) i l).
  Proof.
    intros l i E. eapply refuse_members; [| |exact E].
    - intros k a b F. eexists. apply curve_calls, F.
    - intros k a _ F. now apply curve_refuses.
  Qed.
  Lemma geom_refuses : forall g i, tree (fill missing g) = None -> surfaces_ok g -> refuses (r_geom_n z missing g i).
  Proof.
    assert (P : forall a t i, rings_tree a = None -> refuses (r_polygon z a t i)).
    { intros a t i E. unfold r_polygon. apply refuse_in, seq_refuses, E. }
    assert (T : forall a t i, rings_tree a = None -> refuses (r_triangle z a t i)).
    { intros a t i E. unfold r_triangle. apply refuse_in, seq_refuses, E. }
    assert (M : forall A B (f : A -> B) o, option_map f o = None -> o = None) by (intros A B f []; [discriminate|reflexivity]).
    induction g as [k gz gm pts kids IH] using og_ind'; intros i E W.
    destruct k; cbn [fill fill_point tree] in E; cbn [r_geom_n]; try discriminate; try apply M in E.
    - apply P, E.
    - apply refuse_in. clear IH W i. generalize 0%nat as i. induction kids as [|a l IHl]; intros i; [discriminate|].
      cbn [map collect] in E. cbn [pfor]. destruct a as [[] az am ap ak]; cbn [o_kind]; try (apply refuse_left, refuse_now).
      unfold r_point. rewrite coord_calls. apply refuse_right, IHl.
      cbn in E. fold (collect point_tree) in E. destruct (collect point_tree (map (fill_point missing) l)); [discriminate|reflexivity].
    - apply refuse_in. exact (seq_refuses (Og OMultiLineString gz gm pts kids) E).
    - apply refuse_in. eapply refuse_members; [| |exact E]; unfold polygon_tree.
      + intros k a b F. destruct (o_kind a); try discriminate. eexists. eapply polygon_calls, F.
      + intros k a _ F. destruct (o_kind a); try apply refuse_now. apply P, F.
    - apply refuse_in. clear i. generalize 0%nat as i. cbn [surfaces_ok] in W.
      induction IH as [|a l Ha _ IHl]; intros i; [discriminate|]. destruct W as [Wa Wl].
      cbn in E. fold (collect tree) in E. destruct (tree (fill missing a)) as [b|] eqn:F.
      + rewrite <- fill_reads, (geom_calls _ _ _ _ _ F (fill_no_empty _ _ _ F)). apply refuse_right, IHl; [|exact Wl].
        destruct (collect tree (map (fill missing) l)); [discriminate|reflexivity].
      + apply refuse_left, Ha; [exact eq_refl|exact Wa].
    - now apply compound_refuses.
    - unfold r_curvepolygon. apply refuse_in, curves_refuse, E.
    - apply refuse_in, curves_refuse, E.
    - apply refuse_in. eapply refuse_members; [| |exact E]; unfold surface_tree.
      + intros k a b F. destruct (o_kind a); try discriminate.
        * destruct (rings_tree a) as [s|] eqn:R; [|discriminate]. eexists. eapply polygon_calls, R.
        * destruct (collect curve_tree (o_kids a)) as [s|] eqn:R; [|discriminate]. eexists. eapply curvepolygon_calls, R.
      + intros k a _ F. destruct (o_kind a); try apply refuse_now; apply M in F.
        * apply P, F.
        * unfold r_curvepolygon. apply refuse_in, curves_refuse, F.
    - apply refuse_in. eapply refuse_members; [| |exact E]; unfold patch_tree.
      + intros k a b F. destruct (o_kind a); try discriminate; eexists; eapply polygon_calls, F.
      + intros k a Ia F. cbn [surfaces_ok] in W. apply P. destruct (proj1 (Forall_forall _ _) W a Ia) as [K|K]; rewrite K in F; exact F.
    - apply refuse_in. eapply refuse_members; [| |exact E]; unfold triangle_tree.
      + intros k a b F. destruct (o_kind a); try discriminate; eexists; eapply triangle_calls, F.
      + intros k a Ia F. cbn [surfaces_ok] in W. apply T. rewrite (proj1 (Forall_forall _ _) W a Ia) in F. exact F.
    - apply T, E.
    - apply refuse_now.
  Qed.
End Refuse.
Lemma gdal_refuses : forall missing g, tree (fill missing g) = None -> surfaces_ok g -> forall S (p : proc S) s,
  exists e, snd (exec p (gdal_process missing g (p_dims p)) s) = Err e /\
    ((forall s e, snd (p_step p s e) = Ok tt) -> e = EGeometryFormat).
Proof.
  intros missing g E W S p s. unfold gdal_process.
  destruct (geom_refuses (dz (p_dims p)) missing g 0 E W) as [l ->]. rewrite exec_calls.
  destruct (run p l s) as [s' [[]|x]] eqn:R; cbn; [now exists EGeometryFormat|].
  exists x. split; [reflexivity|]. intros A. exfalso. revert s R. induction l as [|a l IH]; intros s R; [discriminate R|].
  cbn [run] in R. destruct (p_step p s a) as [s1 r1] eqn:St. specialize (A s a) as A1. rewrite St in A1. cbn in A1. subst r1. eauto.
Qed.

Lemma gdal_reads : forall missing g t, tree (fill missing g) = Some t -> forall S (p : proc S) s,
  exec p (gdal_process missing g (p_dims p)) s = run p (gevents (dz (p_dims p)) 0 t) s.
Proof.
  intros missing g t E S p s. unfold gdal_process.
  rewrite <- fill_reads, (geom_calls _ _ _ 0 t E (fill_no_empty _ _ _ E)). unfold ok_calls. rewrite exec_calls.
  destruct (run p _ s) as [s' [[]|x]]; reflexivity.
Qed.
Definition said (t : geom) (d : dims) : prog unit := ok_calls (gevents (multi_dim d) 0 t).
Lemma said_delivers : forall t, delivers (said t) (fun multi => gevents multi 0 t) (Ok tt).
Proof.
  intros g S p s. unfold said, ok_calls. rewrite exec_calls.
  destruct (run p _ s) as [s' [[]|x]]; reflexivity.
Qed.
Lemma said_same : forall missing g t d, tree (fill missing g) = Some t -> multi_dim d = dz d ->
  gdal_process missing g d = said t d.
Proof.
  intros missing g t d E M. unfold gdal_process, said. rewrite M, <- fill_reads.
  apply geom_calls; [exact E|exact (fill_no_empty _ _ _ E)].
Qed.
