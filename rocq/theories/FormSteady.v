(** C87: results that do not depend on the values of coordinates. *)
From Coq Require Import String Ascii.
From Coq Require Import List NArith ZArith Lia Bool.
From Verif Require Import Base Float Event Claims TraceTop FormSpec FormTop.
From Verif Require WktModel CsvModel GeoModel GdalModel MvtModel.
Import ListNotations.
Local Open Scope list_scope.

(** a relation of states that the steps keep *)
Lemma kept : forall S (p : proc S) (Q : S -> S -> Prop),
  (forall o o' s s', alike o o' -> Q s s' -> Q (fst (one p o s)) (fst (one p o' s')) /\ snd (one p o' s') = snd (one p o s)) ->
  forall l l', Forall2 alike l l' -> forall s s', Q s s' ->
  Q (fst (feed p l s)) (fst (feed p l' s')) /\ snd (feed p l' s') = snd (feed p l s).
Proof.
  intros S p Q H. induction 1 as [|o o' l l' A F IH]; intros s s' E; [split; [exact E|reflexivity]|].
  rewrite !feed_cons. destruct (H _ _ _ _ A E) as [B C]. destruct (one p o s) as [a [[]|x]], (one p o' s') as [b [[]|y]]; cbn [fst snd] in *; try discriminate C.
  - apply IH, B.
  - split; [exact B|exact C].
Qed.
Lemma one_step : forall S (p : proc S) e s, one p (OEv e) s = p_step p s e.
Proof. intros. unfold one. cbn [feed]. destruct (p_step p s e) as [s' [[]|x]]; reflexivity. Qed.
Lemma steady_by : forall S (p : proc S) (Q : S -> S -> Prop) s0, Q s0 s0 ->
  (forall e s s', Q s s' -> (forall x y i, e <> Xy x y i) -> (forall x y z m t tm i, e <> Coord x y z m t tm i) ->
     Q (fst (p_step p s e)) (fst (p_step p s' e)) /\ snd (p_step p s' e) = snd (p_step p s e)) ->
  (forall x y x' y' i s s', Q s s' ->
     Q (fst (p_step p s (Xy x y i))) (fst (p_step p s' (Xy x' y' i))) /\ snd (p_step p s' (Xy x' y' i)) = snd (p_step p s (Xy x y i))) ->
  (forall x y z m t tm x' y' z' m' t' tm' i s s', Q s s' ->
     Q (fst (p_step p s (Coord x y z m t tm i))) (fst (p_step p s' (Coord x' y' z' m' t' tm' i))) /\
     snd (p_step p s' (Coord x' y' z' m' t' tm' i)) = snd (p_step p s (Coord x y z m t tm i))) ->
  (forall i n v s s', Q s s' -> Q (fst (p_prop p s i n v)) (fst (p_prop p s' i n v)) /\ snd (p_prop p s' i n v) = snd (p_prop p s i n v)) ->
  forall l l', Forall2 alike l l' -> Q (fst (feed p l s0)) (fst (feed p l' s0)) /\ snd (feed p l' s0) = snd (feed p l s0).
Proof.
  intros S p Q s0 Q0 He Hx Hc Hp l l' F. apply kept; [|exact F|exact Q0]. clear l l' F.
  intros o o' s s' A E. destruct o as [e|i n v].
  - assert (Pl : (forall x y i, e <> Xy x y i) -> (forall x y z m t tm i, e <> Coord x y z m t tm i) ->
      Q (fst (one p (OEv e) s)) (fst (one p o' s')) /\ snd (one p o' s') = snd (one p (OEv e) s)).
    { intros N1 N2. apply alike_same in A; [|intros x y i N; injection N as N; exact (N1 _ _ _ N)|intros x y z m t tm i N; injection N as N; exact (N2 _ _ _ _ _ _ _ N)].
      subst o'. rewrite !one_step. apply He; assumption. }
    destruct e; try (apply Pl; discriminate).
    + apply alike_xy in A. destruct A as (x' & y' & ->). rewrite !one_step. apply Hx, E.
    + apply alike_coord in A. destruct A as (x' & y' & z' & m' & t' & tm' & -> & _). rewrite !one_step. apply Hc, E.
  - apply alike_same in A; [|discriminate|discriminate]. subst o'. unfold one. cbn [feed]. destruct (Hp i n v s s' E) as [B C].
    destruct (p_prop p s i n v) as [a [x|x]], (p_prop p s' i n v) as [b [y|y]]; cbn [fst snd] in *; try discriminate C; (split; [exact B|congruence]).
Qed.

(** ** geo-types *)
Definition both {A} (P : A -> A -> Prop) (a b : option A) : Prop := match a, b with Some x, Some y => P x y | None, None => True | _, _ => False end.
Definition len {A} (a b : list A) : Prop := length a = length b.
Record like_gw (s s' : GeoModel.gw) : Prop := {
  lg_geoms : len (GeoModel.g_geoms s) (GeoModel.g_geoms s');
  lg_coll : len (GeoModel.g_coll s) (GeoModel.g_coll s');
  lg_polys : both len (GeoModel.g_polys s) (GeoModel.g_polys s');
  lg_lines : both len (GeoModel.g_lines s) (GeoModel.g_lines s');
  lg_coords : both len (GeoModel.g_coords s) (GeoModel.g_coords s') }.
Lemma len_snoc : forall A (a b : list A) x y, len a b -> len (a ++ [x]) (b ++ [y]).
Proof. intros A a b x y H. unfold len in *. rewrite !app_length, H. reflexivity. Qed.
Lemma finish_like : forall s s' g g', like_gw s s' ->
  like_gw (fst (GeoModel.finish_geometry s g)) (fst (GeoModel.finish_geometry s' g')) /\
  snd (GeoModel.finish_geometry s' g') = snd (GeoModel.finish_geometry s g).
Proof.
  intros [ge co po li cs] [ge' co' po' li' cs'] g g' [H1 H2 H3 H4 H5]. cbn in *. unfold GeoModel.finish_geometry. cbn [GeoModel.g_coll].
  destruct co as [|c r], co' as [|c' r']; try discriminate H2.
  - split; [|reflexivity]. constructor; cbn; auto. apply len_snoc, H1.
  - split; [|reflexivity]. constructor; cbn; auto.
Qed.
Ltac sub := first [assumption|reflexivity|exact I|(apply len_snoc; assumption)].
Lemma geo_like : forall debug e s s', like_gw s s' -> (forall x y i, e <> Xy x y i) -> 
  like_gw (fst (GeoModel.geo_step debug s e)) (fst (GeoModel.geo_step debug s' e)) /\
  snd (GeoModel.geo_step debug s' e) = snd (GeoModel.geo_step debug s e).
Proof.
  intros debug e s s' L N1. pose proof L as [H1 H2 H3 H4 H5].
  destruct s as [ge co po li cs], s' as [ge' co' po' li' cs']. cbn in H1, H2, H3, H4, H5.
  destruct e; try (exfalso; eapply N1; reflexivity); cbn [GeoModel.geo_step default_step]; unfold GeoModel.debug_assert, GeoModel.reserve;
    cbn [GeoModel.g_geoms GeoModel.g_coll GeoModel.g_polys GeoModel.g_lines GeoModel.g_coords GeoModel.set_coords GeoModel.set_lines GeoModel.set_polys GeoModel.set_coll];
    try (split; [exact L|reflexivity]);
    try (destruct (GeoModel.bounded_vec _ _));
    try (destruct cs, cs'; try contradiction H5); try (destruct li, li'; try contradiction H4); try (destruct po, po'; try contradiction H3);
    cbn [both] in *; unfold len in *;
    try (destruct debug; cbn [GeoModel.is_none andb negb]);
    try match goal with |- context[Nat.eqb (length ?a) 1] => match goal with H : length a = length ?b |- _ => rewrite H; destruct (Nat.eqb (length b) 1) end end;
    cbn [andb negb];
    try (destruct co, co'; try discriminate H2);
    repeat match goal with |- context[match ?l with [] => _ | _ :: _ => _ end] => is_var l; destruct l; try discriminate end;
    repeat match goal with |- context[if ?b then _ else _] => is_var b; destruct b end;
    try (split; [constructor; cbn in *; unfold len in *; auto; rewrite ?app_length; cbn; auto; lia|reflexivity]);
    try (apply finish_like; constructor; cbn in *; unfold len in *; auto; lia).
Qed.
Lemma geo_xy_like : forall s s' x y x' y', like_gw s s' ->
  like_gw (fst (GeoModel.g_xy s x y)) (fst (GeoModel.g_xy s' x' y')) /\ snd (GeoModel.g_xy s' x' y') = snd (GeoModel.g_xy s x y).
Proof.
  intros [ge co po li cs] [ge' co' po' li' cs'] x y x' y' L. pose proof L as [H1 H2 H3 H4 H5]. cbn in H1, H2, H3, H4, H5. unfold GeoModel.g_xy. cbn [GeoModel.g_coords].
  destruct cs, cs'; try contradiction H5; (split; [|reflexivity]); [|exact L]. constructor; cbn; auto. apply len_snoc, H5.
Qed.
Theorem geo_steady : forall debug, steady (GeoModel.geo_writer debug) GeoModel.gw_init.
Proof.
  intros debug l l' F. refine (proj2 (steady_by _ (GeoModel.geo_writer debug) like_gw GeoModel.gw_init _ _ _ _ _ l l' F)).
  - constructor; cbn; reflexivity || exact I.
  - intros e s s' L N1 _. apply geo_like; assumption.
  - intros x y x' y' i s s' L. apply geo_xy_like, L.
  - intros x y z m t tm x' y' z' m' t' tm' i s s' L. split; [exact L|reflexivity].
  - intros i n v s s' L. split; [exact L|reflexivity].
Qed.
Definition like_gf (s s' : GeoModel.gf) : Prop :=
  like_gw (GeoModel.f_writer s) (GeoModel.f_writer s') /\ GeoModel.f_props s = GeoModel.f_props s' /\
  map snd (GeoModel.f_features s) = map snd (GeoModel.f_features s').
Lemma take_like : forall s s', like_gw s s' ->
  like_gw (fst (GeoModel.take_geometry s)) (fst (GeoModel.take_geometry s')) /\
  both (fun _ _ => True) (snd (GeoModel.take_geometry s)) (snd (GeoModel.take_geometry s')).
Proof.
  intros [ge co po li cs] [ge' co' po' li' cs'] L. pose proof L as [H1 H2 H3 H4 H5]. cbn in H1, H2, H3, H4, H5. unfold GeoModel.take_geometry. cbn [GeoModel.g_geoms].
  destruct ge as [|a [|b ge]], ge' as [|a' [|b' ge']]; try discriminate H1; (split; [|exact I]); constructor; cbn; auto; reflexivity.
Qed.
Lemma like_none : forall s s', like_gf s s' -> GeoModel.no_geoms s' = GeoModel.no_geoms s /\ GeoModel.f_props s' = GeoModel.f_props s.
Proof.
  intros s s' (L & P & _). split; [|congruence]. destruct L as [H1 _ _ _ _]. unfold GeoModel.no_geoms.
  destruct (GeoModel.g_geoms (GeoModel.f_writer s)), (GeoModel.g_geoms (GeoModel.f_writer s')); try discriminate H1; reflexivity.
Qed.
Lemma feature_like : forall debug l l', Forall2 alike l l' ->
  like_gf (fst (feed (GeoModel.feature_writer debug) l GeoModel.gf_init)) (fst (feed (GeoModel.feature_writer debug) l' GeoModel.gf_init)) /\
  snd (feed (GeoModel.feature_writer debug) l' GeoModel.gf_init) = snd (feed (GeoModel.feature_writer debug) l GeoModel.gf_init).
Proof.
  intros debug. apply steady_by.
  - split; [constructor; cbn; reflexivity || exact I|split; reflexivity].
  - intros e s s' L N1 N2. cbn [p_step GeoModel.feature_writer]. destruct (like_none _ _ L) as [G P].
    assert (W : forall e, (forall x y i, e <> Xy x y i) ->
      (let f := fun (s : GeoModel.gf) => let (w, r) := GeoModel.geo_step debug (GeoModel.f_writer s) e in (GeoModel.mkGf w (GeoModel.f_props s) (GeoModel.f_features s), r) in
       like_gf (fst (f s)) (fst (f s')) /\ snd (f s') = snd (f s))).
    { intros e0 N f. destruct L as (Lw & Lp & Lf). destruct (geo_like debug e0 _ _ Lw N) as [A B]. unfold f.
      destruct (GeoModel.geo_step debug (GeoModel.f_writer s) e0), (GeoModel.geo_step debug (GeoModel.f_writer s') e0). cbn in *.
      split; [split; [exact A|split; assumption]|exact B]. }
    destruct e; cbn [GeoModel.feature_step]; try (apply W; discriminate || assumption); try (exfalso; eapply N1; reflexivity);
      try (split; [exact L|reflexivity]); unfold GeoModel.f_assert; rewrite ?G, ?P.
    + destruct debug, (GeoModel.no_geoms s), (GeoModel.f_props s); cbn [GeoModel.is_none andb negb fst snd]; (split; [|reflexivity]); try exact L;
        (destruct L as (Lw & Lp & Lf); split; [exact Lw|split; [reflexivity|exact Lf]]).
    + destruct L as (Lw & Lp & Lf). destruct (take_like _ _ Lw) as [A B].
      destruct (GeoModel.take_geometry (GeoModel.f_writer s)) as [w [g|]], (GeoModel.take_geometry (GeoModel.f_writer s')) as [w' [g'|]]; cbn [fst snd] in A, B; try contradiction B.
      * destruct (GeoModel.f_props s); cbn [fst snd]; (split; [|reflexivity]); (split; [exact A|split; [reflexivity|]]); cbn; rewrite ?map_app; cbn; congruence.
      * split; [|reflexivity]. split; [exact A|split; [reflexivity|exact Lf]].
    + destruct debug, (GeoModel.no_geoms s); (split; [exact L|reflexivity]).
  - intros x y x' y' i s s' (Lw & Lp & Lf). cbn [p_step GeoModel.feature_writer GeoModel.feature_step GeoModel.geo_step].
    destruct (geo_xy_like _ _ x y x' y' Lw) as [A B]. destruct (GeoModel.g_xy (GeoModel.f_writer s) x y), (GeoModel.g_xy (GeoModel.f_writer s') x' y'). cbn in *.
    split; [split; [exact A|split; assumption]|exact B].
  - intros x y z m t tm x' y' z' m' t' tm' i s s' L. destruct s, s'. split; [exact L|reflexivity].
  - intros i n v s s' (Lw & Lp & Lf). cbn [p_prop GeoModel.feature_writer]. unfold GeoModel.feature_prop. rewrite <- Lp. destruct (GeoModel.f_props s) eqn:T; cbn.
    + split; [|reflexivity]. split; [exact Lw|split; [reflexivity|exact Lf]].
    + split; [|reflexivity]. split; [exact Lw|split; [congruence|exact Lf]].
Qed.
(** as many features as there were, with the same attributes *)
Theorem features_steady : forall debug, steady (GeoModel.feature_writer debug) GeoModel.gf_init /\
  forall l l', Forall2 alike l l' ->
    map snd (GeoModel.f_features (fst (feed (GeoModel.feature_writer debug) l' GeoModel.gf_init))) =
    map snd (GeoModel.f_features (fst (feed (GeoModel.feature_writer debug) l GeoModel.gf_init))).
Proof.
  intros debug. split.
  - intros l l' F. apply (proj2 (feature_like debug l l' F)).
  - intros l l' F. destruct (proj1 (feature_like debug l l' F)) as (_ & _ & E). symmetry. exact E.
Qed.

(** ** GDAL *)
Definition bare_ref (r : GdalModel.line_ref) : GdalModel.line_ref :=
  match r with GdalModel.Own g => GdalModel.Own (bare g) | r => r end.
Definition bare_gw (s : GdalModel.gw) : GdalModel.gw := GdalModel.mkGw (GdalModel.g_dims s) (bare (GdalModel.g_geom s)) (bare_ref (GdalModel.g_line s)).
Definition zeros (l : list GdalModel.pt) : list GdalModel.pt := map (fun _ => GdalModel.zero_pt) l.
Lemma put_zeros : forall k p p' l, zeros (GdalModel.put GdalModel.zero_pt k p l) = zeros (GdalModel.put GdalModel.zero_pt k p' (zeros l)).
Proof.
  induction k as [|k IH]; intros p p' [|a l]; try reflexivity.
  - unfold zeros. cbn. rewrite map_map. reflexivity.
  - cbn. f_equal. apply (IH p p' []).
  - cbn. f_equal. apply IH.
Qed.
Lemma zeros_zeros : forall l, zeros (zeros l) = zeros l.
Proof. intros l. unfold zeros. rewrite map_map. reflexivity. Qed.
Section OgInd.
  Variable P : GdalModel.og -> Prop.
  Hypothesis H : forall k z m pts kids, Forall P kids -> P (GdalModel.Og k z m pts kids).
  Fixpoint og_all (g : GdalModel.og) : P g :=
    match g with GdalModel.Og k z m pts kids =>
      H k z m pts kids ((fix go (l : list GdalModel.og) : Forall P l := match l with [] => Forall_nil P | a :: r => Forall_cons a (og_all a) (go r) end) kids) end.
End OgInd.
Lemma bare_bare : forall g, bare (bare g) = bare g.
Proof.
  induction g as [k z m pts kids IH] using og_all. cbn. f_equal; [apply zeros_zeros|]. rewrite map_map.
  induction IH as [|a r E F IH]; [reflexivity|]. cbn. rewrite E, IH. reflexivity.
Qed.
Lemma set2_bare : forall i x y x' y' g, bare (GdalModel.set_point_2d i x y g) = bare (GdalModel.set_point_2d i x' y' (bare g)).
Proof.
  intros i x y x' y' [k z m pts kids]. destruct k; cbn [bare GdalModel.set_point_2d]; try (destruct (GdalModel.c_int i) as [[|j]|]);
    cbn [bare]; fold (zeros pts); rewrite ?map_map; f_equal; try (symmetry; apply zeros_zeros); try reflexivity;
    try apply put_zeros; try (apply map_ext; intros a; symmetry; apply bare_bare).
Qed.
Lemma set_bare : forall i p p' g, bare (GdalModel.set_point i p g) = bare (GdalModel.set_point i p' (bare g)).
Proof.
  intros i p p' [k z m pts kids]. destruct k; cbn [bare GdalModel.set_point]; try (destruct (GdalModel.c_int i) as [[|j]|]);
    cbn [bare]; fold (zeros pts); rewrite ?map_map; f_equal; try (symmetry; apply zeros_zeros); try reflexivity;
    try apply put_zeros; try (apply map_ext; intros a; symmetry; apply bare_bare).
Qed.
Lemma lift_bare : forall z m g, bare (GdalModel.lift z m g) = GdalModel.lift z m (bare g).
Proof.
  intros z m. induction g as [k z0 m0 pts kids IH] using og_all. cbn. f_equal. rewrite !map_map.
  induction IH as [|a r E F IH]; [reflexivity|]. cbn. rewrite E, IH. reflexivity.
Qed.
Lemma kind_bare : forall g, GdalModel.o_kind (bare g) = GdalModel.o_kind g /\ GdalModel.o_z (bare g) = GdalModel.o_z g /\ GdalModel.o_m (bare g) = GdalModel.o_m g /\
  GdalModel.o_kids (bare g) = map bare (GdalModel.o_kids g).
Proof. intros [k z m pts kids]. repeat split. Qed.
Lemma code_bare : forall g, GdalModel.full_code (bare g) = GdalModel.full_code g.
Proof. intros [k z m pts kids]. reflexivity. Qed.
Lemma add_bare : forall g a, GdalModel.add (bare g) (bare a) = match GdalModel.add g a with Ok x => Ok (bare x) | Err e => Err e end.
Proof.
  intros g a. unfold GdalModel.add. destruct (kind_bare g) as (-> & -> & -> & _), (kind_bare a) as (-> & -> & -> & _).
  destruct (GdalModel.fits_in _ _); [|reflexivity]. rewrite <- !lift_bare.
  destruct (GdalModel.lift (GdalModel.o_z a) (GdalModel.o_m a) g) as [k z m pts kids]. cbn. rewrite map_app. reflexivity.
Qed.
Lemma at_nth_bare : forall i f f' l, (forall g, bare (f g) = bare (f' (bare g))) -> map bare (GdalModel.at_nth i f l) = map bare (GdalModel.at_nth i f' (map bare l)).
Proof.
  induction i as [|i IH]; intros f f' [|a l] H; cbn; try reflexivity.
  - rewrite H. f_equal. rewrite map_map. apply map_ext. intros g. symmetry. apply bare_bare.
  - rewrite bare_bare. f_equal. apply IH, H.
Qed.
Lemma at_path_bare : forall path f f' g, (forall g, bare (f g) = bare (f' (bare g))) -> bare (GdalModel.at_path path f g) = bare (GdalModel.at_path path f' (bare g)).
Proof.
  induction path as [|i r IH]; intros f f' g H; cbn; [apply H|]. destruct g as [k z m pts kids]. cbn. f_equal; [symmetry; apply zeros_zeros|].
  apply at_nth_bare. intros g. apply IH, H.
Qed.
Definition like_gdal (s s' : GdalModel.gw) : Prop :=
  GdalModel.g_dims s = GdalModel.g_dims s' /\ bare (GdalModel.g_geom s) = bare (GdalModel.g_geom s') /\ bare_ref (GdalModel.g_line s) = bare_ref (GdalModel.g_line s').
Lemma like_code : forall g g', bare g = bare g' -> GdalModel.full_code g = GdalModel.full_code g'.
Proof. intros g g' E. rewrite <- code_bare, E, code_bare. reflexivity. Qed.
Lemma like_add : forall g g' a a', bare g = bare g' -> bare a = bare a' ->
  match GdalModel.add g a, GdalModel.add g' a' with Ok x, Ok y => bare x = bare y | Err e, Err e' => e = e' | _, _ => False end.
Proof.
  intros g g' a a' E F. pose proof (add_bare g a) as A. pose proof (add_bare g' a') as B. rewrite E, F in A. rewrite A in B.
  destruct (GdalModel.add g a), (GdalModel.add g' a'); try discriminate B; congruence.
Qed.
Lemma like_on : forall f f' s s', (forall g g', bare g = bare g' -> bare (f g) = bare (f' g')) -> like_gdal s s' ->
  like_gdal (fst (GdalModel.on_line s f)) (fst (GdalModel.on_line s' f')) /\ snd (GdalModel.on_line s' f') = snd (GdalModel.on_line s f).
Proof.
  intros f f' [d g r] [d' g' r'] H (D & G & R). cbn in D, G, R. subst d'. unfold GdalModel.on_line. cbn [GdalModel.g_line].
  destruct r, r'; try discriminate R; cbn [fst snd]; (split; [|reflexivity]); repeat split; cbn; try assumption.
  - injection R as R. rewrite (H _ _ R). reflexivity.
  - injection R as <-.
    assert (H' : forall g, bare (f g) = bare (f (bare g))) by (intros x; rewrite (H x x eq_refl), (H (bare x) x (bare_bare x)); reflexivity).
    assert (H'' : forall g, bare (f' g) = bare (f (bare g))) by (intros x; symmetry; apply H, bare_bare).
    rewrite (at_path_bare path f f g H'), (at_path_bare path f' f g' H''), G. reflexivity.
Qed.
Lemma like_try : forall s s' a a', bare a = bare a' -> like_gdal s s' ->
  like_gdal (fst (GdalModel.try_add s a)) (fst (GdalModel.try_add s' a')) /\ snd (GdalModel.try_add s' a') = snd (GdalModel.try_add s a).
Proof.
  intros s s' a a' A L. pose proof L as (D & G & R). unfold GdalModel.try_add. pose proof (like_add _ _ _ _ G A) as Q.
  destruct (GdalModel.add (GdalModel.g_geom s) a), (GdalModel.add (GdalModel.g_geom s') a'); try contradiction Q; (split; [|cbn; congruence]); [|exact L].
  repeat split; assumption.
Qed.
Lemma like_replace : forall s s' k, like_gdal s s' ->
  like_gdal (GdalModel.replace_geom s (GdalModel.empty_geom s k)) (GdalModel.replace_geom s' (GdalModel.empty_geom s' k)).
Proof.
  intros [d g r] [d' g' r'] k (D & G & R). cbn in D, G, R. subst d'. repeat split. cbn. destruct r, r'; try discriminate R; try reflexivity. exact R.
Qed.
Lemma empty_like : forall s s' k, like_gdal s s' -> GdalModel.empty_geom s' k = GdalModel.empty_geom s k.
Proof. intros s s' k (D & _). unfold GdalModel.empty_geom. rewrite D. reflexivity. Qed.
Lemma set2_like : forall i x y x' y' g g', bare g = bare g' -> bare (GdalModel.set_point_2d i x y g) = bare (GdalModel.set_point_2d i x' y' g').
Proof. intros i x y x' y' g g' E. rewrite (set2_bare i x y x y g), (set2_bare i x' y' x y g'), E. reflexivity. Qed.
Lemma set_like : forall i p p' g g', bare g = bare g' -> bare (GdalModel.set_point i p g) = bare (GdalModel.set_point i p' g').
Proof. intros i p p' g g' E. rewrite (set_bare i p p g), (set_bare i p' p g'), E. reflexivity. Qed.
Lemma put_like : forall s s' g g', bare g = bare g' -> like_gdal s s' -> like_gdal (GdalModel.put_geom s g) (GdalModel.put_geom s' g').
Proof. intros s s' g g' E (D & G & R). repeat split; assumption. Qed.
Ltac codes := repeat match goal with |- context[match ?c with N0 => _ | Npos _ => _ end] => destruct c
  | |- context[match ?c with xI _ => _ | xO _ => _ | xH => _ end] => destruct c end.
Lemma gdal_like : forall d l l', Forall2 alike l l' ->
  like_gdal (fst (feed (GdalModel.gdal_writer d) l (GdalModel.gw_with d))) (fst (feed (GdalModel.gdal_writer d) l' (GdalModel.gw_with d))) /\
  snd (feed (GdalModel.gdal_writer d) l' (GdalModel.gw_with d)) = snd (feed (GdalModel.gdal_writer d) l (GdalModel.gw_with d)).
Proof.
  intros d. apply steady_by.
  - repeat split.
  - intros e s s' L N1 N2. pose proof L as (D & G & R). cbn [p_step GdalModel.gdal_writer].
    destruct e; try (exfalso; eapply N1; reflexivity); try (exfalso; eapply N2; reflexivity); cbn [GdalModel.gdal_step default_step];
      try (split; [exact L|reflexivity]); try (split; [apply like_replace, L|reflexivity]).
    + destruct tagged; [split; [apply like_replace, L|reflexivity]|]. cbv zeta. rewrite (empty_like _ _ _ L), <- (like_code _ _ G).
      assert (Z : like_gdal s s' /\ @Err unit GdalModel.gdal_error = Err GdalModel.gdal_error) by (split; [exact L|reflexivity]).
      pose proof (like_add _ _ (GdalModel.empty_geom s GdalModel.OLineString) _ G eq_refl) as Q.
      assert (K5 : forall r r', match GdalModel.add (GdalModel.g_geom s) (GdalModel.empty_geom s GdalModel.OLineString) with
          | Ok g => (GdalModel.mkGw (GdalModel.g_dims s) g (GdalModel.At [length (GdalModel.o_kids g) - 1]), Ok tt) | Err x => (s, Err x) end = r ->
        match GdalModel.add (GdalModel.g_geom s') (GdalModel.empty_geom s GdalModel.OLineString) with
          | Ok g => (GdalModel.mkGw (GdalModel.g_dims s') g (GdalModel.At [length (GdalModel.o_kids g) - 1]), Ok tt) | Err x => (s', Err x) end = r' ->
        like_gdal (fst r) (fst r') /\ snd r' = snd r).
      { intros r r' <- <-. destruct (GdalModel.add (GdalModel.g_geom s) _) as [u|], (GdalModel.add (GdalModel.g_geom s') _) as [v|]; try contradiction Q.
        - split; [|reflexivity]. repeat split; try assumption. cbn.
          assert (Ln : length (GdalModel.o_kids u) = length (GdalModel.o_kids v)).
          { destruct (kind_bare u) as (_ & _ & _ & U), (kind_bare v) as (_ & _ & _ & V). rewrite Q in U. rewrite U in V. apply (f_equal (@length _)) in V. rewrite !map_length in V. exact V. }
          rewrite Ln. reflexivity.
        - subst. split; [exact L|reflexivity]. }
      assert (Kids : map bare (GdalModel.o_kids (GdalModel.g_geom s)) = map bare (GdalModel.o_kids (GdalModel.g_geom s'))).
      { destruct (kind_bare (GdalModel.g_geom s)) as (_ & _ & _ & <-), (kind_bare (GdalModel.g_geom s')) as (_ & _ & _ & <-). rewrite G. reflexivity. }
      assert (Ln : length (GdalModel.o_kids (GdalModel.g_geom s)) = length (GdalModel.o_kids (GdalModel.g_geom s'))).
      { apply (f_equal (@length _)) in Kids. rewrite !map_length in Kids. exact Kids. }
      apply (f_equal (@rev _)) in Kids. rewrite <- !map_rev in Kids.
      set (ring := GdalModel.empty_geom s GdalModel.OLineString) in *. rewrite <- Ln.
      generalize dependent (GdalModel.full_code (GdalModel.g_geom s) mod 1000)%N. intros c.
      assert (K6 : forall r r',
        match rev (GdalModel.o_kids (GdalModel.g_geom s)) with
        | [] => (s, Err EPanic)
        | poly :: _ => match GdalModel.add poly ring with
            | Ok poly' => (GdalModel.mkGw (GdalModel.g_dims s) (GdalModel.at_path [length (GdalModel.o_kids (GdalModel.g_geom s)) - 1] (fun _ => poly') (GdalModel.g_geom s))
                (GdalModel.At [length (GdalModel.o_kids (GdalModel.g_geom s)) - 1; length (GdalModel.o_kids poly') - 1]), Ok tt)
            | Err x => (s, Err x) end end = r ->
        match rev (GdalModel.o_kids (GdalModel.g_geom s')) with
        | [] => (s', Err EPanic)
        | poly :: _ => match GdalModel.add poly ring with
            | Ok poly' => (GdalModel.mkGw (GdalModel.g_dims s') (GdalModel.at_path [length (GdalModel.o_kids (GdalModel.g_geom s)) - 1] (fun _ => poly') (GdalModel.g_geom s'))
                (GdalModel.At [length (GdalModel.o_kids (GdalModel.g_geom s)) - 1; length (GdalModel.o_kids poly') - 1]), Ok tt)
            | Err x => (s', Err x) end end = r' ->
        like_gdal (fst r) (fst r') /\ snd r' = snd r).
      { intros r r' <- <-. destruct (rev (GdalModel.o_kids (GdalModel.g_geom s))) as [|a ra], (rev (GdalModel.o_kids (GdalModel.g_geom s'))) as [|b rb]; try discriminate Kids.
        - split; [exact L|reflexivity].
        - injection Kids as Ka _. pose proof (like_add a b ring ring Ka eq_refl) as Q'.
          destruct (GdalModel.add a ring) as [u|], (GdalModel.add b ring) as [v|]; try contradiction Q'.
          + split; [|reflexivity]. split; [exact D|]. split.
            * cbn [fst GdalModel.g_geom].
              rewrite (at_path_bare _ (fun _ => u) (fun _ => u) (GdalModel.g_geom s)), (at_path_bare _ (fun _ => v) (fun _ => u) (GdalModel.g_geom s')), G; [reflexivity|intros _; symmetry; exact Q'|reflexivity].
            * cbn. assert (Lv : length (GdalModel.o_kids u) = length (GdalModel.o_kids v)).
              { destruct (kind_bare u) as (_ & _ & _ & U), (kind_bare v) as (_ & _ & _ & V). rewrite Q' in U. rewrite U in V. apply (f_equal (@length _)) in V. rewrite !map_length in V. exact V. }
              rewrite Lv. reflexivity.
          + subst. split; [exact L|reflexivity]. }
      destruct c as [|c]; [exact Z|]; do 3 (try (destruct c as [c|c|])); first [exact Z|apply K5; reflexivity|apply K6; reflexivity].
    + destruct tagged; [split; [apply like_replace, L|reflexivity]|]. apply like_try; [|exact L]. rewrite (empty_like _ _ _ L). reflexivity.
  - intros x y x' y' i s s' L. pose proof L as (D & G & R). cbn [p_step GdalModel.gdal_writer GdalModel.gdal_step].
    assert (Z : like_gdal s s' /\ @Err unit GdalModel.gdal_error = Err GdalModel.gdal_error) by (split; [exact L|reflexivity]).
    assert (K1 : like_gdal (GdalModel.put_geom s (GdalModel.set_point_2d i x y (GdalModel.g_geom s))) (GdalModel.put_geom s' (GdalModel.set_point_2d i x' y' (GdalModel.g_geom s'))) /\ @Ok unit tt = Ok tt)
      by (split; [apply put_like; [apply set2_like, G|exact L]|reflexivity]).
    pose proof (like_try s s' (GdalModel.set_point_2d 0 x y (GdalModel.empty_geom s GdalModel.OPoint)) (GdalModel.set_point_2d 0 x' y' (GdalModel.empty_geom s' GdalModel.OPoint))) as K4.
    rewrite (empty_like _ _ _ L) in *. specialize (K4 (set2_like _ _ _ _ _ _ _ eq_refl) L).
    pose proof (like_on (GdalModel.set_point_2d i x y) (GdalModel.set_point_2d i x' y') s s' (set2_like _ _ _ _ _) L) as K5.
    rewrite <- (like_code _ _ G). generalize (GdalModel.full_code (GdalModel.g_geom s)). intros c.
    destruct c as [|c]; [exact Z|]; do 3 (try (destruct c as [c|c|])); first [exact Z|exact K1|exact K4|exact K5].
  - intros x y z m t tm x' y' z' m' t' tm' i s s' L. pose proof L as (D & G & R). cbn [p_step GdalModel.gdal_writer GdalModel.gdal_step]. cbv zeta.
    set (q := (x, y, opt_default f64_zero z)). set (q' := (x', y', opt_default f64_zero z')).
    assert (Z : like_gdal s s' /\ @Err unit GdalModel.gdal_error = Err GdalModel.gdal_error) by (split; [exact L|reflexivity]).
    assert (K1 : like_gdal (GdalModel.put_geom s (GdalModel.set_point i q (GdalModel.g_geom s))) (GdalModel.put_geom s' (GdalModel.set_point i q' (GdalModel.g_geom s'))) /\ @Ok unit tt = Ok tt)
      by (split; [apply put_like; [apply set_like, G|exact L]|reflexivity]).
    pose proof (like_try s s' (GdalModel.set_point 0 q (GdalModel.empty_geom s GdalModel.OPoint)) (GdalModel.set_point 0 q' (GdalModel.empty_geom s' GdalModel.OPoint))) as K4.
    rewrite (empty_like _ _ _ L) in *. specialize (K4 (set_like _ _ _ _ _ eq_refl) L).
    pose proof (like_on (GdalModel.set_point i q) (GdalModel.set_point i q') s s' (set_like _ _ _) L) as K5.
    rewrite <- (like_code _ _ G). generalize (GdalModel.full_code (GdalModel.g_geom s) mod 1000)%N. intros c.
    destruct c as [|c]; [exact Z|]; do 3 (try (destruct c as [c|c|])); first [exact Z|exact K1|exact K4|exact K5].
  - intros i n v s s' L. split; [exact L|reflexivity].
Qed.
Theorem gdal_steady : forall d, steady (GdalModel.gdal_writer d) (GdalModel.gw_with d) /\
  forall l l', Forall2 alike l l' ->
    bare (GdalModel.g_geom (fst (feed (GdalModel.gdal_writer d) l' (GdalModel.gw_with d)))) =
    bare (GdalModel.g_geom (fst (feed (GdalModel.gdal_writer d) l (GdalModel.gw_with d)))).
Proof.
  intros d. split; intros l l' F; destruct (gdal_like d l l' F) as [(_ & G & _) R]; [exact R|symmetry; exact G].
Qed.


(** ** WKT and CSV *)
Definition like_wkt (s s' : WktModel.wktst) : Prop :=
  WktModel.k_srid s = WktModel.k_srid s' /\ WktModel.k_first s = WktModel.k_first s' /\ WktModel.k_sizes s = WktModel.k_sizes s' /\
  String.eqb (WktModel.k_out s) "" = String.eqb (WktModel.k_out s') "".
Lemma app_empty : forall a b, String.eqb (a ++ b) "" = String.eqb a "" && String.eqb b "".
Proof. intros [|x a] b; reflexivity. Qed.
Lemma put_like_wkt : forall s s' t t', like_wkt s s' -> String.eqb t "" = String.eqb t' "" -> like_wkt (WktModel.put s t) (WktModel.put s' t').
Proof. intros s s' t t' (A & B & C & D) E. repeat split; cbn; try assumption. rewrite !app_empty, D, E. reflexivity. Qed.
Lemma comma_like : forall s s' i, like_wkt s s' -> like_wkt (WktModel.wkt_comma s i) (WktModel.wkt_comma s' i).
Proof. intros s s' i L. unfold WktModel.wkt_comma. destruct (Nat.ltb 0 i); [apply put_like_wkt; [exact L|reflexivity]|exact L]. Qed.
Lemma header_like : forall c s s', like_wkt s s' -> like_wkt (WktModel.wkt_header c s) (WktModel.wkt_header c s').
Proof.
  intros c [sr f sz o] [sr' f' sz' o'] L. pose proof L as (A & B & C & D). cbn in A, B, C, D. subst sr' f' sz'. unfold WktModel.wkt_header. cbn.
  destruct f; [|exact L]. destruct (WktModel.k_dialect c); [exact L|].
  assert (L' : like_wkt (WktModel.mkWktSt sr false sz o) (WktModel.mkWktSt sr false sz o')) by (repeat split; exact D).
  destruct sr as [[]|]; try exact L'; (apply put_like_wkt; [exact L'|reflexivity]).
Qed.
Lemma begin_like : forall c s s' tag tagged size i, like_wkt s s' ->
  like_wkt (WktModel.geom_begin c s tag tagged size i) (WktModel.geom_begin c s' tag tagged size i).
Proof.
  intros c s s' tag tagged size i L. unfold WktModel.geom_begin. cbv zeta.
  pose proof (comma_like _ _ i (header_like c _ _ L)) as L1.
  set (a := WktModel.wkt_comma (WktModel.wkt_header c s) i) in *. set (b := WktModel.wkt_comma (WktModel.wkt_header c s') i) in *.
  assert (L2 : like_wkt (if tagged then WktModel.put a tag else a) (if tagged then WktModel.put b tag else b))
    by (destruct tagged; [apply put_like_wkt; [exact L1|reflexivity]|exact L1]).
  set (a2 := if tagged then WktModel.put a tag else a) in *. set (b2 := if tagged then WktModel.put b tag else b) in *.
  assert (L3 : like_wkt (WktModel.mkWktSt (WktModel.k_srid a2) (WktModel.k_first a2) (size :: WktModel.k_sizes a2) (WktModel.k_out a2))
                        (WktModel.mkWktSt (WktModel.k_srid b2) (WktModel.k_first b2) (size :: WktModel.k_sizes b2) (WktModel.k_out b2))).
  { destruct L2 as (A & B & C & D). repeat split; cbn; congruence. }
  destruct (Nat.eqb size 0), tagged; repeat (apply put_like_wkt; [|reflexivity]); exact L3.
Qed.
Lemma end_like : forall s s', like_wkt s s' -> like_wkt (fst (WktModel.geom_end s)) (fst (WktModel.geom_end s')) /\ snd (WktModel.geom_end s') = snd (WktModel.geom_end s).
Proof.
  intros [sr f sz o] [sr' f' sz' o'] L. pose proof L as (A & B & C & D). cbn in A, B, C, D. subst sr' f' sz'. unfold WktModel.geom_end. cbn.
  destruct sz as [|n r]; [split; [exact L|reflexivity]|]. cbn. split; [|reflexivity].
  assert (L' : like_wkt (WktModel.mkWktSt sr f r o) (WktModel.mkWktSt sr f r o')) by (repeat split; exact D).
  destruct n; [exact L'|apply put_like_wkt; [exact L'|reflexivity]].
Qed.
Lemma wkt_like : forall fmt c e s s', like_wkt s s' -> (forall x y i, e <> Xy x y i) -> (forall x y z m t tm i, e <> Coord x y z m t tm i) ->
  like_wkt (fst (WktModel.wkt_step fmt c s e)) (fst (WktModel.wkt_step fmt c s' e)) /\ snd (WktModel.wkt_step fmt c s' e) = snd (WktModel.wkt_step fmt c s e).
Proof.
  intros fmt c e s s' L N1 N2.
  destruct e; try (exfalso; eapply N1; reflexivity); try (exfalso; eapply N2; reflexivity); cbn [WktModel.wkt_step default_step fst snd];
    try (split; [exact L|reflexivity]); try (split; [apply begin_like, L|reflexivity]); try (apply end_like, L).
  - split; [|reflexivity]. destruct L as (A & B & C & D). repeat split; cbn; try assumption; rewrite A; reflexivity.
  - apply end_like, begin_like, L.
Qed.
Lemma wkt_xy_like : forall fmt c x y x' y' i s s', like_wkt s s' ->
  like_wkt (fst (WktModel.wkt_step fmt c s (Xy x y i))) (fst (WktModel.wkt_step fmt c s' (Xy x' y' i))) /\
  snd (WktModel.wkt_step fmt c s' (Xy x' y' i)) = snd (WktModel.wkt_step fmt c s (Xy x y i)).
Proof.
  intros fmt c x y x' y' i s s' L. cbn [WktModel.wkt_step fst snd]. cbv zeta. split; [|reflexivity].
  destruct (f64_is_nan x && f64_is_nan y), (f64_is_nan x' && f64_is_nan y'); (apply put_like_wkt; [apply comma_like, L|]); rewrite ?app_empty; cbn; rewrite ?andb_false_r; reflexivity.
Qed.
Lemma wkt_coord_like : forall fmt c x y z m t tm x' y' z' m' t' tm' i s s', like_wkt s s' ->
  like_wkt (fst (WktModel.wkt_step fmt c s (Coord x y z m t tm i))) (fst (WktModel.wkt_step fmt c s' (Coord x' y' z' m' t' tm' i))) /\
  snd (WktModel.wkt_step fmt c s' (Coord x' y' z' m' t' tm' i)) = snd (WktModel.wkt_step fmt c s (Coord x y z m t tm i)).
Proof.
  intros fmt c x y z m t tm x' y' z' m' t' tm' i s s' L. cbn [WktModel.wkt_step fst snd]. cbv zeta. split; [|reflexivity].
  pose proof (comma_like _ _ i L) as L1. set (a := WktModel.wkt_comma s i) in *. set (b := WktModel.wkt_comma s' i) in *.
  assert (F : forall t t', (t = "EMPTY"%string \/ exists u v, t = (u ++ " " ++ v)%string) -> (t' = "EMPTY"%string \/ exists u v, t' = (u ++ " " ++ v)%string) ->
    like_wkt (WktModel.put a t) (WktModel.put b t')).
  { intros t1 t2 H1 H2. apply put_like_wkt; [exact L1|].
    assert (E : forall t, (t = "EMPTY"%string \/ exists u v, t = (u ++ " " ++ v)%string) -> String.eqb t "" = false).
    { intros u [->|(p & q & ->)]; [reflexivity|]. rewrite app_empty. cbn. apply andb_false_r. }
    rewrite (E t1 H1), (E t2 H2). reflexivity. }
  assert (P2 : forall k u v, WktModel.put (WktModel.put k u) v = WktModel.put k (u ++ v)%string).
  { intros [sr f sz o] u v. unfold WktModel.put. cbn. rewrite StaysTop.sapp_assoc. reflexivity. }
  destruct (f64_is_nan x && f64_is_nan y && WktModel.opt_is_nan z && WktModel.opt_is_nan m),
           (f64_is_nan x' && f64_is_nan y' && WktModel.opt_is_nan z' && WktModel.opt_is_nan m'); destruct z, m, z', m'; rewrite ?P2;
    apply F; first [left; reflexivity|right; rewrite ?StaysTop.sapp_assoc; eauto].
Qed.
Theorem wkt_steady : forall fmt c srid, steady (WktModel.wkt_writer fmt c) (WktModel.wkt_init srid).
Proof.
  intros fmt c srid l l' F. refine (proj2 (steady_by _ (WktModel.wkt_writer fmt c) like_wkt _ _ _ _ _ _ l l' F)).
  - repeat split.
  - intros e s s' L N1 N2. apply wkt_like; assumption.
  - intros. apply wkt_xy_like. assumption.
  - intros. apply wkt_coord_like. assumption.
  - intros i n v s s' L. split; [exact L|reflexivity].
Qed.

Definition like_out (o o' : CsvModel.csvout) : Prop := len (CsvModel.o_fields o) (CsvModel.o_fields o') /\ CsvModel.o_count o = CsvModel.o_count o'.
Record like_csv (s s' : CsvModel.csvst) : Prop := {
  lc_out : like_out (CsvModel.cs_csv s) (CsvModel.cs_csv s');
  lc_headers : CsvModel.cs_headers s = CsvModel.cs_headers s';
  lc_written : CsvModel.cs_written s = CsvModel.cs_written s';
  lc_row : CsvModel.cs_row s = CsvModel.cs_row s';
  lc_wkt : like_wkt (CsvModel.cs_wkt s) (CsvModel.cs_wkt s') }.
Lemma fields_like : forall l o o', like_out o o' -> like_out (fold_left CsvModel.csv_write_field l o) (fold_left CsvModel.csv_write_field l o').
Proof. induction l as [|f l IH]; intros o o' L; [exact L|]. cbn. apply IH. destruct L as [A B]. split; [apply len_snoc, A|exact B]. Qed.
Lemma record_like : forall l o o', like_out o o' ->
  like_out (fst (CsvModel.csv_write_record o l)) (fst (CsvModel.csv_write_record o' l)) /\ snd (CsvModel.csv_write_record o' l) = snd (CsvModel.csv_write_record o l).
Proof.
  intros l o o' L. unfold CsvModel.csv_write_record. cbv zeta. pose proof (fields_like l _ _ L) as M.
  destruct (fold_left CsvModel.csv_write_field l o) as [a b n], (fold_left CsvModel.csv_write_field l o') as [a' b' n']. destruct M as [A B]. cbn in A, B |- *. subst n'. rewrite <- A.
  destruct n as [k|]; [destruct (Nat.eqb k (length a))|]; (split; [split; cbn; auto; reflexivity|reflexivity]).
Qed.
Theorem csv_steady : forall fmt32 fmt debug d, steady (CsvModel.csv_writer fmt32 fmt debug d) CsvModel.csv_init.
Proof.
  intros fmt32 fmt debug d l l' F. refine (proj2 (steady_by _ (CsvModel.csv_writer fmt32 fmt debug d) like_csv _ _ _ _ _ _ l l' F)).
  - constructor; repeat split.
  - intros e s s' L N1 N2. cbn [p_step CsvModel.csv_writer].
    assert (W : forall e, (forall x y i, e <> Xy x y i) -> (forall x y z m t tm i, e <> Coord x y z m t tm i) ->
      like_csv (fst (CsvModel.csv_wkt fmt d s e)) (fst (CsvModel.csv_wkt fmt d s' e)) /\ snd (CsvModel.csv_wkt fmt d s' e) = snd (CsvModel.csv_wkt fmt d s e)).
    { intros e0 M1 M2. destruct L as [A B C D E]. unfold CsvModel.csv_wkt. destruct (wkt_like fmt (WktModel.mkWktCfg d WktModel.PlainWkt) e0 _ _ E M1 M2) as [X Y].
      destruct (WktModel.wkt_step _ _ (CsvModel.cs_wkt s) e0), (WktModel.wkt_step _ _ (CsvModel.cs_wkt s') e0). cbn in *. split; [constructor; assumption|exact Y]. }
    assert (O : forall i, CsvModel.offset_geom_idx s' i = CsvModel.offset_geom_idx s i /\ CsvModel.geometry_started s' = CsvModel.geometry_started s).
    { intros i. destruct L as [_ _ _ _ (_ & _ & _ & E)]. unfold CsvModel.offset_geom_idx, CsvModel.geometry_started. rewrite E. split; reflexivity. }
    assert (K : forall b, like_csv (fst (CsvModel.csv_assert debug b s)) (fst (CsvModel.csv_assert debug b s')) /\ snd (CsvModel.csv_assert debug b s') = snd (CsvModel.csv_assert debug b s)).
    { intros b. unfold CsvModel.csv_assert. destruct debug, b; (split; [exact L|reflexivity]). }
    destruct e; try (exfalso; eapply N1; reflexivity); try (exfalso; eapply N2; reflexivity); cbn [CsvModel.csv_step default_step]; cbv zeta;
      rewrite ?(proj1 (O _)), ?(proj2 (O 0)); try (apply W; discriminate); try (split; [exact L|reflexivity]).
    + rewrite <- (lc_headers _ _ L). apply K.
    + split; [|reflexivity]. destruct L. constructor; cbn; auto.
    + rewrite <- (lc_row _ _ L). apply K.
    + unfold CsvModel.csv_feature_end. destruct L as [A B C D E]. rewrite <- C, <- B, <- D.
      assert (X : let f (s : CsvModel.csvst) := (if CsvModel.cs_written s then (CsvModel.cs_csv s, Ok tt) else CsvModel.csv_write_record (CsvModel.cs_csv s) (CsvModel.cs_headers s)) in
        like_out (fst (f s)) (fst (f s')) /\ snd (f s') = snd (f s)).
      { intros f. unfold f. rewrite <- C, <- B. destruct (CsvModel.cs_written s); [split; [exact A|reflexivity]|apply record_like, A]. }
      cbv beta zeta in X. rewrite <- C, <- B in X.
      destruct (if CsvModel.cs_written s then (CsvModel.cs_csv s, Ok tt) else CsvModel.csv_write_record (CsvModel.cs_csv s) (CsvModel.cs_headers s)) as [o [[]|x]],
        (if CsvModel.cs_written s then (CsvModel.cs_csv s', Ok tt) else CsvModel.csv_write_record (CsvModel.cs_csv s') (CsvModel.cs_headers s)) as [o' [[]|x']];
        destruct X as [X1 X2]; cbn [fst snd] in X1, X2; try discriminate X2.
      * assert (X3 : like_out (CsvModel.csv_write_field o (WktModel.k_out (CsvModel.cs_wkt s))) (CsvModel.csv_write_field o' (WktModel.k_out (CsvModel.cs_wkt s')))).
        { destruct X1 as [X1 Xc]. split; [apply len_snoc, X1|exact Xc]. }
        pose proof (record_like [] _ _ (fields_like (CsvModel.cs_row s) _ _ X3)) as [X4 X5].
        assert (E' : like_wkt (WktModel.mkWktSt (WktModel.k_srid (CsvModel.cs_wkt s)) (WktModel.k_first (CsvModel.cs_wkt s)) (WktModel.k_sizes (CsvModel.cs_wkt s)) "")
                              (WktModel.mkWktSt (WktModel.k_srid (CsvModel.cs_wkt s')) (WktModel.k_first (CsvModel.cs_wkt s')) (WktModel.k_sizes (CsvModel.cs_wkt s')) "")).
        { destruct E as (E1 & E2 & E3 & _). repeat split; assumption. }
        destruct (CsvModel.csv_write_record (fold_left _ _ (CsvModel.csv_write_field o _)) []) as [q [[]|y]], (CsvModel.csv_write_record (fold_left _ _ (CsvModel.csv_write_field o' _)) []) as [q' [[]|y']];
          cbn [fst snd] in X4, X5; try discriminate X5; (split; [constructor; cbn; auto|cbn; congruence]).
      * split; [constructor; cbn; auto|cbn; congruence].
    + rewrite <- (lc_row _ _ L). apply K.
    + apply K.
  - intros x y x' y' i s s' L. destruct L as [A B C D E]. cbn [p_step CsvModel.csv_writer CsvModel.csv_step]. cbv zeta. unfold CsvModel.csv_wkt.
    destruct (wkt_xy_like fmt (WktModel.mkWktCfg d WktModel.PlainWkt) x y x' y' i _ _ E) as [X Y].
    destruct (WktModel.wkt_step _ _ (CsvModel.cs_wkt s) (Xy x y i)), (WktModel.wkt_step _ _ (CsvModel.cs_wkt s') (Xy x' y' i)). cbn [fst snd] in *. split; [constructor; assumption|exact Y].
  - intros x y z m t tm x' y' z' m' t' tm' i s s' L. destruct L as [A B C D E]. cbn [p_step CsvModel.csv_writer CsvModel.csv_step]. cbv zeta. unfold CsvModel.csv_wkt.
    destruct (wkt_coord_like fmt (WktModel.mkWktCfg d WktModel.PlainWkt) x y z m t tm x' y' z' m' t' tm' i _ _ E) as [X Y].
    destruct (WktModel.wkt_step _ _ (CsvModel.cs_wkt s) (Coord x y z m t tm i)), (WktModel.wkt_step _ _ (CsvModel.cs_wkt s') (Coord x' y' z' m' t' tm' i)). cbn [fst snd] in *. split; [constructor; assumption|exact Y].
  - intros i n v s s' L. pose proof L as [A B C D E]. cbn [p_prop CsvModel.csv_writer]. unfold CsvModel.csv_prop. cbv zeta. rewrite <- C, <- B.
    destruct (CsvModel.cs_written s) eqn:T.
    + destruct (nth_error (CsvModel.cs_headers s) (i + 1)) as [h|]; [destruct (String.eqb n h)|]; (split; [|reflexivity]); try exact L.
      constructor; cbn; try assumption; congruence.
    + split; [|reflexivity]. constructor; cbn; try assumption; congruence.
Qed.

(** a tile refuses a ring of three positions if the first is the last *)
Definition three (a b c : f64) : list obs :=
  [OEv (PolygonBegin true 1 0); OEv (LineStringBegin false 3 0); OEv (Xy a a 0); OEv (Xy b b 1); OEv (Xy c c 2);
   OEv (LineStringEnd false 0); OEv (PolygonEnd true 0)].
Theorem mvt_not_steady : forall gsize base64 debug c, MvtModel.mvt_unscaled 4096 = Ok c -> ~ steady (MvtModel.mvt_writer gsize base64 debug c) MvtModel.mw_init.
Proof.
  intros gsize base64 debug c E H. injection E as <-.
  specialize (H (three f64_zero 0x3FF0000000000000%N 0x4000000000000000%N) (three f64_zero 0x3FF0000000000000%N f64_zero)).
  assert (F : Forall2 alike (three f64_zero 0x3FF0000000000000%N 0x4000000000000000%N) (three f64_zero 0x3FF0000000000000%N f64_zero))
    by (repeat constructor).
  specialize (H F). destruct debug; vm_compute in H; discriminate H.
Qed.
