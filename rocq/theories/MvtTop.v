(** Proofs about MvtWriter and the reader of decoded layers. *)
From Coq Require Import String Ascii.
From Coq Require Import List NArith ZArith Lia Bool.
From Verif Require Import Base BaseLemmas Float Event EventLemmas Claims Geom ProcModel ProcSpec ProcTop GeoModel GeoSpec GeoTop MvtModel MvtSpec.
Import ListNotations.
Local Open Scope N_scope.
Local Open Scope list_scope.

(** ** Rings *)
Lemma tpos_eqb_spec : forall a b, tpos_eqb a b = true <-> a = b.
Proof.
  intros [a1 a2] [b1 b2]. unfold tpos_eqb. cbn [fst snd]. rewrite andb_true_iff, !Z.eqb_eq.
  split; [intros [-> ->]; reflexivity|intros E; injection E; auto].
Qed.
Lemma last_default : forall (r : tline) b d d', last (b :: r) d = last (b :: r) d'.
Proof. induction r as [|c r IH]; intros b d d'; [reflexivity|]. exact (IH c d d'). Qed.
Lemma comes_back_closed : forall a b r, comes_back (a :: b :: r) = tclosed (a :: b :: r).
Proof.
  intros a b r. cbn [comes_back tclosed]. change (last (a :: b :: r) a) with (last (b :: r) a).
  assert (E : last (b :: r) a = last (b :: r) b) by (apply last_default).
  rewrite E. destruct (tpos_dec _ _) as [D|D].
  - symmetry. apply tpos_eqb_spec, D.
  - destruct (tpos_eqb a _) eqn:F; [|reflexivity]. apply tpos_eqb_spec in F. contradiction.
Qed.
Lemma close_ring : forall T l, tclose (tile_line T l) = tile_ring T l.
Proof.
  intros T l. unfold tclose, tile_ring. destruct (tile_line T l) as [|a [|b r]].
  - reflexivity.
  - cbn. replace (tpos_eqb a a) with true by (symmetry; now apply tpos_eqb_spec). reflexivity.
  - rewrite comes_back_closed. destruct (tclosed _); reflexivity.
Qed.
Lemma distinct_vertices : forall l, distinct_ring_coords l = vertices l.
Proof.
  intros [|a [|b r]]; try reflexivity. unfold distinct_ring_coords, vertices. rewrite comes_back_closed. reflexivity.
Qed.
Lemma last_split : forall (l : tline) a, l <> [] -> exists m, l = m ++ [last l a].
Proof. intros l a H. exists (removelast l). apply app_removelast_last, H. Qed.
Lemma close_valid : forall l, (3 <= distinct_ring_coords l)%nat -> valid_ring (tclose l).
Proof.
  intros l H. unfold distinct_ring_coords in H. unfold tclose. destruct (tclosed l) eqn:C.
  - destruct l as [|a [|b r]]; try (cbn in H; lia). cbn [length Nat.leb andb] in H. split; [cbn [length]; lia|].
    cbn [tclosed] in C. apply tpos_eqb_spec in C. change (last (a :: b :: r) a) with (last (b :: r) a) in C.
    destruct (last_split (b :: r) a) as [m E]; [discriminate|]. exists a, m. rewrite <- C in E. rewrite E. reflexivity.
  - rewrite andb_false_r in H. destruct l as [|a r]; [cbn in H; lia|]. split.
    + rewrite app_length. cbn [length] in *. lia.
    + exists a, r. reflexivity.
Qed.

(** ** Whatever is called, every geometry kept is valid *)
Definition all_valid (l : list tgeom) : Prop := Forall valid_tile l.
Lemma valid_coll : forall l, valid_tile (MCollection l) <-> all_valid l.
Proof.
  intros l. cbn [valid_tile]. unfold all_valid. induction l as [|a r IH].
  - split; [constructor|exact (fun _ => I)].
  - rewrite IH. split; [intros [A B]; now constructor|intros H; inversion H; auto].
Qed.
Definition sound (s : mw) : Prop :=
  Forall (fun f => valid_tile (mf_geometry f)) (mw_features s) /\
  all_valid (mw_geoms s) /\ Forall all_valid (mw_coll s) /\
  match mw_polys s with Some l => Forall valid_poly l | None => True end.

Section Inv.
  Variable gsize : N.
  Variable base64 : list Byte.byte -> string.
  Variable debug : bool.
  Variable c : mcfg.
  Notation W := (mvt_writer gsize base64 debug c).

  Lemma finish_sound : forall s g, sound s -> valid_tile g -> sound (fst (mfinish s g)).
  Proof.
    intros s g (A & B & C & D) V. unfold mfinish. destruct (mw_coll s) as [|x r] eqn:K; cbn.
    - repeat split; cbn; try assumption; [|rewrite K; constructor]. apply Forall_app. split; [exact B|]. constructor; [exact V|constructor].
    - inversion C; subst. repeat split; cbn; try assumption. constructor; [|assumption].
      apply Forall_app. split; [assumption|]. constructor; [exact V|constructor].
  Qed.
  Lemma finish_ok : forall s g, snd (mfinish s g) = Ok tt.
  Proof. intros s g. unfold mfinish. destruct (mw_coll s); reflexivity. Qed.
  Lemma sound_coords : forall s x, sound s -> sound (mset_coords s x).
  Proof. intros s x H. exact H. Qed.
  Lemma sound_lines : forall s x, sound s -> sound (mset_lines s x).
  Proof. intros s x H. exact H. Qed.
  Lemma rings_valid : forall e i, existsb (fun l => Nat.ltb (distinct_ring_coords l) 3) (e :: i) = false ->
    valid_poly (tpolygon_new e i).
  Proof.
    intros e i H. assert (F : Forall valid_ring (map tclose (e :: i))).
    { apply Forall_map, Forall_forall. intros l Hl. apply close_valid.
      assert (X : Nat.ltb (distinct_ring_coords l) 3 = false).
      { destruct (Nat.ltb _ _) eqn:E; [|reflexivity]. rewrite <- H. symmetry. apply existsb_exists. eauto. }
      apply Nat.ltb_ge in X. exact X. }
    inversion F; subst. split; assumption.
  Qed.
  Lemma reserve_sound : forall A elt size s (set : mw -> option (list A) -> mw),
    sound s -> sound (set s (Some [])) -> sound (fst (mreserve elt size s set)).
  Proof. intros A elt size s set H1 H2. unfold mreserve. destruct (bounded_vec _ _); assumption. Qed.
  Lemma assert_sound : forall cond s k, sound s -> sound (fst k) -> sound (fst (massert debug cond s k)).
  Proof. intros cond s k H1 H2. unfold massert. destruct (_ && _); assumption. Qed.

  Lemma step_sound : forall s e, sound s -> sound (fst (p_step W s e)).
  Proof.
    intros s e H. destruct e; cbn [p_step mvt_writer mvt_step default_step fst]; try exact H;
      try (apply assert_sound; [exact H|]; first [exact H | apply reserve_sound; [exact H|]]; exact H).
    - unfold m_xy. destruct (mw_coords s); exact H.
    - destruct (mw_coords s) as [[|p l]|]; try exact H. apply finish_sound; [exact H|exact I].
    - destruct (mw_coords s) as [l|]; [|exact H]. apply finish_sound; [exact H|exact I].
    - destruct (mw_coords s) as [l|]; [|exact H]. destruct tagged.
      + destruct (Nat.ltb (length l) 2) eqn:L; [exact H|]. apply finish_sound; [exact H|]. apply Nat.ltb_ge in L. exact L.
      + cbn [mset_coords mw_lines]. destruct (mw_lines s); exact H.
    - destruct (mw_lines s) as [l|]; [|exact H]. destruct (existsb _ l) eqn:L; [exact H|].
      apply finish_sound; [exact H|]. cbn [valid_tile]. apply Forall_forall. intros x Hx.
      destruct (Nat.ltb (length x) 2) eqn:E; [|now apply Nat.ltb_ge in E].
      exfalso. assert (X : existsb (fun l : tline => Nat.ltb (length l) 2) l = true) by (apply existsb_exists; eauto). congruence.
    - destruct (mw_lines s) as [[|e i]|]; try exact H. destruct (existsb _ _) eqn:L; [exact H|].
      pose proof (rings_valid e i L) as V. destruct tagged.
      + apply finish_sound; [exact H|exact V].
      + cbn [mset_lines mw_polys]. destruct (mw_polys s) as [ps|] eqn:P; [|exact H].
        destruct H as (A & B & C & D). repeat split; try assumption. cbn. rewrite P in D. apply Forall_app. split; [exact D|].
        constructor; [exact V|constructor].
    - apply assert_sound; [exact H|]. apply reserve_sound; [exact H|]. destruct H as (A & B & C & D). repeat split; try assumption. constructor.
    - destruct (mw_polys s) as [l|] eqn:P; [|exact H]. destruct H as (A & B & C & D). rewrite P in D. apply finish_sound.
      + repeat split; try assumption.
      + exact D.
    - destruct (bounded_vec _ _); [|exact H]. destruct H as (A & B & C & D). repeat split; try assumption. cbn. constructor; [constructor|exact C].
    - destruct (mw_coll s) as [|l r] eqn:K; [exact H|]. destruct H as (A & B & C & D). rewrite K in C. inversion C; subst.
      apply finish_sound; [repeat split; assumption|]. now apply valid_coll.
    - unfold mtake. destruct H as (A & B & C & D). destruct (mw_geoms s) as [|g [|g' l]] eqn:G.
      + cbn. repeat split; try assumption. rewrite G. constructor.
      + cbn. inversion B; subst. repeat split; try assumption; cbn; try constructor. apply Forall_app. split; [exact A|]. constructor; [assumption|constructor].
      + cbn. repeat split; try assumption; cbn; try constructor. apply Forall_app. split; [exact A|].
        constructor; [|constructor]. cbn [mf_geometry]. now apply valid_coll.
  Qed.
  Lemma prop_sound : forall s i n v, sound s -> sound (fst (p_prop W s i n v)).
  Proof. intros s i n v H. exact H. Qed.
  Lemma after_sound : forall l s, sound s -> sound (after W l s).
  Proof.
    induction l as [|o l IH]; intros s H; [exact H|]. cbn. apply IH. destruct o; [apply step_sound, H|exact H].
  Qed.
  Lemma init_sound : sound mw_init.
  Proof. repeat split; constructor. Qed.
  Lemma take_valid : forall s f, sound s -> into_feature s = Ok f -> valid_tile (mf_geometry f).
  Proof.
    intros s f (A & B & C & D) E. unfold into_feature, mtake in E. destruct (mw_geoms s) as [|g [|g' l]] eqn:G; [discriminate| |];
      injection E as <-; cbn [mf_geometry].
    - now inversion B.
    - now apply valid_coll.
  Qed.
  Lemma history_valid : forall l f, In f (mw_features (after W l mw_init)) -> valid_tile (mf_geometry f).
  Proof.
    intros l f H. destruct (after_sound l mw_init init_sound) as (A & _). rewrite Forall_forall in A. exact (A f H).
  Qed.

  (** ** No panic without debug assertions *)
  Lemma finish_fine : forall s g x, snd (mfinish s g) = Err x -> False.
  Proof. intros s g x. rewrite finish_ok. discriminate. Qed.
  Lemma reserve_err : forall A elt size s (set : mw -> option (list A) -> mw) x,
    snd (mreserve elt size s set) = Err x -> x = EGeometry.
  Proof.
    intros A elt size s set x. unfold mreserve, bounded_vec, validate_capacity. destruct (_ <? _); cbn; [congruence|discriminate].
  Qed.
  Lemma step_err : forall s e x, debug = false -> snd (p_step W s e) = Err x -> x = EGeometry \/ x = TooFewCoordinates.
  Proof.
    intros s e x Dbg. destruct e; cbn [p_step mvt_writer mvt_step default_step snd]; unfold massert; rewrite ?Dbg; cbn [andb];
      try discriminate; try (intros R; left; exact (reserve_err _ _ _ _ _ _ R)); try (intros R; left; congruence).
    - unfold m_xy. destruct (mw_coords s); cbn; [discriminate|]. intros; left; congruence.
    - destruct (mw_coords s) as [[|p l]|]; cbn [snd]; try (intros; left; congruence). intros F. destruct (finish_fine _ _ _ F).
    - destruct (mw_coords s) as [l|]; cbn [snd]; try (intros; left; congruence). intros F. destruct (finish_fine _ _ _ F).
    - destruct (mw_coords s) as [l|]; cbn [snd]; try (intros; left; congruence). destruct tagged.
      + destruct (Nat.ltb _ _); cbn [snd]; [intros; right; congruence|]. intros F. destruct (finish_fine _ _ _ F).
      + cbn [mset_coords mw_lines]. destruct (mw_lines s); cbn; [discriminate|intros; left; congruence].
    - destruct (mw_lines s) as [l|]; cbn [snd]; try (intros; left; congruence).
      destruct (existsb _ _); cbn [snd]; [intros; right; congruence|]. intros F. destruct (finish_fine _ _ _ F).
    - destruct (mw_lines s) as [[|e i]|]; cbn [snd]; try (intros; left; congruence); [intros; right; congruence|].
      destruct (existsb _ _); cbn [snd]; [intros; right; congruence|]. destruct tagged.
      + intros F. destruct (finish_fine _ _ _ F).
      + cbn [mset_lines mw_polys]. destruct (mw_polys s); cbn; [discriminate|intros; left; congruence].
    - destruct (mw_polys s) as [l|]; cbn [snd]; try (intros; left; congruence). intros F. destruct (finish_fine _ _ _ F).
    - unfold bounded_vec, validate_capacity. destruct (_ <? _); cbn; [intros; left; congruence|discriminate].
    - destruct (mw_coll s); cbn [snd]; try (intros; left; congruence). intros F. destruct (finish_fine _ _ _ F).
    - unfold mtake. destruct (mw_geoms s) as [|g [|g' l]]; cbn; discriminate.
  Qed.
End Inv.

(** ** The writer on documented streams *)
Section Write.
  Variable gsize : N.
  Variable base64 : list Byte.byte -> string.
  Variable debug : bool.
  (** the writer is given positions by [xy]: it does not ask for z and m *)
  Local Notation multi := false.
  Variable c : mcfg.
  Notation W := (mvt_writer gsize base64 debug c).
  Notation T := (transform c).

  Lemma massert_none : forall s k, massert debug true s k = k.
  Proof. intros s k. unfold massert. rewrite andb_false_r. reflexivity. Qed.
  Lemma m_step_coord : forall F R G C P L K i x,
    p_step W (mkMw F R G C P L (Some K)) (ev_coord multi i x) = (mkMw F R G C P L (Some (K ++ [tile_pos T x])), Ok tt).
  Proof. intros. reflexivity. Qed.
  Lemma m_run_coords : forall l i F R G C P L K,
    run W (mapi (ev_coord multi) i l) (mkMw F R G C P L (Some K)) = (mkMw F R G C P L (Some (K ++ map (tile_pos T) l)), Ok tt).
  Proof.
    induction l as [|x l IH]; intros i F R G C P L K; cbn [mapi run map].
    - rewrite app_nil_r. reflexivity.
    - rewrite m_step_coord, IH, <- app_assoc. reflexivity.
  Qed.
  Lemma m_step_line : forall tagged (l : line) idx F R G C P L, fits 8 l ->
    p_step W (mkMw F R G C P L None) (LineStringBegin tagged (length l) idx) = (mkMw F R G C P L (Some []), Ok tt).
  Proof.
    intros. cbn. rewrite massert_none. unfold mreserve, tcoord_size. rewrite (fits_vec _ 8 l) by assumption. reflexivity.
  Qed.
  Lemma m_run_line : forall l idx F R G C P L, fits 8 l ->
    run W (ev_line multi false idx l) (mkMw F R G C P (Some L) None) = (mkMw F R G C P (Some (L ++ [tile_line T l])) None, Ok tt).
  Proof.
    intros l idx F R G C P L H. unfold ev_line, ev_coords. cbn [run app]. rewrite m_step_line by exact H.
    rewrite run_app, m_run_coords. reflexivity.
  Qed.
  Lemma m_run_lines : forall r i F R G C P L, Forall (fits 8) r ->
    run W (flat_mapi (ev_line multi false) i r) (mkMw F R G C P (Some L) None) =
    (mkMw F R G C P (Some (L ++ map (tile_line T) r)) None, Ok tt).
  Proof.
    induction r as [|l r IH]; intros i F R G C P L H; cbn [flat_mapi run map].
    - rewrite app_nil_r. reflexivity.
    - inversion H; subst. rewrite run_app, m_run_line by assumption. rewrite IH by assumption.
      rewrite <- app_assoc. reflexivity.
  Qed.
  Lemma m_step_poly : forall tagged (r : rings) idx F R G C P K, fits 24 r ->
    p_step W (mkMw F R G C P None K) (PolygonBegin tagged (length r) idx) = (mkMw F R G C P (Some []) K, Ok tt).
  Proof.
    intros. cbn. rewrite massert_none. unfold mreserve, linestring_size. rewrite (fits_vec _ 24 r) by assumption. reflexivity.
  Qed.
  Lemma rings_check : forall r,
    existsb (fun l => Nat.ltb (distinct_ring_coords l) 3) (map (tile_line T) r) =
    negb (forallb (fun l => Nat.leb 3 (vertices (tile_line T l))) r).
  Proof.
    induction r as [|l r IH]; [reflexivity|]. cbn [map existsb forallb]. rewrite IH, distinct_vertices, Nat.ltb_antisym.
    destruct (Nat.leb 3 _); reflexivity.
  Qed.
  Lemma lines_check : forall r,
    existsb (fun l : tline => Nat.ltb (length l) 2) (map (tile_line T) r) = negb (forallb long_line r).
  Proof.
    induction r as [|l r IH]; [reflexivity|]. cbn [map existsb forallb]. rewrite IH. unfold tile_line at 1. rewrite map_length, Nat.ltb_antisym.
    unfold long_line. destruct (Nat.leb 2 _); reflexivity.
  Qed.
  Lemma poly_built : forall e i, tpolygon_new (tile_line T e) (map (tile_line T) i) = tile_poly T (e :: i).
  Proof.
    intros e i. unfold tpolygon_new, tile_poly. rewrite close_ring, map_map. f_equal. apply map_ext. intros. apply close_ring.
  Qed.
  Lemma m_run_poly : forall tagged r idx F R G C P, tile_small_rings r ->
    run W (ev_polygon multi tagged idx r) (mkMw F R G C P None None) =
    (let s := mkMw F R G C P None None in
     if good_rings T r then
       if tagged then mfinish s (MPolygon (tile_poly T r))
       else match P with
            | None => (s, Err EGeometry)
            | Some ps => (mkMw F R G C (Some (ps ++ [tile_poly T r])) None None, Ok tt)
            end
     else (s, Err TooFewCoordinates)).
  Proof.
    intros tagged r idx F R G C P [H1 H2]. unfold ev_polygon. cbn [run app]. rewrite m_step_poly by exact H1.
    rewrite run_app, m_run_lines by exact H2. cbn [app run p_step mvt_writer mvt_step mw_lines].
    destruct r as [|e i]; [reflexivity|]. cbn [map].
    pose proof (rings_check (e :: i)) as X. cbn [map] in X. rewrite X. clear X. cbn [good_rings].
    set (ok := forallb _ (e :: i)). rewrite poly_built. unfold mset_lines. cbn [mw_features mw_props mw_geoms mw_coll mw_polys mw_coords].
    destruct ok; cbn [negb]; [|reflexivity]. destruct tagged; [|destruct P; reflexivity].
    unfold mfinish. cbn [mw_coll]. destruct C; reflexivity.
  Qed.
  Lemma m_run_polys : forall l i F R G C P, Forall tile_small_rings l ->
    if forallb (good_rings T) l then
      run W (flat_mapi (ev_polygon multi false) i l) (mkMw F R G C (Some P) None None) =
      (mkMw F R G C (Some (P ++ map (tile_poly T) l)) None None, Ok tt)
    else snd (run W (flat_mapi (ev_polygon multi false) i l) (mkMw F R G C (Some P) None None)) = Err TooFewCoordinates.
  Proof.
    induction l as [|r l IH]; intros i F R G C P H; cbn [flat_mapi run map forallb].
    - rewrite app_nil_r. reflexivity.
    - inversion H; subst. rewrite run_app, m_run_poly by assumption. destruct (good_rings T r); cbn [andb]; [|reflexivity].
      specialize (IH (S i) F R G C (P ++ [tile_poly T r]) H3). rewrite <- app_assoc in IH. exact IH.
  Qed.

  Lemma m_written : forall g, plain g = true -> tile_small gsize g -> forall idx F R G C,
    let s := mkMw F R G C None None None in
    if drawable T g then run W (gevents multi idx g) s = mfinish s (tile_of T g)
    else snd (run W (gevents multi idx g) s) = Err TooFewCoordinates.
  Proof.
    induction g as [x| |l|l|l|r|l|l IH|l|l|l|l|l|l|l|l] using geom_ind'; intros PL SM idx F R G C s; subst s; try discriminate PL;
      cbn [tile_small drawable] in *.
    - cbn [gevents]. cbn [run]. cbn [p_step mvt_writer mvt_step is_none mw_coords]. rewrite massert_none.
      unfold mset_coords. cbn [mw_features mw_props mw_geoms mw_coll mw_polys mw_lines].
      change (mvt_step gsize debug c) with (p_step W). rewrite m_step_coord. destruct C; reflexivity.
    - cbn [gevents]. cbn [run app]. cbn [p_step mvt_writer mvt_step is_none mw_coords]. rewrite massert_none.
      unfold mreserve, tcoord_size. rewrite (fits_vec _ 8 l) by exact SM. unfold mset_coords.
      cbn [mw_features mw_props mw_geoms mw_coll mw_polys mw_lines]. unfold ev_coords. rewrite run_app.
      rewrite m_run_coords. cbn. destruct C; reflexivity.
    - cbn [gevents]. unfold ev_line, ev_coords. cbn [run app]. rewrite m_step_line by exact SM.
      rewrite run_app, m_run_coords. cbn [run p_step mvt_writer mvt_step mw_coords app]. rewrite map_length, Nat.ltb_antisym.
      unfold long_line. destruct (Nat.leb 2 (length l)); cbn [negb]; [|reflexivity]. destruct C; reflexivity.
    - destruct SM as [S1 S2]. cbn [gevents]. cbn [run app].
      cbn [p_step mvt_writer mvt_step is_none mw_lines]. rewrite massert_none.
      unfold mreserve, linestring_size. rewrite (fits_vec _ 24 l) by exact S1. unfold mset_lines.
      cbn [mw_features mw_props mw_geoms mw_coll mw_polys mw_coords]. rewrite run_app, m_run_lines by exact S2.
      cbn [run p_step mvt_writer mvt_step mw_lines app]. rewrite lines_check.
      destruct (forallb long_line l); cbn [negb]; [|reflexivity]. destruct C; reflexivity.
    - cbn [gevents]. rewrite m_run_poly by exact SM. cbv zeta. destruct (good_rings T r); reflexivity.
    - destruct SM as [S1 S2]. cbn [gevents]. cbn [run app].
      cbn [p_step mvt_writer mvt_step is_none mw_polys]. rewrite massert_none.
      unfold mreserve, polygon_size. rewrite (fits_vec _ 48 l) by exact S1. unfold mset_polys.
      cbn [mw_features mw_props mw_geoms mw_coll mw_lines mw_coords]. rewrite run_app.
      pose proof (m_run_polys l 0 F R G C [] S2) as X. destruct (forallb _ l).
      + rewrite X. cbn. destruct C; reflexivity.
      + destruct (run W _ _) as [s' [u|x]]; cbn [snd] in X; [discriminate|]. exact X.
    - destruct SM as [S1 S2]. cbn [gevents]. change (fix go (i : nat) (l0 : list geom) {struct l0} : list event :=
        match l0 with [] => [] | a :: r => gevents multi i a ++ go (S i) r end) with go_events.
      cbn [run app]. cbn [p_step mvt_writer mvt_step].
      rewrite (fits_vec _ gsize l) by exact S1. unfold mset_coll. cbn [mw_features mw_props mw_geoms mw_coll mw_polys mw_lines mw_coords].
      assert (M : forall k i, if forallb (drawable T) l then
                    run W (go_events i l) (mkMw F R G (k :: C) None None None) =
                    (mkMw F R G ((k ++ map (tile_of T) l) :: C) None None None, Ok tt)
                  else snd (run W (go_events i l) (mkMw F R G (k :: C) None None None)) = Err TooFewCoordinates).
      { clear S1. cbn [plain] in PL. induction l as [|a r IHr]; intros k i; cbn [go_events run map forallb].
        - rewrite app_nil_r. reflexivity.
        - inversion IH as [|? ? Ha Hr]; subst. cbn in PL. apply andb_prop in PL. destruct PL as [P1 P2].
          destruct S2 as [Sa Sr]. change (gevents multi i a ++ _) with (gevents multi i a ++ go_events (S i) r).
          rewrite run_app. specialize (Ha P1 Sa i F R G (k :: C)). cbv zeta in Ha. destruct (drawable T a); cbn [andb].
          + rewrite Ha. cbn [mfinish mw_coll]. unfold mset_coll. cbn [mw_features mw_props mw_geoms mw_coll mw_polys mw_lines mw_coords].
            specialize (IHr Hr P2 Sr (k ++ [tile_of T a]) (S i)). rewrite <- app_assoc in IHr. exact IHr.
          + destruct (run W _ _) as [s' [u|x]]; cbn [snd] in Ha; [discriminate|]. exact Ha. }
      rewrite run_app. specialize (M [] 0%nat). destruct (forallb _ l).
      + rewrite M. cbn. destruct C; reflexivity.
      + destruct (run W _ _) as [s' [u|x]]; cbn [snd] in M; [discriminate|]. exact M.
  Qed.
  Lemma m_written_list : forall l i F R G, forallb plain l = true -> Forall (tile_small gsize) l -> forallb (drawable T) l = true ->
    run W (flat_mapi (gevents multi) i l) (mkMw F R G [] None None None) =
    (mkMw F R (G ++ map (tile_of T) l) [] None None None, Ok tt).
  Proof.
    induction l as [|g l IH]; intros i F R G P S D; cbn [flat_mapi run map].
    - rewrite app_nil_r. reflexivity.
    - cbn in P, D. apply andb_prop in P. destruct P as [P1 P2]. apply andb_prop in D. destruct D as [D1 D2]. inversion S; subst.
      pose proof (m_written g P1 H1 i F R G []) as X. cbv zeta in X. rewrite D1 in X.
      rewrite run_app, X. cbn [mfinish mw_coll]. unfold mset_geoms. cbn [mw_features mw_props mw_geoms mw_coll mw_polys mw_lines mw_coords].
      rewrite IH by assumption. rewrite <- app_assoc. reflexivity.
  Qed.

  (** ** Features *)
  Lemma feed_run_events : forall l s, feed W (map OEv l) s = run W l s.
  Proof. induction l as [|e l IH]; intros s; [reflexivity|]. cbn [map feed run]. destruct (p_step W s e) as [s' [u|x]]; [apply IH|reflexivity]. Qed.
  Definition kept (l : list (nat * string * colval)) : list (string * mval) :=
    map (fun q => (snd (fst q), mvt_value base64 (snd q))) l.
  Lemma feed_kept : forall l F R G C P L K,
    feed W (map (fun q => OProp (fst (fst q)) (snd (fst q)) (snd q)) l) (mkMw F R G C P L K) =
    (mkMw F (R ++ kept l) G C P L K, Ok tt).
  Proof.
    induction l as [|q l IH]; intros; cbn [map feed kept]; [rewrite app_nil_r; reflexivity|].
    cbn [p_prop mvt_writer mvt_prop]. unfold mset_props. cbn [mw_features mw_props mw_geoms mw_coll mw_polys mw_lines mw_coords].
    rewrite IH, <- app_assoc. reflexivity.
  Qed.
  Definition tile_feature (f : ftr) : list mfeature :=
    match snd f with [] => [] | _ => [mkMFeature None (tile_joined T (snd f)) (kept (fst f))] end.
  Definition tile_good (f : ftr) : Prop :=
    forallb plain (snd f) = true /\ Forall (tile_small gsize) (snd f) /\ forallb (drawable T) (snd f) = true.
  Lemma m_feed_feature : forall i f F R, tile_good f -> exists R',
    feed W (feature_obs multi i f) (mkMw F R [] [] None None None) = (mkMw (F ++ tile_feature f) R' [] [] None None None, Ok tt).
  Proof.
    intros i [pl gl] F R (P & S & D). cbn [fst snd] in *. unfold feature_obs. cbn [fst snd].
    cbn [feed]. cbn [p_step mvt_writer mvt_step default_step]. unfold mset_props. cbn [mw_features mw_props mw_geoms mw_coll mw_polys mw_lines mw_coords].
    change (mkProc xy_dims (mvt_step gsize debug c) (mvt_prop base64)) with W.
    rewrite feed_app, feed_kept. cbn [feed app]. cbn [p_step mvt_writer mvt_step default_step].
    change (mkProc xy_dims (mvt_step gsize debug c) (mvt_prop base64)) with W.
    rewrite feed_app, feed_run_events, m_written_list by assumption. cbn [feed app p_step mvt_writer mvt_step default_step].
    unfold mtake, tile_feature. cbn [mw_geoms fst snd]. destruct gl as [|g [|g' gl]]; cbn [map].
    - eexists. rewrite app_nil_r. reflexivity.
    - eexists. reflexivity.
    - eexists. reflexivity.
  Qed.
  Lemma m_feed_features : forall l i F R, Forall tile_good l -> exists R',
    feed W (flat_mapi (feature_obs multi) i l) (mkMw F R [] [] None None None) =
    (mkMw (F ++ flat_map tile_feature l) R' [] [] None None None, Ok tt).
  Proof.
    induction l as [|f l IH]; intros i F R H; cbn [flat_mapi flat_map].
    - exists R. rewrite app_nil_r. reflexivity.
    - inversion H; subst. rewrite feed_app. destruct (m_feed_feature i f F R H2) as [R1 ->].
      destruct (IH (S i) (F ++ tile_feature f) R1 H3) as [R2 ->]. exists R2. rewrite <- app_assoc. reflexivity.
  Qed.
  Lemma m_feed_dataset : forall l name, Forall tile_good l -> exists s,
    feed W (dataset_obs multi name l) mw_init = (s, Ok tt) /\ mw_features s = flat_map tile_feature l.
  Proof.
    intros l name H. unfold dataset_obs. cbn [feed]. cbn [p_step mvt_writer mvt_step default_step].
    change (mkProc xy_dims (mvt_step gsize debug c) (mvt_prop base64)) with W. unfold mw_init.
    destruct (m_feed_features l 0 [] [] H) as [R X]. rewrite feed_app, X. eexists. split; reflexivity.
  Qed.
End Write.

(** ** Conversions *)
Lemma to_mvt_delivers : forall gsize base64 debug extent l b r t src g cf u,
  mvt_new extent l b r t = Ok cf -> plain g = true -> tile_small gsize g ->
  delivers src (fun multi => gevents multi 0 g) (Ok u) ->
  to_mvt gsize base64 debug extent l b r t src =
  if drawable (transform cf) g then Ok (mkMFeature None (tile_of (transform cf) g) []) else Err TooFewCoordinates.
Proof.
  intros gsize base64 debug extent l b r t src g cf u N P S D. unfold to_mvt. rewrite N.
  change (src xy_dims) with (src (p_dims (mvt_writer gsize base64 debug cf))). rewrite D.
  pose proof (m_written gsize base64 debug cf g P S 0%nat [] [] [] []) as X.
  change (multi_dim (p_dims (mvt_writer gsize base64 debug cf))) with false.
  cbv zeta in X. unfold mw_init. destruct (drawable _ g).
  - rewrite X. reflexivity.
  - destruct (run _ _ _) as [s' [v|x]]; cbn [snd] in X; [discriminate X|injection X as ->; reflexivity].
Qed.
Lemma to_mvt_unscaled_delivers : forall A gsize base64 debug (src : dims -> prog A) pre g cf u,
  mvt_unscaled 4096 = Ok cf -> plain g = true -> tile_small gsize g ->
  (pre = [] \/ exists z, pre = [Srid z]) ->
  delivers src (fun multi => pre ++ gevents multi 0 g) (Ok u) ->
  to_mvt_unscaled gsize base64 debug src =
  if drawable (transform cf) g then Ok (mkMFeature None (tile_of (transform cf) g) []) else Err TooFewCoordinates.
Proof.
  intros A gsize base64 debug src pre g cf u N P S Hp D. unfold to_mvt_unscaled. rewrite N.
  change (src xy_dims) with (src (p_dims (mvt_writer gsize base64 debug cf))). rewrite D.
  change (multi_dim (p_dims (mvt_writer gsize base64 debug cf))) with false.
  assert (E : run (mvt_writer gsize base64 debug cf) (pre ++ gevents false 0 g) mw_init =
              run (mvt_writer gsize base64 debug cf) (gevents false 0 g) mw_init).
  { destruct Hp as [->|[z ->]]; reflexivity. }
  rewrite E.
  pose proof (m_written gsize base64 debug cf g P S 0%nat [] [] [] []) as X.
  cbv zeta in X. unfold mw_init. destruct (drawable _ g).
  - rewrite X. reflexivity.
  - clear E. match type of X with snd ?r = _ => destruct r as [s' [v|x]] end; cbn [snd] in X; [discriminate X|injection X as ->; reflexivity].
Qed.
