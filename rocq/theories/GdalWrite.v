(** Proofs about the GDAL writer (helper lemmas for C56). *)
From Coq Require Import String Ascii.
From Coq Require Import List NArith ZArith Lia Bool.
From Coq Require Import Init.Byte.
From Verif Require Import Base BaseLemmas Event EventLemmas Claims Geom GdalModel GdalSpec.
Import ListNotations.
Local Open Scope N_scope.
Local Open Scope list_scope.

Lemma at_nth_last : forall f l a, at_nth (length l) f (l ++ [a]) = l ++ [f a].
Proof. induction l as [|b l IH]; intros a; cbn; [reflexivity|]. now rewrite IH. Qed.
Lemma at_nth_twice : forall f h l i, at_nth i f (at_nth i h l) = at_nth i (fun x => f (h x)) l.
Proof. induction l as [|b l IH]; intros [|i]; cbn; try reflexivity. now rewrite IH. Qed.
Lemma at_nth_ext : forall f h, (forall x, f x = h x) -> forall l i, at_nth i f l = at_nth i h l.
Proof. intros f h E. induction l as [|b l IH]; intros [|i]; cbn; try reflexivity; [now rewrite E|now rewrite IH]. Qed.
Lemma at_path_twice : forall path f h g, at_path path f (at_path path h g) = at_path path (fun x => f (h x)) g.
Proof.
  induction path as [|i r IH]; intros f h g; [reflexivity|]. destruct g as [k z m pts kids]. cbn [at_path].
  rewrite at_nth_twice. f_equal. apply at_nth_ext. intros x. apply IH.
Qed.
Lemma put_end : forall A (zero p : A) l, put zero (length l) p l = l ++ [p].
Proof. induction l as [|a l IH]; cbn; [reflexivity|]. now rewrite IH. Qed.
Lemma c_int_short : forall n, N.of_nat n < 2 ^ 31 -> c_int n = Some n.
Proof.
  intros n H. unfold c_int. rewrite N.mod_small by lia. apply N.ltb_lt in H. rewrite H. now rewrite Nat2N.id.
Qed.
Lemma nth_end : forall A (d : A) l, nth (length l) l d = d.
Proof. intros. now apply nth_overflow. Qed.

Section Write.
  Variable b : bool.
  Definition wd : dims := if b then xyzm_dims else xy_dims.
  Notation w := (gdal_writer wd).
  Notation nd k pts kids := (Og k b b pts kids).
  Lemma wd_z : dz wd = b. Proof. unfold wd. now destruct b. Qed.
  Lemma wd_m : dm wd = b. Proof. unfold wd. now destruct b. Qed.
  Lemma wd_multi : multi_dim wd = b. Proof. unfold wd. now destruct b. Qed.
  Lemma wd_empty : forall g l k, empty_geom (mkGw wd g l) k = nd k [] [].
  Proof. intros. unfold empty_geom. cbn [g_dims]. now rewrite wd_z, wd_m. Qed.
  (** the writer's way to set position [i] *)
  Definition setp (i : nat) (c : coord) : og -> og :=
    if b then set_point i (cx c, cy c, opt_default f64_zero (cz c)) else set_point_2d i (cx c) (cy c).
  Lemma setp_line : forall l c, N.of_nat (length l) < 2 ^ 31 ->
    setp (length l) c (nd OLineString l []) = nd OLineString (l ++ [pt_of b c]) [].
  Proof.
    intros l c H. unfold setp, pt_of. destruct b; cbn [set_point set_point_2d]; rewrite (c_int_short _ H), put_end; [reflexivity|].
    now rewrite nth_end.
  Qed.
  Lemma setp_point : forall c, setp 0 c (nd OPoint [] []) = point_value b c.
  Proof. intros c. unfold setp, point_value, pt_of. now destruct b. Qed.
  Definition direct (k : kind) : bool := match k with OPoint | OLineString => true | _ => false end.
  Definition nested (k : kind) : bool := match k with OMultiLineString | OPolygon | OMultiPolygon => true | _ => false end.
  Lemma step_direct : forall k pts kids l i c, direct k = true ->
    gdal_step (mkGw wd (nd k pts kids) l) (ev_coord b i c) = (mkGw wd (setp i c (nd k pts kids)) l, Ok tt).
  Proof. intros k pts kids l i c K. unfold ev_coord, setp. destruct k; try discriminate; destruct b; reflexivity. Qed.
  Lemma step_nested : forall k pts kids path i c, nested k = true ->
    gdal_step (mkGw wd (nd k pts kids) (At path)) (ev_coord b i c) =
    (mkGw wd (at_path path (setp i c) (nd k pts kids)) (At path), Ok tt).
  Proof. intros k pts kids path i c K. unfold ev_coord, setp. destruct k; try discriminate; destruct b; reflexivity. Qed.

  (** *** Lines *)
  Lemma line_run : forall l done r, N.of_nat (length done + length l) <= 2 ^ 31 ->
    run w (mapi (ev_coord b) (length done) l) (mkGw wd (nd OLineString done []) r) =
    (mkGw wd (nd OLineString (done ++ map (pt_of b) l) []) r, Ok tt).
  Proof.
    induction l as [|c l IH]; intros done r H; cbn [mapi map].
    - now rewrite app_nil_r.
    - cbn [length] in H. cbn [run p_step gdal_writer]. rewrite step_direct by reflexivity. rewrite setp_line by lia.
      replace (S (length done)) with (length (done ++ [pt_of b c])) by (rewrite app_length; cbn; lia).
      fold w. rewrite IH by (rewrite app_length; cbn; lia). now rewrite <- app_assoc.
  Qed.
  (** a line that lies at [path] in [g] *)
  Lemma at_kind : forall i r f k pts kids, at_path (i :: r) f (nd k pts kids) = nd k pts (at_nth i (at_path r f) kids).
  Proof. reflexivity. Qed.
  Lemma inner_run : forall k, nested k = true -> forall l done i path kids, N.of_nat (length done + length l) <= 2 ^ 31 ->
    run w (mapi (ev_coord b) (length done) l)
          (mkGw wd (at_path (i :: path) (fun _ => nd OLineString done []) (nd k [] kids)) (At (i :: path))) =
    (mkGw wd (at_path (i :: path) (fun _ => nd OLineString (done ++ map (pt_of b) l) []) (nd k [] kids)) (At (i :: path)), Ok tt).
  Proof.
    intros k K. induction l as [|c l IH]; intros done i path kids H; cbn [mapi map].
    - now rewrite app_nil_r.
    - cbn [length] in H. cbn [run p_step gdal_writer]. rewrite at_kind, step_nested by exact K. rewrite <- at_kind, at_path_twice.
      rewrite setp_line by lia. replace (S (length done)) with (length (done ++ [pt_of b c])) by (rewrite app_length; cbn; lia).
      fold w. rewrite IH by (rewrite app_length; cbn; lia). now rewrite <- app_assoc.
  Qed.

  (** *** Dimensions of members *)
  Lemma lift_line : forall l, lift b b (line_value b l) = line_value b l.
  Proof. intros l. unfold line_value. cbn. now destruct b. Qed.
  Lemma lift_lines : forall l, map (lift b b) (map (line_value b) l) = map (line_value b) l.
  Proof. intros l. rewrite map_map. apply map_ext. apply lift_line. Qed.
  Lemma lift_poly : forall r, lift b b (poly_value b r) = poly_value b r.
  Proof. intros r. unfold poly_value. cbn [lift]. rewrite lift_lines. now destruct b. Qed.
  Lemma lift_polys : forall l, map (lift b b) (map (poly_value b) l) = map (poly_value b) l.
  Proof. intros l. rewrite map_map. apply map_ext. apply lift_poly. Qed.
  Lemma lift_points : forall l, map (lift b b) (map (point_value b) l) = map (point_value b) l.
  Proof. intros l. rewrite map_map. apply map_ext. intros c. unfold point_value. cbn. now destruct b. Qed.
  Lemma add_any : forall k kids a, fits_in k (o_kind a) = true -> o_z a = b -> o_m a = b -> lift b b a = a ->
    map (lift b b) kids = kids -> add (nd k [] kids) a = Ok (nd k [] (kids ++ [a])).
  Proof.
    intros k kids a F Z M La Lk. unfold add. cbn [o_kind]. rewrite F, Z, M. cbn [lift o_z o_m]. rewrite Lk, La, !orb_diag. reflexivity.
  Qed.

  (** *** Rings in a polygon or a multi line string *)
  Definition holds_lines (k : kind) : bool := match k with OMultiLineString | OPolygon => true | _ => false end.
  Lemma at_last : forall k done a f, at_path [length done] f (nd k [] (done ++ [a])) = nd k [] (done ++ [f a]).
  Proof. intros k done a f. rewrite at_kind. cbn [at_path]. now rewrite at_nth_last. Qed.
  Lemma ring_run : forall k, holds_lines k = true -> forall l done i r, short l ->
    run w (ev_line b false i l) (mkGw wd (nd k [] (map (line_value b) done)) r) =
    (mkGw wd (nd k [] (map (line_value b) (done ++ [l]))) (At [length done]), Ok tt).
  Proof.
    intros k K l done i r Sh. unfold ev_line. cbn [run p_step gdal_writer].
    assert (N : nested k = true) by (destruct k; try discriminate; reflexivity).
    assert (Bg : gdal_step (mkGw wd (nd k [] (map (line_value b) done)) r) (LineStringBegin false (length l) i) =
            (mkGw wd (nd k [] (map (line_value b) done ++ [nd OLineString [] []])) (At [length done]), Ok tt)).
    { assert (Ad : add (nd k [] (map (line_value b) done)) (nd OLineString [] []) =
                   Ok (nd k [] (map (line_value b) done ++ [nd OLineString [] []]))).
      { apply add_any; try reflexivity; [destruct k; try discriminate; reflexivity|now apply (lift_line [])|apply lift_lines]. }
      assert (Fc : full_code (nd k [] (map (line_value b) done)) mod 1000 = code k) by (destruct k; try discriminate; destruct b; reflexivity).
      unfold gdal_step. cbn [g_geom]. rewrite Fc, wd_empty, Ad.
      replace (length (o_kids (nd k [] (map (line_value b) done ++ [nd OLineString [] []]))) - 1)%nat with (length done)
        by (cbn [o_kids]; rewrite app_length, map_length; cbn; lia).
      destruct k; try discriminate; reflexivity. }
    rewrite Bg. fold w. rewrite run_app. unfold ev_coords.
    replace (length done) with (length (map (line_value b) done)) by apply map_length.
    rewrite <- (at_last k _ (nd OLineString [] []) (fun _ => nd OLineString [] [])).
    change 0%nat with (length (@nil pt)). rewrite inner_run; [|exact N|exact Sh].
    rewrite at_last. cbn [run p_step gdal_writer gdal_step default_step app]. rewrite map_app. reflexivity.
  Qed.
  Lemma rings_run : forall k, holds_lines k = true -> forall l done i r, Forall short l ->
    exists r', run w (flat_mapi (ev_line b false) i l) (mkGw wd (nd k [] (map (line_value b) done)) r) =
    (mkGw wd (nd k [] (map (line_value b) (done ++ l))) r', Ok tt).
  Proof.
    intros k K. induction l as [|a l IH]; intros done i r Sh; cbn [flat_mapi].
    - exists r. now rewrite app_nil_r.
    - inversion Sh; subst. rewrite run_app, ring_run by assumption.
      destruct (IH (done ++ [a]) (S i) (At [length done]) ltac:(assumption)) as [r' E]. exists r'. rewrite E, <- app_assoc. reflexivity.
  Qed.

  (** *** Rings in a multi polygon *)
  Lemma at_last2 : forall done r a f,
    at_path [length done; length r] f (nd OMultiPolygon [] (done ++ [nd OPolygon [] (r ++ [a])])) =
    nd OMultiPolygon [] (done ++ [nd OPolygon [] (r ++ [f a])]).
  Proof. intros. rewrite at_kind, at_nth_last, at_kind, at_nth_last. reflexivity. Qed.
  Lemma member_run : forall (l : line) (done : list rings) (rs : rings) i r, short l ->
    run w (ev_line b false i l) (mkGw wd (nd OMultiPolygon [] (map (poly_value b) (done ++ [rs]))) r) =
    (mkGw wd (nd OMultiPolygon [] (map (poly_value b) (done ++ [rs ++ [l]]))) (At [length done; length rs]), Ok tt).
  Proof.
    intros l done rs i r Sh. unfold ev_line. cbn [run p_step gdal_writer].
    assert (Bg : gdal_step (mkGw wd (nd OMultiPolygon [] (map (poly_value b) (done ++ [rs]))) r) (LineStringBegin false (length l) i) =
            (mkGw wd (nd OMultiPolygon [] (map (poly_value b) done ++ [nd OPolygon [] (map (line_value b) rs ++ [nd OLineString [] []])]))
                  (At [length done; length rs]), Ok tt)).
    { assert (Ad : add (poly_value b rs) (nd OLineString [] []) =
                   Ok (nd OPolygon [] (map (line_value b) rs ++ [nd OLineString [] []]))).
      { apply add_any; try reflexivity; [now apply (lift_line [])|apply lift_lines]. }
      assert (Fc : full_code (nd OMultiPolygon [] (map (poly_value b) (done ++ [rs]))) mod 1000 = 6) by (destruct b; reflexivity).
      unfold gdal_step. cbn [g_geom g_dims o_kids]. rewrite Fc, wd_empty, map_app. cbn [map]. rewrite rev_app_distr. cbn [rev app].
      rewrite Ad. cbn [o_kids].
      replace (length (map (poly_value b) done ++ [poly_value b rs]) - 1)%nat with (length (map (poly_value b) done))
        by (rewrite app_length; cbn; lia).
      replace (length (map (line_value b) rs ++ [nd OLineString [] []]) - 1)%nat with (length rs)
        by (rewrite app_length, map_length; cbn; lia).
      rewrite at_last, map_length. reflexivity. }
    rewrite Bg. fold w. rewrite run_app. unfold ev_coords.
    replace (length done) with (length (map (poly_value b) done)) by apply map_length.
    replace (length rs) with (length (map (line_value b) rs)) by apply map_length.
    rewrite <- (at_last2 _ _ (nd OLineString [] []) (fun _ => nd OLineString [] [])).
    change 0%nat with (length (@nil pt)). rewrite inner_run; [|reflexivity|exact Sh].
    rewrite at_last2. cbn [run p_step gdal_writer gdal_step default_step app]. rewrite map_app.
    cbn [map]. unfold poly_value. rewrite map_app. reflexivity.
  Qed.
  Lemma members_run : forall (l : rings) (done : list rings) (rs : rings) i r, Forall short l ->
    exists r', run w (flat_mapi (ev_line b false) i l) (mkGw wd (nd OMultiPolygon [] (map (poly_value b) (done ++ [rs]))) r) =
    (mkGw wd (nd OMultiPolygon [] (map (poly_value b) (done ++ [rs ++ l]))) r', Ok tt).
  Proof.
    induction l as [|a l IH]; intros done rs i r Sh; cbn [flat_mapi].
    - exists r. now rewrite app_nil_r.
    - pose proof (Forall_inv Sh). pose proof (Forall_inv_tail Sh). rewrite run_app, member_run by assumption.
      destruct (IH done (rs ++ [a]) (S i) (At [length done; length rs]) ltac:(assumption)) as [r' E]. exists r'.
      rewrite <- app_assoc in E. exact E.
  Qed.
  Lemma polys_run : forall (l done : list rings) i r, Forall (Forall short) l ->
    exists r', run w (flat_mapi (ev_polygon b false) i l) (mkGw wd (nd OMultiPolygon [] (map (poly_value b) done)) r) =
    (mkGw wd (nd OMultiPolygon [] (map (poly_value b) (done ++ l))) r', Ok tt).
  Proof.
    induction l as [|rs l IH]; intros done i r Sh; cbn [flat_mapi].
    - exists r. now rewrite app_nil_r.
    - pose proof (Forall_inv Sh). pose proof (Forall_inv_tail Sh). rewrite run_app. unfold ev_polygon at 1. cbn [run p_step gdal_writer].
      assert (Bg : forall n, gdal_step (mkGw wd (nd OMultiPolygon [] (map (poly_value b) done)) r) (PolygonBegin false n i) =
        (mkGw wd (nd OMultiPolygon [] (map (poly_value b) (done ++ [[]]))) r, Ok tt)).
      { intros n. unfold gdal_step, try_add. cbn [g_geom]. rewrite wd_empty, add_any; try reflexivity.
        - unfold put_geom. cbn [g_dims g_line]. rewrite map_app. reflexivity.
        - now apply (lift_poly []).
        - apply lift_polys. }
      rewrite Bg. fold w. rewrite run_app. destruct (members_run rs done [] 0 r ltac:(assumption)) as [r1 E1]. unfold rings, line in *. rewrite E1.
      cbn [run p_step gdal_writer gdal_step default_step app].
      destruct (IH (done ++ [rs]) (S i) r1 ltac:(assumption)) as [r' E]. exists r'. fold w. rewrite E, <- app_assoc. reflexivity.
  Qed.
  Lemma points_run : forall l done i r,
    run w (mapi (ev_coord b) i l) (mkGw wd (nd OMultiPoint [] (map (point_value b) done)) r) =
    (mkGw wd (nd OMultiPoint [] (map (point_value b) (done ++ l))) r, Ok tt).
  Proof.
    induction l as [|c l IH]; intros done i r; cbn [mapi].
    - now rewrite app_nil_r.
    - cbn [run p_step gdal_writer].
      assert (St : gdal_step (mkGw wd (nd OMultiPoint [] (map (point_value b) done)) r) (ev_coord b i c) =
        (mkGw wd (nd OMultiPoint [] (map (point_value b) (done ++ [c]))) r, Ok tt)).
      { assert (Ad : add (nd OMultiPoint [] (map (point_value b) done)) (setp 0 c (nd OPoint [] [])) =
                     Ok (nd OMultiPoint [] (map (point_value b) (done ++ [c])))).
        { rewrite setp_point, map_app. apply add_any; try reflexivity; [unfold point_value; cbn; now destruct b|apply lift_points]. }
        assert (St : gdal_step (mkGw wd (nd OMultiPoint [] (map (point_value b) done)) r) (ev_coord b i c) =
          try_add (mkGw wd (nd OMultiPoint [] (map (point_value b) done)) r)
            (setp 0 c (empty_geom (mkGw wd (nd OMultiPoint [] (map (point_value b) done)) r) OPoint)))
          by (unfold ev_coord, setp; destruct b; reflexivity).
        rewrite St, wd_empty. unfold try_add. cbn [g_geom]. rewrite Ad. reflexivity. }
      rewrite St. fold w. rewrite IH, <- app_assoc. reflexivity.
  Qed.

  (** *** The whole *)
  Lemma begin_run : forall e k s l, g_dims s = wd -> gdal_step s e = (replace_geom s (empty_geom s k), Ok tt) ->
    exists r, run w (e :: l) s = run w l (mkGw wd (nd k [] []) r).
  Proof.
    intros e k [d g r0] l D E. cbn in D. subst d. cbn [run p_step gdal_writer]. rewrite E. unfold replace_geom.
    rewrite wd_empty. cbn [g_dims g_line]. eexists. reflexivity.
  Qed.
  Lemma writes : forall g, simple g = true -> short_geom g -> forall i s, g_dims s = wd ->
    exists r, run w (gevents b i g) s = (mkGw wd (gvalue b g) r, Ok tt).
  Proof.
    intros g Si Sh i s D. destruct g; try discriminate; cbn [gevents gvalue short_geom] in *.
    - destruct (begin_run (PointBegin i) OPoint s [ev_coord b 0 c; PointEnd i] D eq_refl) as [r ->].
      cbn [run p_step gdal_writer]. rewrite step_direct by reflexivity. rewrite setp_point. eexists. reflexivity.
    - match goal with |- context [run _ (_ :: ?t) _] =>
        destruct (begin_run (MultiPointBegin (length l) i) OMultiPoint s t D eq_refl) as [r ->] end.
      rewrite run_app. unfold ev_coords. pose proof (points_run l [] 0 r) as E. cbn [map] in E. rewrite E. eexists. reflexivity.
    - unfold ev_line. match goal with |- context [run _ (_ :: ?t) _] =>
        destruct (begin_run (LineStringBegin true (length l) i) OLineString s t D eq_refl) as [r ->] end.
      rewrite run_app. unfold ev_coords. pose proof (line_run l [] r Sh) as E. cbn [length] in E. rewrite E. eexists. reflexivity.
    - match goal with |- context [run _ (_ :: ?t) _] =>
        destruct (begin_run (MultiLineStringBegin (length l) i) OMultiLineString s t D eq_refl) as [r ->] end.
      rewrite run_app. destruct (rings_run OMultiLineString eq_refl l [] 0 r Sh) as [r' E]. cbn [map] in E. rewrite E. eexists. reflexivity.
    - unfold ev_polygon. match goal with |- context [run _ (_ :: ?t) _] =>
        destruct (begin_run (PolygonBegin true (length r) i) OPolygon s t D eq_refl) as [q ->] end.
      rewrite run_app. destruct (rings_run OPolygon eq_refl r [] 0 q Sh) as [r' E]. cbn [map] in E. rewrite E. eexists. reflexivity.
    - match goal with |- context [run _ (_ :: ?t) _] =>
        destruct (begin_run (MultiPolygonBegin (length l) i) OMultiPolygon s t D eq_refl) as [r ->] end.
      rewrite run_app. destruct (polys_run l [] 0 r Sh) as [r' E]. cbn [map] in E. rewrite E. eexists. reflexivity.
  Qed.
  Lemma writes_srids : forall h g, srids h -> simple g = true -> short_geom g -> forall i s, g_dims s = wd ->
    exists r, run w (h ++ gevents b i g) s = (mkGw wd (gvalue b g) r, Ok tt).
  Proof.
    intros h g H Si Sh i s D. rewrite run_app.
    assert (E : run w h s = (s, Ok tt)).
    { induction H as [|e h [v ->] _ IH]; [reflexivity|]. cbn [run p_step gdal_writer gdal_step default_step]. exact IH. }
    rewrite E. now apply writes.
  Qed.
  Lemma to_gdal_simple : forall src h g, srids h -> simple g = true -> short_geom g ->
    delivers src (fun multi => h ++ gevents multi 0 g) (Ok tt) -> to_gdal_ndim src wd = Ok (gvalue b g).
  Proof.
    intros src h g H Si Sh D. unfold to_gdal_ndim. specialize (D _ w (gw_with wd)). cbn [p_dims gdal_writer] in D.
    rewrite D, wd_multi. destruct (writes_srids h g H Si Sh 0 (gw_with wd) eq_refl) as [r ->]. reflexivity.
  Qed.
End Write.
