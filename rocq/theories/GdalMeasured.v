(** Proofs about the GDAL writer with m and without z (helper lemmas for C56). *)
From Coq Require Import String Ascii.
From Coq Require Import List NArith ZArith Lia Bool.
From Coq Require Import Init.Byte.
From Verif Require Import Base BaseLemmas Event EventLemmas Claims Geom GdalModel GdalSpec GdalMeasuredSpec GdalWrite.
Import ListNotations.
Local Open Scope N_scope.
Local Open Scope list_scope.

Definition xym : dims := mkDims false true false false.
Section Measured.
  Notation w := (gdal_writer xym).
  Notation nd k pts kids := (Og k false true pts kids).
  Notation ln pts := (Og OLineString (some pts) true pts []).
  Lemma some_map : forall A B (f : A -> B) l, some (map f l) = some l. Proof. intros A B f [|a l]; reflexivity. Qed.
  Lemma some_app : forall A (l : list A) a, some (l ++ [a]) = true. Proof. intros A [|b l] a; reflexivity. Qed.
  Lemma m_line_ln : forall l, ln (map m_pt l) = m_line l. Proof. intros l. unfold m_line. now rewrite some_map. Qed.
  Lemma wd_empty : forall g l k, empty_geom (mkGw xym g l) k = nd k [] [].
  Proof. reflexivity. Qed.
  Definition msetp (i : nat) (c : coord) : og -> og := set_point i (m_pt c).
  Lemma setp_line : forall l c, N.of_nat (length l) < 2 ^ 31 ->
    msetp (length l) c (ln l) = ln (l ++ [m_pt c]).
  Proof.
    intros l c H. unfold msetp. cbn [set_point]. rewrite (c_int_short _ H), put_end, some_app. reflexivity.
  Qed.
  Lemma setp_point : forall c, msetp 0 c (nd OPoint [] []) = m_point c.
  Proof. reflexivity. Qed.
  Lemma step_line : forall z pts l i c,
    gdal_step (mkGw xym (Og OLineString z true pts []) l) (ev_coord true i c) = (mkGw xym (msetp i c (Og OLineString z true pts [])) l, Ok tt).
  Proof. intros [|] pts l i c; reflexivity. Qed.
  Lemma step_nested : forall k pts kids path i c, nested k = true ->
    gdal_step (mkGw xym (nd k pts kids) (At path)) (ev_coord true i c) =
    (mkGw xym (at_path path (msetp i c) (nd k pts kids)) (At path), Ok tt).
  Proof. intros k pts kids path i c K. destruct k; try discriminate; reflexivity. Qed.

  (** *** Lines *)
  Lemma line_run : forall l done r, N.of_nat (length done + length l) <= 2 ^ 31 ->
    run w (mapi (ev_coord true) (length done) l) (mkGw xym (ln done) r) =
    (mkGw xym (ln (done ++ map m_pt l)) r, Ok tt).
  Proof.
    induction l as [|c l IH]; intros done r H; cbn [mapi map].
    - now rewrite app_nil_r.
    - cbn [length] in H. cbn [run p_step gdal_writer]. rewrite step_line, setp_line by lia.
      replace (S (length done)) with (length (done ++ [m_pt c])) by (rewrite app_length; cbn; lia).
      fold w. rewrite IH by (rewrite app_length; cbn; lia). now rewrite <- app_assoc.
  Qed.
  (** a line that lies at [path] in [g] *)
  Lemma at_kind : forall i r f k pts kids, at_path (i :: r) f (nd k pts kids) = nd k pts (at_nth i (at_path r f) kids).
  Proof. reflexivity. Qed.
  Lemma inner_run : forall k, nested k = true -> forall l done i path kids, N.of_nat (length done + length l) <= 2 ^ 31 ->
    run w (mapi (ev_coord true) (length done) l)
          (mkGw xym (at_path (i :: path) (fun _ => ln done) (nd k [] kids)) (At (i :: path))) =
    (mkGw xym (at_path (i :: path) (fun _ => ln (done ++ map m_pt l)) (nd k [] kids)) (At (i :: path)), Ok tt).
  Proof.
    intros k K. induction l as [|c l IH]; intros done i path kids H; cbn [mapi map].
    - now rewrite app_nil_r.
    - cbn [length] in H. cbn [run p_step gdal_writer]. rewrite at_kind, step_nested by exact K. rewrite <- at_kind, at_path_twice.
      rewrite setp_line by lia. replace (S (length done)) with (length (done ++ [m_pt c])) by (rewrite app_length; cbn; lia).
      fold w. rewrite IH by (rewrite app_length; cbn; lia). now rewrite <- app_assoc.
  Qed.

  (** *** Dimensions of members *)
  Lemma lift_line : forall l, lift false true (m_line l) = m_line l.
  Proof. intros l. unfold m_line. cbn. now rewrite orb_false_r. Qed.
  Lemma lift_lines : forall l, map (lift false true) (map m_line l) = map m_line l.
  Proof. intros l. rewrite map_map. apply map_ext. apply lift_line. Qed.
  Lemma lift_poly : forall r, lift false true (m_poly r) = m_poly r.
  Proof. intros r. unfold m_poly. cbn [lift]. rewrite lift_lines. reflexivity. Qed.
  Lemma lift_polys : forall l, map (lift false true) (map m_poly l) = map m_poly l.
  Proof. intros l. rewrite map_map. apply map_ext. apply lift_poly. Qed.
  Lemma add_any : forall k kids a, fits_in k (o_kind a) = true -> o_z a = false -> o_m a = true -> lift false true a = a ->
    map (lift false true) kids = kids -> add (nd k [] kids) a = Ok (nd k [] (kids ++ [a])).
  Proof.
    intros k kids a F Z M La Lk. unfold add. cbn [o_kind]. rewrite F, Z, M. cbn [lift o_z o_m]. rewrite Lk, La. reflexivity.
  Qed.

  (** *** Rings in a polygon or a multi line string *)
  Definition holds_lines (k : kind) : bool := match k with OMultiLineString | OPolygon => true | _ => false end.
  Lemma at_last : forall k done a f, at_path [length done] f (nd k [] (done ++ [a])) = nd k [] (done ++ [f a]).
  Proof. intros k done a f. rewrite at_kind. cbn [at_path]. now rewrite at_nth_last. Qed.
  Lemma ring_run : forall k, holds_lines k = true -> forall l done i r, short l ->
    run w (ev_line true false i l) (mkGw xym (nd k [] (map m_line done)) r) =
    (mkGw xym (nd k [] (map m_line (done ++ [l]))) (At [length done]), Ok tt).
  Proof.
    intros k K l done i r Sh. unfold ev_line. cbn [run p_step gdal_writer].
    assert (N : nested k = true) by (destruct k; try discriminate; reflexivity).
    assert (Bg : gdal_step (mkGw xym (nd k [] (map m_line done)) r) (LineStringBegin false (length l) i) =
            (mkGw xym (nd k [] (map m_line done ++ [ln (@nil pt)])) (At [length done]), Ok tt)).
    { assert (Ad : add (nd k [] (map m_line done)) (ln (@nil pt)) =
                   Ok (nd k [] (map m_line done ++ [ln (@nil pt)]))).
      { apply add_any; try reflexivity; [destruct k; try discriminate; reflexivity|apply lift_lines]. }
      assert (Fc : full_code (nd k [] (map m_line done)) mod 1000 = code k) by (destruct k; try discriminate; reflexivity).
      unfold gdal_step. cbn [g_geom]. rewrite Fc, wd_empty. change (nd OLineString [] []) with (ln (@nil pt)). rewrite Ad.
      replace (length (o_kids (nd k [] (map m_line done ++ [ln (@nil pt)]))) - 1)%nat with (length done)
        by (cbn [o_kids]; rewrite app_length, map_length; cbn; lia).
      destruct k; try discriminate; reflexivity. }
    rewrite Bg. fold w. rewrite run_app. unfold ev_coords.
    replace (length done) with (length (map m_line done)) by apply map_length.
    rewrite <- (at_last k _ (ln (@nil pt)) (fun _ => ln (@nil pt))).
    change 0%nat with (length (@nil pt)). rewrite inner_run; [|exact N|exact Sh].
    rewrite at_last. cbn [run p_step gdal_writer gdal_step default_step app]. rewrite map_app, m_line_ln. reflexivity.
  Qed.
  Lemma rings_run : forall k, holds_lines k = true -> forall l done i r, Forall short l ->
    exists r', run w (flat_mapi (ev_line true false) i l) (mkGw xym (nd k [] (map m_line done)) r) =
    (mkGw xym (nd k [] (map m_line (done ++ l))) r', Ok tt).
  Proof.
    intros k K. induction l as [|a l IH]; intros done i r Sh; cbn [flat_mapi].
    - exists r. now rewrite app_nil_r.
    - inversion Sh; subst. rewrite run_app, ring_run by assumption.
      destruct (IH (done ++ [a]) (S i) (At [length done]) ltac:(assumption)) as [r' E]. exists r'. rewrite E, <- app_assoc. reflexivity.
  Qed.

  (** *** Rings in a multi polygon *)
  Lemma at_last2 : forall done r a f,
    at_path [length done; length r] f (nd OMultiPolygon [] (done ++ [nd OPolygon [] (r ++ [a])])) =
    nd OMultiPolygon [] (done ++ [nd OPolygon [] (r ++ [f a])]).
  Proof. intros. rewrite at_kind, at_nth_last, at_kind, at_nth_last. reflexivity. Qed.
  Lemma member_run : forall (l : line) (done : list rings) (rs : rings) i r, short l ->
    run w (ev_line true false i l) (mkGw xym (nd OMultiPolygon [] (map m_poly (done ++ [rs]))) r) =
    (mkGw xym (nd OMultiPolygon [] (map m_poly (done ++ [rs ++ [l]]))) (At [length done; length rs]), Ok tt).
  Proof.
    intros l done rs i r Sh. unfold ev_line. cbn [run p_step gdal_writer].
    assert (Bg : gdal_step (mkGw xym (nd OMultiPolygon [] (map m_poly (done ++ [rs]))) r) (LineStringBegin false (length l) i) =
            (mkGw xym (nd OMultiPolygon [] (map m_poly done ++ [nd OPolygon [] (map m_line rs ++ [ln (@nil pt)])]))
                  (At [length done; length rs]), Ok tt)).
    { assert (Ad : add (m_poly rs) (ln (@nil pt)) =
                   Ok (nd OPolygon [] (map m_line rs ++ [ln (@nil pt)]))).
      { apply add_any; try reflexivity. apply lift_lines. }
      assert (Fc : full_code (nd OMultiPolygon [] (map m_poly (done ++ [rs]))) mod 1000 = 6) by reflexivity.
      unfold gdal_step. cbn [g_geom g_dims o_kids]. rewrite Fc, wd_empty, map_app. change (nd OLineString [] []) with (ln (@nil pt)). cbn [map]. rewrite rev_app_distr. cbn [rev app].
      rewrite Ad. cbn [o_kids].
      replace (length (map m_poly done ++ [m_poly rs]) - 1)%nat with (length (map m_poly done))
        by (rewrite app_length; cbn; lia).
      replace (length (map m_line rs ++ [ln (@nil pt)]) - 1)%nat with (length rs)
        by (rewrite app_length, map_length; cbn; lia).
      rewrite at_last, map_length. reflexivity. }
    rewrite Bg. fold w. rewrite run_app. unfold ev_coords.
    replace (length done) with (length (map m_poly done)) by apply map_length.
    replace (length rs) with (length (map m_line rs)) by apply map_length.
    rewrite <- (at_last2 _ _ (ln (@nil pt)) (fun _ => ln (@nil pt))).
    change 0%nat with (length (@nil pt)). rewrite inner_run; [|reflexivity|exact Sh].
    rewrite at_last2. cbn [run p_step gdal_writer gdal_step default_step app]. rewrite map_app, m_line_ln.
    cbn [map]. f_equal. f_equal. f_equal. f_equal. f_equal. unfold m_poly. rewrite map_app. reflexivity.
  Qed.
  Lemma members_run : forall (l : rings) (done : list rings) (rs : rings) i r, Forall short l ->
    exists r', run w (flat_mapi (ev_line true false) i l) (mkGw xym (nd OMultiPolygon [] (map m_poly (done ++ [rs]))) r) =
    (mkGw xym (nd OMultiPolygon [] (map m_poly (done ++ [rs ++ l]))) r', Ok tt).
  Proof.
    induction l as [|a l IH]; intros done rs i r Sh; cbn [flat_mapi].
    - exists r. now rewrite app_nil_r.
    - pose proof (Forall_inv Sh). pose proof (Forall_inv_tail Sh). rewrite run_app, member_run by assumption.
      destruct (IH done (rs ++ [a]) (S i) (At [length done; length rs]) ltac:(assumption)) as [r' E]. exists r'.
      rewrite <- app_assoc in E. exact E.
  Qed.
  Lemma polys_run : forall (l done : list rings) i r, Forall (Forall short) l ->
    exists r', run w (flat_mapi (ev_polygon true false) i l) (mkGw xym (nd OMultiPolygon [] (map m_poly done)) r) =
    (mkGw xym (nd OMultiPolygon [] (map m_poly (done ++ l))) r', Ok tt).
  Proof.
    induction l as [|rs l IH]; intros done i r Sh; cbn [flat_mapi].
    - exists r. now rewrite app_nil_r.
    - pose proof (Forall_inv Sh). pose proof (Forall_inv_tail Sh). rewrite run_app. unfold ev_polygon at 1. cbn [run p_step gdal_writer].
      assert (Bg : forall n, gdal_step (mkGw xym (nd OMultiPolygon [] (map m_poly done)) r) (PolygonBegin false n i) =
        (mkGw xym (nd OMultiPolygon [] (map m_poly (done ++ [[]]))) r, Ok tt)).
      { intros n. unfold gdal_step, try_add. cbn [g_geom]. rewrite wd_empty, add_any; try reflexivity.
        - unfold put_geom. cbn [g_dims g_line]. rewrite map_app. reflexivity.
        - apply lift_polys. }
      rewrite Bg. fold w. rewrite run_app. destruct (members_run rs done [] 0 r ltac:(assumption)) as [r1 E1]. unfold rings, line in *. rewrite E1.
      cbn [run p_step gdal_writer gdal_step default_step app].
      destruct (IH (done ++ [rs]) (S i) r1 ltac:(assumption)) as [r' E]. exists r'. fold w. rewrite E, <- app_assoc. reflexivity.
  Qed.
  Lemma points_run : forall l done i r,
    run w (mapi (ev_coord true) i l) (mkGw xym (Og OMultiPoint (some done) true [] (map m_point done)) r) =
    (mkGw xym (Og OMultiPoint (some (done ++ l)) true [] (map m_point (done ++ l))) r, Ok tt).
  Proof.
    induction l as [|c l IH]; intros done i r; cbn [mapi].
    - now rewrite app_nil_r.
    - cbn [run p_step gdal_writer].
      assert (St : gdal_step (mkGw xym (Og OMultiPoint (some done) true [] (map m_point done)) r) (ev_coord true i c) =
        (mkGw xym (Og OMultiPoint (some (done ++ [c])) true [] (map m_point (done ++ [c]))) r, Ok tt)).
      { assert (Ad : add (Og OMultiPoint (some done) true [] (map m_point done)) (m_point c) =
                     Ok (Og OMultiPoint true true [] (map m_point (done ++ [c])))).
        { unfold add, m_point at 1. cbn [o_kind fits_in o_z o_m lift]. rewrite orb_true_r, map_app, map_map. cbn. reflexivity. }
        assert (St : gdal_step (mkGw xym (Og OMultiPoint (some done) true [] (map m_point done)) r) (ev_coord true i c) =
          try_add (mkGw xym (Og OMultiPoint (some done) true [] (map m_point done)) r) (m_point c))
          by (unfold ev_coord; destruct (some done); reflexivity).
        rewrite St. unfold try_add. cbn [g_geom]. rewrite Ad, some_app. reflexivity. }
      rewrite St. fold w. rewrite IH, <- app_assoc. reflexivity.
  Qed.

  (** *** The whole *)
  Lemma begin_run : forall e k s l, g_dims s = xym -> gdal_step s e = (replace_geom s (empty_geom s k), Ok tt) ->
    exists r, run w (e :: l) s = run w l (mkGw xym (nd k [] []) r).
  Proof.
    intros e k [d g r0] l D E. cbn in D. subst d. cbn [run p_step gdal_writer]. rewrite E. unfold replace_geom.
    rewrite wd_empty. cbn [g_dims g_line]. eexists. reflexivity.
  Qed.
  Lemma writes : forall g, simple g = true -> short_geom g -> forall i s, g_dims s = xym ->
    exists r, run w (gevents true i g) s = (mkGw xym (m_value g) r, Ok tt).
  Proof.
    intros g Si Sh i s D. destruct g; try discriminate; cbn [gevents m_value short_geom] in *.
    - destruct (begin_run (PointBegin i) OPoint s [ev_coord true 0 c; PointEnd i] D eq_refl) as [r ->].
      eexists. reflexivity.
    - match goal with |- context [run _ (_ :: ?t) _] =>
        destruct (begin_run (MultiPointBegin (length l) i) OMultiPoint s t D eq_refl) as [r ->] end.
      rewrite run_app. unfold ev_coords. pose proof (points_run l [] 0 r) as E. cbn [map some app] in E. rewrite E. eexists. reflexivity.
    - unfold ev_line. match goal with |- context [run _ (_ :: ?t) _] =>
        destruct (begin_run (LineStringBegin true (length l) i) OLineString s t D eq_refl) as [r ->] end.
      rewrite run_app. unfold ev_coords. pose proof (line_run l [] r Sh) as E. cbn [length some app] in E. rewrite E. rewrite some_map. eexists. reflexivity.
    - match goal with |- context [run _ (_ :: ?t) _] =>
        destruct (begin_run (MultiLineStringBegin (length l) i) OMultiLineString s t D eq_refl) as [r ->] end.
      rewrite run_app. destruct (rings_run OMultiLineString eq_refl l [] 0 r Sh) as [r' E]. cbn [map] in E. rewrite E. eexists. reflexivity.
    - unfold ev_polygon. match goal with |- context [run _ (_ :: ?t) _] =>
        destruct (begin_run (PolygonBegin true (length r) i) OPolygon s t D eq_refl) as [q ->] end.
      rewrite run_app. destruct (rings_run OPolygon eq_refl r [] 0 q Sh) as [r' E]. cbn [map] in E. rewrite E. eexists. reflexivity.
    - match goal with |- context [run _ (_ :: ?t) _] =>
        destruct (begin_run (MultiPolygonBegin (length l) i) OMultiPolygon s t D eq_refl) as [r ->] end.
      rewrite run_app. destruct (polys_run l [] 0 r Sh) as [r' E]. cbn [map] in E. rewrite E. eexists. reflexivity.
  Qed.
  Lemma to_gdal_measured : forall src h g (x : unit), srids h -> simple g = true -> short_geom g ->
    delivers src (fun multi => h ++ gevents multi 0 g) (Ok x) -> to_gdal_ndim src xym = Ok (m_value g).
  Proof.
    intros src h g x H Si Sh D. unfold to_gdal_ndim. specialize (D _ w (gw_with xym)). cbn [p_dims gdal_writer] in D.
    rewrite D. change (multi_dim xym) with true. rewrite run_app.
    assert (E : run w h (gw_with xym) = (gw_with xym, Ok tt)).
    { clear - H. induction H as [|e h [v ->] _ IH]; [reflexivity|]. cbn [run p_step gdal_writer gdal_step default_step]. exact IH. }
    rewrite E. destruct (writes g Si Sh 0 (gw_with xym) eq_refl) as [r ->]. reflexivity.
  Qed.
End Measured.
