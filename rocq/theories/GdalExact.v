(** What GdalWriter makes of every geometry (helper lemmas for C56_exact). *)
From Coq Require Import String Ascii.
From Coq Require Import List NArith ZArith Lia Bool.
From Coq Require Import Init.Byte.
From Verif Require Import Base BaseLemmas Event EventLemmas Claims Geom GdalModel GdalSpec GdalWrite.
From Verif Require Import GeosExactSpec GdalExactSpec.
From Verif Require WkbModel WkbSpec WkbClaims WkbTop GeosExact.
Import ListNotations.
Local Open Scope list_scope.

Notation w := (gdal_writer (wd false)).
Notation nd k pts kids := (Og k false false pts kids).

(** ** The line a run ends at *)
Definition ref_of (c : cursor) (r : line_ref) : Prop :=
  match c with
  | Outside => exists g, r = Own g
  | Member i => r = At [i]
  | Ring i j => r = At [i; j]
  | Freed => r = Gone
  end.
Definition rel (h : held) (s : gw) : Prop :=
  exists r, s = mkGw (wd false) (held_value h) r /\ ref_of (h_line h) r /\
    match h_geom h with Some g => simple g = true | None => True end.
Definition stands (ev : list event) (l : list piece) : Prop :=
  forall h s, rel h s ->
  match takes l h with
  | Ok h' => exists s', run w ev s = (s', Ok tt) /\ rel h' s'
  | Err e => exists s', run w ev s = (s', Err e)
  end.

Lemma takes_app : forall l k h, takes (l ++ k) h = match takes l h with Ok h' => takes k h' | Err e => Err e end.
Proof.
  induction l as [|p l IH]; intros k h; cbn [app takes]; [reflexivity|].
  destruct (take p h); [apply IH|reflexivity].
Qed.
Lemma stands_nil : stands [] [].
Proof. intros h s R. cbn. exists s. split; [reflexivity|exact R]. Qed.
Lemma stands_app : forall ev1 ev2 l1 l2, stands ev1 l1 -> stands ev2 l2 -> stands (ev1 ++ ev2) (l1 ++ l2).
Proof.
  intros ev1 ev2 l1 l2 H1 H2 h s R. rewrite takes_app. specialize (H1 h s R).
  destruct (takes l1 h) as [h1|e].
  - destruct H1 as (s1 & E1 & R1). rewrite run_app, E1. exact (H2 h1 s1 R1).
  - destruct H1 as (s1 & E1). exists s1. rewrite run_app, E1. reflexivity.
Qed.
Lemma stands_silent : forall e ev l, (forall s, gdal_step s e = (s, Ok tt)) -> stands ev l -> stands (e :: ev) l.
Proof. intros e ev l H K h s R. cbn [run p_step gdal_writer]. rewrite H. apply K, R. Qed.
Lemma stands_for : forall A (f : nat -> A -> list event) (p : A -> list piece) (l : list A) i,
  (forall k a, In a l -> stands (f k a) (p a)) -> stands (flat_mapi f i l) (flat_map p l).
Proof.
  induction l as [|a l IH]; intros i H; cbn [flat_mapi flat_map]; [apply stands_nil|].
  apply stands_app; [apply H; now left|]. apply IH. intros k b B. apply H. now right.
Qed.
Lemma flat_map_one : forall A B (f : A -> B) l, flat_map (fun a => [f a]) l = map f l.
Proof. induction l as [|a l IH]; cbn; [reflexivity|]. now rewrite IH. Qed.
Lemma stands_one : forall A (f : nat -> A -> list event) (p : A -> piece) (l : list A) i,
  (forall k a, In a l -> stands (f k a) [p a]) -> stands (flat_mapi f i l) (map p l).
Proof. intros A f p l i H. rewrite <- flat_map_one. apply stands_for. exact H. Qed.

(** ** Lines into what is held *)
Definition lines_ref (done l : nat) (r : line_ref) : line_ref :=
  match l with O => r | _ => At [done + l - 1]%nat end.
Lemma rings_exact : forall k, holds_lines k = true -> forall l done i r, Forall short l ->
  run w (flat_mapi (ev_line false false) i l) (mkGw (wd false) (nd k [] (map (line_value false) done)) r) =
  (mkGw (wd false) (nd k [] (map (line_value false) (done ++ l))) (lines_ref (length done) (length l) r), Ok tt).
Proof.
  intros k K. induction l as [|a l IH]; intros done i r Sh; cbn [flat_mapi].
  - rewrite app_nil_r. reflexivity.
  - pose proof (Forall_inv Sh). pose proof (Forall_inv_tail Sh).
    rewrite run_app, (ring_run false k K) by assumption. rewrite IH by assumption. rewrite <- app_assoc. cbn [app].
    f_equal. f_equal. rewrite app_length. cbn [length]. destruct l as [|b l]; cbn [length lines_ref];
      match goal with |- At [?a] = At [?b] => replace b with a by lia; reflexivity end.
Qed.
Lemma members_exact : forall (l : rings) (done : list rings) (rs : rings) i r, Forall short l ->
  run w (flat_mapi (ev_line false false) i l) (mkGw (wd false) (nd OMultiPolygon [] (map (poly_value false) (done ++ [rs]))) r) =
  (mkGw (wd false) (nd OMultiPolygon [] (map (poly_value false) (done ++ [rs ++ l])))
     (match l with [] => r | _ => At [length done; length rs + length l - 1]%nat end), Ok tt).
Proof.
  induction l as [|a l IH]; intros done rs i r Sh; cbn [flat_mapi].
  - rewrite app_nil_r. reflexivity.
  - pose proof (Forall_inv Sh). pose proof (Forall_inv_tail Sh). rewrite run_app, (member_run false) by assumption.
    pose proof (IH done (rs ++ [a]) (S i) (At [length done; length rs]) ltac:(assumption)) as E.
    rewrite <- app_assoc in E. rewrite app_length in E. cbn [app length] in E. etransitivity; [exact E|].
    f_equal. f_equal. cbn [length]. destruct l as [|b l]; cbn [length];
      match goal with |- At [_; ?a] = At [_; ?b] => replace b with a by lia; reflexivity end.
Qed.
Lemma poly_exact : forall r done i q, Forall short r ->
  run w (ev_polygon false false i r) (mkGw (wd false) (nd OMultiPolygon [] (map (poly_value false) done)) q) =
  (mkGw (wd false) (nd OMultiPolygon [] (map (poly_value false) (done ++ [r])))
     (match r with [] => q | _ => At [length done; length r - 1]%nat end), Ok tt).
Proof.
  intros r done i q Sh. unfold ev_polygon. cbn [run p_step gdal_writer].
  assert (Bg : forall n, gdal_step (mkGw (wd false) (nd OMultiPolygon [] (map (poly_value false) done)) q) (PolygonBegin false n i) =
    (mkGw (wd false) (nd OMultiPolygon [] (map (poly_value false) (done ++ [[]]))) q, Ok tt)).
  { intros n. unfold gdal_step, try_add. cbn [g_geom]. rewrite (wd_empty false), (add_any false); try reflexivity.
    - unfold put_geom. cbn [g_dims g_line]. rewrite map_app. reflexivity.
    - apply (lift_polys false). }
  rewrite Bg, run_app. pose proof (members_exact r done [] 0 q Sh) as E. cbn [app length Nat.add] in E.
  unfold rings, line in *. rewrite E. reflexivity.
Qed.
Definition polys_ref (k : nat) (l : list rings) (r : line_ref) : line_ref :=
  match last_ring k l with Some (Ring i j) => At [i; j] | _ => r end.
Lemma last_ring_ring : forall l k c, last_ring k l = Some c -> exists i j, c = Ring i j.
Proof.
  induction l as [|a l IH]; intros k c; cbn [last_ring]; [discriminate|]. destruct (last_ring (S k) l) as [d|] eqn:E.
  - intros X. injection X as <-. exact (IH _ _ E).
  - destruct a; [discriminate|]. intros X. injection X as <-. eauto.
Qed.
Lemma polys_exact : forall (l done : list rings) i r, Forall (Forall short) l ->
  run w (flat_mapi (ev_polygon false false) i l) (mkGw (wd false) (nd OMultiPolygon [] (map (poly_value false) done)) r) =
  (mkGw (wd false) (nd OMultiPolygon [] (map (poly_value false) (done ++ l))) (polys_ref (length done) l r), Ok tt).
Proof.
  induction l as [|rs l IH]; intros done i r Sh; cbn [flat_mapi].
  - rewrite app_nil_r. reflexivity.
  - pose proof (Forall_inv Sh). pose proof (Forall_inv_tail Sh). rewrite run_app, poly_exact by assumption.
    rewrite IH by assumption. rewrite <- app_assoc, app_length. cbn [app length]. rewrite Nat.add_1_r.
    f_equal. f_equal. unfold polys_ref. cbn [last_ring]. destruct (last_ring (S (length done)) l) as [c|] eqn:E.
    + destruct (last_ring_ring _ _ _ E) as (a & b & ->). reflexivity.
    + destruct rs; reflexivity.
Qed.

(** ** What GDAL knows *)
Lemma begin_exact : forall e k g r l, gdal_step (mkGw (wd false) g r) e =
    (replace_geom (mkGw (wd false) g r) (empty_geom (mkGw (wd false) g r) k), Ok tt) ->
  run w (e :: l) (mkGw (wd false) g r) = run w l (mkGw (wd false) (nd k [] []) (match r with At _ => Gone | x => x end)).
Proof. intros e k g r l E. cbn [run p_step gdal_writer]. rewrite E. destruct r; reflexivity. Qed.
Lemma ref_freed : forall c r, ref_of c r -> ref_of (freed c) (match r with At _ => Gone | x => x end).
Proof. intros [|i|i j|] r; cbn; [intros [g ->]; eauto|intros ->; reflexivity|intros ->; reflexivity|intros ->; reflexivity]. Qed.
Lemma lines_newest : forall (l : list line) r c, ref_of c r ->
  ref_of (match (match l with [] => None | _ => Some (Member (length l - 1)) end) with Some x => x | None => c end)
         (lines_ref 0 (length l) r).
Proof. intros [|a l] r c H; cbn; [exact H|reflexivity]. Qed.
Lemma stands_whole : forall g i, simple g = true -> short_geom g -> stands (gevents false i g) [Whole g].
Proof.
  intros g i Si Sh h s (r & -> & Rf & _). cbn [takes take].
  pose proof (ref_freed _ _ Rf) as Q. set (r0 := match r with At _ => Gone | x => x end) in *. set (c0 := freed (h_line h)) in *.
  assert (G : exists r', run w (gevents false i g) (mkGw (wd false) (held_value h) r) = (mkGw (wd false) (gvalue false g) r', Ok tt) /\
                ref_of (match newest g with Some c => c | None => c0 end) r').
  { destruct g; try discriminate Si; cbn [gevents gvalue short_geom newest] in *.
    - rewrite (begin_exact (PointBegin i) OPoint) by reflexivity. fold r0. cbn [run p_step gdal_writer].
      rewrite (step_direct false) by reflexivity. rewrite (setp_point false). exists r0. split; [reflexivity|exact Q].
    - rewrite (begin_exact (MultiPointBegin (length l) i) OMultiPoint) by reflexivity. fold r0.
      rewrite run_app. unfold ev_coords. pose proof (points_run false l [] 0 r0) as E. cbn [map] in E. rewrite E.
      exists r0. split; [reflexivity|exact Q].
    - unfold ev_line. rewrite (begin_exact (LineStringBegin true (length l) i) OLineString) by reflexivity. fold r0.
      rewrite run_app. unfold ev_coords. pose proof (line_run false l [] r0 Sh) as E. cbn [length] in E. rewrite E.
      exists r0. split; [reflexivity|exact Q].
    - rewrite (begin_exact (MultiLineStringBegin (length l) i) OMultiLineString) by reflexivity. fold r0.
      rewrite run_app. pose proof (rings_exact OMultiLineString eq_refl l [] 0 r0 Sh) as E. cbn [map length] in E. rewrite E.
      eexists. split; [reflexivity|]. apply lines_newest, Q.
    - unfold ev_polygon. rewrite (begin_exact (PolygonBegin true (length r1) i) OPolygon) by reflexivity. fold r0.
      rewrite run_app. pose proof (rings_exact OPolygon eq_refl r1 [] 0 r0 Sh) as E. cbn [map length] in E. rewrite E.
      eexists. split; [reflexivity|]. apply lines_newest, Q.
    - rewrite (begin_exact (MultiPolygonBegin (length l) i) OMultiPolygon) by reflexivity. fold r0.
      rewrite run_app. pose proof (polys_exact l [] 0 r0 Sh) as E. cbn [map length] in E. rewrite E.
      eexists. split; [reflexivity|]. unfold polys_ref. destruct (last_ring 0 l) as [c|] eqn:L; [|exact Q].
      destruct (last_ring_ring _ _ _ L) as (a & b & ->). reflexivity. }
  destruct G as (r' & E & F). eexists. split; [exact E|]. exists r'. split; [reflexivity|]. split; [exact F|exact Si].
Qed.

(** ** Polygons of surfaces *)
Lemma stands_face : forall r i, Forall short r -> stands (ev_polygon false false i r) [Face r].
Proof.
  intros r i Sh h s (q & -> & Rf & Si). cbn [takes take].
  assert (No : match h_geom h with Some (GMultiPolygon _) => False | _ => True end ->
     exists s', run w (ev_polygon false false i r) (mkGw (wd false) (held_value h) q) = (s', Err EGeometry)).
  { intros N. unfold held_value. destruct (h_geom h) as [g|]; [destruct g; try discriminate Si; try contradiction|]; eexists; reflexivity. }
  unfold held_value in *. destruct (h_geom h) as [g|] eqn:Hg; [|apply No; exact I].
  destruct g; try discriminate Si; try (apply No; exact I).
  cbn [gvalue]. rewrite (poly_exact r l i q Sh). eexists. split; [reflexivity|]. eexists. split; [reflexivity|].
  split; [|reflexivity]. cbn [h_line]. destruct r; [exact Rf|reflexivity].
Qed.

(** ** Lines of curves and triangles *)
Lemma stands_open : forall l i, short l -> stands (ev_line false false i l) [Open l].
Proof.
  intros l i Sh h s (q & -> & Rf & Si). cbn [takes take]. unfold held_value.
  destruct (h_geom h) as [g|]; [destruct g; try discriminate Si|]; cbn [gvalue];
    try (eexists; reflexivity).
  - rewrite (ring_run false OMultiLineString eq_refl l l0 i q Sh). eexists. split; [reflexivity|]. eexists. repeat split.
  - change (poly_value false r) with (nd OPolygon [] (map (line_value false) r)).
    rewrite (ring_run false OPolygon eq_refl l r i q Sh). eexists. split; [reflexivity|]. eexists. repeat split.
  - destruct (rev l0) as [|r t] eqn:E.
    + assert (l0 = []) as -> by (rewrite <- (rev_involutive l0), E; reflexivity). eexists. reflexivity.
    + assert (l0 = rev t ++ [r]) as -> by (rewrite <- (rev_involutive l0), E; reflexivity).
      rewrite (member_run false l (rev t) r i q Sh). eexists. split; [reflexivity|]. eexists. split; [reflexivity|].
      rewrite rev_length. split; reflexivity.
Qed.

(** ** Arcs *)
Lemma nth_change : forall f l i, at_nth i f l = change i f l.
Proof. induction l as [|a l IH]; intros [|i]; cbn; try reflexivity. now rewrite IH. Qed.
Lemma change_map : forall A B (f : A -> B) (u : A -> A) (v : B -> B) l i, (forall a, v (f a) = f (u a)) ->
  change i v (map f l) = map f (change i u l).
Proof. intros A B f u v l i H. revert i. induction l as [|a l IH]; intros [|i]; cbn; try reflexivity; [now rewrite H|now rewrite IH]. Qed.
(** all positions of an arc, from number [k] on *)
Fixpoint all_set (k : nat) (arc : line) (g : og) : og :=
  match arc with [] => g | c :: l => all_set (S k) l (setp false k c g) end.
Definition mid (k : nat) (arc l : line) : line := firstn k l ++ arc ++ skipn (k + length arc) l.
Lemma put_mid : forall (p zero : pt) l k, (k <= length l)%nat -> put zero k p l = firstn k l ++ p :: skipn (S k) l.
Proof.
  induction l as [|a l IH]; intros [|k] H; cbn [length] in H; try lia; try reflexivity.
  cbn [put firstn skipn app]. f_equal. apply IH. lia.
Qed.
Lemma setp_put : forall k c l, N.lt (N.of_nat k) (2 ^ 31) -> setp false k c (line_value false l) =
  nd OLineString (put zero_pt k (pt_of false c) (map (pt_of false) l)) [].
Proof.
  intros k c l H. unfold setp, line_value, set_point_2d. rewrite (c_int_short k H). f_equal. f_equal.
  unfold pt_of. f_equal. destruct (nth_in_or_default k (map (pt_of false) l) zero_pt) as [I|E]; [|unfold pt_of in *; rewrite E; reflexivity].
  apply in_map_iff in I. destruct I as (d & E & _). unfold pt_of in *. rewrite <- E. reflexivity.
Qed.
Lemma skip_twice : forall A n m (l : list A), skipn n (skipn m l) = skipn (m + n) l.
Proof. intros A n. induction m as [|m IH]; intros l; [reflexivity|]. destruct l as [|a l]; [now rewrite !skipn_nil|]. apply IH. Qed.
Lemma all_line : forall arc k l, (k <= length l)%nat -> N.le (N.of_nat (k + length arc)) (2 ^ 31) ->
  all_set k arc (line_value false l) = line_value false (mid k arc l).
Proof.
  induction arc as [|c arc IH]; intros k l H B; cbn [all_set].
  - unfold mid. cbn [app length]. rewrite Nat.add_0_r, firstn_skipn. reflexivity.
  - cbn [length] in B. rewrite setp_put by lia. rewrite put_mid by (rewrite map_length; exact H).
    set (l' := firstn k l ++ c :: skipn (S k) l).
    replace (nd OLineString (firstn k (map (pt_of false) l) ++ pt_of false c :: skipn (S k) (map (pt_of false) l)) [])
      with (line_value false l')
      by (unfold line_value, l'; rewrite map_app, firstn_map; cbn [map]; rewrite skipn_map; reflexivity).
    assert (L' : (S k <= length l')%nat).
    { unfold l'. rewrite app_length, firstn_length. cbn [length]. rewrite skipn_length. lia. }
    rewrite IH by (exact L' || lia). f_equal. unfold mid, l'. cbn [length].
    assert (Fk : length (firstn k l) = k) by (rewrite firstn_length; lia).
    rewrite firstn_app, Fk. rewrite (firstn_all2 (n := S k) (firstn k l)) by lia.
    replace (S k - k)%nat with 1%nat by lia. change (firstn 1 (c :: skipn (S k) l)) with [c].
    rewrite skipn_app, Fk. rewrite (skipn_all2 (n := S k + length arc) (firstn k l)) by lia. cbn [app].
    replace (S k + length arc - k)%nat with (S (length arc)) by lia.
    change (skipn (S (length arc)) (c :: skipn (S k) l)) with (skipn (length arc) (skipn (S k) l)).
    rewrite skip_twice. rewrite <- app_assoc. cbn [app]. replace (S k + length arc)%nat with (k + S (length arc))%nat by lia. reflexivity.
Qed.
Lemma all_over : forall arc l, short arc -> all_set 0 arc (line_value false l) = line_value false (over arc l).
Proof. intros arc l H. rewrite all_line by (lia || exact H). reflexivity. Qed.
Lemma all_poly : forall arc k r, all_set k arc (poly_value false r) = poly_value false r.
Proof. induction arc as [|c arc IH]; intros k r; cbn [all_set]; [reflexivity|]. apply IH. Qed.
Lemma at_path_id : forall path g, at_path path (fun x => x) g = g.
Proof.
  induction path as [|i r IH]; intros g; [reflexivity|]. destruct g as [k z m pts kids]. cbn [at_path]. f_equal.
  revert i. induction kids as [|a kids IHk]; intros [|i]; cbn; try reflexivity; [now rewrite IH|now rewrite IHk].
Qed.
Lemma nested_run : forall k pts i path, nested k = true -> forall arc kids n,
  run w (mapi (ev_coord false) n arc) (mkGw (wd false) (nd k pts kids) (At (i :: path))) =
  (mkGw (wd false) (at_path (i :: path) (all_set n arc) (nd k pts kids)) (At (i :: path)), Ok tt).
Proof.
  intros k pts i path K. induction arc as [|c arc IH]; intros kids n; cbn [mapi run all_set].
  - change (all_set n []) with (fun x : og => x). rewrite at_path_id. reflexivity.
  - cbn [p_step gdal_writer]. rewrite (step_nested false) by exact K. rewrite at_kind, IH, <- at_kind, at_path_twice. reflexivity.
Qed.
Lemma own_run : forall k pts kids, nested k = true -> forall arc n g, exists g',
  run w (mapi (ev_coord false) n arc) (mkGw (wd false) (nd k pts kids) (Own g)) =
  (mkGw (wd false) (nd k pts kids) (Own g'), Ok tt).
Proof.
  intros k pts kids K. induction arc as [|c arc IH]; intros n g; cbn [mapi run]; [exists g; reflexivity|].
  destruct (IH (S n) (set_point_2d n (cx c) (cy c) g)) as (g' & E). exists g'. rewrite <- E.
  cbn [p_step gdal_writer ev_coord]. destruct k; try discriminate K; reflexivity.
Qed.
Lemma direct_run : forall arc k n pts kids r, direct k = true ->
  run w (mapi (ev_coord false) n arc) (mkGw (wd false) (nd k pts kids) r) =
  (mkGw (wd false) (all_set n arc (nd k pts kids)) r, Ok tt).
Proof.
  induction arc as [|c arc IH]; intros k n pts kids r K; cbn [mapi run all_set]; [reflexivity|].
  cbn [p_step gdal_writer]. rewrite (step_direct false) by exact K.
  assert (E : exists pts', setp false n c (nd k pts kids) = nd k pts' kids).
  { unfold setp, set_point_2d. destruct k; try discriminate K; destruct (c_int n) as [[|m]|]; eexists; reflexivity. }
  destruct E as (pts' & ->). apply IH, K.
Qed.
Lemma point_only : forall arc n pts, (0 < n)%nat -> N.le (N.of_nat (n + length arc)) (2 ^ 31) ->
  all_set n arc (nd OPoint pts []) = nd OPoint pts [].
Proof.
  induction arc as [|c arc IH]; intros n pts H B; cbn [all_set]; [reflexivity|]. cbn [length] in B.
  unfold setp, set_point_2d. rewrite c_int_short by lia. destruct n as [|n]; [lia|]. apply IH; lia.
Qed.
Lemma stands_arc : forall l i, short l -> stands (ev_arc false i l) [Arc l].
Proof.
  intros l i Sh h s (q & -> & Rf & Si). cbn [takes]. unfold ev_arc. cbn [run p_step gdal_writer gdal_step default_step].
  rewrite run_app. unfold ev_coords.
  assert (Fin : forall h' g' q', g' = held_value h' -> ref_of (h_line h') q' ->
     match h_geom h' with Some g => simple g = true | None => True end ->
     run w (mapi (ev_coord false) 0 l) (mkGw (wd false) (held_value h) q) = (mkGw (wd false) g' q', Ok tt) ->
     exists s', (let '(s1, x) := run w (mapi (ev_coord false) 0 l) (mkGw (wd false) (held_value h) q) in
                 match x with Ok _ => run w [CircularStringEnd i] s1 | Err e => (s1, Err e) end) = (s', Ok tt) /\ rel h' s').
  { intros h' g' q' -> R' S' E. rewrite E. eexists. split; [reflexivity|]. exists q'. repeat split; assumption. }
  assert (Fin' : forall h', rel h' (mkGw (wd false) (held_value h') q) -> True) by (intros; exact I). clear Fin'.
  destruct l as [|c l].
  - cbn [take mapi run]. eexists. split; [reflexivity|]. exists q. repeat split; assumption.
  - cbn [take].
    destruct (h_geom h) as [g|] eqn:Hg.
    + destruct g; try discriminate Si.
      * eapply Fin; [| | |unfold held_value; rewrite Hg; cbn [gvalue]; unfold point_value; rewrite direct_run by reflexivity; reflexivity];
          [|exact Rf|reflexivity].
        cbn [all_set]. change (setp false 0 c (nd OPoint [pt_of false c0] [])) with (nd OPoint [pt_of false c] []).
        rewrite point_only; [reflexivity|lia|exact Sh].
      * eapply Fin; [| | |unfold held_value; rewrite Hg; cbn [gvalue]; rewrite (points_run false); reflexivity];
          [|exact Rf|reflexivity]. reflexivity.
      * eapply Fin; [| | |unfold held_value; rewrite Hg; cbn [gvalue]; unfold line_value; rewrite direct_run by reflexivity; reflexivity];
          [|exact Rf|reflexivity].
        exact (all_over (c :: l) l0 Sh).
      * destruct (h_line h) as [|a|a b|] eqn:Hl; cbn [ref_of] in Rf.
        -- destruct Rf as (g0 & ->). unfold held_value. rewrite Hg. cbn [gvalue].
           destruct (own_run OMultiLineString [] (map (line_value false) l0) eq_refl (c :: l) 0 g0) as (g' & E). rewrite E.
           eexists. split; [reflexivity|]. eexists. split; [reflexivity|]. split; [cbn; eauto|reflexivity].
        -- subst q. eapply Fin; [| | |unfold held_value; rewrite Hg; cbn [gvalue]; rewrite nested_run by reflexivity; reflexivity];
             [|reflexivity|reflexivity].
           cbn [at_path]. rewrite nth_change. unfold held_value. cbn [h_geom write_at gvalue]. f_equal.
           apply change_map. intros x. apply all_over, Sh.
        -- subst q. eapply Fin; [| | |unfold held_value; rewrite Hg; cbn [gvalue]; rewrite nested_run by reflexivity; reflexivity];
             [|reflexivity|reflexivity].
           cbn [at_path]. rewrite nth_change. unfold held_value. cbn [h_geom write_at gvalue]. f_equal.
           rewrite (change_map _ _ (line_value false) (fun x => x)); [|intros x; cbn; destruct b; reflexivity].
           f_equal. clear. revert a. induction l0 as [|y l0 IH]; intros [|a]; cbn; try reflexivity. now rewrite IH.
        -- subst q. unfold held_value. rewrite Hg. cbn [gvalue]. eexists. reflexivity.
      * destruct (h_line h) as [|a|a b|] eqn:Hl; cbn [ref_of] in Rf.
        -- destruct Rf as (g0 & ->). unfold held_value. rewrite Hg. cbn [gvalue]. unfold poly_value.
           destruct (own_run OPolygon [] (map (line_value false) r) eq_refl (c :: l) 0 g0) as (g' & E). rewrite E.
           eexists. split; [reflexivity|]. eexists. split; [reflexivity|]. split; [cbn; eauto|reflexivity].
        -- subst q. eapply Fin; [| | |unfold held_value; rewrite Hg; cbn [gvalue]; unfold poly_value; rewrite nested_run by reflexivity; reflexivity];
             [|reflexivity|reflexivity].
           cbn [at_path]. rewrite nth_change. unfold held_value. cbn [h_geom write_at gvalue]. unfold poly_value. f_equal.
           apply change_map. intros x. apply all_over, Sh.
        -- subst q. eapply Fin; [| | |unfold held_value; rewrite Hg; cbn [gvalue]; unfold poly_value; rewrite nested_run by reflexivity; reflexivity];
             [|reflexivity|reflexivity].
           cbn [at_path]. rewrite nth_change. unfold held_value. cbn [h_geom write_at gvalue]. unfold poly_value. f_equal.
           rewrite (change_map _ _ (line_value false) (fun x => x)); [|intros x; cbn; destruct b; reflexivity].
           f_equal. clear. revert a. induction r as [|y r IH]; intros [|a]; cbn; try reflexivity. now rewrite IH.
        -- subst q. unfold held_value. rewrite Hg. cbn [gvalue]. eexists. reflexivity.
      * destruct (h_line h) as [|a|a b|] eqn:Hl; cbn [ref_of] in Rf.
        -- destruct Rf as (g0 & ->). unfold held_value. rewrite Hg. cbn [gvalue].
           destruct (own_run OMultiPolygon [] (map (poly_value false) l0) eq_refl (c :: l) 0 g0) as (g' & E). rewrite E.
           eexists. split; [reflexivity|]. eexists. split; [reflexivity|]. split; [cbn; eauto|reflexivity].
        -- subst q. eapply Fin; [| | |unfold held_value; rewrite Hg; cbn [gvalue]; rewrite nested_run by reflexivity; reflexivity];
             [|reflexivity|reflexivity].
           cbn [at_path]. rewrite nth_change. unfold held_value. cbn [h_geom write_at gvalue]. f_equal.
           rewrite (change_map _ _ (poly_value false) (fun x => x)); [|intros x; apply all_poly].
           f_equal. clear. revert a. induction l0 as [|y l0 IH]; intros [|a]; cbn; try reflexivity. now rewrite IH.
        -- subst q. eapply Fin; [| | |unfold held_value; rewrite Hg; cbn [gvalue]; rewrite nested_run by reflexivity; reflexivity];
             [|reflexivity|reflexivity].
           cbn [at_path]. rewrite nth_change. unfold held_value. cbn [h_geom write_at gvalue]. f_equal.
           apply change_map. intros x. unfold poly_value. f_equal. rewrite nth_change.
           apply change_map. intros y. apply all_over, Sh.
        -- subst q. unfold held_value. rewrite Hg. cbn [gvalue]. eexists. reflexivity.
    + eapply Fin; [| | |unfold held_value; rewrite Hg; unfold empty_point; rewrite direct_run by reflexivity; reflexivity];
        [|exact Rf|reflexivity].
      cbn [all_set]. change (setp false 0 c (nd OPoint [] [])) with (nd OPoint [pt_of false c] []).
      rewrite point_only; [reflexivity|lia|exact Sh].
Qed.

(** ** Every geometry *)
Lemma stands_segment : forall a i, short_piece (segment_piece a) -> stands (ev_segment false i a) [segment_piece a].
Proof. intros [l|l] i H; cbn [ev_segment segment_piece] in *; [apply stands_open, H|apply stands_arc, H]. Qed.
Ltac quiet := apply stands_silent; [intros ?; reflexivity|].
Ltac closed x := rewrite <- (app_nil_r x); apply stands_app; [|quiet; apply stands_nil].
Lemma stands_compound : forall l i, Forall short_piece (map segment_piece l) ->
  stands (ev_compound false i l) (map segment_piece l).
Proof.
  intros l i H. unfold ev_compound. quiet. closed (map segment_piece l). apply stands_one.
  intros k a Ha. apply stands_segment. rewrite Forall_map, Forall_forall in H. apply H, Ha.
Qed.
Lemma short_in : forall A (p : A -> list piece) l a, Forall short_piece (flat_map p l) -> In a l -> Forall short_piece (p a).
Proof.
  intros A p l a H Ha. rewrite Forall_forall in *. intros x X. apply H. apply in_flat_map. exists a. split; assumption.
Qed.
Lemma stands_curve : forall c i, Forall short_piece (curve_pieces c) -> stands (ev_curve false i c) (curve_pieces c).
Proof.
  intros [l|l|l] i H; cbn [ev_curve curve_pieces] in *.
  - inversion H; subst. apply stands_open. assumption.
  - inversion H; subst. apply stands_arc. assumption.
  - apply stands_compound, H.
Qed.
Lemma stands_curves : forall l i, Forall short_piece (flat_map curve_pieces l) ->
  stands (flat_mapi (ev_curve false) i l) (flat_map curve_pieces l).
Proof. intros l i H. apply stands_for. intros k a Ha. apply stands_curve. exact (short_in _ _ l a H Ha). Qed.
Lemma stands_surface : forall c i, Forall short_piece (surface_pieces c) -> stands (ev_surface false i c) (surface_pieces c).
Proof.
  intros [r|l] i H; cbn [ev_surface surface_pieces] in *.
  - inversion H; subst. apply stands_face. assumption.
  - unfold ev_curvepolygon. quiet. closed (flat_map curve_pieces l). apply stands_curves, H.
Qed.
Lemma stands_opens : forall r i, Forall short_piece (map Open r) -> stands (flat_mapi (ev_line false false) i r) (map Open r).
Proof.
  intros r i H. apply stands_one. intros k a Ha. apply stands_open.
  rewrite Forall_map, Forall_forall in H. exact (H a Ha).
Qed.
Lemma stands_geom : forall g i, Forall short_piece (pieces g) -> stands (gevents false i g) (pieces g).
Proof.
  induction g as [c| |l|l|l|l|l|l IH|l|l|l|l|l|l|l|l] using geom_ind'; intros i H;
    try (apply stands_whole; [reflexivity|inversion H; assumption]).
  - intros h s R. cbn. eexists. reflexivity.
  - cbn [gevents pieces] in *. quiet. closed (flat_map pieces l). generalize 0%nat.
    induction IH as [|a l Ha _ IHl]; intros k; [apply stands_nil|]. cbn [flat_map] in *. apply Forall_app in H. destruct H as [H1 H2].
    apply stands_app; [apply Ha, H1|]. apply IHl, H2.
  - inversion H; subst. apply stands_arc. assumption.
  - apply stands_compound, H.
  - cbn [gevents pieces] in *. unfold ev_curvepolygon. quiet. closed (flat_map curve_pieces l). apply stands_curves, H.
  - cbn [gevents pieces] in *. quiet. closed (flat_map curve_pieces l). apply stands_curves, H.
  - cbn [gevents pieces] in *. quiet. closed (flat_map surface_pieces l). apply stands_for.
    intros k a Ha. apply stands_surface. exact (short_in _ _ l a H Ha).
  - cbn [gevents pieces] in *. unfold ev_triangle. quiet. closed (map Open l). apply stands_opens, H.
  - cbn [gevents pieces] in *. quiet. closed (map Face l). apply stands_one.
    intros k a Ha. apply stands_face. rewrite Forall_map, Forall_forall in H. exact (H a Ha).
  - cbn [gevents pieces] in *. quiet. closed (flat_map (map Open) l). apply stands_for.
    intros k a Ha. unfold ev_triangle. quiet. closed (map Open a). apply stands_opens. exact (short_in _ _ l a H Ha).
Qed.

Theorem gdal_exact : forall src l g r, srids l -> Forall short_piece (pieces g) ->
  delivers src (fun multi => l ++ gevents multi 0 g) (Ok r) ->
  to_gdal src = match takes (pieces g) start with Ok h => Ok (held_value h) | Err e => Err e end.
Proof.
  intros src l g r R H D. unfold to_gdal, to_gdal_ndim. specialize (D _ w (gw_with xy_dims)). cbn [p_dims gdal_writer] in D.
  change (wd false) with xy_dims in D. rewrite D. clear D. change (multi_dim xy_dims) with false.
  rewrite run_app.
  assert (E : run (gdal_writer xy_dims) l (gw_with xy_dims) = (gw_with xy_dims, Ok tt)).
  { induction R as [|e l [v ->] _ IH]; [reflexivity|]. cbn [run p_step gdal_writer gdal_step default_step]. exact IH. }
  rewrite E. clear E.
  assert (S0 : rel start (gw_with xy_dims)) by (eexists; repeat split; cbn; eauto).
  pose proof (stands_geom g 0 H start (gw_with xy_dims) S0) as G. change (wd false) with xy_dims in G.
  destruct (takes (pieces g) start) as [h|e].
  - destruct G as (s' & E & (q & -> & _)). rewrite E. reflexivity.
  - destruct G as (s' & E). rewrite E. reflexivity.
Qed.

Lemma takes_simple : forall l h h', (forall g, In (Whole g) l -> simple g = true) ->
  match h_geom h with Some g => simple g = true | None => True end -> takes l h = Ok h' ->
  match h_geom h' with Some g => simple g = true | None => True end.
Proof.
  induction l as [|p l IH]; intros h h' W S; cbn [takes]; [intros X; injection X as <-; exact S|].
  destruct (take p h) as [h1|e] eqn:T; [|discriminate]. intros X. refine (IH h1 h' (fun g G => W g (or_intror G)) _ X).
  destruct p as [g|r|a|[|c a]|]; cbn [take] in T.
  - injection T as <-. exact (W g (or_introl eq_refl)).
  - destruct (h_geom h) as [[]|]; try discriminate T. injection T as <-. reflexivity.
  - destruct (h_geom h) as [[]|]; try discriminate T; try (injection T as <-; reflexivity).
    destruct (rev l0); [discriminate T|]. injection T as <-. reflexivity.
  - injection T as <-. exact S.
  - destruct (h_geom h) as [[]|]; try discriminate S; try (injection T as <-; reflexivity);
      destruct (h_line h); try discriminate T; injection T as <-; reflexivity.
  - discriminate T.
Qed.
Lemma gdal_kind : forall src l g r v, srids l -> Forall short_piece (pieces g) ->
  delivers src (fun multi => l ++ gevents multi 0 g) (Ok r) -> to_gdal src = Ok v ->
  In (o_kind v) [OPoint; OMultiPoint; OLineString; OMultiLineString; OPolygon; OMultiPolygon].
Proof.
  intros src l g r v R H D V. rewrite (gdal_exact src l g r R H D) in V.
  destruct (takes (pieces g) start) as [h|e] eqn:T; [|discriminate V]. injection V as <-.
  pose proof (takes_simple (pieces g) start h (GeosExact.whole_simple g) I T) as S. unfold held_value.
  destruct (h_geom h) as [[]|]; try discriminate S; cbn; tauto.
Qed.
Theorem gdal_wkb_exact : forall dl d srid env ed ext emp o g tail,
  WkbSpec.encodable g -> (WkbSpec.levels g <= 128)%nat -> WkbClaims.srid_ok dl srid ->
  WkbClaims.env_ok dl ed env -> WkbClaims.order_ok dl o ->
  let g' := WkbSpec.retained (dz d) (dm d) g in Forall short_piece (pieces g') ->
  gdal_from_wkb dl (WkbClaims.std dl d srid env ed ext emp o g ++ tail) =
  match takes (pieces g') start with Ok h => Ok (held_value h) | Err e => Err e end.
Proof.
  intros dl d srid env ed ext emp o g tail E L R V O g' P. unfold gdal_from_wkb.
  pose proof (WkbTop.delivers_std dl d srid env ed ext emp o g tail E L R V O) as D.
  specialize (D _ (gdal_writer xy_dims) (gw_with xy_dims)). cbn [p_dims gdal_writer] in D. rewrite D. clear D. fold g'.
  change (multi_dim xy_dims) with false.
  cbn [run p_step gdal_writer gdal_step default_step].
  assert (S0 : rel start (gw_with xy_dims)) by (eexists; repeat split; cbn; eauto).
  pose proof (stands_geom g' 0 P start (gw_with xy_dims) S0) as G. change (wd false) with xy_dims in G.
  destruct (takes (pieces g') start) as [h|e].
  - destruct G as (s' & X & (q & -> & _)). rewrite X. reflexivity.
  - destruct G as (s' & X). rewrite X. reflexivity.
Qed.
