(** Lemmas behind C88: bytes. *)
From Coq Require Import String Ascii.
From Coq Require Import List NArith ZArith Lia Bool.
From Coq Require Import Init.Byte.
From Verif Require Import Base BaseLemmas Float Event Geom ProcModel ProcSpec ProcTop Claims WkbModel WkbSpec WkbClaims WkbTop MoveSpec.
From Verif Require ShpModel.
Import ListNotations.
Local Open Scope list_scope.

Section F.
Variable f : f64 -> f64 -> f64 * f64.
Variable multi : bool.
Notation M := (map (on_xy f)).
Notation C := (mv_coord f).
Lemma ev_coord_mv : forall i c, ev_coord multi i (C c) = on_xy f (ev_coord multi i c).
Proof. intros i c. unfold ev_coord, mv_coord. destruct multi; cbn; destruct (f (cx c) (cy c)); reflexivity. Qed.
Lemma mapi_mv : forall A B (k : nat -> A -> event) (k' : nat -> B -> event) (m : A -> B) l i,
  (forall j a, k' j (m a) = on_xy f (k j a)) -> mapi k' i (map m l) = M (mapi k i l).
Proof. intros A B k k' m l. induction l as [|a l IH]; intros i H; cbn; [reflexivity|]. rewrite H, IH by exact H. reflexivity. Qed.
Lemma flat_mapi_mv : forall A B (k : nat -> A -> list event) (k' : nat -> B -> list event) (m : A -> B) l i,
  (forall j a, k' j (m a) = M (k j a)) -> flat_mapi k' i (map m l) = M (flat_mapi k i l).
Proof. intros A B k k' m l. induction l as [|a l IH]; intros i H; cbn; [reflexivity|]. rewrite map_app, H, IH by exact H. reflexivity. Qed.
Lemma ev_coords_mv : forall l, ev_coords multi (map C l) = M (ev_coords multi l).
Proof. intros l. apply mapi_mv. apply ev_coord_mv. Qed.
Lemma ev_line_mv : forall t i l, ev_line multi t i (map C l) = M (ev_line multi t i l).
Proof. intros. unfold ev_line. cbn [map]. rewrite map_app, map_length, ev_coords_mv. reflexivity. Qed.
Lemma ev_arc_mv : forall i l, ev_arc multi i (map C l) = M (ev_arc multi i l).
Proof. intros. unfold ev_arc. cbn [map]. rewrite map_app, map_length, ev_coords_mv. reflexivity. Qed.
Lemma ev_polygon_mv : forall t i l, ev_polygon multi t i (map (map C) l) = M (ev_polygon multi t i l).
Proof. intros. unfold ev_polygon. cbn [map]. rewrite map_app, map_length, (flat_mapi_mv _ _ _ _ _ _ _ (ev_line_mv false)). reflexivity. Qed.
Lemma ev_triangle_mv : forall t i l, ev_triangle multi t i (map (map C) l) = M (ev_triangle multi t i l).
Proof. intros. unfold ev_triangle. cbn [map]. rewrite map_app, map_length, (flat_mapi_mv _ _ _ _ _ _ _ (ev_line_mv false)). reflexivity. Qed.
Lemma ev_segment_mv : forall i s, ev_segment multi i (mv_segment f s) = M (ev_segment multi i s).
Proof. intros i [l|l]; [apply ev_line_mv|apply ev_arc_mv]. Qed.
Lemma ev_compound_mv : forall i l, ev_compound multi i (map (mv_segment f) l) = M (ev_compound multi i l).
Proof. intros. unfold ev_compound. cbn [map]. rewrite map_app, map_length, (flat_mapi_mv _ _ _ _ _ _ _ ev_segment_mv). reflexivity. Qed.
Lemma ev_curve_mv : forall i c, ev_curve multi i (mv_curve f c) = M (ev_curve multi i c).
Proof. intros i [l|l|l]; [apply ev_line_mv|apply ev_arc_mv|apply ev_compound_mv]. Qed.
Lemma ev_curvepolygon_mv : forall i l, ev_curvepolygon multi i (map (mv_curve f) l) = M (ev_curvepolygon multi i l).
Proof. intros. unfold ev_curvepolygon. cbn [map]. rewrite map_app, map_length, (flat_mapi_mv _ _ _ _ _ _ _ ev_curve_mv). reflexivity. Qed.
Lemma ev_surface_mv : forall i s, ev_surface multi i (mv_surface f s) = M (ev_surface multi i s).
Proof. intros i [l|l]; [apply ev_polygon_mv|apply ev_curvepolygon_mv]. Qed.
Lemma gevents_mv : forall g i, gevents multi i (mv_geom f g) = M (gevents multi i g).
Proof.
  induction g using geom_ind'; intros i; cbn [mv_geom gevents];
    rewrite ?ev_line_mv, ?ev_arc_mv, ?ev_polygon_mv, ?ev_triangle_mv, ?ev_compound_mv, ?ev_curvepolygon_mv; try reflexivity;
    cbn [map]; rewrite ?map_app, ?map_length, ?ev_coord_mv, ?ev_coords_mv,
      ?(flat_mapi_mv _ _ _ _ _ _ _ (ev_line_mv false)), ?(flat_mapi_mv _ _ _ _ _ _ _ (ev_polygon_mv false)),
      ?(flat_mapi_mv _ _ _ _ _ _ _ (ev_triangle_mv false)), ?(flat_mapi_mv _ _ _ _ _ _ _ ev_curve_mv), ?(flat_mapi_mv _ _ _ _ _ _ _ ev_surface_mv); try reflexivity.
  do 2 f_equal. generalize 0. induction H as [|a l Ha _ IH]; intros k; cbn [map]; [reflexivity|]. rewrite map_app, Ha, IH. reflexivity.
Qed.
End F.

Lemma run_wrap : forall S (p : proc S) f l s, run (wrapped_xy f p) l s = run p (map (on_xy f) l) s.
Proof.
  intros S p f. induction l as [|e l IH]; intros s; cbn [run map]; [reflexivity|]. rewrite <- wrap_event.
  destruct (p_step (wrapped_xy f p) s e) as [t [u|x]]; [apply IH|reflexivity].
Qed.
Theorem wkb_moved : forall f dl d rd srid env ed ext emp g bytes bytes',
  dl <> SpatiaLite ->
  encodable g -> conforming (dz d) (dm d) g -> (levels g <= 128)%nat ->
  encodable (mv_geom f g) -> conforming (dz d) (dm d) (mv_geom f g) -> (levels (mv_geom f g) <= 128)%nat ->
  srid_ok dl srid -> env_ok dl ed env -> asks_for_all d rd ->
  write_all (with_extended_opts dl d rd srid env ed ext emp) (gevents (multi_dim rd) 0 g) = Ok bytes ->
  write_all (with_extended_opts dl d rd srid env ed ext emp) (gevents (multi_dim rd) 0 (mv_geom f g)) = Ok bytes' ->
  reads_moved f (fun dr => process_wkb_type_geom dl dr bytes) (fun dr => process_wkb_type_geom dl dr bytes').
Proof.
  intros f dl d rd srid env ed ext emp g bytes bytes' Hdl H1 H2 H3 H4 H5 H6 H7 H8 H9 E E' S p s.
  destruct (round_trip dl d rd srid env ed ext emp g Hdl H1 H2 H3 H7 H8 H9) as [b [W D]].
  destruct (round_trip dl d rd srid env ed ext emp (mv_geom f g) Hdl H4 H5 H6 H7 H8 H9) as [b' [W' D']].
  rewrite E in W. rewrite E' in W'. injection W as <-. injection W' as <-.
  rewrite D'. change (p_dims p) with (p_dims (wrapped_xy f p)). rewrite D. cbn beta.
  rewrite run_wrap. cbn [map]. rewrite gevents_mv. reflexivity.
Qed.

(** ** A polygon record and its mirror image *)
Definition le_f64 (v : f64) : list byte := w_f64 LE v.
Definition ring_record (l : list (f64 * f64)) : list byte :=
  [x00; x00; x00; x01; x00; x00; x00; x5a; x05; x00; x00; x00] ++ repeat x00 32 ++
  [x02; x00; x00; x00; x08; x00; x00; x00; x00; x00; x00; x00; x04; x00; x00; x00] ++
  flat_map (fun p => le_f64 (fst p) ++ le_f64 (snd p)) l.
Definition mirror (x y : f64) : f64 * f64 := (y, x).
Definition n0 : f64 := f64_zero.
Definition n1 : f64 := 0x3FF0000000000000%N.
Definition n2 : f64 := 0x4000000000000000%N.
Definition two_rings : list (f64 * f64) :=
  [(n0, n0); (n0, n2); (n2, n0); (n0, n0); (n0, n0); (n1, n0); (n0, n1); (n0, n0)].
Lemma shp_differs : exists b b',
  length b = length b' /\
  positions (fst (observe (ShpModel.read_shape true xy_dims b'))) = map (mv mirror) (positions (fst (observe (ShpModel.read_shape true xy_dims b)))) /\
  positions (fst (observe (ShpModel.read_shape true xy_dims b))) <> [] /\
  In (OEv (MultiPolygonBegin 1 0)) (fst (observe (ShpModel.read_shape true xy_dims b))) /\
  In (OEv (MultiPolygonBegin 2 0)) (fst (observe (ShpModel.read_shape true xy_dims b'))).
Proof.
  exists (ring_record two_rings), (ring_record (map (mv mirror) two_rings)).
  vm_compute. repeat split; try discriminate; tauto.
Qed.
Lemma wkb_met : exists g bytes bytes',
  mv_geom mirror g <> g /\ encodable g /\ conforming false false g /\ (levels g <= 128)%nat /\
  encodable (mv_geom mirror g) /\ conforming false false (mv_geom mirror g) /\ (levels (mv_geom mirror g) <= 128)%nat /\
  write_all (with_extended_opts Ewkb xy_dims xy_dims (Some 4326%Z) [] xy_dims false false) (gevents false 0 g) = Ok bytes /\
  write_all (with_extended_opts Ewkb xy_dims xy_dims (Some 4326%Z) [] xy_dims false false) (gevents false 0 (mv_geom mirror g)) = Ok bytes'.
Proof.
  exists (GCollection [GPoint (mkC n1 n2 None None); GLineString [mkC n0 n1 None None; mkC n2 n2 None None]]).
  eexists. eexists. split; [discriminate|]. split; [concrete|]. split; [concrete|]. split; [cbn; lia|].
  split; [concrete|]. split; [concrete|]. split; [cbn; lia|]. split; vm_compute; reflexivity.
Qed.
