(** Property C57 (tessellator, OBJ).  Specification vocabulary: Claims.v, Geom.v, TessSpec.v.
    Model: TessModel.v. *)
From Coq Require Import String Ascii.
From Coq Require Import List NArith ZArith Lia Bool.
From Verif Require Import Base Event Claims Geom TessModel TessSpec TessTop TessMore TessWit.
Import ListNotations.
Local Open Scope N_scope.
Local Open Scope list_scope.

(** ** C57 *)
(** What lyon makes of a path, and `as f32`, are arguments.  What is missing for the full property:
    everything but polygons and single lines (refutations below). *)
Theorem C57_tessellate_partial : forall narrow ly src g (r : unit), areal g = true -> accepted narrow ly g ->
  delivers src (fun multi => gevents multi 0 g) (Ok r) ->
  exec (tessellator narrow ly) (src xy_dims) ts_init =
  (mkTs false [] false (flat_map (drawn narrow ly) (areas g)), Ok r).
Proof. exact tessellates. Qed.
Print Assumptions C57_tessellate_partial.
(** features do not influence each other *)
Theorem C57_features_partial : forall narrow ly gs i o,
  Forall (fun g => areal g = true /\ accepted narrow ly g) gs ->
  run (tessellator narrow ly) (flat_mapi feature i gs) (mkTs false [] false o) =
  (mkTs false [] false (o ++ flat_map (drawn narrow ly) (flat_map areas gs)), Ok tt).
Proof. exact features_run. Qed.
Print Assumptions C57_features_partial.
Example C57_met : areal some_area = true /\ accepted (fun x => x) sample_lyon some_area /\
  flat_map (drawn (fun x => x) sample_lyon) (areas some_area) =
  [OVertex (0, 0); OVertex (1, 0); OVertex (1, 1); OVertex (0, 0); OTriangle 0 1 2;
   OVertex (7, 7); OVertex (8, 7); OVertex (8, 8); OVertex (7, 7); OTriangle 0 1 2].
Proof. exact some_area_met. Qed.
(** the lines of a multi line string become part of the polygon that follows *)
Theorem C57_multiline_refuted : forall narrow ly ls i r k vs idx o,
  Forall (Forall (fun c => point_ok ly (pos_of narrow c) = true)) ls ->
  Forall (Forall (fun c => point_ok ly (pos_of narrow c) = true)) r ->
  fill ly (area_path narrow ls ++ area_path narrow r) = Ok (vs, idx) -> (exists n, length idx = (3 * n)%nat) ->
  run (tessellator narrow ly) (gevents false i (GMultiLineString ls) ++ gevents false k (GPolygon r)) (mkTs false [] false o) =
  (mkTs false [] false (o ++ map OVertex vs ++ faces idx), Ok tt).
Proof. exact residue. Qed.
Print Assumptions C57_multiline_refuted.
(** a point before a polygon makes the checked builder of lyon panic *)
Theorem C57_point_refuted : forall narrow ly c d l r i k o, point_ok ly (pos_of narrow c) = true -> checks ly = true ->
  snd (run (tessellator narrow ly) (gevents false i (GPoint c) ++ gevents false k (GPolygon ((d :: l) :: r))) (mkTs false [] false o)) =
  Err EPanic.
Proof. exact point_then. Qed.
Print Assumptions C57_point_refuted.
(** triangles of TINs do not reach the output *)
Theorem C57_tin_refuted : forall narrow ly l i k o,
  Forall (Forall (Forall (fun c => point_ok ly (pos_of narrow c) = true))) l ->
  exists E, run (tessellator narrow ly) (gevents false i (GTin l)) (mkTs false k false o) = (mkTs false (k ++ E) false o, Ok tt).
Proof. exact tin_silent. Qed.
Print Assumptions C57_tin_refuted.
(** what lyon refuses (more than 65536 vertices, for one) is a panic and no error *)
Theorem C57_fill_refuted : forall narrow ly r i t o e,
  Forall (Forall (fun c => point_ok ly (pos_of narrow c) = true)) r ->
  fill ly (area_path narrow r) = Err e ->
  snd (run (tessellator narrow ly) (ev_polygon false t i r) (mkTs false [] false o)) = Err EPanic.
Proof. exact fill_fails. Qed.
Print Assumptions C57_fill_refuted.
Theorem C57_stroke_refuted : forall narrow ly l i o e,
  Forall (fun c => point_ok ly (pos_of narrow c) = true) l -> stroke ly (ring_path narrow l) = Err e ->
  snd (run (tessellator narrow ly) (ev_line false true i l) (mkTs false [] false o)) = Err EPanic.
Proof. exact stroke_fails. Qed.
Print Assumptions C57_stroke_refuted.
(** an OBJ file of one polygon shows the triangles of that polygon *)
Theorem C57_obj_partial : forall oc vs idx, Forall (fun i => i < 65535) idx ->
  exists f, obj_lines oc (map OVertex vs ++ faces idx) = Ok f /\ vertices f = vs /\ shown f = triangles vs idx.
Proof. exact obj_one. Qed.
Print Assumptions C57_obj_partial.
(** … but the faces of a second polygon refer to the vertices of the first *)
Theorem C57_obj_refuted : forall oc vs idx ws jdx, Forall (fun i => i < 65535) idx -> Forall (fun i => i < 65535) jdx ->
  Forall (fun i => (N.to_nat i < length vs)%nat) idx -> Forall (fun i => (N.to_nat i < length vs)%nat) jdx ->
  exists f, obj_lines oc ((map OVertex vs ++ faces idx) ++ (map OVertex ws ++ faces jdx)) = Ok f /\ vertices f = vs ++ ws /\
    shown f = triangles vs idx ++ triangles vs jdx.
Proof. exact obj_two. Qed.
Print Assumptions C57_obj_refuted.
Example C57_obj_met : exists f,
  obj_lines true (flat_map (drawn (fun x => x) sample_lyon) (areas some_area)) = Ok f /\
  shown f = [(Some (0, 0), Some (1, 0), Some (1, 1)); (Some (0, 0), Some (1, 0), Some (1, 1))].
Proof. exact some_obj. Qed.
(** the index 65535 panics with overflow checks *)
Theorem C57_index_refuted : forall a b, obj_lines true [OTriangle 65535 a b] = Err EPanic.
Proof. exact obj_big. Qed.
Print Assumptions C57_index_refuted.
(** without them it becomes the vertex number 0, which is none *)
Theorem C57_index_wrap_refuted : forall a b c vs, a < 2 ^ 16 -> b < 2 ^ 16 -> c < 2 ^ 16 ->
  obj_lines false [OTriangle a b c] = Ok [OF ((a + 1) mod 2 ^ 16) ((b + 1) mod 2 ^ 16) ((c + 1) mod 2 ^ 16)] /\
  vertex_no vs ((65535 + 1) mod 2 ^ 16) = None.
Proof. exact (fun a b c vs A B C => conj (obj_wraps a b c A B C) eq_refl). Qed.
Print Assumptions C57_index_wrap_refuted.
Example C57_index_wrap_met : obj_lines false [OTriangle 65535 0 65534] = Ok [OF 0 1 65535].
Proof. reflexivity. Qed.
