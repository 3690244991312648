(** Vocabulary of the tessellator claims (specification side). *)
From Coq Require Import String Ascii.
From Coq Require Import List NArith ZArith Lia Bool.
From Verif Require Import Base Event Geom TessModel.
Import ListNotations.
Local Open Scope N_scope.
Local Open Scope list_scope.

Section Path.
  Variable narrow : f64 -> N.
  Definition pos_of (c : coord) : point32 := (narrow (cx c), narrow (cy c)).
  (** a ring is one closed sub path; an empty ring is nothing *)
  Definition ring_path (l : line) : list pathev :=
    match l with [] => [] | c :: r => PBegin (pos_of c) :: map (fun d => PLine (pos_of d)) r ++ [PClose] end.
  Definition area_path (r : rings) : list pathev := flat_map ring_path r.
End Path.
(** the areas of a geometry in order; lines have none *)
Fixpoint areas (g : geom) : list rings :=
  match g with
  | GPolygon r => [r]
  | GMultiPolygon l | GPolyhedralSurface l => l
  | GMultiSurface l => flat_map (fun s => match s with SfPolygon r => [r] | _ => [] end) l
  | GCollection l => flat_map areas l
  | _ => []
  end.
(** made of polygons and single lines *)
Fixpoint areal (g : geom) : bool :=
  match g with
  | GLineString _ | GPolygon _ | GMultiPolygon _ | GPolyhedralSurface _ => true
  | GMultiSurface l => forallb (fun s => match s with SfPolygon _ => true | _ => false end) l
  | GCollection l => forallb areal l
  | _ => false
  end.
(** the triangles of an index buffer, as positions *)
Fixpoint triangles (vs : list point32) (l : list N) : list (option point32 * option point32 * option point32) :=
  match l with
  | a :: b :: c :: r =>
      (nth_error vs (N.to_nat a), nth_error vs (N.to_nat b), nth_error vs (N.to_nat c)) :: triangles vs r
  | _ => []
  end.
(** what an OBJ file shows: the number k in a face is the k-th vertex line of the file, from 1 *)
Definition vertices (l : list obj_line) : list point32 :=
  flat_map (fun o => match o with OV x y _ => [(x, y)] | OF _ _ _ => [] end) l.
Definition vertex_no (vs : list point32) (k : N) : option point32 :=
  match k with 0 => None | _ => nth_error vs (N.to_nat (k - 1)) end.
Definition shown (l : list obj_line) : list (option point32 * option point32 * option point32) :=
  flat_map (fun o => match o with
                     | OF a b c => [(vertex_no (vertices l) a, vertex_no (vertices l) b, vertex_no (vertices l) c)]
                     | OV _ _ _ => []
                     end) l.
(** the single lines in a geometry *)
Fixpoint single_lines (g : geom) : list line :=
  match g with
  | GLineString l => [l]
  | GCollection l => flat_map single_lines l
  | _ => []
  end.
(** its positions *)
Definition positions (g : geom) : list coord := concat (concat (areas g)) ++ concat (single_lines g).
Section Drawn.
  Variable narrow : f64 -> N.
  Variable ly : lyon.
  (** vertices and triangles of an index buffer of whole triangles *)
  Fixpoint faces (l : list N) : list out :=
    match l with a :: b :: c :: r => OTriangle a b c :: faces r | _ => [] end.
  Definition drawing (r : rings) (vs : list point32) (idx : list N) : Prop :=
    fill ly (area_path narrow r) = Ok (vs, idx) /\ exists n, length idx = (3 * n)%nat.
  Definition drawn (r : rings) : list out :=
    match fill ly (area_path narrow r) with Ok (vs, idx) => map OVertex vs ++ faces idx | Err _ => [] end.
  (** lyon accepts the positions, and fills and strokes the geometry *)
  Definition accepted (g : geom) : Prop :=
    Forall (fun c => point_ok ly (pos_of narrow c) = true) (positions g) /\
    Forall (fun r => exists vs idx, drawing r vs idx) (areas g) /\
    Forall (fun l => exists u, stroke ly (ring_path narrow l) = Ok u) (single_lines g).
End Drawn.
