(** Vocabulary of the exact GDAL claim (specification side): what GdalWriter holds after each part of a
    geometry. *)
From Coq Require Import String Ascii.
From Coq Require Import List NArith ZArith Lia Bool.
From Verif Require Import Base Event Geom GdalModel GdalSpec.
From Verif Require Import GeosExactSpec.
Import ListNotations.
Local Open Scope list_scope.

(** Which line the writer's `line` is: one that lies in no geometry, a member line or ring, a ring of a
    member polygon, or one that was freed with its geometry *)
Inductive cursor : Type := Outside | Member (i : nat) | Ring (i j : nat) | Freed.
(** the geometry held; [None] is the empty point it starts with *)
Record held : Type := mkHeld { h_geom : option geom; h_line : cursor }.
Definition start : held := mkHeld None Outside.

(** the line made last while [g] is built, if any *)
Fixpoint last_ring (k : nat) (l : list rings) : option cursor :=
  match l with
  | [] => None
  | r :: t => match last_ring (S k) t with
              | Some c => Some c
              | None => match r with [] => None | _ => Some (Ring k (length r - 1)) end
              end
  end.
Definition newest (g : geom) : option cursor :=
  match g with
  | GMultiLineString l | GPolygon l => match l with [] => None | _ => Some (Member (length l - 1)) end
  | GMultiPolygon l => last_ring 0 l
  | _ => None
  end.
Definition freed (c : cursor) : cursor := match c with Outside => Outside | _ => Freed end.

(** [arc] written over the beginning of [l] *)
Definition over (arc l : line) : line := arc ++ skipn (length arc) l.
Fixpoint change {A} (i : nat) (f : A -> A) (l : list A) : list A :=
  match l, i with
  | [], _ => []
  | a :: r, O => f a :: r
  | a :: r, S k => a :: change k f r
  end.
Definition write_at (c : cursor) (arc : line) (g : geom) : geom :=
  match c, g with
  | Member i, GMultiLineString l => GMultiLineString (change i (over arc) l)
  | Member i, GPolygon l => GPolygon (change i (over arc) l)
  | Ring i j, GMultiPolygon l => GMultiPolygon (change i (change j (over arc)) l)
  | _, _ => g
  end.

(** one part *)
Definition take (p : piece) (h : held) : res held :=
  match p with
  | Whole g => Ok (mkHeld (Some g) (match newest g with Some c => c | None => freed (h_line h) end))
  | Face r =>
      match h_geom h with
      | Some (GMultiPolygon l) =>
          Ok (mkHeld (Some (GMultiPolygon (l ++ [r])))
                     (match r with [] => h_line h | _ => Ring (length l) (length r - 1) end))
      | _ => Err EGeometry
      end
  | Open l =>
      match h_geom h with
      | Some (GMultiLineString k) => Ok (mkHeld (Some (GMultiLineString (k ++ [l]))) (Member (length k)))
      | Some (GPolygon k) => Ok (mkHeld (Some (GPolygon (k ++ [l]))) (Member (length k)))
      | Some (GMultiPolygon k) =>
          match rev k with
          | [] => Err EPanic
          | r :: t => Ok (mkHeld (Some (GMultiPolygon (rev t ++ [r ++ [l]]))) (Ring (length t) (length r)))
          end
      | _ => Err gdal_error
      end
  | Arc [] => Ok h
  | Arc (c :: l) =>
      match h_geom h with
      | None | Some (GPoint _) => Ok (mkHeld (Some (GPoint c)) (h_line h))
      | Some (GMultiPoint k) => Ok (mkHeld (Some (GMultiPoint (k ++ c :: l))) (h_line h))
      | Some (GLineString k) => Ok (mkHeld (Some (GLineString (over (c :: l) k))) (h_line h))
      | Some g =>
          match h_line h with
          | Freed => Err undefined
          | at_ => Ok (mkHeld (Some (write_at at_ (c :: l) g)) at_)
          end
      end
  | Nowhere => Err EGeometry
  end.
Fixpoint takes (l : list piece) (h : held) : res held :=
  match l with
  | [] => Ok h
  | p :: r => match take p h with Ok h' => takes r h' | Err e => Err e end
  end.
Definition held_value (h : held) : og :=
  match h_geom h with None => empty_point | Some g => gvalue false g end.

(** positions are numbered with an i32 *)
Definition short_piece (p : piece) : Prop :=
  match p with
  | Whole g => short_geom g
  | Face r => Forall short r
  | Open l | Arc l => short l
  | Nowhere => True
  end.
