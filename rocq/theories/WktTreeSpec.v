(** Vocabulary of claim C18 for every parsed WKT tree (specification side). *)
From Coq Require Import List NArith ZArith Lia Bool.
From Verif Require Import Base Event Geom WktModel.
Import ListNotations.
Local Open Scope list_scope.

(** a MULTIPOINT with an EMPTY member occurs in the tree *)
Fixpoint empty_member (w : wkt) : bool :=
  match w with
  | WMultiPoint l => existsb (fun p => match p with None => true | _ => false end) l
  | WCollection l => existsb empty_member l
  | _ => false
  end.

(** the callbacks of a tree: as documented, except that a MULTIPOINT announces its EMPTY members and
    reports the others under their places *)
Fixpoint tree_events (multi : bool) (idx : nat) (w : wkt) : list event :=
  match w with
  | WPoint None => gevents multi idx GEmptyPoint
  | WPoint (Some c) => gevents multi idx (GPoint c)
  | WMultiPoint l =>
      MultiPointBegin (length l) idx ::
      flat_mapi (fun k p => match p with Some c => [ev_coord multi k c] | None => [] end) 0 l ++ [MultiPointEnd idx]
  | WLineString l => gevents multi idx (GLineString l)
  | WMultiLineString l => gevents multi idx (GMultiLineString l)
  | WPolygon r => gevents multi idx (GPolygon r)
  | WMultiPolygon l => gevents multi idx (GMultiPolygon l)
  | WCollection l =>
      CollectionBegin (length l) idx ::
      (fix go (i : nat) (l : list wkt) : list event :=
         match l with [] => [] | a :: r => tree_events multi i a ++ go (S i) r end) 0 l ++ [CollectionEnd idx]
  end.

(** members announced but not delivered: what the sizes announce less what comes *)
Definition owes (e : event) : Z :=
  match e with
  | PointBegin _ => 0
  | MultiPointBegin n _ | LineStringBegin _ n _ | MultiLineStringBegin n _ | PolygonBegin _ n _ | MultiPolygonBegin n _
  | CollectionBegin n _ | CircularStringBegin n _ | CompoundCurveBegin n _ | CurvePolygonBegin n _ | MultiCurveBegin n _
  | MultiSurfaceBegin n _ | TriangleBegin _ n _ | PolyhedralSurfaceBegin n _ | TinBegin n _ => Z.of_nat n - 1
  | Xy _ _ _ | Coord _ _ _ _ _ _ _ | EmptyPoint _ => -1
  | _ => 0
  end.
Fixpoint owed (l : list event) : Z := match l with [] => 0 | e :: r => owes e + owed r end%Z.
