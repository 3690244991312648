(** Vocabulary of the claims about the orientation of rings (specification side): areas as real numbers. *)
From Coq Require Import List NArith ZArith Bool Reals.
From Verif Require Import Base Geom.
From Verif Require MvtSpec.
Import ListNotations.
Local Open Scope R_scope.

(** the numbers a position stands for *)
Definition px (c : coord) : R := MvtSpec.value (cx c).
Definition py (c : coord) : R := MvtSpec.value (cy c).
(** twice the area to the right of a closed line: positive if it runs clockwise around more than it
    runs counter-clockwise around *)
Fixpoint area2 (l : list coord) : R :=
  match l with
  | a :: r => match r with b :: _ => (px b - px a) * (py b + py a) + area2 r | [] => 0 end
  | [] => 0
  end.
(** the usual formula: the sum of the cross products, positive if counter-clockwise *)
Fixpoint cross2 (l : list coord) : R :=
  match l with
  | a :: r => match r with b :: _ => (px a * py b - px b * py a) + cross2 r | [] => 0 end
  | [] => 0
  end.
Definition moved (dx dy : R) (c c' : coord) : Prop := px c' = px c + dx /\ py c' = py c + dy.

(** ** When the sum in f64 decides *)
Definition finite_coord (c : coord) : Prop := MvtSpec.finite (cx c) /\ MvtSpec.finite (cy c).
(** positions within 2^k of the origin and an area that is not all but zero *)
Definition has_area (k : Z) (l : list coord) : Prop :=
  (-500 <= k <= 480)%Z /\ (Z.of_nat (length l) <= 2 ^ 40)%Z /\
  Forall (fun c => finite_coord c /\ Rabs (px c) <= powerRZ 2 k /\ Rabs (py c) <= powerRZ 2 k) l /\
  20 * INR (length l) * INR (length l) * powerRZ 2 (2 * k - 53) < Rabs (area2 l).
(** positions on a grid of step 2^e, few and near enough that no sum is rounded *)
Definition on_grid (e k : Z) (l : list coord) : Prop :=
  (-536 <= e <= 485)%Z /\ (0 <= k)%Z /\ (Z.of_nat (length l) * 2 ^ (2 * k + 2) <= 2 ^ 53)%Z /\
  Forall (fun c => finite_coord c /\ exists m n, (Z.abs m <= 2 ^ k)%Z /\ (Z.abs n <= 2 ^ k)%Z /\
                   px c = IZR m * powerRZ 2 e /\ py c = IZR n * powerRZ 2 e) l.
Definition decided (l : list coord) : Prop := (exists k, has_area k l) \/ (exists e k, on_grid e k l).

(** a polygon as the format wants it: its outer ring runs clockwise, its holes do not *)
Definition wound (p : list (list coord)) : Prop :=
  exists r holes, p = r :: holes /\ decided r /\ 0 <= area2 r /\
    Forall (fun h => decided h /\ area2 h < 0) holes.
