(** Vocabulary of C90: boxes put together (specification side).  The type [bounds] and its fields are
    those of the API (bounds.rs:4-9). *)
From Coq Require Import List NArith Bool.
From Verif Require Import Base Float Event ProcModel ProcSpec.
Import ListNotations.

(** callbacks a bounds processor takes: no empty point among them *)
Definition taken (l : list obs) : Prop := existsb is_empty_point l = false.
(** no NaN in any position; no NaN in the first position *)
Definition numbers (l : list obs) : Prop :=
  forall x y, In (x, y) (positions l) -> f64_is_nan x = false /\ f64_is_nan y = false.
Definition starts_with_numbers (l : list obs) : Prop :=
  match positions l with [] => True | (x, y) :: _ => f64_is_nan x = false /\ f64_is_nan y = false end.

(** the same box up to the sign of zeros *)
Definition same_box (a b : bounds) : Prop :=
  f64_eqb (min_x a) (min_x b) = true /\ f64_eqb (min_y a) (min_y b) = true /\
  f64_eqb (max_x a) (max_x b) = true /\ f64_eqb (max_y a) (max_y b) = true.
(** box [a] lies in box [b] *)
Definition inside (a b : bounds) : Prop :=
  f64_leb (min_x b) (min_x a) = true /\ f64_leb (min_y b) (min_y a) = true /\
  f64_leb (max_x a) (max_x b) = true /\ f64_leb (max_y a) (max_y b) = true.

(** the smaller and the larger of two numbers, the first one if they are equal *)
Definition lesser (a b : f64) : f64 := if f64_ltb b a then b else a.
Definition greater (a b : f64) : f64 := if f64_ltb a b then b else a.
(** the smallest box around two boxes, and around several that may be missing *)
Definition around (a b : bounds) : bounds :=
  mkBounds (lesser (min_x a) (min_x b)) (lesser (min_y a) (min_y b))
           (greater (max_x a) (max_x b)) (greater (max_y a) (max_y b)).
Definition around_both (a b : option bounds) : option bounds :=
  match a, b with
  | Some a, Some b => Some (around a b)
  | Some a, None => Some a
  | None, b => b
  end.
Definition around_all (l : list (option bounds)) : option bounds := fold_left around_both l None.

(** [f] keeps (turns around) the order of the numbers in [l] and gives no NaN for them; it may map
    different numbers to the same one, as rounding does *)
Definition rising (f : f64 -> f64) (l : list f64) : Prop :=
  forall x y, In x l -> In y l -> f64_leb x y = true -> f64_leb (f x) (f y) = true.
Definition falling (f : f64 -> f64) (l : list f64) : Prop :=
  forall x y, In x l -> In y l -> f64_leb x y = true -> f64_leb (f y) (f x) = true.
