(** What C87 is stated with: outputs that are a form filled in with the coordinates. *)
From Coq Require Import String Ascii.
From Coq Require Import List NArith ZArith Bool.
From Verif Require Import Base Float Event Claims.
From Verif Require GdalModel.
Import ListNotations.

(** ** Streams that differ in the values of coordinates only *)
(** The coordinates made zero; which of them are present stays. *)
Definition blind (o : obs) : obs :=
  let some (v : option f64) := match v with Some _ => Some f64_zero | None => None end in
  match o with
  | OEv (Xy _ _ i) => OEv (Xy f64_zero f64_zero i)
  | OEv (Coord _ _ z m t tm i) => OEv (Coord f64_zero f64_zero (some z) (some m) (some t) (match tm with Some _ => Some 0%N | None => None end) i)
  | o => o
  end.
Definition alike (o o' : obs) : Prop := blind o = blind o'.
(** WKT shows a position that has no number at all as EMPTY *)
Definition all_nan (o : obs) : bool :=
  let nan (v : option f64) := match v with Some x => f64_is_nan x | None => true end in
  match o with
  | OEv (Xy x y _) => f64_is_nan x && f64_is_nan y
  | OEv (Coord x y z m _ _ _) => f64_is_nan x && f64_is_nan y && nan z && nan m
  | _ => false
  end.
Definition alike_nan (o o' : obs) : Prop := alike o o' /\ all_nan o = all_nan o'.

(** ** Forms: characters or bytes, and gaps ([None]) that are filled with one text each, in order *)
Fixpoint fill {A} (form : list (option A)) (texts : list (list A)) : list A :=
  match form with
  | [] => []
  | Some a :: r => a :: fill r texts
  | None :: r => match texts with t :: ts => t ++ fill r ts | [] => fill r [] end
  end.
Definition gaps {A} (form : list (option A)) : nat :=
  length (filter (fun c => match c with None => true | Some _ => false end) form).

(** The result does not depend on the values of coordinates; if the stream is accepted there is a form such that the
    output is that form with the coordinates (those that [numbers] names) filled in, each once and in order, whatever
    their values. *)
Definition filled {S A} (R : obs -> obs -> Prop) (numbers : obs -> list f64) (show : f64 -> list A) (out : S -> list A) (p : proc S) (s0 : S) : Prop :=
  forall l,
    (forall l', Forall2 R l l' -> snd (feed p l' s0) = snd (feed p l s0)) /\
    (snd (feed p l s0) = Ok tt -> exists form, gaps form = length (flat_map numbers l) /\
       forall l', Forall2 R l l' -> out (fst (feed p l' s0)) = fill form (map show (flat_map numbers l'))).
(** Only that the result does not depend on the values. *)
Definition steady {S} (p : proc S) (s0 : S) : Prop :=
  forall l l', Forall2 alike l l' -> snd (feed p l' s0) = snd (feed p l s0).

(** ** The coordinates that are written *)
Definition given_opt (v : option f64) : list f64 := match v with Some x => [x] | None => [] end.
Definition svg_numbers (invert : bool) (o : obs) : list f64 :=
  match o with OEv (Xy x y _) => [x; if invert then f64_neg y else y] | _ => [] end.
Definition json_numbers (o : obs) : list f64 :=
  match o with OEv (Xy x y _) => [x; y] | OEv (Coord x y z _ _ _ _) => [x; y] ++ given_opt z | _ => [] end.
Definition wkt_numbers (o : obs) : list f64 :=
  if all_nan o then [] else
  match o with OEv (Xy x y _) => [x; y] | OEv (Coord x y z m _ _ _) => [x; y] ++ given_opt z ++ given_opt m | _ => [] end.
Definition wkb_numbers (d : dims) (o : obs) : list f64 :=
  match o with
  | OEv (Xy x y _) => [x; y]
  | OEv (Coord x y z m _ _ _) => [x; y] ++ (if dz d then given_opt z else []) ++ (if dm d then given_opt m else [])
  | _ => []
  end.

(** ** Shapes of GDAL geometries: positions made zero, their number and the members stay *)
Fixpoint bare (g : GdalModel.og) : GdalModel.og :=
  match g with GdalModel.Og k z m pts kids => GdalModel.Og k z m (map (fun _ => GdalModel.zero_pt) pts) (map bare kids) end.
