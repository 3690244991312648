(** Vocabulary of C79 (specification side): sources that deliver several geometries. *)
From Coq Require Import String Ascii.
From Coq Require Import List NArith ZArith Lia Bool.
From Verif Require Import Base Event Geom.
Import ListNotations.
Local Open Scope list_scope.

(** geometries one after the other, each under some number: what a GeoJSON document delivers *)
Definition parts (multi : bool) (ps : list (nat * geom)) : list event :=
  flat_map (fun p => gevents multi (fst p) (snd p)) ps.
(** the same between the callbacks of one collection, which is announced with one member however many
    there are: what CSV tables and line-delimited GeoJSON deliver *)
Definition gathered (multi : bool) (ps : list (nat * geom)) : list event :=
  CollectionBegin (match ps with [] => 0 | _ => 1 end) 0 :: parts multi ps ++ [CollectionEnd 0].
(** the first has the number 0 and the others have not *)
Definition in_order (ps : list (nat * geom)) : Prop :=
  match ps with [] => True | p :: r => fst p = 0%nat /\ Forall (fun q => (0 < fst q)%nat) r end.
(** numbered from 0 *)
Definition numbered (l : list geom) : list (nat * geom) := combine (seq 0 (length l)) l.

(** the comma before a member *)
Definition lead (k : nat) : string := match k with O => "" | _ => "," end.
Definition cat (l : list string) : string := String.concat "" l.
