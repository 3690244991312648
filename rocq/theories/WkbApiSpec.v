(** Vocabulary for C76. *)
From Coq Require Import String Ascii.
From Coq Require Import List NArith ZArith Lia Bool.
From Coq Require Import Init.Byte.
From Verif Require Import Base Event DrivenSpec.
Import ListNotations.

(** the same result with bytes in front; nothing is put in front of nothing *)
Definition behind (front : list byte) (r : res (list byte)) : res (list byte) :=
  match r with Ok [] => Ok [] | Ok b => Ok (front ++ b) | Err e => Err e end.
(** the same callbacks, but another SRID announced first *)
Definition announcing {A} (srid : option Z) (g : prog A) : prog A :=
  match g with Call (Srid _) k => Call (Srid srid) k | _ => g end.
Definition is_position (e : event) : bool :=
  match e with Xy _ _ _ => true | Coord _ _ _ _ _ _ _ => true | _ => false end.
(** no position comes before the first geometry begins *)
Fixpoint opened (l : list obs) : Prop :=
  match l with
  | [] => True
  | OEv e :: r => if begins_geometry e then True else if is_position e then False else opened r
  | OProp _ _ _ :: r => opened r
  end.
(** what a processor that accepts all callbacks and stops property lists, as the default of
    property() does, hears from a program *)
Definition heard {A} (g : prog A) : list obs := fst (exec (recorder xy_dims true) g []).
(** the first byte of WKB, if there is one, says that its byte order is [e] *)
Definition in_order (e : endian) (body : list byte) : Prop :=
  match body with [] => True | x :: _ => x = x00 <-> e = BE end.
(** EWKB: the SRID goes between the type and the rest, and the top bits of the type say so *)
Definition stamped (srid : Z) (r : res (list byte)) : res (list byte) :=
  match r with
  | Ok (o :: a :: b :: c :: d :: rest) => Ok (o :: a :: b :: c :: byte_of (val d + 32) :: bytes_of LE 4 (i32_to_u32 srid) ++ rest)
  | _ => r
  end.
