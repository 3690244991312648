(** Shared basics: results, bytes, fixed width integers, f64 bit patterns. *)
From Coq Require Import String Ascii.
From Coq Require Import List NArith ZArith Lia Bool.
From Coq Require Import Init.Byte Strings.Byte.
Import ListNotations.
Local Open Scope N_scope.

(** Model of /repo/geozero/src/error.rs:4-58 (GeozeroError).  Message texts are dropped.
    [EPanic] stands for a Rust panic (index out of bounds, unwrap, assert, checked
    overflow); [EFuel] for exhausted recursion fuel of the model (never a Rust value). *)
Inductive error : Type :=
| EIo                        (* IoError, also short reads *)
| EGeometry                  (* Geometry(String) *)
| EGeometryFormat            (* GeometryFormat *)
| EMaxNesting (n : N)        (* WkbMaxNestingDepth(u32) *)
| ESrid (s : Z)              (* Srid(i32) *)
| EDataset
| EFeature
| EProperty
| EFeatureGeometry
| EColumnNotFound
| EColumnType
| ECoord
| EMvt (code : N)            (* mvt_error.rs, by position *)
| EShp (code : N)            (* shp::Error, by position *)
| ECsv (code : N)            (* csv_error.rs, by position *)
| EUser (code : N)           (* any error produced by a user supplied processor *)
| EFuel
| EPanic.

Inductive res (A : Type) : Type :=
| Ok (a : A)
| Err (e : error).
Arguments Ok {A} a.
Arguments Err {A} e.

Definition res_bind {A B} (r : res A) (f : A -> res B) : res B :=
  match r with Ok a => f a | Err e => Err e end.

Definition res_map {A B} (f : A -> B) (r : res A) : res B :=
  match r with Ok a => Ok (f a) | Err e => Err e end.

Definition is_ok {A} (r : res A) : bool := match r with Ok _ => true | Err _ => false end.

(** ** Bytes *)

(** `as u8` *)
Definition byte_of (n : N) : byte :=
  match Byte.of_N (n mod 256) with Some b => b | None => x00 end.

Definition val (b : byte) : N := Byte.to_N b.

(** little endian bytes of [n], [k] of them (`as uK` truncation included) *)
Fixpoint le_bytes (k : nat) (n : N) : list byte :=
  match k with
  | O => []
  | S k' => byte_of n :: le_bytes k' (n / 256)
  end.

Fixpoint le_val (l : list byte) : N :=
  match l with
  | [] => 0
  | b :: r => val b + 256 * le_val r
  end.

Inductive endian := LE | BE.

Definition endian_eqb (a b : endian) : bool :=
  match a, b with LE, LE => true | BE, BE => true | _, _ => false end.

(** scroll `iowrite_with(x, endian)` for a [k] byte integer *)
Definition bytes_of (e : endian) (k : nat) (n : N) : list byte :=
  match e with LE => le_bytes k n | BE => rev (le_bytes k n) end.

(** scroll `ioread_with(endian)` value of the bytes read *)
Definition val_of (e : endian) (l : list byte) : N :=
  match e with LE => le_val l | BE => le_val (rev l) end.

(** two's complement reinterpretation of i32 *)
Definition i32_to_u32 (z : Z) : N := Z.to_N (z mod 2 ^ 32)%Z.
Definition u32_to_i32 (n : N) : Z :=
  if n <? 2 ^ 31 then Z.of_N n else (Z.of_N n - 2 ^ 32)%Z.
Definition is_i32 (z : Z) : Prop := (- 2 ^ 31 <= z < 2 ^ 31)%Z.

(** ** f64 as bit patterns *)
Definition f64 := N.
Definition f64_ok (x : f64) : Prop := x < 2 ^ 64.
Definition f64_zero : f64 := 0.

(** f64::is_nan: exponent all ones and mantissa non-zero *)
Definition f64_is_nan (x : f64) : bool :=
  ((x / 2 ^ 52) mod 2 ^ 11 =? 2047) && negb (x mod 2 ^ 52 =? 0).

(** ** List helpers *)

(** index-aware concatenation: [f i0 a0 ++ f (i0+1) a1 ++ ...] *)
Fixpoint flat_mapi {A B} (f : nat -> A -> list B) (i : nat) (l : list A) : list B :=
  match l with
  | [] => []
  | a :: r => (f i a ++ flat_mapi f (S i) r)%list
  end.

Fixpoint mapi {A B} (f : nat -> A -> B) (i : nat) (l : list A) : list B :=
  match l with
  | [] => []
  | a :: r => f i a :: mapi f (S i) r
  end.

Definition opt_default {A} (d : A) (o : option A) : A :=
  match o with Some a => a | None => d end.
