(** Callbacks, processors and reader programs. *)
From Coq Require Import String Ascii.
From Coq Require Import List NArith ZArith Lia Bool.
From Verif Require Import Base.
Import ListNotations.

(** /repo/geozero/src/geometry_processor.rs:30-41 (CoordDimensions) *)
Record dims := mkDims { dz : bool; dm : bool; dt : bool; dtm : bool }.

(** geometry_processor.rs:44-75 *)
Definition xy_dims := mkDims false false false false.
Definition xyz_dims := mkDims true false false false.
Definition xyzm_dims := mkDims true true false false.
Definition xym_dims := mkDims false true false false.

(** geometry_processor.rs:101-104 (GeomProcessor::multi_dim default; no processor of the crate
    overrides it except by delegation) *)
Definition multi_dim (d : dims) : bool := dz d || dm d || dt d || dtm d.

(** /repo/geozero/src/property_processor.rs:8-27 (ColumnValue) *)
Inductive colval : Type :=
| CByte (v : Z) | CUByte (v : Z) | CBool (v : bool)
| CShort (v : Z) | CUShort (v : Z) | CInt (v : Z) | CUInt (v : Z)
| CLong (v : Z) | CULong (v : Z)
| CFloat (v : N) | CDouble (v : f64)
| CString (v : string) | CJson (v : string) | CDateTime (v : string)
| CBinary (v : list Byte.byte).

(** One constructor per callback of GeomProcessor (geometry_processor.rs:94-409) and
    FeatureProcessor (/repo/geozero/src/feature_processor.rs:7-68).  The property callback
    is separate because it returns a value. *)
Inductive event : Type :=
| Srid (s : option Z)
| Xy (x y : f64) (idx : nat)
| Coord (x y : f64) (z m t : option f64) (tm : option N) (idx : nat)
| EmptyPoint (idx : nat)
| PointBegin (idx : nat) | PointEnd (idx : nat)
| MultiPointBegin (size idx : nat) | MultiPointEnd (idx : nat)
| LineStringBegin (tagged : bool) (size idx : nat) | LineStringEnd (tagged : bool) (idx : nat)
| MultiLineStringBegin (size idx : nat) | MultiLineStringEnd (idx : nat)
| PolygonBegin (tagged : bool) (size idx : nat) | PolygonEnd (tagged : bool) (idx : nat)
| MultiPolygonBegin (size idx : nat) | MultiPolygonEnd (idx : nat)
| CollectionBegin (size idx : nat) | CollectionEnd (idx : nat)
| CircularStringBegin (size idx : nat) | CircularStringEnd (idx : nat)
| CompoundCurveBegin (size idx : nat) | CompoundCurveEnd (idx : nat)
| CurvePolygonBegin (size idx : nat) | CurvePolygonEnd (idx : nat)
| MultiCurveBegin (size idx : nat) | MultiCurveEnd (idx : nat)
| MultiSurfaceBegin (size idx : nat) | MultiSurfaceEnd (idx : nat)
| TriangleBegin (tagged : bool) (size idx : nat) | TriangleEnd (tagged : bool) (idx : nat)
| PolyhedralSurfaceBegin (size idx : nat) | PolyhedralSurfaceEnd (idx : nat)
| TinBegin (size idx : nat) | TinEnd (idx : nat)
| DatasetBegin (name : option string) | DatasetEnd
| FeatureBegin (idx : nat) | FeatureEnd (idx : nat)
| PropertiesBegin | PropertiesEnd
| GeometryBegin | GeometryEnd.

(** What an observer sees: callbacks including property callbacks. *)
Inductive obs : Type :=
| OEv (e : event)
| OProp (i : nat) (name : string) (v : colval).

(** A processor (implementor of FeatureProcessor) with state [S].  A step returns the new
    state even when it fails (`&mut self`). [p_dims] is `dimensions()`: for every processor
    of the crate it is a field fixed at construction. *)
Record proc (S : Type) : Type := mkProc {
  p_dims : dims;
  p_step : S -> event -> S * res unit;
  p_prop : S -> nat -> string -> colval -> S * res bool
}.
Arguments mkProc {S}.
Arguments p_dims {S}.
Arguments p_step {S}.
Arguments p_prop {S}.

(** Trait defaults: geometry_processor.rs:109-409, feature_processor.rs:16-67: every callback
    is Ok(()), except empty_point (136-140) which fails. *)
Definition default_step {S} (s : S) (e : event) : S * res unit :=
  match e with EmptyPoint _ => (s, Err EGeometry) | _ => (s, Ok tt) end.

(** property_processor.rs:61-63: default property() returns Ok(true) (= abort). *)
Definition default_prop {S} (s : S) (_ : nat) (_ : string) (_ : colval) : S * res bool :=
  (s, Ok true).

(** /repo/geozero/src/lib.rs:85-97 (ProcessorSink): all defaults. *)
Definition sink : proc unit := mkProc xy_dims default_step default_prop.

(** ** Reader programs *)
Inductive prog (A : Type) : Type :=
| Done (r : res A)                               (* return r *)
| Call (e : event) (k : prog A)                  (* processor.e(..)?; k *)
| CallIgn (e : event) (k : prog A)               (* processor.e(..).ok(); k *)
| CallProp (i : nat) (n : string) (v : colval) (k : bool -> prog A).
                                                 (* let b = processor.property(i,n,v)?; k b *)
Arguments Done {A}.
Arguments Call {A}.
Arguments CallIgn {A}.
Arguments CallProp {A}.

Fixpoint pbind {A B} (p : prog A) (f : A -> prog B) : prog B :=
  match p with
  | Done (Ok a) => f a
  | Done (Err e) => Done (Err e)
  | Call e k => Call e (pbind k f)
  | CallIgn e k => CallIgn e (pbind k f)
  | CallProp i n v k => CallProp i n v (fun b => pbind (k b) f)
  end.

Definition pret {A} (a : A) : prog A := Done (Ok a).
Definition pfail {A} (e : error) : prog A := Done (Err e).
Definition pcall (e : event) : prog unit := Call e (pret tt).

(** statement sequence and `for (i, a) in l.iter().enumerate()` *)
Definition pthen {A} (p : prog unit) (q : prog A) : prog A := pbind p (fun _ => q).
Fixpoint pfor {A} (f : nat -> A -> prog unit) (i : nat) (l : list A) : prog unit :=
  match l with
  | [] => pret tt
  | a :: r => pthen (f i a) (pfor f (S i) r)
  end.

(** Run a reader program against a processor. *)
Fixpoint exec {S A} (p : proc S) (g : prog A) (s : S) : S * res A :=
  match g with
  | Done r => (s, r)
  | Call e k =>
      match p_step p s e with
      | (s', Ok _) => exec p k s'
      | (s', Err x) => (s', Err x)
      end
  | CallIgn e k => exec p k (fst (p_step p s e))
  | CallProp i n v k =>
      match p_prop p s i n v with
      | (s', Ok b) => exec p (k b) s'
      | (s', Err x) => (s', Err x)
      end
  end.

(** Run a list of callbacks (each with `?`). *)
Fixpoint run {S} (p : proc S) (l : list event) (s : S) : S * res unit :=
  match l with
  | [] => (s, Ok tt)
  | e :: r =>
      match p_step p s e with
      | (s', Ok _) => run p r s'
      | (s', Err x) => (s', Err x)
      end
  end.

(** [calls l k]: callbacks [l] in order, then [k]. *)
Fixpoint calls {A} (l : list event) (k : prog A) : prog A :=
  match l with
  | [] => k
  | e :: r => Call e (calls r k)
  end.

(** A processor that records everything, asks for dimensions [d], answers [abort] to
    property callbacks and never fails. *)
Definition recorder (d : dims) (abort : bool) : proc (list obs) :=
  mkProc d (fun s e => ((s ++ [OEv e])%list, Ok tt))
         (fun s i n v => ((s ++ [OProp i n v])%list, Ok abort)).

(** The callbacks and the result of a program run with such a processor. *)
Definition observe {A} (g : prog A) : list obs * res A := exec (recorder xy_dims false) g [].
