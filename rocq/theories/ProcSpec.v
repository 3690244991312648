(** Vocabulary of the claims about generic processors and traits (specification side). *)
From Coq Require Import String Ascii.
From Coq Require Import List NArith ZArith Lia Bool.
From Coq Require Import Numbers.DecimalString.
From Verif Require Import Base Float Event Claims ProcModel.
Import ListNotations.
Local Open Scope string_scope.
Local Open Scope list_scope.

(** ** Callbacks *)
Definition is_empty_point (o : obs) : bool := match o with OEv (EmptyPoint _) => true | _ => false end.
Definition is_collection (o : obs) : bool :=
  match o with OEv (CollectionBegin _ _) | OEv (CollectionEnd _) => true | _ => false end.
Definition is_srid (o : obs) : bool := match o with OEv (Srid _) => true | _ => false end.
(** feature, dataset and property callbacks *)
Definition is_feature (o : obs) : bool :=
  match o with
  | OEv (DatasetBegin _) | OEv DatasetEnd | OEv (FeatureBegin _) | OEv (FeatureEnd _)
  | OEv PropertiesBegin | OEv PropertiesEnd | OEv GeometryBegin | OEv GeometryEnd
  | OProp _ _ _ => true
  | _ => false
  end.

(** everything but collection brackets and SRIDs *)
Definition passed (o : obs) : bool := negb (is_collection o) && negb (is_srid o).
(** geometry callbacks except collection brackets and SRIDs *)
Definition ds_passed (o : obs) : bool :=
  negb (is_feature o) && negb (is_collection o) && negb (is_srid o).

(** ** Coordinate pre-processing *)
Definition on_xy (f : f64 -> f64 -> f64 * f64) (e : event) : event :=
  match e with
  | Xy x y idx => Xy (fst (f x y)) (snd (f x y)) idx
  | Coord x y z m t tm idx => Coord (fst (f x y)) (snd (f x y)) z m t tm idx
  | _ => e
  end.
Definition on_xy_obs (f : f64 -> f64 -> f64 * f64) (o : obs) : obs :=
  match o with OEv e => OEv (on_xy f e) | OProp i n v => OProp i n v end.
(** a source with the same control flow whose callbacks are changed by [f] *)
Fixpoint map_events {A} (f : event -> event) (g : prog A) : prog A :=
  match g with
  | Done r => Done r
  | Call e k => Call (f e) (map_events f k)
  | CallIgn e k => CallIgn (f e) (map_events f k)
  | CallProp i n v k => CallProp i n v (fun b => map_events f (k b))
  end.

(** ** Bounds *)
(** the positions delivered *)
Fixpoint positions (l : list obs) : list (f64 * f64) :=
  match l with
  | [] => []
  | OEv (Xy x y _) :: r => (x, y) :: positions r
  | OEv (Coord x y _ _ _ _ _) :: r => (x, y) :: positions r
  | _ :: r => positions r
  end.
(** [m] is the least (greatest) of [l], which holds it exactly *)
Definition least (m : f64) (l : list f64) : Prop :=
  In m l /\ forall x, In x l -> f64_is_nan x = false -> f64_leb m x = true.
Definition greatest (m : f64) (l : list f64) : Prop :=
  In m l /\ forall x, In x l -> f64_is_nan x = false -> f64_leb x m = true.
(** one axis of a bounding box: the least and the greatest value; a NaN in front stays there *)
Definition spans (lo hi : f64) (l : list f64) : Prop :=
  match l with
  | [] => False
  | v :: _ =>
      if f64_is_nan v then lo = v /\ hi = v
      else least lo l /\ greatest hi l /\ f64_is_nan lo = false /\ f64_is_nan hi = false
  end.

(** ** Properties *)
Notation prop := (nat * string * colval)%type.
Definition prop_obs (q : prop) : obs := match q with (i, n, v) => OProp i n v end.
(** offer properties until the processor asks to stop (answer true) *)
Fixpoint offer {S} (p : proc S) (l : list prop) (s : S) : S * res bool :=
  match l with
  | [] => (s, Ok false)
  | (i, n, v) :: r =>
      match p_prop p s i n v with
      | (s', Ok true) => (s', Ok true)
      | (s', Ok false) => offer p r s'
      | (s', Err x) => (s', Err x)
      end
  end.
(** [src] offers the properties [l] in this order to every processor and stops when asked to *)
Definition offers (src : prog bool) (l : list prop) : Prop :=
  forall S (p : proc S) s, exec p src s = offer p l s.
(** [src] offers the properties [l] in this order, stops when asked to, and fails with [e] after them *)
Definition breaks_off (src : prog bool) (l : list prop) (e : error) : Prop :=
  forall S (p : proc S) s, exec p src s =
    match offer p l s with (s', Ok false) => (s', Err e) | r => r end.

(** first / last element satisfying a test *)
Definition first_by {A} (f : A -> bool) (l : list A) : option A := List.find f l.
Definition last_by {A} (f : A -> bool) (l : list A) : option A := List.find f (rev l).
Definition named (n : string) (q : prop) : bool := String.eqb (snd (fst q)) n.
Definition numbered (i : nat) (q : prop) : bool := Nat.eqb (fst (fst q)) i.

(** text of a value *)
Definition decimal (z : Z) (s : string) : Prop :=
  option_map Z.of_int (NilZero.int_of_string s) = Some z /\ s = NilZero.string_of_int (Z.to_int z).
Inductive text_of (fmt32 : N -> string) (fmt : f64 -> string) : colval -> string -> Prop :=
| text_i8 z s : decimal z s -> text_of fmt32 fmt (CByte z) s
| text_u8 z s : decimal z s -> text_of fmt32 fmt (CUByte z) s
| text_i16 z s : decimal z s -> text_of fmt32 fmt (CShort z) s
| text_u16 z s : decimal z s -> text_of fmt32 fmt (CUShort z) s
| text_i32 z s : decimal z s -> text_of fmt32 fmt (CInt z) s
| text_u32 z s : decimal z s -> text_of fmt32 fmt (CUInt z) s
| text_i64 z s : decimal z s -> text_of fmt32 fmt (CLong z) s
| text_u64 z s : decimal z s -> text_of fmt32 fmt (CULong z) s
| text_true : text_of fmt32 fmt (CBool true) "true"
| text_false : text_of fmt32 fmt (CBool false) "false"
| text_f32 x : text_of fmt32 fmt (CFloat x) (fmt32 x)
| text_f64 x : text_of fmt32 fmt (CDouble x) (fmt x)
| text_string s : text_of fmt32 fmt (CString s) s
| text_json s : text_of fmt32 fmt (CJson s) s
| text_datetime s : text_of fmt32 fmt (CDateTime s) s
| text_binary b : text_of fmt32 fmt (CBinary b) "[BINARY]".

(** [v] read as [t] is [w] *)
Inductive reads_as (fmt32 : N -> string) (fmt : f64 -> string) : ptype -> colval -> pval -> Prop :=
| reads_i8 z : reads_as fmt32 fmt TI8 (CByte z) (VInt z)
| reads_u8 z : reads_as fmt32 fmt TU8 (CUByte z) (VInt z)
| reads_bool b : reads_as fmt32 fmt TBool (CBool b) (VBool b)
| reads_i16 z : reads_as fmt32 fmt TI16 (CShort z) (VInt z)
| reads_u16 z : reads_as fmt32 fmt TU16 (CUShort z) (VInt z)
| reads_i32 z : reads_as fmt32 fmt TI32 (CInt z) (VInt z)
| reads_u32 z : reads_as fmt32 fmt TU32 (CUInt z) (VInt z)
| reads_i64 z : reads_as fmt32 fmt TI64 (CLong z) (VInt z)
| reads_u64 z : reads_as fmt32 fmt TU64 (CULong z) (VInt z)
| reads_f32 x : reads_as fmt32 fmt TF32 (CFloat x) (VF32 x)
| reads_f64 x : reads_as fmt32 fmt TF64 (CDouble x) (VF64 x)
| reads_string v s : text_of fmt32 fmt v s -> reads_as fmt32 fmt TString v (VString s).
