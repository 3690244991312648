(** Model of the generic processors and traits: multiplex.rs, wrap.rs, api.rs, bounds.rs,
    property_processor.rs (all in /repo/geozero/src). *)
From Coq Require Import String Ascii.
From Coq Require Import List NArith ZArith Lia Bool.
From Coq Require Import Numbers.DecimalString.
From Verif Require Import Base Float Event.
Import ListNotations.
Local Open Scope string_scope.
Local Open Scope list_scope.

(** ** Multiplexer *)
Section Mux.
  Context {S1 S2 : Type}.
  Variable p1 : proc S1.
  Variable p2 : proc S2.

  (** `self.p1.e(..)?; self.p2.e(..)` *)
  Definition mux_both (s : S1 * S2) (e : event) : (S1 * S2) * res unit :=
    let (s1, s2) := s in
    match p_step p1 s1 e with
    | (s1, Ok _) => let (s2, r) := p_step p2 s2 e in ((s1, s2), r)
    | (s1, Err x) => ((s1, s2), Err x)
    end.

  (** multiplex.rs:18-181; dimensions, srid, empty_point, geometrycollection_begin and
      geometrycollection_end are not overridden *)
  Definition mux_step (s : S1 * S2) (e : event) : (S1 * S2) * res unit :=
    match e with
    | DatasetBegin _ | DatasetEnd | FeatureBegin _ | FeatureEnd _
    | PropertiesBegin | PropertiesEnd | GeometryBegin | GeometryEnd
    | Xy _ _ _ | Coord _ _ _ _ _ _ _
    | PointBegin _ | PointEnd _ | MultiPointBegin _ _ | MultiPointEnd _
    | LineStringBegin _ _ _ | LineStringEnd _ _ | MultiLineStringBegin _ _ | MultiLineStringEnd _
    | PolygonBegin _ _ _ | PolygonEnd _ _ | MultiPolygonBegin _ _ | MultiPolygonEnd _
    | CircularStringBegin _ _ | CircularStringEnd _ | CompoundCurveBegin _ _ | CompoundCurveEnd _
    | CurvePolygonBegin _ _ | CurvePolygonEnd _ | MultiCurveBegin _ _ | MultiCurveEnd _
    | MultiSurfaceBegin _ _ | MultiSurfaceEnd _ | TriangleBegin _ _ _ | TriangleEnd _ _
    | PolyhedralSurfaceBegin _ _ | PolyhedralSurfaceEnd _ | TinBegin _ _ | TinEnd _ => mux_both s e
    | Srid _ | EmptyPoint _ | CollectionBegin _ _ | CollectionEnd _ => default_step s e
    end.

  (** multiplex.rs:185-190: `Result::and` evaluates its argument even if p1 failed *)
  Definition mux_prop (s : S1 * S2) (i : nat) (n : string) (v : colval) : (S1 * S2) * res bool :=
    let (s1, s2) := s in
    let (s1, r1) := p_prop p1 s1 i n v in
    let (s2, r2) := p_prop p2 s2 i n v in
    ((s1, s2), match r1 with Ok _ => r2 | Err x => Err x end).

  Definition multiplexer : proc (S1 * S2) := mkProc xy_dims mux_step mux_prop.
End Mux.

(** ** WrappedXYProcessor.  The closure is a pure function (Rust's `Fn` also allows interior
    mutability). *)
Section Wrap.
  Context {S : Type}.
  Variable f : f64 -> f64 -> f64 * f64.
  Variable p : proc S.

  (** wrap.rs:28-148 and 158-182 *)
  Definition wrap_step (s : S) (e : event) : S * res unit :=
    match e with
    | Xy x y idx => let (x, y) := f x y in p_step p s (Xy x y idx)
    | Coord x y z m t tm idx => let (x, y) := f x y in p_step p s (Coord x y z m t tm idx)
    | Srid v => p_step p s (Srid v)
    | EmptyPoint i => p_step p s (EmptyPoint i)
    | PointBegin i => p_step p s (PointBegin i)
    | PointEnd i => p_step p s (PointEnd i)
    | MultiPointBegin n i => p_step p s (MultiPointBegin n i)
    | MultiPointEnd i => p_step p s (MultiPointEnd i)
    | LineStringBegin t n i => p_step p s (LineStringBegin t n i)
    | LineStringEnd t i => p_step p s (LineStringEnd t i)
    | MultiLineStringBegin n i => p_step p s (MultiLineStringBegin n i)
    | MultiLineStringEnd i => p_step p s (MultiLineStringEnd i)
    | PolygonBegin t n i => p_step p s (PolygonBegin t n i)
    | PolygonEnd t i => p_step p s (PolygonEnd t i)
    | MultiPolygonBegin n i => p_step p s (MultiPolygonBegin n i)
    | MultiPolygonEnd i => p_step p s (MultiPolygonEnd i)
    | CollectionBegin n i => p_step p s (CollectionBegin n i)
    | CollectionEnd i => p_step p s (CollectionEnd i)
    | CircularStringBegin n i => p_step p s (CircularStringBegin n i)
    | CircularStringEnd i => p_step p s (CircularStringEnd i)
    | CompoundCurveBegin n i => p_step p s (CompoundCurveBegin n i)
    | CompoundCurveEnd i => p_step p s (CompoundCurveEnd i)
    | CurvePolygonBegin n i => p_step p s (CurvePolygonBegin n i)
    | CurvePolygonEnd i => p_step p s (CurvePolygonEnd i)
    | MultiCurveBegin n i => p_step p s (MultiCurveBegin n i)
    | MultiCurveEnd i => p_step p s (MultiCurveEnd i)
    | MultiSurfaceBegin n i => p_step p s (MultiSurfaceBegin n i)
    | MultiSurfaceEnd i => p_step p s (MultiSurfaceEnd i)
    | TriangleBegin t n i => p_step p s (TriangleBegin t n i)
    | TriangleEnd t i => p_step p s (TriangleEnd t i)
    | PolyhedralSurfaceBegin n i => p_step p s (PolyhedralSurfaceBegin n i)
    | PolyhedralSurfaceEnd i => p_step p s (PolyhedralSurfaceEnd i)
    | TinBegin n i => p_step p s (TinBegin n i)
    | TinEnd i => p_step p s (TinEnd i)
    | DatasetBegin n => p_step p s (DatasetBegin n)
    | DatasetEnd => p_step p s DatasetEnd
    | FeatureBegin i => p_step p s (FeatureBegin i)
    | FeatureEnd i => p_step p s (FeatureEnd i)
    | PropertiesBegin => p_step p s PropertiesBegin
    | PropertiesEnd => p_step p s PropertiesEnd
    | GeometryBegin => p_step p s GeometryBegin
    | GeometryEnd => p_step p s GeometryEnd
    end.

  (** wrap.rs:30-32 (dimensions), 150-156 (property) *)
  Definition wrapped_xy : proc S := mkProc (p_dims p) wrap_step (p_prop p).
End Wrap.

(** ** GeozeroDatasource::process_geom *)
Section DatasourceGeom.
  Context {S : Type}.
  Variable p : proc S.

  (** api.rs:103-201: geometry callbacks are delegated except dimensions, srid, empty_point and
      geometrycollection_begin/end, which are not overridden *)
  Definition ds_step (s : S) (e : event) : S * res unit :=
    match e with
    | Xy _ _ _ | Coord _ _ _ _ _ _ _
    | PointBegin _ | PointEnd _ | MultiPointBegin _ _ | MultiPointEnd _
    | LineStringBegin _ _ _ | LineStringEnd _ _ | MultiLineStringBegin _ _ | MultiLineStringEnd _
    | PolygonBegin _ _ _ | PolygonEnd _ _ | MultiPolygonBegin _ _ | MultiPolygonEnd _
    | CircularStringBegin _ _ | CircularStringEnd _ | CompoundCurveBegin _ _ | CompoundCurveEnd _
    | CurvePolygonBegin _ _ | CurvePolygonEnd _ | MultiCurveBegin _ _ | MultiCurveEnd _
    | MultiSurfaceBegin _ _ | MultiSurfaceEnd _ | TriangleBegin _ _ _ | TriangleEnd _ _
    | PolyhedralSurfaceBegin _ _ | PolyhedralSurfaceEnd _ | TinBegin _ _ | TinEnd _ => p_step p s e
    | _ => default_step s e
    end.

  (** api.rs:203-204 *)
  Definition datasource_geom : proc S := mkProc xy_dims ds_step default_prop.

  (** api.rs:37-40 *)
  Definition ds_process_geom {A} (src : dims -> prog A) (s : S) : S * res A :=
    exec datasource_geom (src (p_dims datasource_geom)) s.
End DatasourceGeom.

(** ** BoundsProcessor *)
(** bounds.rs:4-9 *)
Record bounds := mkBounds { min_x : f64; min_y : f64; max_x : f64; max_y : f64 }.

(** bounds.rs:12-25; `x > m` is `m < x` *)
Definition extend (b : bounds) (x y : f64) : bounds :=
  let b := if f64_ltb x (min_x b) then mkBounds x (min_y b) (max_x b) (max_y b) else b in
  let b := if f64_ltb (max_x b) x then mkBounds (min_x b) (min_y b) x (max_y b) else b in
  let b := if f64_ltb y (min_y b) then mkBounds (min_x b) y (max_x b) (max_y b) else b in
  if f64_ltb (max_y b) y then mkBounds (min_x b) (min_y b) (max_x b) y else b.

(** bounds.rs:59-71 *)
Definition bounds_xy (o : option bounds) (x y : f64) : option bounds :=
  match o with
  | None => Some (mkBounds x y x y)
  | Some b => Some (extend b x y)
  end.

(** bounds.rs:58-84 *)
Definition bounds_step (o : option bounds) (e : event) : option bounds * res unit :=
  match e with
  | Xy x y _ => (bounds_xy o x y, Ok tt)
  | Coord x y _ _ _ _ _ => (bounds_xy o x y, Ok tt)
  | _ => default_step o e
  end.
(** bounds.rs:87-88 *)
Definition bounds_proc : proc (option bounds) := mkProc xy_dims bounds_step default_prop.

(** ** Property readers *)
Section Properties.
  (** `{v}` for f32 and f64 *)
  Variable fmt32 : N -> string.
  Variable fmt : f64 -> string.

  Definition show_z (z : Z) : string := NilZero.string_of_int (Z.to_int z).

  (** property_processor.rs:66-86 (Display for ColumnValue) *)
  Definition show_colval (v : colval) : string :=
    match v with
    | CByte v | CUByte v | CShort v | CUShort v | CInt v | CUInt v | CLong v | CULong v => show_z v
    | CBool v => if v then "true" else "false"
    | CFloat v => fmt32 v
    | CDouble v => fmt v
    | CString v | CJson v | CDateTime v => v
    | CBinary _ => "[BINARY]"
    end.

  (** the types with an impl of PropertyReadType (159-181) and their values *)
  Inductive ptype := TI8 | TU8 | TBool | TI16 | TU16 | TI32 | TU32 | TI64 | TU64 | TF32 | TF64 | TString.
  Inductive pval := VInt (z : Z) | VBool (b : bool) | VF32 (x : N) | VF64 (x : f64) | VString (s : string).

  (** property_processor.rs:138-181 *)
  Definition get_value (t : ptype) (v : colval) : res pval :=
    match t, v with
    | TI8, CByte v => Ok (VInt v)
    | TU8, CUByte v => Ok (VInt v)
    | TBool, CBool v => Ok (VBool v)
    | TI16, CShort v => Ok (VInt v)
    | TU16, CUShort v => Ok (VInt v)
    | TI32, CInt v => Ok (VInt v)
    | TU32, CUInt v => Ok (VInt v)
    | TI64, CLong v => Ok (VInt v)
    | TU64, CULong v => Ok (VInt v)
    | TF32, CFloat v => Ok (VF32 v)
    | TF64, CDouble v => Ok (VF64 v)
    | TString, v => Ok (VString (show_colval v))
    | _, _ => Err EColumnType
    end.

  (** property_processor.rs:89-93 and 112-121 (PropertyReader): the state is `value` *)
  Definition property_reader (t : ptype) (name : string) : proc (res pval) :=
    mkProc xy_dims default_step
      (fun s _ n v => if String.eqb n name then (get_value t v, Ok true) else (s, Ok false)).
  (** 95-99 and 123-132 (PropertyReaderIdx) *)
  Definition property_reader_idx (t : ptype) (idx : nat) : proc (res pval) :=
    mkProc xy_dims default_step
      (fun s i _ v => if Nat.eqb i idx then (get_value t v, Ok true) else (s, Ok false)).

  (** HashMap<String, String> as a list of entries; insert replaces *)
  Fixpoint insert (m : list (string * string)) (k v : string) : list (string * string) :=
    match m with
    | [] => [(k, v)]
    | (k', v') :: r => if String.eqb k k' then (k, v) :: r else (k', v') :: insert r k v
    end.
  Fixpoint lookup (m : list (string * string)) (k : string) : option string :=
    match m with
    | [] => None
    | (k', v) :: r => if String.eqb k k' then Some v else lookup r k
    end.
  (** 183-188 *)
  Definition property_map : proc (list (string * string)) :=
    mkProc xy_dims default_step (fun m _ n v => (insert m n (show_colval v), Ok false)).

  (** api.rs:68-93; [src] is process_properties of the feature *)
  Definition feature_property (src : prog bool) (t : ptype) (name : string) : res pval :=
    match exec (property_reader t name) src (Err EColumnNotFound) with
    | (v, Ok _) => v
    | (_, Err e) => Err e
    end.
  Definition feature_property_n (src : prog bool) (t : ptype) (n : nat) : res pval :=
    match exec (property_reader_idx t n) src (Err EColumnNotFound) with
    | (v, Ok _) => v
    | (_, Err e) => Err e
    end.
  Definition feature_properties (src : prog bool) : res (list (string * string)) :=
    match exec property_map src [] with
    | (m, Ok _) => Ok m
    | (_, Err e) => Err e
    end.
End Properties.

(** ** FeatureAccess::process, api.rs:45-58 *)
Definition feature_process (idx : nat) (props : prog bool) (geometry : prog unit) : prog unit :=
  pthen (pcall (FeatureBegin idx))
  (pthen (pcall PropertiesBegin)
  (pbind props (fun _ =>
   pthen (pcall PropertiesEnd)
  (pthen (pcall GeometryBegin)
  (pthen geometry
  (pthen (pcall GeometryEnd)
         (pcall (FeatureEnd idx)))))))).
