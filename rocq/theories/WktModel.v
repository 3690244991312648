(** Model of /repo/geozero/src/wkt: WktWriter and the reader of parsed WKT. *)
From Coq Require Import String Ascii.
From Coq Require Import List NArith ZArith Lia Bool.
From Coq Require Import Numbers.DecimalString Init.Byte.
From Verif Require Import Base Event Geom WkbModel.
Import ListNotations.
Local Open Scope string_scope.
Local Open Scope list_scope.

(** mod.rs:121-127 (WktDialect) *)
Inductive wkt_dialect := PlainWkt | Ewkt.

(** `{srid}` for an i32 *)
Definition show_int (z : Z) : string := NilZero.string_of_int (Z.to_int z).

(** wkt_writer.rs:9-17 (WktWriter); dims and dialect never change *)
Record wktcfg := mkWktCfg { k_dims : dims; k_dialect : wkt_dialect }.
Record wktst := mkWktSt {
  k_srid : option Z;
  k_first : bool;
  k_sizes : list nat;     (* Vec used as a stack, top first *)
  k_out : string
}.

Definition put (s : wktst) (t : string) : wktst :=
  mkWktSt (k_srid s) (k_first s) (k_sizes s) (k_out s ++ t).

Section Writer.
  (** `{x}` for an f64 (std::fmt::Display), not modelled further *)
  Variable fmt : f64 -> string.
  Variable c : wktcfg.

  (** wkt_writer.rs:45-54 *)
  Definition wkt_header (s : wktst) : wktst :=
    match k_first s, k_dialect c with
    | true, Ewkt =>
        let s := mkWktSt (k_srid s) false (k_sizes s) (k_out s) in
        match k_srid s with
        | None | Some 0%Z => s
        | Some v => put s ("SRID=" ++ show_int v ++ ";")
        end
    | _, _ => s
    end.

  (** wkt_writer.rs:55-60 *)
  Definition wkt_comma (s : wktst) (idx : nat) : wktst :=
    if Nat.ltb 0 idx then put s "," else s.

  (** wkt_writer.rs:61-77 *)
  Definition geom_begin (s : wktst) (tag : string) (tagged : bool) (size idx : nat) : wktst :=
    let s := wkt_header s in
    let s := wkt_comma s idx in
    let s := if tagged then put s tag else s in
    let s := mkWktSt (k_srid s) (k_first s) (size :: k_sizes s) (k_out s) in
    if Nat.eqb size 0 then put (if tagged then put s " " else s) "EMPTY" else put s "(".

  (** wkt_writer.rs:78-87; the debug_assert is modelled as a panic *)
  Definition geom_end (s : wktst) : wktst * res unit :=
    match k_sizes s with
    | [] => (s, Err EPanic)
    | size :: r =>
        let s := mkWktSt (k_srid s) (k_first s) r (k_out s) in
        (if Nat.ltb 0 size then put s ")" else s, Ok tt)
    end.

  Definition opt_is_nan (o : option f64) : bool :=
    match o with Some x => f64_is_nan x | None => true end.

  (** wkt_writer.rs:90-233; feature and property callbacks are the defaults (236-238) *)
  Definition wkt_step (s : wktst) (e : event) : wktst * res unit :=
    let begin tag tagged size idx := (geom_begin s tag tagged size idx, Ok tt) in
    match e with
    | Srid v =>                                                                (* 95-98 *)
        (mkWktSt (match k_srid s with Some a => Some a | None => v end)
                 (k_first s) (k_sizes s) (k_out s), Ok tt)
    | Xy x y idx =>                                                            (* 100-108 *)
        let s := wkt_comma s idx in
        (if f64_is_nan x && f64_is_nan y then put s "EMPTY"
         else put s (fmt x ++ " " ++ fmt y), Ok tt)
    | Coord x y z m _ _ idx =>                                                 (* 110-138 *)
        let s := wkt_comma s idx in
        (if f64_is_nan x && f64_is_nan y && opt_is_nan z && opt_is_nan m then put s "EMPTY"
         else
           let s := put s (fmt x ++ " " ++ fmt y) in
           let s := match z with Some z => put s (" " ++ fmt z) | None => s end in
           match m with Some m => put s (" " ++ fmt m) | None => s end, Ok tt)
    | EmptyPoint idx => geom_end (geom_begin s "POINT" true 0 idx)             (* 140-143 *)
    | PointBegin idx => begin "POINT" true 1 idx                               (* 144-146 *)
    | MultiPointBegin size idx => begin "MULTIPOINT" true size idx
    | LineStringBegin tagged size idx => begin "LINESTRING" tagged size idx
    | MultiLineStringBegin size idx => begin "MULTILINESTRING" true size idx
    | PolygonBegin tagged size idx => begin "POLYGON" tagged size idx
    | MultiPolygonBegin size idx => begin "MULTIPOLYGON" true size idx
    | CollectionBegin size idx => begin "GEOMETRYCOLLECTION" true size idx
    | CircularStringBegin size idx => begin "CIRCULARSTRING" true size idx
    | CompoundCurveBegin size idx => begin "COMPOUNDCURVE" true size idx
    | CurvePolygonBegin size idx => begin "CURVEPOLYGON" true size idx
    | MultiCurveBegin size idx => begin "MULTICURVE" true size idx
    | MultiSurfaceBegin size idx => begin "MULTISURFACE" true size idx
    | TriangleBegin tagged size idx => begin "TRIANGLE" tagged size idx
    | PolyhedralSurfaceBegin size idx => begin "POLYHEDRALSURFACE" true size idx
    | TinBegin size idx => begin "TIN" true size idx
    | PointEnd _ | MultiPointEnd _ | LineStringEnd _ _ | MultiLineStringEnd _ | PolygonEnd _ _
    | MultiPolygonEnd _ | CollectionEnd _ | CircularStringEnd _ | CompoundCurveEnd _
    | CurvePolygonEnd _ | MultiCurveEnd _ | MultiSurfaceEnd _ | TriangleEnd _ _
    | PolyhedralSurfaceEnd _ | TinEnd _ => geom_end s
    | _ => default_step s e
    end.

  Definition wkt_writer : proc wktst := mkProc (k_dims c) wkt_step default_prop.
End Writer.

(** wkt_writer.rs:28-43 *)
Definition wkt_init (srid : option Z) : wktst := mkWktSt srid true [] "".

(** mod.rs:46-60 (ToWkt::to_wkt_with_opts); the output is ASCII, so from_utf8 succeeds. *)
Definition to_wkt_with_opts {A} (fmt : f64 -> string) (src : dims -> prog A) (dl : wkt_dialect)
    (d : dims) (srid : option Z) : res string :=
  match exec (wkt_writer fmt (mkWktCfg d dl)) (src d) (wkt_init srid) with
  | (s, Ok _) => Ok (k_out s)
  | (_, Err e) => Err e
  end.
(** mod.rs:34-44 *)
Definition to_wkt {A} (fmt : f64 -> string) (src : dims -> prog A) : res string :=
  to_wkt_with_opts fmt src PlainWkt xy_dims None.
Definition to_ewkt {A} (fmt : f64 -> string) (src : dims -> prog A) (srid : option Z) : res string :=
  to_wkt_with_opts fmt src Ewkt xyzm_dims srid.
Definition to_wkt_ndim {A} (fmt : f64 -> string) (src : dims -> prog A) (d : dims) : res string :=
  to_wkt_with_opts fmt src PlainWkt d None.

(** ** Reader: the parsed geometry of the external crate `wkt` (types.rs of that crate; a point
    has an optional coordinate).  Parsing itself is outside the model. *)
Inductive wkt : Type :=
| WPoint (c : option coord)
| WMultiPoint (l : list (option coord))
| WLineString (l : list coord)
| WMultiLineString (l : list (list coord))
| WPolygon (r : list (list coord))
| WMultiPolygon (l : list (list (list coord)))
| WCollection (l : list wkt).

Section Reader.
  (** processor.multi_dim() *)
  Variable multi : bool.

  (** wkt_reader.rs:150-161 *)
  Definition wkt_coord (idx : nat) (c : coord) : prog unit :=
    if multi then pcall (Coord (cx c) (cy c) (cz c) (cm c) None None idx)
    else pcall (Xy (cx c) (cy c) idx).

  (** wkt_reader.rs:163-175 *)
  Definition wkt_linestring (tagged : bool) (idx : nat) (l : list coord) : prog unit :=
    pthen (pcall (LineStringBegin tagged (length l) idx))
    (pthen (pfor wkt_coord 0 l)
           (pcall (LineStringEnd tagged idx))).

  (** wkt_reader.rs:177-188 *)
  Definition wkt_polygon (tagged : bool) (idx : nat) (r : list (list coord)) : prog unit :=
    pthen (pcall (PolygonBegin tagged (length r) idx))
    (pthen (pfor (wkt_linestring false) 0 r)
           (pcall (PolygonEnd tagged idx))).

  (** wkt_reader.rs:96-148 *)
  Fixpoint process_wkt_geom_n (idx : nat) (g : wkt) : prog unit :=
    match g with
    | WPoint (Some c) =>
        pthen (pcall (PointBegin idx)) (pthen (wkt_coord 0 c) (pcall (PointEnd idx)))
    | WPoint None => pcall (EmptyPoint idx)
    | WMultiPoint l =>
        pthen (pcall (MultiPointBegin (length l) idx))
        (pthen (pfor (fun k p => match p with Some c => wkt_coord k c | None => pret tt end) 0 l)
               (pcall (MultiPointEnd idx)))
    | WLineString l => wkt_linestring true idx l
    | WMultiLineString l =>
        pthen (pcall (MultiLineStringBegin (length l) idx))
        (pthen (pfor (wkt_linestring false) 0 l)
               (pcall (MultiLineStringEnd idx)))
    | WPolygon r => wkt_polygon true idx r
    | WMultiPolygon l =>
        pthen (pcall (MultiPolygonBegin (length l) idx))
        (pthen (pfor (wkt_polygon false) 0 l)
               (pcall (MultiPolygonEnd idx)))
    | WCollection l =>
        pthen (pcall (CollectionBegin (length l) idx))
        (pthen ((fix go (i : nat) (l : list wkt) : prog unit :=
                   match l with
                   | [] => pret tt
                   | a :: r => pthen (process_wkt_geom_n i a) (go (S i) r)
                   end) 0 l)
               (pcall (CollectionEnd idx)))
    end.
End Reader.

(** wkt_reader.rs:91-94 *)
Definition process_wkt_geom (g : wkt) (d : dims) : prog unit :=
  process_wkt_geom_n (multi_dim d) 0 g.

(** mod.rs:71-95 (FromWkb for Wkt<String> and Ewkt<String>; the deprecated WktString and EwktString,
    97-126, are the same code) *)
Definition wkt_from_wkb (fmt : f64 -> string) (dl : dialect) (b : list byte) : res string :=
  to_wkt_with_opts fmt (fun d => process_wkb_type_geom dl d b) PlainWkt xy_dims None.
Definition ewkt_from_wkb (fmt : f64 -> string) (dl : dialect) (b : list byte) : res string :=
  to_wkt_with_opts fmt (fun d => process_wkb_type_geom dl d b) Ewkt xyzm_dims None.
