(** Model of the WKB family writer and readers.
    /repo/geozero/src/wkb/wkb_common.rs, wkb_writer.rs, wkb_reader.rs, mod.rs *)
From Coq Require Import String Ascii.
From Coq Require Import List NArith ZArith Lia Bool.
From Coq Require Import Init.Byte.
From Verif Require Import Base Float Event.
Import ListNotations.
Local Open Scope N_scope.
Local Open Scope list_scope.

(** wkb_common.rs:41-48 *)
Inductive dialect := Wkb | Ewkb | Geopackage | MySQL | SpatiaLite.

(** wkb_common.rs:52-122, the variants below 1000 (readers reduce the code modulo 1000 or
    mask it to 8 bits before classifying, writers only use these). *)
Inductive wtype :=
| TUnknown | TPoint | TLineString | TPolygon | TMultiPoint | TMultiLineString
| TMultiPolygon | TGeometryCollection | TCircularString | TCompoundCurve | TCurvePolygon
| TMultiCurve | TMultiSurface | TCurve | TSurface | TPolyhedralSurface | TTin | TTriangle.

(** `wkb_type as u32` (wkb_common.rs:53-70) *)
Definition type_code (t : wtype) : N :=
  match t with
  | TUnknown => 0 | TPoint => 1 | TLineString => 2 | TPolygon => 3 | TMultiPoint => 4
  | TMultiLineString => 5 | TMultiPolygon => 6 | TGeometryCollection => 7
  | TCircularString => 8 | TCompoundCurve => 9 | TCurvePolygon => 10 | TMultiCurve => 11
  | TMultiSurface => 12 | TCurve => 13 | TSurface => 14 | TPolyhedralSurface => 15
  | TTin => 16 | TTriangle => 17
  end.

(** wkb_common.rs:125-197 (from_u32), restricted to arguments below 1000, which is what all
    callers pass.  (For 1001.. the Rust function returns variants that process_wkb_geom_n
    rejects exactly like Unknown.) *)
Definition type_of_code (n : N) : wtype :=
  match n with
  | 1 => TPoint | 2 => TLineString | 3 => TPolygon | 4 => TMultiPoint
  | 5 => TMultiLineString | 6 => TMultiPolygon | 7 => TGeometryCollection
  | 8 => TCircularString | 9 => TCompoundCurve | 10 => TCurvePolygon | 11 => TMultiCurve
  | 12 => TMultiSurface | 13 => TCurve | 14 => TSurface | 15 => TPolyhedralSurface
  | 16 => TTin | 17 => TTriangle
  | _ => TUnknown
  end.

(** ** Writer *)

(** wkb_writer.rs:32-37 *)
Inductive gstate := Normal | RingGeom | MultiPointGeom.

(** wkb_writer.rs:10-30, the fields that never change after construction *)
Record wcfg := mkWcfg {
  w_dims : dims;
  w_read_dims : dims;
  w_srid : option Z;
  w_envelope : list f64;
  w_env_dims : dims;
  w_extended : bool;
  w_empty : bool;
  w_endian : endian;
  w_dialect : dialect
}.

(** wkb_writer.rs:10-30, the fields that do change *)
Record wst := mkWst {
  w_first : bool;       (* first_header *)
  w_state : gstate;     (* geom_state *)
  w_nest : nat;         (* nesting_level; u32 in Rust, here without bound; see CountModel.v *)
  w_out : list byte     (* out *)
}.

(** wkb_writer.rs:46-68 with_opts and 73-99 with_extended_opts: endian is always LE *)
Definition with_extended_opts (dl : dialect) (d rd : dims) (srid : option Z) (env : list f64)
    (ed : dims) (ext emp : bool) : wcfg :=
  mkWcfg d rd srid env ed ext emp LE dl.
Definition with_opts (dl : dialect) (d : dims) (srid : option Z) (env : list f64) : wcfg :=
  with_extended_opts dl d d srid env xy_dims false false.
Definition wst_init : wst := mkWst true Normal 0 [].

Definition out_app (s : wst) (b : list byte) : wst :=
  mkWst (w_first s) (w_state s) (w_nest s) (w_out s ++ b).
Definition set_first (s : wst) (f : bool) : wst :=
  mkWst f (w_state s) (w_nest s) (w_out s).
Definition set_state (s : wst) (g : gstate) : wst :=
  mkWst (w_first s) g (w_nest s) (w_out s).
Definition nest_incr (s : wst) : wst :=
  mkWst (w_first s) (w_state s) (S (w_nest s)) (w_out s).

Definition w_u8 (n : N) : list byte := [byte_of n].
Definition w_u32 (e : endian) (n : N) : list byte := bytes_of e 4 n.
Definition w_i32 (e : endian) (z : Z) : list byte := bytes_of e 4 (i32_to_u32 z).
Definition w_f64 (e : endian) (x : f64) : list byte := bytes_of e 8 x.

(** wkb_common.rs:200-212 *)
Definition byte_order_mark (e : endian) : N := match e with BE => 0 | LE => 1 end.

(** wkb_writer.rs:125-137 *)
Definition write_wkb_header (c : wcfg) (s : wst) (t : wtype) : wst :=
  let s := out_app s (w_u8 (byte_order_mark (w_endian c))) in
  let type_id := type_code t in
  let type_id := if dz (w_dims c) then type_id + 1000 else type_id in
  let type_id := if dm (w_dims c) then type_id + 2000 else type_id in
  out_app s (w_u32 (w_endian c) type_id).

Definition is_some {A} (o : option A) : bool := match o with Some _ => true | None => false end.

(** wkb_writer.rs:140-165 *)
Definition write_ewkb_header (c : wcfg) (s : wst) (t : wtype) : wst :=
  let s := out_app s (w_u8 (byte_order_mark (w_endian c))) in
  let type_id := type_code t in
  let type_id := if dz (w_dims c) then N.lor type_id 0x80000000 else type_id in
  let type_id := if dm (w_dims c) then N.lor type_id 0x40000000 else type_id in
  let type_id :=
    if is_some (w_srid c) && w_first s then N.lor type_id 0x20000000 else type_id in
  let s := out_app s (w_u32 (w_endian c) type_id) in
  if w_first s then
    let s := match w_srid c with
             | Some srid => out_app s (w_i32 (w_endian c) srid)
             | None => s
             end in
    set_first s false
  else s.

(** wkb_writer.rs:181-190 *)
Definition env_info (c : wcfg) : N :=
  match w_envelope c with
  | [] => 0
  | _ => match dz (w_env_dims c), dm (w_env_dims c) with
         | false, false => 1
         | true, false => 2
         | false, true => 3
         | true, true => 4
         end
  end.

(** wkb_writer.rs:168-208 *)
Definition write_gpkg_header (c : wcfg) (s : wst) : wst :=
  let s := out_app s [x47; x50] in (* "GP" *)
  let s := out_app s (w_u8 0) in
  let flags := 0 in
  let flags := if w_extended c then N.lor flags 32 else flags in
  let flags := if w_empty c then N.lor flags 16 else flags in
  let flags := N.lor flags (N.shiftl (env_info c) 1) in
  let flags := if endian_eqb (w_endian c) LE then N.lor flags 1 else flags in
  let s := out_app s (w_u8 flags) in
  let s := out_app s (w_i32 (w_endian c) (opt_default 0%Z (w_srid c))) in
  out_app s (flat_map (w_f64 (w_endian c)) (w_envelope c)).

(** wkb_writer.rs:211-243.  Line 216 writes the SRID with `iowrite`, i.e. in native byte
    order; modelled as little endian (x86/ARM).  The flag test of 237-239 reads first_header
    after 225 has cleared it. *)
Definition write_spatialite_header (c : wcfg) (s : wst) (t : wtype) : wst :=
  let s :=
    if w_first s then
      let s := out_app s (w_u8 0) in
      let s := out_app s (w_u8 (byte_order_mark (w_endian c))) in
      let s := out_app s (w_i32 LE (opt_default 0%Z (w_srid c))) in
      let env := match w_envelope c with [] => [0; 0; 0; 0] | e => e end in
      let s := out_app s (flat_map (w_f64 (w_endian c)) env) in
      let s := out_app s (w_u8 0x7C) in
      set_first s false
    else out_app s (w_u8 0x69) in
  let type_id := type_code t in
  let type_id := if dz (w_dims c) then type_id + 1000 else type_id in
  let type_id := if dm (w_dims c) then type_id + 2000 else type_id in
  let type_id :=
    if is_some (w_srid c) && w_first s then N.lor type_id 0x20000000 else type_id in
  out_app s (w_u32 (w_endian c) type_id).

(** wkb_writer.rs:246-253 *)
Definition write_mysql_header (c : wcfg) (s : wst) : wst * res unit :=
  match w_srid c with
  | None => (out_app s (w_u32 (w_endian c) 0), Ok tt)
  | Some v => if (v <? 0)%Z then (s, Err (ESrid v))
              else (out_app s (w_u32 (w_endian c) (Z.to_N v)), Ok tt)
  end.

(** wkb_writer.rs:102-122 *)
Definition write_header (c : wcfg) (s : wst) (t : wtype) : wst * res unit :=
  match w_dialect c with
  | Wkb => (write_wkb_header c s t, Ok tt)
  | Ewkb => (write_ewkb_header c s t, Ok tt)
  | Geopackage =>
      let s := if w_first s then set_first (write_gpkg_header c s) false else s in
      (write_wkb_header c s t, Ok tt)
  | MySQL =>
      if w_first s then
        match write_mysql_header c s with
        | (s, Ok _) => (write_wkb_header c (set_first s false) t, Ok tt)
        | (s, Err e) => (s, Err e)
        end
      else (write_wkb_header c s t, Ok tt)
  | SpatiaLite => (write_spatialite_header c s t, Ok tt)
  end.

(** wkb_writer.rs:256-266 *)
Definition write_footer (c : wcfg) (s : wst) : wst * res unit :=
  match w_dialect c with
  | SpatiaLite =>
      if Nat.eqb (w_nest s) 0 then (out_app s (w_u8 0xFE), Ok tt) else (s, Ok tt)
  | Wkb | Ewkb | Geopackage | MySQL => (s, Ok tt)
  end.

(** header followed by `size as u32`, e.g. wkb_writer.rs:340-341 *)
Definition header_size (c : wcfg) (s : wst) (t : wtype) (size : nat) : wst * res unit :=
  match write_header c s t with
  | (s, Ok _) => (out_app s (w_u32 (w_endian c) (N.of_nat size)), Ok tt)
  | (s, Err e) => (s, Err e)
  end.

(** `self.nesting_level -= 1;` then continue; underflow panics (with overflow checks; builds without them wrap:
    CountModel.v) *)
Definition nest_decr (s : wst) (k : wst -> wst * res unit) : wst * res unit :=
  match w_nest s with
  | O => (s, Err EPanic)
  | S n => k (mkWst (w_first s) (w_state s) n (w_out s))
  end.

(** wkb_writer.rs:276-300 *)
Definition write_coordinate (c : wcfg) (s : wst) (x y : f64) (z m : option f64)
  : wst * res unit :=
  let k (s : wst) :=
    let s := out_app s (w_f64 (w_endian c) x) in
    let s := out_app s (w_f64 (w_endian c) y) in
    let s := if dz (w_dims c) then out_app s (w_f64 (w_endian c) (opt_default f64_zero z))
             else s in
    if dm (w_dims c) then out_app s (w_f64 (w_endian c) (opt_default f64_zero m)) else s in
  match w_state s with
  | MultiPointGeom =>
      match write_header c s TPoint with
      | (s, Ok _) => (k s, Ok tt)
      | (s, Err e) => (s, Err e)
      end
  | _ => (k s, Ok tt)
  end.

Definition then_state (g : gstate) (r : wst * res unit) : wst * res unit :=
  match r with
  | (s, Ok _) => (set_state s g, Ok tt)
  | (s, Err e) => (s, Err e)
  end.

(** wkb_writer.rs:269-439 (impl GeomProcessor for WkbWriter); srid, empty_point and the
    feature callbacks are the trait defaults *)
Definition wkb_step (c : wcfg) (s : wst) (e : event) : wst * res unit :=
  match e with
  | Xy x y _ => write_coordinate c s x y None None                      (* 273-275 *)
  | Coord x y z m _ _ _ => write_coordinate c s x y z m                 (* 276-300 *)
  | PointBegin _ => write_header c s TPoint                             (* 301-303 *)
  | PointEnd _ => write_footer c s                                      (* 304-306 *)
  | MultiPointBegin size _ =>                                           (* 307-313 *)
      then_state MultiPointGeom (header_size c (nest_incr s) TMultiPoint size)
  | MultiPointEnd _ => nest_decr s (fun s => write_footer c (set_state s Normal)) (* 314-318 *)
  | LineStringBegin _ size _ =>                                         (* 319-325 *)
      match w_state s with
      | RingGeom => (out_app s (w_u32 (w_endian c) (N.of_nat size)), Ok tt)
      | _ => header_size c s TLineString size
      end
  | LineStringEnd _ _ => write_footer c s                               (* 326-328 *)
  | MultiLineStringBegin size _ => header_size c (nest_incr s) TMultiLineString size (* 329-334 *)
  | MultiLineStringEnd _ => nest_decr s (write_footer c)                (* 335-338 *)
  | PolygonBegin _ size _ =>                                            (* 339-344 *)
      then_state RingGeom (header_size c s TPolygon size)
  | PolygonEnd _ _ => write_footer c (set_state s Normal)               (* 345-348 *)
  | MultiPolygonBegin size _ => header_size c (nest_incr s) TMultiPolygon size (* 349-354 *)
  | MultiPolygonEnd _ => nest_decr s (write_footer c)                   (* 355-358 *)
  | CollectionBegin size _ => header_size c (nest_incr s) TGeometryCollection size (* 359-364 *)
  | CollectionEnd _ => nest_decr s (write_footer c)                     (* 365-368 *)
  | CircularStringBegin size _ => header_size c s TCircularString size  (* 369-373 *)
  | CircularStringEnd _ => write_footer c s                             (* 374-376 *)
  | CompoundCurveBegin size _ => header_size c s TCompoundCurve size    (* 377-381 *)
  | CompoundCurveEnd _ => write_footer c s                              (* 382-384 *)
  | CurvePolygonBegin size _ => header_size c s TCurvePolygon size      (* 385-389 *)
  | CurvePolygonEnd _ => write_footer c s                               (* 390-392 *)
  | MultiCurveBegin size _ => header_size c (nest_incr s) TMultiCurve size (* 393-398 *)
  | MultiCurveEnd _ => nest_decr s (write_footer c)                     (* 399-402 *)
  | MultiSurfaceBegin size _ => header_size c (nest_incr s) TMultiSurface size (* 403-408 *)
  | MultiSurfaceEnd _ => nest_decr s (write_footer c)                   (* 409-412 *)
  | TriangleBegin _ size _ =>                                           (* 413-418 *)
      then_state RingGeom (header_size c s TTriangle size)
  | TriangleEnd _ _ => write_footer c (set_state s Normal)              (* 419-422 *)
  | PolyhedralSurfaceBegin size _ => header_size c s TPolyhedralSurface size (* 423-427 *)
  | PolyhedralSurfaceEnd _ => write_footer c s                          (* 428-430 *)
  | TinBegin size _ => header_size c s TTin size                        (* 431-435 *)
  | TinEnd _ => write_footer c s                                        (* 436-438 *)
  | _ => default_step s e
  end.

(** WkbWriter as a processor; dimensions() is read_dims (270-272); PropertyProcessor and
    FeatureProcessor are the defaults (441-443) *)
Definition wkb_writer (c : wcfg) : proc wst := mkProc (w_read_dims c) (wkb_step c) default_prop.

(** ** Reader monad: a byte source and the callbacks *)
Definition rd (A : Type) : Type := list byte -> prog (A * list byte).
Definition rret {A} (a : A) : rd A := fun b => pret (a, b).
Definition rbind {A B} (f : rd A) (g : A -> rd B) : rd B :=
  fun b => pbind (f b) (fun ab => g (fst ab) (snd ab)).
Definition rcall (e : event) : rd unit := fun b => Call e (pret (tt, b)).
Definition rfail {A} (e : error) : rd A := fun _ => pfail e.
(** scroll IOread: read_exact, a short source is an I/O error *)
Definition rtake (n : nat) : rd (list byte) :=
  fun b => if Nat.ltb (length b) n then pfail EIo else pret (firstn n b, skipn n b).
Definition rmap {A B} (f : A -> B) (r : rd A) : rd B := rbind r (fun a => rret (f a)).

(** `for i in i0..(i0+n) { f(i)?; }` *)
Fixpoint rfor (f : nat -> rd unit) (n i : nat) : rd unit :=
  match n with
  | O => rret tt
  | S n' => rbind (f i) (fun _ => rfor f n' (S i))
  end.

Notation "x <- f ;; g" := (rbind f (fun x => g)) (at level 61, f at next level, right associativity).
Notation "f ;;; g" := (rbind f (fun _ => g)) (at level 61, right associativity).

Definition r_u8 : rd N := rmap le_val (rtake 1).
Definition r_u32 (e : endian) : rd N := rmap (val_of e) (rtake 4).
Definition r_i32 (e : endian) : rd Z := rmap u32_to_i32 (r_u32 e).
Definition r_f64 (e : endian) : rd f64 := rmap (val_of e) (rtake 8).
Definition r_f32 (e : endian) : rd N := rmap (val_of e) (rtake 4).

(** [n] f64 values (envelope, wkb_reader.rs:264-267, 311-313) *)
Fixpoint r_f64s (e : endian) (n : nat) : rd (list f64) :=
  match n with
  | O => rret []
  | S n' => x <- r_f64 e ;; l <- r_f64s e n' ;; rret (x :: l)
  end.

(** wkb_reader.rs:168-178 *)
Record info := mkInfo {
  i_endian : endian;
  i_type : wtype;
  i_z : bool;
  i_m : bool;
  i_srid : option Z;
  i_envelope : list f64;
  i_compressed : bool
}.

(** wkb_reader.rs:180-189 *)
Definition info_dims (i : info) : dims := mkDims (i_z i) (i_m i) false false.

(** Endian::from(bool) *)
Definition endian_of (little : bool) : endian := if little then LE else BE.

(** matches!(d, 1 | 3), matches!(d, 2 | 3) *)
Definition dim_has_z (d : N) : bool := (d =? 1) || (d =? 3).
Definition dim_has_m (d : N) : bool := (d =? 2) || (d =? 3).

(** wkb_reader.rs:192-209 *)
Definition read_wkb_header : rd info :=
  byte_order <- r_u8 ;;
  let e := endian_of (negb (byte_order =? 0)) in
  type_id <- r_u32 e ;;
  let d := type_id / 1000 in
  rret (mkInfo e (type_of_code (type_id mod 1000)) (dim_has_z d) (dim_has_m d) None [] false).

(** wkb_reader.rs:211-213 *)
Definition read_wkb_nested_header (_ : info) : rd info := read_wkb_header.

Definition has_flag (n flag : N) : bool := N.land n flag =? flag.

(** wkb_reader.rs:216-237 *)
Definition read_ewkb_header : rd info :=
  byte_order <- r_u8 ;;
  let e := endian_of (negb (byte_order =? 0)) in
  type_id <- r_u32 e ;;
  srid <- (if has_flag type_id 0x20000000 then rmap Some (r_i32 e) else rret None) ;;
  rret (mkInfo e (type_of_code (N.land type_id 0xFF))
          (has_flag type_id 0x80000000) (has_flag type_id 0x40000000) srid [] false).

(** wkb_reader.rs:239-241 *)
Definition read_ewkb_nested_header (_ : info) : rd info := read_ewkb_header.

(** wkb_reader.rs:254-260 *)
Definition gpkg_env_len (code : N) : res nat :=
  match code with
  | 0 => Ok 0%nat
  | 1 => Ok 4%nat
  | 2 | 3 => Ok 6%nat
  | 4 => Ok 8%nat
  | _ => Err EGeometryFormat
  end.

(** wkb_reader.rs:244-281 *)
Definition read_gpkg_header : rd info :=
  m0 <- r_u8 ;;
  m1 <- r_u8 ;;
  if negb ((m0 =? 0x47) && (m1 =? 0x50)) then rfail EGeometryFormat else
  _version <- r_u8 ;;
  flags <- r_u8 ;;
  match gpkg_env_len (N.shiftr (N.land flags 14) 1) with
  | Err e => rfail e
  | Ok env_len =>
      let e := endian_of (negb (N.land flags 1 =? 0)) in
      srid <- r_i32 e ;;
      envelope <- r_f64s e env_len ;;
      ogc <- read_wkb_header ;;
      rret (mkInfo e (i_type ogc) (i_z ogc) (i_m ogc) (Some srid) envelope false)
  end.

(** wkb_reader.rs:284-332 *)
Definition read_spatialite_header : rd info :=
  start <- r_u8 ;;
  if negb (start =? 0) then rfail EGeometryFormat else
  flags <- r_u8 ;;
  let e := endian_of (negb (N.land flags 1 =? 0)) in
  let tiny := negb (N.land flags 128 =? 0) in
  srid_raw <- r_i32 e ;;
  let srid := if (srid_raw =? 0)%Z then None else Some srid_raw in
  if tiny then
    d <- r_u8 ;;
    rret (mkInfo e TPoint ((d =? 2) || (d =? 4)) ((d =? 3) || (d =? 4)) srid [] false)
  else
    envelope <- r_f64s e 4 ;;
    mbr_end <- r_u8 ;;
    if negb (mbr_end =? 0x7C) then rfail EGeometryFormat else
    type_id <- r_u32 e ;;
    let d := (type_id mod 1000000) / 1000 in
    rret (mkInfo e (type_of_code (type_id mod 1000)) (dim_has_z d) (dim_has_m d) srid envelope
            (1000000 <? type_id)).

(** wkb_reader.rs:334-352 *)
Definition read_spatialite_nested_header (i : info) : rd info :=
  start <- r_u8 ;;
  if negb (start =? 0x69) then rfail EGeometryFormat else
  type_id <- r_u32 (i_endian i) ;;
  rret (mkInfo (i_endian i) (type_of_code (type_id mod 1000)) (i_z i) (i_m i) (i_srid i) []
          (1000000 <? type_id)).

(** wkb_reader.rs:355-367 *)
Definition read_mysql_header : rd info :=
  srid <- r_u32 LE ;;
  if 2 ^ 31 <=? srid then rfail EGeometryFormat else
  i <- read_wkb_header ;;
  if negb (endian_eqb (i_endian i) LE) then rfail EGeometryFormat else
  rret (mkInfo (i_endian i) (i_type i) (i_z i) (i_m i) (Some (Z.of_N srid)) (i_envelope i)
          (i_compressed i)).

Definition rawcoord : Type := (f64 * f64 * option f64 * option f64)%type.

(** wkb_reader.rs:540-557 instantiated at f64 and f32 *)
Definition read_coord_as (as_f32 : bool) (i : info) : rd rawcoord :=
  let ordinate := if as_f32 then rmap f32_to_f64 (r_f32 (i_endian i)) else r_f64 (i_endian i) in
  x <- ordinate ;;
  y <- ordinate ;;
  z <- (if i_z i then rmap Some ordinate else rret None) ;;
  m <- (if i_m i then rmap Some (r_f64 (i_endian i)) else rret None) ;;
  rret (x, y, z, m).

(** wkb_reader.rs:490-503 *)
Definition emit_coord (multi : bool) (idx : nat) (c : rawcoord) : rd rawcoord :=
  let '(x, y, z, m) := c in
  rcall (if multi then Coord x y z m None None idx else Xy x y idx) ;;;
  rret c.

(** wkb_reader.rs:505-514 *)
Definition process_coord (multi : bool) (i : info) (idx : nat) : rd rawcoord :=
  c <- read_coord_as false i ;; emit_coord multi idx c.

Definition opt_zip_add (a b : option f64) : option f64 :=
  match a, b with Some a, Some b => Some (f64_add a b) | _, _ => None end.

(** wkb_reader.rs:516-538 *)
Definition process_compressed_coord (multi : bool) (i : info) (idx : nat) (prev : rawcoord)
  : rd rawcoord :=
  c <- read_coord_as true i ;;
  let '(rx, ry, rz, rm) := c in
  let '(px, py, pz, _) := prev in
  let x := f64_add px rx in
  let y := f64_add py ry in
  if multi then
    let z := opt_zip_add pz rz in
    rcall (Coord x y z rm None None idx) ;;; rret (x, y, z, rm)
  else
    rcall (Xy x y idx) ;;; rret (x, y, None, None).

(** the loop of wkb_reader.rs:571-573 *)
Fixpoint compressed_loop (multi : bool) (i : info) (n idx : nat) (prev : rawcoord) : rd rawcoord :=
  match n with
  | O => rret prev
  | S n' =>
      c <- process_compressed_coord multi i idx prev ;;
      compressed_loop multi i n' (S idx) c
  end.

(** `for i in 0..n { process_coord(..., i)?; }` *)
Definition process_coords (multi : bool) (i : info) (n : nat) : rd unit :=
  rfor (fun idx => process_coord multi i idx ;;; rret tt) n 0.

(** wkb_reader.rs:559-581; 1..(length-1) has length-2 elements (saturating) *)
Definition process_linestring (multi : bool) (i : info) (tagged : bool) (idx : nat) : rd unit :=
  len <- r_u32 (i_endian i) ;;
  let length := N.to_nat len in
  rcall (LineStringBegin tagged length idx) ;;;
  (if i_compressed i && Nat.ltb 0 length then
     first <- process_coord multi i 0 ;;
     _prev <- compressed_loop multi i (length - 2) 1 first ;;
     process_coord multi i length ;;; rret tt
   else process_coords multi i length) ;;;
  rcall (LineStringEnd tagged idx).

(** wkb_reader.rs:583-596 *)
Definition process_circularstring (multi : bool) (i : info) (idx : nat) : rd unit :=
  len <- r_u32 (i_endian i) ;;
  let length := N.to_nat len in
  rcall (CircularStringBegin length idx) ;;;
  process_coords multi i length ;;;
  rcall (CircularStringEnd idx).

(** wkb_reader.rs:598-611 *)
Definition process_polygon (multi : bool) (i : info) (tagged : bool) (idx : nat) : rd unit :=
  n <- r_u32 (i_endian i) ;;
  let ring_count := N.to_nat n in
  rcall (PolygonBegin tagged ring_count idx) ;;;
  rfor (fun k => process_linestring multi i false k) ring_count 0 ;;;
  rcall (PolygonEnd tagged idx).

(** wkb_reader.rs:613-626 *)
Definition process_triangle (multi : bool) (i : info) (tagged : bool) (idx : nat) : rd unit :=
  n <- r_u32 (i_endian i) ;;
  let ring_count := N.to_nat n in
  rcall (TriangleBegin tagged ring_count idx) ;;;
  rfor (fun k => process_linestring multi i false k) ring_count 0 ;;;
  rcall (TriangleEnd tagged idx).

(** wkb_reader.rs:5 *)
Definition max_nesting_depth : nat := 128.
Definition nesting_error : error := EMaxNesting (N.of_nat max_nesting_depth).

(** wkb_reader.rs:628-654 *)
Definition process_compoundcurve (multi : bool) (rh : info -> rd info) (i : info) (idx depth : nat)
  : rd unit :=
  if Nat.ltb max_nesting_depth depth then rfail nesting_error else
  n <- r_u32 (i_endian i) ;;
  let n_strings := N.to_nat n in
  rcall (CompoundCurveBegin n_strings idx) ;;;
  rfor (fun k =>
          ci <- rh i ;;
          match i_type ci with
          | TCircularString => process_circularstring multi ci k
          | TLineString => process_linestring multi ci false k
          | _ => rfail EGeometryFormat
          end) n_strings 0 ;;;
  rcall (CompoundCurveEnd idx).

(** wkb_reader.rs:656-673 *)
Definition process_curve (multi : bool) (rh : info -> rd info) (i : info) (idx depth : nat)
  : rd unit :=
  ci <- rh i ;;
  match i_type ci with
  | TCircularString => process_circularstring multi ci idx
  | TLineString => process_linestring multi ci false idx
  | TCompoundCurve => process_compoundcurve multi rh ci idx (depth + 1)
  | _ => rfail EGeometryFormat
  end.

(** wkb_reader.rs:675-692 *)
Definition process_curvepolygon (multi : bool) (rh : info -> rd info) (i : info) (idx depth : nat)
  : rd unit :=
  if Nat.ltb max_nesting_depth depth then rfail nesting_error else
  n <- r_u32 (i_endian i) ;;
  let ring_count := N.to_nat n in
  rcall (CurvePolygonBegin ring_count idx) ;;;
  rfor (fun k => process_curve multi rh i k (depth + 1)) ring_count 0 ;;;
  rcall (CurvePolygonEnd idx).

Definition opt_nan (o : option f64) : bool :=
  match o with Some x => f64_is_nan x | None => true end.

(** wkb_reader.rs:369-488.  [fuel] only makes the recursion structural: the depth test of
    line 377 stops it first (see the totality theorem). *)
Fixpoint process_geom_n (fuel : nat) (multi : bool) (rh : info -> rd info)
    (i : info) (idx depth : nat) {struct fuel} : rd unit :=
  match fuel with
  | O => rfail EFuel
  | S fuel' =>
    if Nat.ltb max_nesting_depth depth then rfail nesting_error else
    match i_type i with
    | TPoint =>
        c <- read_coord_as false i ;;
        let '(x, y, z, m) := c in
        if f64_is_nan x && f64_is_nan y && opt_nan z && opt_nan m then rcall (EmptyPoint idx)
        else rcall (PointBegin idx) ;;; emit_coord multi 0 c ;;; rcall (PointEnd idx)
    | TMultiPoint =>
        n <- r_u32 (i_endian i) ;;
        let n_pts := N.to_nat n in
        rcall (MultiPointBegin n_pts idx) ;;;
        rfor (fun k => ci <- rh i ;; process_coord multi ci k ;;; rret tt) n_pts 0 ;;;
        rcall (MultiPointEnd idx)
    | TLineString => process_linestring multi i true idx
    | TCircularString => process_circularstring multi i idx
    | TCompoundCurve => process_compoundcurve multi rh i idx (depth + 1)
    | TMultiLineString =>
        n <- r_u32 (i_endian i) ;;
        let n_lines := N.to_nat n in
        rcall (MultiLineStringBegin n_lines idx) ;;;
        rfor (fun k => ci <- rh i ;; process_linestring multi ci false k) n_lines 0 ;;;
        rcall (MultiLineStringEnd idx)
    | TMultiCurve =>
        n <- r_u32 (i_endian i) ;;
        let n_curves := N.to_nat n in
        rcall (MultiCurveBegin n_curves idx) ;;;
        rfor (fun k => process_curve multi rh i k (depth + 1)) n_curves 0 ;;;
        rcall (MultiCurveEnd idx)
    | TPolygon => process_polygon multi i true idx
    | TTriangle => process_triangle multi i true idx
    | TCurvePolygon => process_curvepolygon multi rh i idx (depth + 1)
    | TMultiPolygon =>
        n <- r_u32 (i_endian i) ;;
        let n_polys := N.to_nat n in
        rcall (MultiPolygonBegin n_polys idx) ;;;
        rfor (fun k => ci <- rh i ;; process_polygon multi ci false k) n_polys 0 ;;;
        rcall (MultiPolygonEnd idx)
    | TPolyhedralSurface =>
        n <- r_u32 (i_endian i) ;;
        let n_polys := N.to_nat n in
        rcall (PolyhedralSurfaceBegin n_polys idx) ;;;
        rfor (fun k => ci <- rh i ;; process_polygon multi ci false k) n_polys 0 ;;;
        rcall (PolyhedralSurfaceEnd idx)
    | TTin =>
        n <- r_u32 (i_endian i) ;;
        let n_triangles := N.to_nat n in
        rcall (TinBegin n_triangles idx) ;;;
        rfor (fun k => ci <- rh i ;; process_triangle multi ci false k) n_triangles 0 ;;;
        rcall (TinEnd idx)
    | TMultiSurface =>
        n <- r_u32 (i_endian i) ;;
        let n_polys := N.to_nat n in
        rcall (MultiSurfaceBegin n_polys idx) ;;;
        rfor (fun k =>
                ci <- rh i ;;
                match i_type ci with
                | TCurvePolygon => process_curvepolygon multi rh ci k (depth + 1)
                | TPolygon => process_polygon multi ci false k
                | _ => rfail EGeometryFormat
                end) n_polys 0 ;;;
        rcall (MultiSurfaceEnd idx)
    | TGeometryCollection =>
        n <- r_u32 (i_endian i) ;;
        let n_geoms := N.to_nat n in
        rcall (CollectionBegin n_geoms idx) ;;;
        rfor (fun k => ci <- rh i ;; process_geom_n fuel' multi rh ci k (depth + 1)) n_geoms 0 ;;;
        rcall (CollectionEnd idx)
    | _ => rfail EGeometryFormat
    end
  end.

(** enough for depths 0..129 *)
Definition geom_fuel : nat := 130.

(** top level readers, wkb_reader.rs:115-150 *)
Definition read_header (dl : dialect) : rd info :=
  match dl with
  | Wkb => read_wkb_header
  | Ewkb => read_ewkb_header
  | Geopackage => read_gpkg_header
  | SpatiaLite => read_spatialite_header
  | MySQL => read_mysql_header
  end.

Definition nested_header (dl : dialect) : info -> rd info :=
  match dl with
  | Wkb | Geopackage | MySQL => read_wkb_nested_header
  | Ewkb => read_ewkb_nested_header
  | SpatiaLite => read_spatialite_nested_header
  end.

(** wkb_reader.rs:115-165 (process_wkb_geom .. process_wkb_type_geom); [d] is the processor's
    dimensions() *)
Definition process_wkb_type_geom (dl : dialect) (d : dims) : rd unit :=
  i <- read_header dl ;;
  rcall (Srid (i_srid i)) ;;;
  process_geom_n geom_fuel (multi_dim d) (nested_header dl) i 0 0.

(** GeozeroGeometry::dims / srid of the wrappers, wkb_reader.rs:21-112.  The header readers
    make no callbacks. *)
Definition header_info (dl : dialect) (b : list byte) : option info :=
  match read_header dl b with Done (Ok (i, _)) => Some i | _ => None end.
Definition wrapper_dims (dl : dialect) (b : list byte) : dims :=
  match header_info dl b with Some i => info_dims i | None => xy_dims end.
(** Wkb has no srid() override (default None, api.rs) *)
Definition wrapper_srid (dl : dialect) (b : list byte) : option Z :=
  match dl with
  | Wkb => None
  | _ => match header_info dl b with Some i => i_srid i | None => None end
  end.

(** mod.rs:86-97 (ToWkb::to_wkb_dialect): [src d] is process_geom of the source against a
    processor with dimensions d. *)
Definition to_wkb_dialect (src : dims -> prog unit) (dl : dialect) (d : dims) (srid : option Z)
    (envelope : list f64) : res (list byte) :=
  let c := with_opts dl d srid envelope in
  match exec (wkb_writer c) (src (w_read_dims c)) wst_init with
  | (s, Ok _) => Ok (w_out s)
  | (_, Err e) => Err e
  end.

(** Drive a WkbWriter over a Vec<u8> through the callbacks [l] and take the bytes. *)
Definition write_all (c : wcfg) (l : list event) : res (list byte) :=
  match run (wkb_writer c) l wst_init with
  | (s, Ok _) => Ok (w_out s)
  | (_, Err e) => Err e
  end.
