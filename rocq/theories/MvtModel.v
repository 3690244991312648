(** Model of /repo/geozero/src/mvt: MvtWriter (mvt_writer.rs), the reader of decoded layers
    (mvt_reader.rs) and the conversions of mod.rs.  The crate fast-mvt (protobuf encoding) is not
    modelled: its MvtLayer, MvtFeature and MvtValue are plain records here. *)
From Coq Require Import String Ascii.
From Coq Require Import List NArith ZArith Lia Bool.
From Coq Require Import Floats.SpecFloat.
From Verif Require Import Base Float Event GeoModel.
From Verif Require WkbModel.
Import ListNotations.
Local Open Scope N_scope.
Local Open Scope list_scope.

(** ** Conversions between floating point and integers (Rust's) *)

(** [s m e]: the integer part of m * 2^e, rounded towards minus infinity resp. zero *)
Definition floor_int (s : bool) (m : positive) (e : Z) : Z :=
  let z := cond_Zopp s (Zpos m) in if (0 <=? e)%Z then (z * 2 ^ e)%Z else (z / 2 ^ (- e))%Z.
Definition trunc_int (s : bool) (m : positive) (e : Z) : Z :=
  cond_Zopp s (if (0 <=? e)%Z then (Zpos m * 2 ^ e)%Z else (Zpos m / 2 ^ (- e))%Z).

(** f64::from(z) for z: i32 or u32 (exact); the nearest f64 for larger z *)
Definition f64_of_int (z : Z) : f64 := f64_encode (binary_normalize 53 1024 z 0 false).
(** f64::floor *)
Definition f64_floor (x : f64) : f64 :=
  match f64_decode x with
  | S754_finite s m e =>
      if (0 <=? e)%Z then x else f64_encode (binary_normalize 53 1024 (floor_int s m e) 0 s)
  | _ => x
  end.
Definition i32_min : Z := -2147483648.
Definition i32_max : Z := 2147483647.
Definition clamp_i32 (z : Z) : Z := Z.max i32_min (Z.min i32_max z).
(** `x as i32`: towards zero, saturating, NaN to 0 *)
Definition f64_as_i32 (x : f64) : Z :=
  match f64_decode x with
  | S754_nan => 0
  | S754_zero _ => 0
  | S754_infinity s => if s then i32_min else i32_max
  | S754_finite s m e => clamp_i32 (trunc_int s m e)
  end.
(** `n as i32` for n: u32 wraps *)
Definition u32_as_i32 (n : N) : Z :=
  if n <? 2147483648 then Z.of_N n else (Z.of_N n - 4294967296)%Z.
(** i32::saturating_sub *)
Definition saturating_sub (a b : Z) : Z := clamp_i32 (a - b).

(** ** geo_types values over i32 (crate geo-types, third party; constructors only) *)
Definition tpos : Type := (Z * Z)%type.
Definition tline : Type := list tpos.
Definition tpoly : Type := (tline * list tline)%type.     (* exterior, interiors *)
Inductive tgeom : Type :=
| MPoint (p : tpos)
| MLine (a b : tpos)
| MLineString (l : tline)
| MPolygon (p : tpoly)
| MMultiPoint (l : list tpos)
| MMultiLineString (l : list tline)
| MMultiPolygon (l : list tpoly)
| MCollection (l : list tgeom)
| MRect (min max : tpos)
| MTriangle (a b c : tpos).

Definition tpos_eqb (a b : tpos) : bool := (Z.eqb (fst a) (fst b) && Z.eqb (snd a) (snd b))%bool.
(** LineString::is_closed, LineString::close, Polygon::new, as in GeoModel.v *)
Definition tclosed (l : tline) : bool :=
  match l with [] => true | a :: _ => tpos_eqb a (last l a) end.
Definition tclose (l : tline) : tline :=
  if tclosed l then l else match l with [] => [] | a :: _ => l ++ [a] end.
Definition tpolygon_new (e : tline) (i : list tline) : tpoly := (tclose e, map tclose i).

(** ** fast_mvt::MvtValue, MvtFeature, MvtLayer *)
Inductive mval : Type :=
| VString (v : string) | VFloat (v : N) | VDouble (v : f64)
| VInt (v : Z) | VUInt (v : Z) | VSInt (v : Z) | VBool (v : bool) | VNull.
Record mfeature := mkMFeature {
  mf_id : option N;
  mf_geometry : tgeom;
  mf_properties : list (string * mval)
}.
Record mlayer := mkLayer {
  ml_name : string;
  ml_extent : N;
  ml_features : list mfeature
}.
(** mvt_error.rs, by position *)
Definition InvalidExtent := EMvt 1.
Definition TooFewCoordinates := EMvt 2.

(** ** Writer *)

(** mvt_writer.rs:77-83, the fields that never change *)
Record mcfg := mkMCfg {
  mc_extent : N;
  mc_scale : bool;
  mc_left : f64;
  mc_bottom : f64;
  mc_xm : f64;                    (* x_multiplier *)
  mc_ym : f64
}.
(** mvt_writer.rs:62-75; [mw_coll]: stack, innermost collection first *)
Record mw := mkMw {
  mw_features : list mfeature;
  mw_props : list (string * mval);
  mw_geoms : list tgeom;
  mw_coll : list (list tgeom);
  mw_polys : option (list tpoly);
  mw_lines : option (list tline);
  mw_coords : option (list tpos)
}.
Definition mw_init : mw := mkMw [] [] [] [] None None None.

(** mvt_writer.rs:87-101 *)
Definition mvt_new (extent : N) (left bottom right top : f64) : res mcfg :=
  if extent =? 0 then Err InvalidExtent
  else Ok (mkMCfg extent true left bottom
             (f64_div (f64_of_int (Z.of_N extent)) (f64_sub right left))
             (f64_div (f64_of_int (Z.of_N extent)) (f64_sub top bottom))).
(** mvt_writer.rs:107-131; 1.0 is 0x3FF0000000000000 *)
Definition mvt_unscaled (extent : N) : res mcfg :=
  if extent =? 0 then Err InvalidExtent
  else Ok (mkMCfg extent false 0 0 0x3FF0000000000000 0x3FF0000000000000).

(** mvt_writer.rs:158-173 *)
Definition transform (c : mcfg) (x y : f64) : tpos :=
  if mc_scale c then
    let x := f64_as_i32 (f64_floor (f64_mul (f64_sub x (mc_left c)) (mc_xm c))) in
    let y := f64_as_i32 (f64_floor (f64_mul (f64_sub y (mc_bottom c)) (mc_ym c))) in
    (x, saturating_sub (u32_as_i32 (mc_extent c)) y)
  else (f64_as_i32 x, f64_as_i32 y).

Definition mset_polys s x := mkMw (mw_features s) (mw_props s) (mw_geoms s) (mw_coll s) x (mw_lines s) (mw_coords s).
Definition mset_lines s x := mkMw (mw_features s) (mw_props s) (mw_geoms s) (mw_coll s) (mw_polys s) x (mw_coords s).
Definition mset_coords s x := mkMw (mw_features s) (mw_props s) (mw_geoms s) (mw_coll s) (mw_polys s) (mw_lines s) x.
Definition mset_coll s x := mkMw (mw_features s) (mw_props s) (mw_geoms s) x (mw_polys s) (mw_lines s) (mw_coords s).
Definition mset_geoms s x := mkMw (mw_features s) (mw_props s) x (mw_coll s) (mw_polys s) (mw_lines s) (mw_coords s).
Definition mset_props s x := mkMw (mw_features s) x (mw_geoms s) (mw_coll s) (mw_polys s) (mw_lines s) (mw_coords s).

(** mvt_writer.rs:175-182 *)
Definition mfinish (s : mw) (g : tgeom) : mw * res unit :=
  match mw_coll s with
  | c :: r => (mset_coll s ((c ++ [g]) :: r), Ok tt)
  | [] => (mset_geoms s (mw_geoms s ++ [g]), Ok tt)
  end.
(** mvt_writer.rs:184-192 *)
Definition mtake (s : mw) : mw * option tgeom :=
  match mw_geoms s with
  | [] => (s, None)
  | [g] => (mset_geoms s [], Some g)
  | l => (mset_geoms s [], Some (MCollection l))
  end.
(** mvt_writer.rs:196-203 *)
Definition distinct_ring_coords (ring : tline) : nat :=
  if Nat.leb 2 (length ring) && tclosed ring then length ring - 1 else length ring.

(** size_of on 64-bit targets: Coord<i32> 8, LineString 24, Polygon 48.  Geometry<i32> is 48 or 56,
    depending on how the compiler stores the tag: the argument [gsize] *)
Definition tcoord_size : N := 8.

(** `debug_assert!(..)` *)
Definition massert (debug cond : bool) (s : mw) (k : mw * res unit) : mw * res unit :=
  if debug && negb cond then (s, Err EPanic) else k.
(** `self.f = Some(bounded_vec(size)?)` *)
Definition mreserve {A} (elt : N) (size : nat) (s : mw) (set : mw -> option (list A) -> mw) : mw * res unit :=
  match bounded_vec elt (N.of_nat size) with
  | Ok _ => (set s (Some []), Ok tt)
  | Err e => (s, Err e)
  end.

Section Writer.
  Variable gsize : N.
  (** BASE64_STANDARD.encode (crate base64) *)
  Variable base64 : list Byte.byte -> string.
  (** debug assertions enabled *)
  Variable debug : bool.
  Variable c : mcfg.

  (** mvt_writer.rs:206-214 *)
  Definition m_xy (s : mw) (x y : f64) : mw * res unit :=
    match mw_coords s with
    | None => (s, Err EGeometry)
    | Some l => (mset_coords s (Some (l ++ [transform c x y])), Ok tt)
    end.

  (** mvt_writer.rs:205-347 and 357-375; everything else is the trait default, also `coordinate`, which
      does nothing *)
  Definition mvt_step (s : mw) (e : event) : mw * res unit :=
    match e with
    | Xy x y _ => m_xy s x y
    | PointBegin _ =>                                                    (* 216-220 *)
        massert debug (is_none (mw_coords s)) s (mset_coords s (Some []), Ok tt)
    | PointEnd _ =>                                                      (* 222-231 *)
        match mw_coords s with
        | None => (s, Err EGeometry)
        | Some l =>
            let s := mset_coords s None in
            match l with
            | [] => (s, Err EGeometry)
            | p :: _ => mfinish s (MPoint p)
            end
        end
    | MultiPointBegin size _ =>                                          (* 233-237 *)
        massert debug (is_none (mw_coords s)) s (mreserve tcoord_size size s mset_coords)
    | MultiPointEnd _ =>                                                 (* 239-246 *)
        match mw_coords s with
        | None => (s, Err EGeometry)
        | Some l => mfinish (mset_coords s None) (MMultiPoint l)
        end
    | LineStringBegin _ size _ =>                                        (* 248-252 *)
        massert debug (is_none (mw_coords s)) s (mreserve tcoord_size size s mset_coords)
    | LineStringEnd tagged _ =>                                          (* 254-272 *)
        match mw_coords s with
        | None => (s, Err EGeometry)
        | Some l =>
            let s := mset_coords s None in
            if tagged then
              if Nat.ltb (length l) 2 then (s, Err TooFewCoordinates) else mfinish s (MLineString l)
            else match mw_lines s with
                 | None => (s, Err EGeometry)
                 | Some ls => (mset_lines s (Some (ls ++ [l])), Ok tt)
                 end
        end
    | MultiLineStringBegin size _ =>                                     (* 274-278 *)
        massert debug (is_none (mw_lines s)) s (mreserve linestring_size size s mset_lines)
    | MultiLineStringEnd _ =>                                            (* 280-288 *)
        match mw_lines s with
        | None => (s, Err EGeometry)
        | Some ls =>
            let s := mset_lines s None in
            if existsb (fun l : tline => Nat.ltb (length l) 2) ls then (s, Err TooFewCoordinates)
            else mfinish s (MMultiLineString ls)
        end
    | PolygonBegin _ size _ =>                                           (* 290-294 *)
        massert debug (is_none (mw_lines s)) s (mreserve linestring_size size s mset_lines)
    | PolygonEnd tagged _ =>                                             (* 296-320 *)
        match mw_lines s with
        | None => (s, Err EGeometry)
        | Some ls =>
            let s := mset_lines s None in
            match ls with
            | [] => (s, Err TooFewCoordinates)
            | exterior :: interiors =>
                if existsb (fun l => Nat.ltb (distinct_ring_coords l) 3) ls then (s, Err TooFewCoordinates)
                else
                  let polygon := tpolygon_new exterior interiors in
                  if tagged then mfinish s (MPolygon polygon)
                  else match mw_polys s with
                       | None => (s, Err EGeometry)
                       | Some ps => (mset_polys s (Some (ps ++ [polygon])), Ok tt)
                       end
            end
        end
    | MultiPolygonBegin size _ =>                                        (* 322-326 *)
        massert debug (is_none (mw_polys s)) s (mreserve polygon_size size s mset_polys)
    | MultiPolygonEnd _ =>                                               (* 328-333 *)
        match mw_polys s with
        | None => (s, Err EGeometry)
        | Some ps => mfinish (mset_polys s None) (MMultiPolygon ps)
        end
    | CollectionBegin size _ =>                                          (* 335-338 *)
        match bounded_vec gsize (N.of_nat size) with
        | Ok _ => (mset_coll s ([] :: mw_coll s), Ok tt)
        | Err e => (s, Err e)
        end
    | CollectionEnd _ =>                                                 (* 340-346 *)
        match mw_coll s with
        | [] => (s, Err EGeometry)
        | l :: r => mfinish (mset_coll s r) (MCollection l)
        end
    | FeatureBegin _ => (mset_props s [], Ok tt)                         (* 358-361 *)
    | FeatureEnd _ =>                                                    (* 363-374 *)
        match mtake s with
        | (s, None) => (s, Ok tt)
        | (s, Some g) =>
            (mkMw (mw_features s ++ [mkMFeature None g (mw_props s)]) [] (mw_geoms s) (mw_coll s)
                  (mw_polys s) (mw_lines s) (mw_coords s), Ok tt)
        end
    | _ => default_step s e
    end.

  (** mvt_writer.rs:380-402 *)
  Definition mvt_value (v : colval) : mval :=
    match v with
    | CByte z => VSInt z
    | CUByte z => VUInt z
    | CBool b => VBool b
    | CShort z => VSInt z
    | CUShort z => VUInt z
    | CInt z => VSInt z
    | CUInt z => VUInt z
    | CLong z => VSInt z
    | CULong z => VUInt z
    | CFloat x => VFloat x
    | CDouble x => VDouble x
    | CString s => VString s
    | CJson s => VString s
    | CDateTime s => VString s
    | CBinary b => VString (base64 b)
    end.
  (** mvt_writer.rs:349-355 *)
  Definition mvt_prop (s : mw) (i : nat) (n : string) (v : colval) : mw * res bool :=
    (mset_props s (mw_props s ++ [(n, mvt_value v)]), Ok false).

  Definition mvt_writer : proc mw := mkProc xy_dims mvt_step mvt_prop.
End Writer.

(** mvt_writer.rs:136-145 *)
Definition into_feature (s : mw) : res mfeature :=
  match mtake s with
  | (s, Some g) => Ok (mkMFeature None g (mw_props s))
  | (_, None) => Err EGeometry
  end.
(** mvt_writer.rs:148-155; MvtExtent::new refuses 0 only; DEFAULT_EXTENT is 4096 *)
Definition mvt_layer (c : mcfg) (s : mw) (name : string) : mlayer :=
  mkLayer name (if mc_extent c =? 0 then 4096 else mc_extent c) (mw_features s).

(** mod.rs:50-61 (ToMvt::to_mvt) *)
Definition to_mvt gsize base64 debug (extent : N) (left bottom right top : f64) (src : dims -> prog unit)
    : res mfeature :=
  match mvt_new extent left bottom right top with
  | Err e => Err e
  | Ok c =>
      match exec (mvt_writer gsize base64 debug c) (src xy_dims) mw_init with
      | (s, Ok _) => into_feature s
      | (_, Err e) => Err e
      end
  end.
(** mod.rs:63-70; new_unscaled(4096).unwrap() *)
Definition to_mvt_unscaled {A} gsize base64 debug (src : dims -> prog A) : res mfeature :=
  match mvt_unscaled 4096 with
  | Err _ => Err EPanic
  | Ok c =>
      match exec (mvt_writer gsize base64 debug c) (src xy_dims) mw_init with
      | (s, Ok _) => into_feature s
      | (_, Err e) => Err e
      end
  end.
(** mod.rs:86-95 (impl FromWkb for MvtFeature) *)
Definition mvt_from_wkb gsize base64 debug (dl : WkbModel.dialect) (b : list Byte.byte) : res mfeature :=
  to_mvt_unscaled gsize base64 debug (fun d => WkbModel.process_wkb_type_geom dl d b).

(** ** Reader *)
Section Reader.
  (** processor.multi_dim() *)
  Variable multi : bool.

  (** mvt_reader.rs:114-121 *)
  Definition m_coord (idx : nat) (p : tpos) : prog unit :=
    let x := f64_of_int (fst p) in
    let y := f64_of_int (snd p) in
    pcall (if multi then Coord x y None None None None idx else Xy x y idx).
  (** mvt_reader.rs:123-134 *)
  Definition m_linestring (tagged : bool) (idx : nat) (l : tline) : prog unit :=
    pthen (pcall (LineStringBegin tagged (length l) idx))
      (pthen (pfor m_coord 0 l) (pcall (LineStringEnd tagged idx))).
  (** mvt_reader.rs:136-149 *)
  Definition m_polygon (tagged : bool) (idx : nat) (p : tpoly) : prog unit :=
    pthen (pcall (PolygonBegin tagged (length (snd p) + 1) idx))
      (pthen (m_linestring false 0 (fst p))
        (pthen (pfor (fun i => m_linestring false (i + 1)) 0 (snd p))
          (pcall (PolygonEnd tagged idx)))).
  (** mvt_reader.rs:68-112 *)
  Fixpoint m_geometry (idx : nat) (g : tgeom) : prog unit :=
    match g with
    | MPoint p => pthen (pcall (PointBegin idx)) (pthen (m_coord 0 p) (pcall (PointEnd idx)))
    | MMultiPoint l =>
        pthen (pcall (MultiPointBegin (length l) idx))
          (pthen (pfor m_coord 0 l) (pcall (MultiPointEnd idx)))
    | MLineString l => m_linestring true idx l
    | MMultiLineString l =>
        pthen (pcall (MultiLineStringBegin (length l) idx))
          (pthen (pfor (m_linestring false) 0 l) (pcall (MultiLineStringEnd idx)))
    | MPolygon p => m_polygon true idx p
    | MMultiPolygon l =>
        pthen (pcall (MultiPolygonBegin (length l) idx))
          (pthen (pfor (m_polygon false) 0 l) (pcall (MultiPolygonEnd idx)))
    | MCollection l =>
        pthen (pcall (CollectionBegin (length l) idx))
          (pthen ((fix go (i : nat) (l : list tgeom) : prog unit :=
                     match l with [] => pret tt | a :: r => pthen (m_geometry i a) (go (S i) r) end) 0%nat l)
             (pcall (CollectionEnd idx)))
    | MLine _ _ | MRect _ _ | MTriangle _ _ _ => pret tt
    end.

  (** mvt_reader.rs:36-55; the answer of the processor is dropped *)
  Definition m_property (idx : nat) (p : string * mval) : prog unit :=
    let tell v := CallProp idx (fst p) v (fun _ => pret tt) in
    match snd p with
    | VString v => tell (CString v)
    | VFloat v => tell (CFloat v)
    | VDouble v => tell (CDouble v)
    | VInt v | VSInt v => tell (CLong v)
    | VUInt v => tell (CULong v)
    | VBool v => tell (CBool v)
    | VNull => pret tt
    end.
  (** mvt_reader.rs:18-31 *)
  Definition m_feature (idx : nat) (f : mfeature) : prog unit :=
    pthen (pcall (FeatureBegin idx))
    (pthen (pcall PropertiesBegin)
    (pthen (pfor m_property 0 (mf_properties f))
    (pthen (pcall PropertiesEnd)
    (pthen (pcall GeometryBegin)
    (pthen (m_geometry 0 (mf_geometry f))
    (pthen (pcall GeometryEnd)
           (pcall (FeatureEnd idx)))))))).
  (** mvt_reader.rs:16-34 *)
  Definition m_layer (l : mlayer) : prog unit :=
    pthen (pcall (DatasetBegin (Some (ml_name l))))
      (pthen (pfor m_feature 0 (ml_features l)) (pcall DatasetEnd)).
End Reader.
(** mvt_reader.rs:9-34 (GeozeroDatasource for MvtLayer), 57-66 (GeozeroGeometry for MvtFeature) *)
Definition process_layer (l : mlayer) (d : dims) : prog unit := m_layer (multi_dim d) l.
Definition process_mvt_geom (f : mfeature) (d : dims) : prog unit := m_geometry (multi_dim d) 0 (mf_geometry f).
