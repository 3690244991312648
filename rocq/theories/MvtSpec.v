(** Vocabulary of the MVT claims (specification side). *)
From Coq Require Import String Ascii.
From Coq Require Import List NArith ZArith Lia Bool Reals.
From Verif Require Import Base Event Claims Geom GeoSpec MvtModel.
From Verif Require FeatureSpec.
Import ListNotations.
Local Open Scope N_scope.
Local Open Scope list_scope.

(** ** The number an IEEE-754 bit pattern stands for *)
Definition exponent (x : f64) : N := (x / 2 ^ 52) mod 2 ^ 11.
Definition fraction (x : f64) : N := x mod 2 ^ 52.
Definition negative (x : f64) : bool := N.odd (x / 2 ^ 63).
Definition finite (x : f64) : Prop := exponent x < 2047.
Definition infinite (neg : bool) (x : f64) : Prop := exponent x = 2047 /\ fraction x = 0 /\ negative x = neg.
Definition not_a_number (x : f64) : Prop := exponent x = 2047 /\ fraction x <> 0.
Definition magnitude (x : f64) : R :=
  if exponent x =? 0 then (IZR (Z.of_N (fraction x)) * powerRZ 2 (-1074))%R
  else (IZR (Z.of_N (2 ^ 52 + fraction x)) * powerRZ 2 (Z.of_N (exponent x) - 1075))%R.
Definition value (x : f64) : R := if negative x then Ropp (magnitude x) else magnitude x.

(** where a scaled writer puts a coordinate *)
Definition position (extent : N) (left bottom right top x y : f64) : res tpos :=
  match mvt_new extent left bottom right top with
  | Ok c => Ok (transform c x y)
  | Err e => Err e
  end.

(** ** Which tile geometry a geometry tree stands for *)
Section Tile.
  (** the position of a coordinate *)
  Variable T : f64 -> f64 -> tpos.

  Definition tile_pos (c : coord) : tpos := T (cx c) (cy c).
  Definition tile_line (l : line) : tline := map tile_pos l.
  Definition tpos_dec : forall a b : tpos, {a = b} + {a <> b}.
  Proof. decide equality; apply Z.eq_dec. Defined.
  (** the first and the last of several positions agree *)
  Definition comes_back (l : tline) : bool :=
    match l with
    | a :: b :: r => if tpos_dec a (last (b :: r) b) then true else false
    | _ => false
    end.
  (** the ring with its closing position *)
  Definition tile_ring (l : line) : tline :=
    let l := tile_line l in
    if comes_back l then l else match l with a :: _ :: _ => l ++ [a] | _ => l end.
  (** vertices of a ring, not counting the closing position *)
  Definition vertices (l : tline) : nat := if comes_back l then length l - 1 else length l.

  Definition tile_poly (r : rings) : tpoly :=
    match r with
    | [] => ([], [])
    | e :: i => (tile_ring e, map tile_ring i)
    end.
  (** (the last case is not used for plain geometries) *)
  Fixpoint tile_of (g : geom) : tgeom :=
    match g with
    | GPoint c => MPoint (tile_pos c)
    | GMultiPoint l => MMultiPoint (map tile_pos l)
    | GLineString l => MLineString (tile_line l)
    | GMultiLineString l => MMultiLineString (map tile_line l)
    | GPolygon r => MPolygon (tile_poly r)
    | GMultiPolygon l => MMultiPolygon (map tile_poly l)
    | GCollection l => MCollection (map tile_of l)
    | _ => MCollection []
    end.

  (** lines of two and more positions, polygons with an exterior ring, rings of three and more
      vertices in tile coordinates *)
  Definition long_line (l : line) : bool := Nat.leb 2 (length l).
  Definition good_rings (r : rings) : bool :=
    match r with
    | [] => false
    | _ => forallb (fun l => Nat.leb 3 (vertices (tile_line l))) r
    end.
  Fixpoint drawable (g : geom) : bool :=
    match g with
    | GLineString l => long_line l
    | GMultiLineString l => forallb long_line l
    | GPolygon r => good_rings r
    | GMultiPolygon l => forallb good_rings l
    | GCollection l => forallb drawable l
    | _ => true
    end.

  (** the single geometry, or the collection of several *)
  Definition tile_joined (l : list geom) : tgeom :=
    match l with [g] => tile_of g | _ => MCollection (map tile_of l) end.
End Tile.

(** the 16 MiB preallocation budget, with 8 bytes per position *)
Section Small.
  Variable gsize : N.
  Definition tile_small_rings (r : rings) : Prop := fits 24 r /\ Forall (fits 8) r.
  Fixpoint tile_small (g : geom) : Prop :=
    match g with
    | GPoint _ => True
    | GMultiPoint l => fits 8 l
    | GLineString l => fits 8 l
    | GMultiLineString l => fits 24 l /\ Forall (fits 8) l
    | GPolygon r => tile_small_rings r
    | GMultiPolygon l => fits 48 l /\ Forall tile_small_rings l
    | GCollection l => fits gsize l /\ (fix all l := match l with [] => True | a :: r => tile_small a /\ all r end) l
    | _ => True
    end.
End Small.

(** ** Validity of tile geometries *)
(** a closed ring of three and more vertices *)
Definition valid_ring (l : tline) : Prop := (4 <= length l)%nat /\ exists a m, l = a :: m ++ [a].
Definition valid_poly (p : tpoly) : Prop := valid_ring (fst p) /\ Forall valid_ring (snd p).
(** (line, rectangle and triangle do not exist in tiles) *)
Fixpoint valid_tile (g : tgeom) : Prop :=
  match g with
  | MPoint _ | MMultiPoint _ => True
  | MLineString l => (2 <= length l)%nat
  | MMultiLineString l => Forall (fun l => (2 <= length l)%nat) l
  | MPolygon p => valid_poly p
  | MMultiPolygon l => Forall valid_poly l
  | MCollection l => (fix all l := match l with [] => True | a :: r => valid_tile a /\ all r end) l
  | MLine _ _ | MRect _ _ | MTriangle _ _ _ => False
  end.

(** the state after any callbacks, the errors they return being ignored *)
Definition call {S} (p : proc S) (s : S) (o : obs) : S :=
  match o with
  | OEv e => fst (p_step p s e)
  | OProp i n v => fst (p_prop p s i n v)
  end.
Definition after {S} (p : proc S) (l : list obs) (s : S) : S := fold_left (call p) l s.

(** the bits of the floating point number that equals a natural number below 2^53: the exponent is the
    place of the first binary digit, the fraction is the digits after it *)
Definition nat_bits (p : positive) : N :=
  let e := N.log2 (Npos p) in ((1023 + e) * 2 ^ 52 + (Npos p - 2 ^ e) * 2 ^ (52 - e))%N.
(** zero is positive *)
Definition int_bits (z : Z) : N :=
  match z with Z0 => 0 | Zpos p => nat_bits p | Zneg p => 2 ^ 63 + nat_bits p end%N.

(** ** Trees of decoded tile geometries *)
Definition at_tile (p : tpos) : coord := mkC (f64_of_int (fst p)) (f64_of_int (snd p)) None None.
Definition untile_line (l : tline) : line := map at_tile l.
Definition untile_poly (p : tpoly) : rings := untile_line (fst p) :: map untile_line (snd p).
Fixpoint untile (g : tgeom) : geom :=
  match g with
  | MPoint p => GPoint (at_tile p)
  | MLineString l => GLineString (untile_line l)
  | MPolygon p => GPolygon (untile_poly p)
  | MMultiPoint l => GMultiPoint (map at_tile l)
  | MMultiLineString l => GMultiLineString (map untile_line l)
  | MMultiPolygon l => GMultiPolygon (map untile_poly l)
  | MCollection l => GCollection (map untile l)
  | MLine _ _ | MRect _ _ | MTriangle _ _ _ => GCollection []    (* not used: see [decoded] *)
  end.
(** the geometries a tile can encode: no line, rectangle or triangle *)
Fixpoint decoded (g : tgeom) : bool :=
  match g with
  | MLine _ _ | MRect _ _ | MTriangle _ _ _ => false
  | MCollection l => forallb decoded l
  | _ => true
  end.

(** ** Features of a decoded layer *)
(** null values are not delivered *)
Definition read_value (v : mval) : option colval :=
  match v with
  | VString s => Some (CString s)
  | VFloat x => Some (CFloat x)
  | VDouble x => Some (CDouble x)
  | VInt z => Some (CLong z)
  | VSInt z => Some (CLong z)
  | VUInt z => Some (CULong z)
  | VBool b => Some (CBool b)
  | VNull => None
  end.
(** properties keep the index they have in the feature *)
Definition read_prop (i : nat) (p : string * mval) : list (nat * string * colval) :=
  match read_value (snd p) with Some v => [(i, fst p, v)] | None => [] end.
Definition layer_feature (f : mfeature) : FeatureSpec.feature :=
  FeatureSpec.mkFeature (Some (flat_mapi read_prop 0 (mf_properties f))) (Some (untile (mf_geometry f))).

(** The value stored for a property: integers keep their sign, text stays text, binary data is base64
    text. *)
Inductive stored (base64 : list Byte.byte -> string) : colval -> mval -> Prop :=
| stored_signed v z : In v [CByte z; CShort z; CInt z; CLong z] -> stored base64 v (VSInt z)
| stored_unsigned v z : In v [CUByte z; CUShort z; CUInt z; CULong z] -> stored base64 v (VUInt z)
| stored_bool b : stored base64 (CBool b) (VBool b)
| stored_float x : stored base64 (CFloat x) (VFloat x)
| stored_double x : stored base64 (CDouble x) (VDouble x)
| stored_text v t : In v [CString t; CJson t; CDateTime t] -> stored base64 v (VString t)
| stored_binary b : stored base64 (CBinary b) (VString (base64 b)).

(** what the writer makes of a value that was read *)
Definition rewritten (v : mval) : option mval :=
  match v with
  | VInt z => Some (VSInt z)
  | VNull => None
  | _ => Some v
  end.
Definition rewritten_props (l : list (string * mval)) : list (string * mval) :=
  flat_map (fun p => match rewritten (snd p) with Some v => [(fst p, v)] | None => [] end) l.

(** every coordinate is an i32 *)
Definition i32_pos (p : tpos) : Prop := (- 2 ^ 31 <= fst p < 2 ^ 31 /\ - 2 ^ 31 <= snd p < 2 ^ 31)%Z.
Definition i32_poly (p : tpoly) : Prop := Forall i32_pos (fst p) /\ Forall (Forall i32_pos) (snd p).
Fixpoint i32_geom (g : tgeom) : Prop :=
  match g with
  | MPoint p => i32_pos p
  | MLine a b => i32_pos a /\ i32_pos b
  | MLineString l => Forall i32_pos l
  | MPolygon p => i32_poly p
  | MMultiPoint l => Forall i32_pos l
  | MMultiLineString l => Forall (Forall i32_pos) l
  | MMultiPolygon l => Forall i32_poly l
  | MCollection l => (fix all l := match l with [] => True | a :: r => i32_geom a /\ all r end) l
  | MRect a b => i32_pos a /\ i32_pos b
  | MTriangle a b c => i32_pos a /\ i32_pos b /\ i32_pos c
  end.
