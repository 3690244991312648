(** Model of the GDAL conversions: /repo/geozero/src/gdal/{gdal_reader,gdal_writer,mod}.rs.
    The crate gdal 0.18.0 and the C++ library are not modelled; an OGR geometry is a tree of nodes, and
    the C functions used are the small functions below (each says what is assumed). *)
From Coq Require Import String Ascii.
From Coq Require Import List NArith ZArith Lia Bool.
From Coq Require Import Init.Byte.
From Verif Require Import Base Event.
From Verif Require WkbModel.
Import ListNotations.
Local Open Scope N_scope.
Local Open Scope list_scope.

(** ** OGR geometries *)

(** OGRwkbGeometryType without the dimension *)
Inductive kind : Type :=
| OPoint | OLineString | OPolygon | OMultiPoint | OMultiLineString | OMultiPolygon | OCollection
| OCircularString | OCompoundCurve | OCurvePolygon | OMultiCurve | OMultiSurface
| OPolyhedralSurface | OTin | OTriangle | OOther (n : N).
Definition code (k : kind) : N :=
  match k with
  | OPoint => 1 | OLineString => 2 | OPolygon => 3 | OMultiPoint => 4 | OMultiLineString => 5
  | OMultiPolygon => 6 | OCollection => 7 | OCircularString => 8 | OCompoundCurve => 9
  | OCurvePolygon => 10 | OMultiCurve => 11 | OMultiSurface => 12 | OPolyhedralSurface => 15
  | OTin => 16 | OTriangle => 17 | OOther n => n
  end.
Definition pt : Type := (f64 * f64 * f64)%type.
(** A geometry: kind, z and m flags, its own positions (points, lines, arcs), its members.  The rings
    of a polygon are members; a linear ring gives line string as its type.  Measures are left out:
    nothing here reads or writes them. *)
Inductive og : Type := Og (k : kind) (z m : bool) (pts : list pt) (kids : list og).
Definition o_kind (g : og) : kind := match g with Og k _ _ _ _ => k end.
Definition o_z (g : og) : bool := match g with Og _ z _ _ _ => z end.
Definition o_m (g : og) : bool := match g with Og _ _ m _ _ => m end.
Definition o_pts (g : og) : list pt := match g with Og _ _ _ p _ => p end.
Definition o_kids (g : og) : list og := match g with Og _ _ _ _ l => l end.
(** geometry_type(): wkbPoint25D and the like are 0x80000000 + code, later types follow ISO *)
Definition full_code (g : og) : N :=
  let c := code (o_kind g) in
  match o_z g, o_m g with
  | false, false => c
  | true, true => 3000 + c
  | false, true => 2000 + c
  | true, false => if c <=? 7 then 0x80000000 + c else 1000 + c
  end.

(** ** Reader *)
Section Reader.
  (** processor.dimensions().z *)
  Variable z : bool.
  (** what get_point(0) returns for an empty point *)
  Variable missing : pt.

  (** gdal_reader.rs:123-131 (process_point), and the loop bodies 157-164, 176-183 *)
  Definition r_coord (p : pt) (idx : nat) : prog unit :=
    let '(x, y, v) := p in
    pcall (if z then Coord x y (Some v) None None None idx else Xy x y idx).
  Definition r_point (g : og) (idx : nat) : prog unit := r_coord (hd missing (o_pts g)) idx.
  (** gdal_reader.rs:148-166 *)
  Definition r_linestring (g : og) (tagged : bool) (idx : nat) : prog unit :=
    pthen (pcall (LineStringBegin tagged (length (o_pts g)) idx))
    (pthen (pfor (fun i p => r_coord p i) 0 (o_pts g))
           (pcall (LineStringEnd tagged idx))).
  (** gdal_reader.rs:168-185 *)
  Definition r_circularstring (g : og) (idx : nat) : prog unit :=
    pthen (pcall (CircularStringBegin (length (o_pts g)) idx))
    (pthen (pfor (fun i p => r_coord p i) 0 (o_pts g))
           (pcall (CircularStringEnd idx))).
  (** gdal_reader.rs:133-146 *)
  Definition r_linestring_seq (g : og) : prog unit :=
    pfor (fun i a => match o_kind a with
                     | OLineString => r_linestring a false i
                     | _ => pfail EGeometryFormat
                     end) 0 (o_kids g).
  (** gdal_reader.rs:187-197 *)
  Definition r_polygon (g : og) (tagged : bool) (idx : nat) : prog unit :=
    pthen (pcall (PolygonBegin tagged (length (o_kids g)) idx))
    (pthen (r_linestring_seq g) (pcall (PolygonEnd tagged idx))).
  (** gdal_reader.rs:199-209 *)
  Definition r_triangle (g : og) (tagged : bool) (idx : nat) : prog unit :=
    pthen (pcall (TriangleBegin tagged (length (o_kids g)) idx))
    (pthen (r_linestring_seq g) (pcall (TriangleEnd tagged idx))).
  (** gdal_reader.rs:211-232 *)
  Definition r_compoundcurve (g : og) (idx : nat) : prog unit :=
    pthen (pcall (CompoundCurveBegin (length (o_kids g)) idx))
    (pthen (pfor (fun i a => match o_kind a with
                             | OLineString => r_linestring a false i
                             | OCircularString => r_circularstring a i
                             | _ => pfail EGeometryFormat
                             end) 0 (o_kids g))
           (pcall (CompoundCurveEnd idx))).
  (** gdal_reader.rs:234-242 *)
  Definition r_curve (g : og) (idx : nat) : prog unit :=
    match o_kind g with
    | OLineString => r_linestring g false idx
    | OCircularString => r_circularstring g idx
    | OCompoundCurve => r_compoundcurve g idx
    | _ => pfail EGeometryFormat
    end.
  (** gdal_reader.rs:244-256 *)
  Definition r_curvepolygon (g : og) (idx : nat) : prog unit :=
    pthen (pcall (CurvePolygonBegin (length (o_kids g)) idx))
    (pthen (pfor (fun i a => r_curve a i) 0 (o_kids g))
           (pcall (CurvePolygonEnd idx))).
  (** gdal_reader.rs:18-117 (process_geom_n) *)
  Fixpoint r_geom_n (g : og) (idx : nat) {struct g} : prog unit :=
    match g with
    | Og k _ _ _ kids =>
        match k with
        | OPoint => pthen (pcall (PointBegin idx)) (pthen (r_point g 0) (pcall (PointEnd idx)))
        | OMultiPoint =>
            pthen (pcall (MultiPointBegin (length kids) idx))
            (pthen (pfor (fun i a => match o_kind a with
                                     | OPoint => r_point a i
                                     | _ => pfail EGeometryFormat
                                     end) 0 kids)
                   (pcall (MultiPointEnd idx)))
        | OLineString => r_linestring g true idx
        | OMultiLineString =>
            pthen (pcall (MultiLineStringBegin (length kids) idx))
            (pthen (r_linestring_seq g) (pcall (MultiLineStringEnd idx)))
        | OPolygon => r_polygon g true idx
        | OMultiPolygon =>
            pthen (pcall (MultiPolygonBegin (length kids) idx))
            (pthen (pfor (fun i a => match o_kind a with
                                     | OPolygon => r_polygon a false i
                                     | _ => pfail EGeometryFormat
                                     end) 0 kids)
                   (pcall (MultiPolygonEnd idx)))
        | OCollection =>
            pthen (pcall (CollectionBegin (length kids) idx))
            (pthen ((fix go (i : nat) (l : list og) : prog unit :=
                       match l with [] => pret tt | a :: r => pthen (r_geom_n a i) (go (S i) r) end) 0%nat kids)
                   (pcall (CollectionEnd idx)))
        | OCircularString => r_circularstring g idx
        | OCompoundCurve => r_compoundcurve g idx
        | OCurvePolygon => r_curvepolygon g idx
        | OTriangle => r_triangle g true idx
        | OMultiCurve =>
            pthen (pcall (MultiCurveBegin (length kids) idx))
            (pthen (pfor (fun i a => r_curve a i) 0 kids) (pcall (MultiCurveEnd idx)))
        | OPolyhedralSurface =>
            pthen (pcall (PolyhedralSurfaceBegin (length kids) idx))
            (pthen (pfor (fun i a => r_polygon a false i) 0 kids) (pcall (PolyhedralSurfaceEnd idx)))
        | OTin =>
            pthen (pcall (TinBegin (length kids) idx))
            (pthen (pfor (fun i a => r_triangle a false i) 0 kids) (pcall (TinEnd idx)))
        | OMultiSurface =>
            pthen (pcall (MultiSurfaceBegin (length kids) idx))
            (pthen (pfor (fun i a => match o_kind a with
                                     | OCurvePolygon => r_curvepolygon a i
                                     | OPolygon => r_polygon a false i
                                     | _ => pfail EGeometryFormat
                                     end) 0 kids)
                   (pcall (MultiSurfaceEnd idx)))
        | OOther _ => pfail EGeometryFormat
        end
    end.
End Reader.
(** gdal_reader.rs:7-16; [d] is the processor's dimensions() *)
Definition gdal_process (missing : pt) (g : og) (d : dims) : prog unit := r_geom_n (dz d) missing g 0.

(** ** Writer *)

(** GeozeroError::GdalError (error.rs:52-54) *)
Definition gdal_error : error := EUser 4.
(** use of a freed geometry: undefined behaviour *)
Definition undefined : error := EUser 5.

(** OGR_G_SetPoint on a point (other positions than 0 are refused with a message only) and on a line
    (grows as needed, new positions are zero; negative positions are refused with a message only).
    The position is an i32. *)
Definition c_int (i : nat) : option nat :=
  let v := N.of_nat i mod 2 ^ 32 in if v <? 2 ^ 31 then Some (N.to_nat v) else None.
Fixpoint put {A} (zero : A) (i : nat) (p : A) (l : list A) : list A :=
  match i, l with
  | O, [] => [p]
  | O, _ :: r => p :: r
  | S k, [] => zero :: put zero k p []
  | S k, a :: r => a :: put zero k p r
  end.
Definition zero_pt : pt := (f64_zero, f64_zero, f64_zero).
Definition set_point (i : nat) (p : pt) (g : og) : og :=
  match g with
  | Og OPoint z m pts kids =>
      match c_int i with Some O => Og OPoint true m [p] kids | _ => g end
  | Og OLineString z m pts kids =>
      match c_int i with Some k => Og OLineString true m (put zero_pt k p pts) kids | None => g end
  | _ => g
  end.
(** OGR_G_SetPoint_2D: the z value stays *)
Definition set_point_2d (i : nat) (x y : f64) (g : og) : og :=
  match g with
  | Og OPoint z m pts kids =>
      match c_int i with Some O => Og OPoint z m [(x, y, snd (hd zero_pt pts))] kids | _ => g end
  | Og OLineString z m pts kids =>
      match c_int i with
      | Some k => Og OLineString z m (put zero_pt k (x, y, snd (nth k pts zero_pt)) pts) kids
      | None => g
      end
  | _ => g
  end.
(** set3D, setMeasured: also the members *)
Fixpoint lift (z m : bool) (g : og) : og :=
  match g with Og k z0 m0 pts kids => Og k (z0 || z) (m0 || m) pts (map (lift z m) kids) end.
(** OGR_G_AddGeometryDirectly: the member must fit; both get each other's dimensions *)
Definition fits_in (parent child : kind) : bool :=
  match parent, child with
  | OMultiPoint, OPoint | OMultiLineString, OLineString | OMultiPolygon, OPolygon
  | OPolygon, OLineString | OCollection, _ => true
  | _, _ => false
  end.
Definition add (g a : og) : res og :=
  if fits_in (o_kind g) (o_kind a) then
    match lift (o_z a) (o_m a) g with
    | Og k z m pts kids => Ok (Og k z m pts (kids ++ [lift (o_z g) (o_m g) a]))
    end
  else Err EGeometry.

(** gdal_writer.rs:8-14 (GdalWriter).  [line]: the line made in default(), a geometry inside [geom] (by
    member numbers), or one that was freed with its owner. *)
Inductive line_ref := Own (g : og) | At (path : list nat) | Gone.
Record gw := mkGw { g_dims : dims; g_geom : og; g_line : line_ref }.
(** gdal_writer.rs:16-51 *)
Definition gw_with (d : dims) : gw := mkGw d (Og OPoint false false [] []) (Own (Og OLineString false false [] [])).

(** gdal_writer.rs:28-40 (wkb_type, empty_geom); OGR_G_CreateGeometry understands the ISO numbers *)
Definition empty_geom (s : gw) (k : kind) : og := Og k (dz (g_dims s)) (dm (g_dims s)) [] [].
(** `self.geom = g`: the old geometry is freed *)
Definition replace_geom (s : gw) (g : og) : gw :=
  mkGw (g_dims s) g (match g_line s with At _ => Gone | l => l end).
Definition put_geom (s : gw) (g : og) : gw := mkGw (g_dims s) g (g_line s).

Fixpoint at_nth (i : nat) (f : og -> og) (l : list og) : list og :=
  match l, i with
  | [], _ => []
  | a :: r, O => f a :: r
  | a :: r, S k => a :: at_nth k f r
  end.
Fixpoint at_path (path : list nat) (f : og -> og) (g : og) : og :=
  match path with
  | [] => f g
  | i :: r => match g with Og k z m pts kids => Og k z m pts (at_nth i (at_path r f) kids) end
  end.
(** self.line.set_point…: changes the geometry the line lies in *)
Definition on_line (s : gw) (f : og -> og) : gw * res unit :=
  match g_line s with
  | Own l => (mkGw (g_dims s) (g_geom s) (Own (f l)), Ok tt)
  | At path => (mkGw (g_dims s) (at_path path f (g_geom s)) (At path), Ok tt)
  | Gone => (s, Err undefined)
  end.
Definition try_add (s : gw) (a : og) : gw * res unit :=
  match add (g_geom s) a with Ok g => (put_geom s g, Ok tt) | Err e => (s, Err e) end.

(** gdal_writer.rs:64-178 *)
Definition gdal_step (s : gw) (e : event) : gw * res unit :=
  match e with
  | Xy x y i =>                                                                       (* 68-88 *)
      match full_code (g_geom s) with
      | 1 | 2 => (put_geom s (set_point_2d i x y (g_geom s)), Ok tt)
      | 4 => try_add s (set_point_2d 0 x y (empty_geom s OPoint))
      | 5 | 3 | 6 => on_line s (set_point_2d i x y)
      | _ => (s, Err gdal_error)
      end
  | Coord x y v _ _ _ i =>                                                            (* 89-119 *)
      let p := (x, y, opt_default f64_zero v) in
      match full_code (g_geom s) mod 1000 with
      | 1 | 2 => (put_geom s (set_point i p (g_geom s)), Ok tt)
      | 4 => try_add s (set_point 0 p (empty_geom s OPoint))
      | 5 | 3 | 6 => on_line s (set_point i p)
      | _ => (s, Err gdal_error)
      end
  | PointBegin _ => (replace_geom s (empty_geom s OPoint), Ok tt)                     (* 120-123 *)
  | MultiPointBegin _ _ => (replace_geom s (empty_geom s OMultiPoint), Ok tt)         (* 124-127 *)
  | LineStringBegin true _ _ => (replace_geom s (empty_geom s OLineString), Ok tt)    (* 128-130 *)
  | LineStringBegin false _ _ =>                                                      (* 131-160 *)
      let ring := empty_geom s OLineString in
      match full_code (g_geom s) mod 1000 with
      | 5 | 3 =>
          match add (g_geom s) ring with
          | Ok g => (mkGw (g_dims s) g (At [length (o_kids g) - 1]%nat), Ok tt)
          | Err x => (s, Err x)
          end
      | 6 =>
          (* [n - 1] for n = 0: an overflow panic; without overflow checks a null pointer *)
          match rev (o_kids (g_geom s)) with
          | [] => (s, Err EPanic)
          | poly :: _ =>
              let n := length (o_kids (g_geom s)) in
              match add poly ring with
              | Ok poly' =>
                  (mkGw (g_dims s) (at_path [n - 1]%nat (fun _ => poly') (g_geom s))
                        (At [n - 1; length (o_kids poly') - 1]%nat), Ok tt)
              | Err x => (s, Err x)
              end
          end
      | _ => (s, Err gdal_error)
      end
  | MultiLineStringBegin _ _ => (replace_geom s (empty_geom s OMultiLineString), Ok tt) (* 161-164 *)
  | PolygonBegin true _ _ => (replace_geom s (empty_geom s OPolygon), Ok tt)          (* 165-168 *)
  | PolygonBegin false _ _ => try_add s (empty_geom s OPolygon)                       (* 169-173 *)
  | MultiPolygonBegin _ _ => (replace_geom s (empty_geom s OMultiPolygon), Ok tt)     (* 174-177 *)
  | _ => default_step s e
  end.
Definition gdal_writer (d : dims) : proc gw := mkProc d gdal_step default_prop.

(** mod.rs:25-34 (to_gdal_ndim); to_gdal uses the default dimensions (XY) *)
Definition to_gdal_ndim (src : dims -> prog unit) (d : dims) : res og :=
  match exec (gdal_writer d) (src d) (gw_with d) with
  | (s, Ok _) => Ok (g_geom s)
  | (_, Err e) => Err e
  end.
Definition to_gdal (src : dims -> prog unit) : res og := to_gdal_ndim src xy_dims.
(** mod.rs:45-51 (FromWkb for gdal::vector::Geometry) *)
Definition gdal_from_wkb (dl : WkbModel.dialect) (b : list byte) : res og :=
  match exec (gdal_writer xy_dims) (WkbModel.process_wkb_type_geom dl xy_dims b) (gw_with xy_dims) with
  | (s, Ok _) => Ok (g_geom s)
  | (_, Err e) => Err e
  end.
