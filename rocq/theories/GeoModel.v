(** Model of the geo-types conversions.
    /repo/geozero/src/geo_types/geo_types_reader.rs, geo_types_writer.rs,
    geo_types_feature_writer.rs, mod.rs and /repo/geozero/src/geometry_processor.rs:7-28 *)
From Coq Require Import String Ascii.
From Coq Require Import List NArith ZArith Lia Bool.
From Verif Require Import Base Float Event ProcModel.
From Verif Require WkbModel.
Import ListNotations.
Local Open Scope N_scope.
Local Open Scope list_scope.

(** ** Preallocation budget *)

(** geometry_processor.rs:7 *)
Definition max_prealloc_bytes : N := 16 * 1024 * 1024.

(** usize::saturating_mul on 64-bit targets *)
Definition saturating_mul (a b : N) : N := N.min (a * b) (2 ^ 64 - 1).

(** geometry_processor.rs:21-28; [elt] is size_of::<T>() *)
Definition validate_capacity (elt capacity : N) : res unit :=
  if max_prealloc_bytes <? saturating_mul capacity elt then Err EGeometry else Ok tt.

(** geometry_processor.rs:12-15.  The result is the number of elements reserved for the (empty)
    vector. *)
Definition bounded_vec (elt capacity : N) : res N :=
  match validate_capacity elt capacity with Ok _ => Ok capacity | Err e => Err e end.

(** ** geo_types values (crate geo-types 0.7.19, third party; constructors only) *)
Definition pos : Type := (f64 * f64)%type.
Definition lstr : Type := list pos.
Definition poly : Type := (lstr * list lstr)%type.     (* exterior, interiors *)

Inductive gt : Type :=
| TPoint (p : pos)
| TLine (a b : pos)
| TLineString (l : lstr)
| TPolygon (p : poly)
| TMultiPoint (l : list pos)
| TMultiLineString (l : list lstr)
| TMultiPolygon (l : list poly)
| TCollection (l : list gt)
| TRect (min max : pos)
| TTriangle (a b c : pos).

(** PartialEq of Coord<f64>: -0.0 equals 0.0, NaN equals nothing *)
Definition pos_eqb (a b : pos) : bool := f64_eqb (fst a) (fst b) && f64_eqb (snd a) (snd b).

(** LineString::is_closed: `self.0.first() == self.0.last()` *)
Definition is_closed (l : lstr) : bool :=
  match l with
  | [] => true
  | a :: _ => pos_eqb a (last l a)
  end.

(** LineString::close: `if !self.is_closed() { self.0.push(self.0[0]) }` *)
Definition close (l : lstr) : lstr :=
  if is_closed l then l else match l with [] => [] | a :: _ => l ++ [a] end.

(** Polygon::new closes the exterior and every interior *)
Definition polygon_new (e : lstr) (i : list lstr) : poly := (close e, map close i).

(** ** Reader *)
Section Reader.
  (** Rect::to_polygon, Triangle::to_polygon (third party): any functions *)
  Variable rect_polygon : pos -> pos -> poly.
  Variable triangle_polygon : pos -> pos -> pos -> poly.
  (** the processor's multi_dim() *)
  Variable multi : bool.

  (** geo_types_reader.rs:71-81 process_coord, also the loop body of 91-95 *)
  Definition t_coord (idx : nat) (p : pos) : prog unit :=
    pcall (if multi then Coord (fst p) (snd p) None None None None idx else Xy (fst p) (snd p) idx).

  (** 83-99 *)
  Definition t_linestring (tagged : bool) (idx : nat) (l : lstr) : prog unit :=
    pthen (pcall (LineStringBegin tagged (length l) idx))
      (pthen (pfor t_coord 0 l) (pcall (LineStringEnd tagged idx))).

  (** 101-117; interior ring i has index i + 1 *)
  Definition t_polygon (tagged : bool) (idx : nat) (p : poly) : prog unit :=
    pthen (pcall (PolygonBegin tagged (length (snd p) + 1) idx))
      (pthen (t_linestring false 0 (fst p))
        (pthen (pfor (fun i => t_linestring false (i + 1)) 0 (snd p))
          (pcall (PolygonEnd tagged idx)))).

  (** 17-68 *)
  Fixpoint t_geom (idx : nat) (g : gt) : prog unit :=
    match g with
    | TPoint p => pthen (pcall (PointBegin idx)) (pthen (t_coord 0 p) (pcall (PointEnd idx)))
    | TLine a b =>
        pthen (pcall (LineStringBegin true 2 idx))
          (pthen (t_coord 0 a) (pthen (t_coord 1 b) (pcall (LineStringEnd true idx))))
    | TLineString l => t_linestring true idx l
    | TPolygon p => t_polygon true idx p
    | TMultiPoint l =>
        pthen (pcall (MultiPointBegin (length l) idx))
          (pthen (pfor t_coord 0 l) (pcall (MultiPointEnd idx)))
    | TMultiLineString l =>
        pthen (pcall (MultiLineStringBegin (length l) idx))
          (pthen (pfor (t_linestring false) 0 l) (pcall (MultiLineStringEnd idx)))
    | TMultiPolygon l =>
        pthen (pcall (MultiPolygonBegin (length l) idx))
          (pthen (pfor (t_polygon false) 0 l) (pcall (MultiPolygonEnd idx)))
    | TCollection l =>
        pthen (pcall (CollectionBegin (length l) idx))
          (pthen ((fix go (i : nat) (l : list gt) : prog unit :=
                     match l with [] => pret tt | a :: r => pthen (t_geom i a) (go (S i) r) end) 0%nat l)
             (pcall (CollectionEnd idx)))
    | TRect a b => t_polygon true idx (rect_polygon a b)
    | TTriangle a b c => t_polygon true idx (triangle_polygon a b c)
    end.
End Reader.

(** 7-15; [d] is the processor's dimensions() *)
Definition geo_process rect tri (g : gt) (d : dims) : prog unit := t_geom rect tri (multi_dim d) 0 g.

(** ** Writer *)

(** geo_types_writer.rs:14-25.  [g_coll]: stack, innermost collection first *)
Record gw := mkGw {
  g_geoms : list gt;
  g_coll : list (list gt);
  g_polys : option (list poly);
  g_lines : option (list lstr);
  g_coords : option (list pos)
}.
Definition gw_init : gw := mkGw [] [] None None None.

Definition set_polys s x := mkGw (g_geoms s) (g_coll s) x (g_lines s) (g_coords s).
Definition set_lines s x := mkGw (g_geoms s) (g_coll s) (g_polys s) x (g_coords s).
Definition set_coords s x := mkGw (g_geoms s) (g_coll s) (g_polys s) (g_lines s) x.
Definition set_coll s x := mkGw (g_geoms s) x (g_polys s) (g_lines s) (g_coords s).

(** 27-36 take_geometry: the writer left behind and the geometry *)
Definition take_geometry (s : gw) : gw * option gt :=
  match g_geoms s with
  | [] => (s, None)
  | [g] => (mkGw [] (g_coll s) (g_polys s) (g_lines s) (g_coords s), Some g)
  | l => (mkGw [] (g_coll s) (g_polys s) (g_lines s) (g_coords s), Some (TCollection l))
  end.

(** 42-51 *)
Definition finish_geometry (s : gw) (g : gt) : gw * res unit :=
  match g_coll s with
  | c :: r => (set_coll s ((c ++ [g]) :: r), Ok tt)
  | [] => (mkGw (g_geoms s ++ [g]) (g_coll s) (g_polys s) (g_lines s) (g_coords s), Ok tt)
  end.

(** size_of on 64-bit targets: Coord<f64> 16, LineString 24 (a Vec), Polygon 48 (a LineString and a
    Vec), Geometry 56 (48 bytes of Polygon or Triangle and a tag) *)
Definition coord_size : N := 16.
Definition linestring_size : N := 24.
Definition polygon_size : N := 48.
Definition geometry_size : N := 56.

(** `debug_assert!(..)`: a panic in debug builds only *)
Definition debug_assert (debug cond : bool) (s : gw) (k : gw * res unit) : gw * res unit :=
  if debug && negb cond then (s, Err EPanic) else k.
Definition is_none {A} (o : option A) : bool := match o with None => true | Some _ => false end.

(** `self.f = Some(bounded_vec(size)?)` *)
Definition reserve {A} (elt : N) (size : nat) (s : gw) (set : gw -> option (list A) -> gw) : gw * res unit :=
  match bounded_vec elt (N.of_nat size) with
  | Ok _ => (set s (Some []), Ok tt)
  | Err e => (s, Err e)
  end.

(** 54-61 *)
Definition g_xy (s : gw) (x y : f64) : gw * res unit :=
  match g_coords s with
  | None => (s, Err EGeometry)
  | Some l => (set_coords s (Some (l ++ [(x, y)])), Ok tt)
  end.

(** 53-188 (impl GeomProcessor for GeoWriter); everything else is the trait default, also `coordinate`,
    which does nothing.  [debug]: are debug assertions compiled in? *)
Definition geo_step (debug : bool) (s : gw) (e : event) : gw * res unit :=
  match e with
  | Xy x y _ => g_xy s x y                                               (* 54-61 *)
  | PointBegin _ =>                                                      (* 63-67 *)
      debug_assert debug (is_none (g_coords s)) s (set_coords s (Some []), Ok tt)
  | PointEnd _ =>                                                        (* 69-76 *)
      match g_coords s with
      | None => (s, Err EGeometry)
      | Some l =>
          let s := set_coords s None in
          debug_assert debug (Nat.eqb (length l) 1) s
            (match l with
             | [] => (s, Err EPanic)                                     (* coords[0] *)
             | p :: _ => finish_geometry s (TPoint p)
             end)
      end
  | MultiPointBegin size _ =>                                            (* 78-82 *)
      debug_assert debug (is_none (g_coords s)) s (reserve coord_size size s set_coords)
  | MultiPointEnd _ =>                                                   (* 84-90 *)
      match g_coords s with
      | None => (s, Err EGeometry)
      | Some l => finish_geometry (set_coords s None) (TMultiPoint l)
      end
  | LineStringBegin _ size _ =>                                          (* 92-96 *)
      debug_assert debug (is_none (g_coords s)) s (reserve coord_size size s set_coords)
  | LineStringEnd tagged _ =>                                            (* 98-112 *)
      match g_coords s with
      | None => (s, Err EGeometry)
      | Some l =>
          let s := set_coords s None in
          if tagged then finish_geometry s (TLineString l)
          else match g_lines s with
               | None => (s, Err EGeometry)
               | Some ls => (set_lines s (Some (ls ++ [l])), Ok tt)
               end
      end
  | MultiLineStringBegin size _ =>                                       (* 114-118 *)
      debug_assert debug (is_none (g_lines s)) s (reserve linestring_size size s set_lines)
  | MultiLineStringEnd _ =>                                              (* 120-125 *)
      match g_lines s with
      | None => (s, Err EGeometry)
      | Some ls => finish_geometry (set_lines s None) (TMultiLineString ls)
      end
  | PolygonBegin _ size _ =>                                             (* 127-131 *)
      debug_assert debug (is_none (g_lines s)) s (reserve linestring_size size s set_lines)
  | PolygonEnd tagged _ =>                                               (* 133-154 *)
      match g_lines s with
      | None => (s, Err EGeometry)
      | Some ls =>
          let s := set_lines s None in
          let polygon := match ls with
                         | [] => polygon_new [] []
                         | e :: r => polygon_new e r
                         end in
          if tagged then finish_geometry s (TPolygon polygon)
          else match g_polys s with
               | None => (s, Err EGeometry)
               | Some ps => (set_polys s (Some (ps ++ [polygon])), Ok tt)
               end
      end
  | MultiPolygonBegin size _ =>                                          (* 156-160 *)
      debug_assert debug (is_none (g_polys s)) s (reserve polygon_size size s set_polys)
  | MultiPolygonEnd _ =>                                                 (* 162-167 *)
      match g_polys s with
      | None => (s, Err EGeometry)
      | Some ps => finish_geometry (set_polys s None) (TMultiPolygon ps)
      end
  | CollectionBegin size _ =>                                            (* 169-172 *)
      match bounded_vec geometry_size (N.of_nat size) with
      | Ok _ => (set_coll s ([] :: g_coll s), Ok tt)
      | Err e => (s, Err e)
      end
  | CollectionEnd _ =>                                                   (* 174-180 *)
      match g_coll s with
      | [] => (s, Err EGeometry)
      | c :: r => finish_geometry (set_coll s r) (TCollection c)
      end
  | _ => default_step s e
  end.

(** GeoWriter as a processor: dimensions() is the default xy (geometry_processor.rs:96-98) *)
Definition geo_writer (debug : bool) : proc gw := mkProc xy_dims (geo_step debug) default_prop.

(** mod.rs:21-28 (ToGeo::to_geo): [src d] is process_geom of the source *)
Definition to_geo (debug : bool) (src : dims -> prog unit) : res gt :=
  match exec (geo_writer debug) (src xy_dims) gw_init with
  | (s, Ok _) => match snd (take_geometry s) with Some g => Ok g | None => Err EGeometry end
  | (_, Err e) => Err e
  end.

(** mod.rs:49-57 (impl FromWkb for geo_types::Geometry); the unread rest of the reader is dropped *)
Definition geo_from_wkb (debug : bool) (dl : WkbModel.dialect) (b : list Byte.byte) : res gt :=
  match exec (geo_writer debug) (WkbModel.process_wkb_type_geom dl xy_dims b) gw_init with
  | (s, Ok _) => match snd (take_geometry s) with Some g => Ok g | None => Err EGeometry end
  | (_, Err e) => Err e
  end.

(** ** Feature writer *)

(** geo_types_feature_writer.rs:10-23.  GeoProperties is a HashMap, modelled by an association list
    with unique keys; OwnedColumnValue mirrors ColumnValue constructor by constructor (157-222), so
    values are [colval]. *)
Definition props : Type := list (string * colval).
Record gf := mkGf {
  f_writer : gw;
  f_props : option props;
  f_features : list (gt * props)
}.
Definition gf_init : gf := mkGf gw_init None [].

(** HashMap::insert: replaces the value of an existing key *)
Fixpoint put (m : props) (k : string) (v : colval) : props :=
  match m with
  | [] => [(k, v)]
  | (k', v') :: r => if String.eqb k k' then (k, v) :: r else (k', v') :: put r k v
  end.
Fixpoint get (m : props) (k : string) : option colval :=
  match m with
  | [] => None
  | (k', v) :: r => if String.eqb k k' then Some v else get r k
  end.

Definition f_assert (debug cond : bool) (s : gf) (k : gf * res unit) : gf * res unit :=
  if debug && negb cond then (s, Err EPanic) else k.
Definition no_geoms (s : gf) : bool := match g_geoms (f_writer s) with [] => true | _ => false end.

(** 25-142 delegate every geometry callback to the GeoWriter; 224-257 *)
Definition feature_step (debug : bool) (s : gf) (e : event) : gf * res unit :=
  match e with
  | FeatureBegin _ =>                                                    (* 225-230 *)
      f_assert debug (no_geoms s) s
        (f_assert debug (is_none (f_props s)) s
           (mkGf (f_writer s) (Some []) (f_features s), Ok tt))
  | FeatureEnd _ =>                                                      (* 231-248 *)
      match take_geometry (f_writer s) with
      | (w, None) => (mkGf w (f_props s) (f_features s), Err EFeatureGeometry)
      | (w, Some g) =>
          match f_props s with
          | None => (mkGf w None (f_features s), Err EFeature)
          | Some ps => (mkGf w None (f_features s ++ [(g, ps)]), Ok tt)
          end
      end
  | GeometryBegin => f_assert debug (no_geoms s) s (s, Ok tt)             (* 249-252 *)
  | DatasetBegin _ | DatasetEnd | PropertiesBegin | PropertiesEnd | GeometryEnd => (s, Ok tt)
  | _ => let (w, r) := geo_step debug (f_writer s) e in (mkGf w (f_props s) (f_features s), r)
  end.

(** 144-153; `expect` panics *)
Definition feature_prop (s : gf) (i : nat) (n : string) (v : colval) : gf * res bool :=
  match f_props s with
  | None => (s, Err EPanic)
  | Some ps => (mkGf (f_writer s) (Some (put ps n v)) (f_features s), Ok true)
  end.

Definition feature_writer (debug : bool) : proc gf := mkProc xy_dims (feature_step debug) feature_prop.

(** mod.rs:34-40 (ToGeoFeatures::to_geo_features) *)
Definition to_geo_features (debug : bool) (src : dims -> prog unit) : res (list (gt * props)) :=
  match exec (feature_writer debug) (src xy_dims) gf_init with
  | (s, Ok _) => Ok (f_features s)
  | (_, Err e) => Err e
  end.

(** geo_types_feature_writer.rs:279-286 (GeoFeature::property) *)
Definition geo_feature_property fmt32 fmt (f : gt * props) (t : ptype) (name : string) : res pval :=
  match get (snd f) name with
  | None => Err EColumnNotFound
  | Some v => get_value fmt32 fmt t v
  end.
