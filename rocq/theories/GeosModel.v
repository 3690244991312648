(** Model of the GEOS conversions: /repo/geozero/src/geos/{geos_reader,geos_writer,mod}.rs.
    The crate geos 11.1.1 and the C library are not modelled; a GEOS geometry is the tree its getters
    show, and what the constructors accept is an argument ([geos_lib]). *)
From Coq Require Import String Ascii.
From Coq Require Import List NArith ZArith Lia Bool.
From Coq Require Import Init.Byte.
From Verif Require Import Base Event.
From Verif Require WkbModel.
Import ListNotations.
Local Open Scope N_scope.
Local Open Scope list_scope.

(** ** GEOS values *)
Definition pos : Type := (f64 * f64)%type.
(** geos::CoordSeq with `dimensions()` TwoD or ThreeD *)
Inductive cseq : Type :=
| Flat (l : list pos)
| Tall (l : list (f64 * f64 * f64)).
(** geos::Geometry by `geometry_type()`; the members of the multi geometries are points, lines,
    polygons (an invariant of GEOS).  A point has a sequence of length 1, or 0 when it is empty. *)
Inductive gg : Type :=
| KPoint (s : cseq)
| KLineString (s : cseq)
| KLinearRing (s : cseq)
| KPolygon (e : cseq) (i : list cseq)
| KMultiPoint (l : list cseq)
| KMultiLineString (l : list cseq)
| KMultiPolygon (l : list (cseq * list cseq))
| KCollection (l : list gg).

(** ** Reader *)

(** cs.size() *)
Definition seq_size (s : cseq) : nat := match s with Flat l => length l | Tall l => length l end.

(** geos_reader.rs:79-110 (process_coord_seq); [z] is processor.dimensions().z.  The getters do not
    fail for positions below size(). *)
Definition r_coord_seq (z : bool) (s : cseq) (offset : nat) : prog unit :=
  match s with
  | Flat l =>
      pfor (fun i p => pcall (if z then Coord (fst p) (snd p) None None None None (offset + i)
                              else Xy (fst p) (snd p) (offset + i))) 0 l
  | Tall l =>
      pfor (fun i p => pcall (if z then Coord (fst (fst p)) (snd (fst p)) (Some (snd p)) None None None (offset + i)
                              else Xy (fst (fst p)) (snd (fst p)) (offset + i))) 0 l
  end.
(** geos_reader.rs:123-138 *)
Definition r_linestring (z tagged : bool) (idx : nat) (s : cseq) : prog unit :=
  pthen (pcall (LineStringBegin tagged (seq_size s) idx))
  (pthen (r_coord_seq z s 0)
         (pcall (LineStringEnd tagged idx))).
(** geos_reader.rs:140-159 *)
Definition r_polygon (z tagged : bool) (idx : nat) (e : cseq) (i : list cseq) : prog unit :=
  pthen (pcall (PolygonBegin tagged (length i + 1) idx))
  (pthen (r_linestring z false 0 e)
  (pthen (pfor (fun k s => r_linestring z false (k + 1) s) 0 i)
         (pcall (PolygonEnd tagged idx)))).
(** geos_reader.rs:27-77 (process_geom_n); 112-121 is process_point *)
Fixpoint r_geom_n (z : bool) (g : gg) (idx : nat) {struct g} : prog unit :=
  match g with
  | KPoint s =>
      pthen (pcall (PointBegin idx)) (pthen (r_coord_seq z s 0) (pcall (PointEnd idx)))
  | KMultiPoint l =>
      pthen (pcall (MultiPointBegin (length l) idx))
      (pthen (pfor (fun i s => r_coord_seq z s i) 0 l)
             (pcall (MultiPointEnd idx)))
  | KLineString s | KLinearRing s => r_linestring z true idx s
  | KMultiLineString l =>
      pthen (pcall (MultiLineStringBegin (length l) idx))
      (pthen (pfor (fun i s => r_linestring z false i s) 0 l)
             (pcall (MultiLineStringEnd idx)))
  | KPolygon e i => r_polygon z true idx e i
  | KMultiPolygon l =>
      pthen (pcall (MultiPolygonBegin (length l) idx))
      (pthen (pfor (fun i p => r_polygon z false i (fst p) (snd p)) 0 l)
             (pcall (MultiPolygonEnd idx)))
  | KCollection l =>
      pthen (pcall (CollectionBegin (length l) idx))
      (pthen ((fix go (i : nat) (l : list gg) : prog unit :=
                 match l with [] => pret tt | a :: r => pthen (r_geom_n z a i) (go (S i) r) end) 0%nat l)
             (pcall (CollectionEnd idx)))
  end.
(** geos_reader.rs:7-9, 23-25; [d] is the processor's dimensions() *)
Definition geos_process (g : gg) (d : dims) : prog unit := r_geom_n (dz d) g 0.
(** geos_reader.rs:10-15; [has_z] is the library's answer *)
Definition geos_dims (has_z : res bool) : dims :=
  mkDims (match has_z with Ok b => b | Err _ => false end) false false false.
(** geos_reader.rs:16-18 *)
Definition geos_srid (get_srid : res Z) : option Z :=
  match get_srid with Ok s => Some s | Err _ => None end.

(** ** Writer *)

(** What the library decides: which sequences are line strings and rings, which rings are a polygon;
    how setting a position beyond the end of a CoordSeq fails; sizes of CoordSeq and Geometry. *)
Record geos_lib := mkLib {
  line_ok : list pos -> bool;
  ring_ok : list pos -> bool;
  poly_ok : list pos -> list (list pos) -> bool;
  out_of_range : error;
  seq_bytes : N;
  geom_bytes : N
}.
(** GeozeroError::GeosError (error.rs:55-57) *)
Definition geos_error : error := EUser 3.

(** a geometry and its SRID; a constructed geometry has SRID 0 *)
Record gval := mkVal { v_geom : gg; v_srid : Z }.

(** geos_writer.rs:7-14 (GeosWriter); the sequences are XY *)
Record gs := mkGs {
  s_geom : gval;
  s_srid : option Z;
  s_cs : list (list pos);
  s_polys : list (list pos * list (list pos))
}.
(** geos_writer.rs:29-38; create_empty_point *)
Definition gs_init : gs := mkGs (mkVal (KPoint (Flat [])) 0%Z) None [] [].

Definition set_cs (s : gs) (cs : list (list pos)) : gs := mkGs (s_geom s) (s_srid s) cs (s_polys s).
Definition set_polys (s : gs) p : gs := mkGs (s_geom s) (s_srid s) (s_cs s) p.
(** `self.geom = g; if let Some(srid) = self.srid { self.geom.set_srid(srid); }` *)
Definition set_geom (s : gs) (g : gg) : gs :=
  mkGs (mkVal g (match s_srid s with Some v => v | None => 0%Z end)) (s_srid s) (s_cs s) (s_polys s).

(** CoordSeq::new(len as u32, CoordType::XY): zeros *)
Definition new_seq (len : nat) : list pos :=
  repeat (f64_zero, f64_zero) (N.to_nat (N.of_nat len mod 2 ^ 32)).
(** geos_writer.rs:20-23 (add_coord_seq) *)
Definition add_seq (s : gs) (len : nat) : gs := set_cs s (s_cs s ++ [new_seq len]).
(** Vec::with_capacity panics when the capacity in bytes exceeds isize::MAX *)
Definition capacity_ok (elt : N) (n : nat) : bool := N.of_nat n * elt <? 2 ^ 63.

(** set_x, set_y at one position *)
Fixpoint set_at (i : nat) (p : pos) (l : list pos) : option (list pos) :=
  match l, i with
  | [], _ => None
  | _ :: r, O => Some (p :: r)
  | a :: r, S k => match set_at k p r with Some r' => Some (a :: r') | None => None end
  end.
(** `.map(constructor).collect::<GResult<Vec<_>>>()?` *)
Definition flat_poly (p : list pos * list (list pos)) : cseq * list cseq := (Flat (fst p), map Flat (snd p)).

Section Writer.
  Variable lib : geos_lib.

  (** geos_writer.rs:40-195.  collect() drains the sequences before the first error is returned. *)
  Definition geos_step (s : gs) (e : event) : gs * res unit :=
    match e with
    | Srid v => (mkGs (s_geom s) v (s_cs s) (s_polys s), Ok tt)                       (* 41-44 *)
    | Xy x y i =>                                                                     (* 45-54 *)
        match rev (s_cs s) with
        | [] => (s, Err EGeometry)
        | c :: r =>
            match set_at i (x, y) c with
            | Some c' => (set_cs s (rev r ++ [c']), Ok tt)
            | None => (s, Err (out_of_range lib))
            end
        end
    | PointBegin _ => (add_seq (set_cs s []) 1, Ok tt)                                (* 55-59 *)
    | PointEnd _ =>                                                                   (* 60-70 *)
        match rev (s_cs s) with
        | [] => (s, Err EGeometry)
        | c :: r =>
            let s' := set_cs s (rev r) in
            (* a point is made of one position, or of none *)
            if Nat.ltb 1 (length c) then (s', Err geos_error) else (set_geom s' (KPoint (Flat c)), Ok tt)
        end
    | MultiPointBegin n _ => (add_seq (set_cs s []) n, Ok tt)                         (* 71-74 *)
    | MultiPointEnd _ =>                                                              (* 75-96 *)
        match rev (s_cs s) with
        | [] => (s, Err EGeometry)
        | c :: r => (set_geom (set_cs s (rev r)) (KMultiPoint (map (fun p => Flat [p]) c)), Ok tt)
        end
    | LineStringBegin tagged n _ =>                                                   (* 97-102 *)
        (add_seq (if tagged then set_cs s [] else s) n, Ok tt)
    | LineStringEnd tagged _ =>                                                       (* 103-115 *)
        if tagged then
          match rev (s_cs s) with
          | [] => (s, Err EGeometry)
          | c :: r =>
              let s' := set_cs s (rev r) in
              if line_ok lib c then (set_geom s' (KLineString (Flat c)), Ok tt) else (s', Err geos_error)
          end
        else (s, Ok tt)
    | MultiLineStringBegin n _ =>                                                     (* 116-119 *)
        if capacity_ok (seq_bytes lib) n then (set_cs s [], Ok tt) else (s, Err EPanic)
    | MultiLineStringEnd _ =>                                                         (* 120-131 *)
        let s' := set_cs s [] in
        if forallb (line_ok lib) (s_cs s)
        then (set_geom s' (KMultiLineString (map Flat (s_cs s))), Ok tt)
        else (s', Err geos_error)
    | PolygonBegin _ n _ =>                                                           (* 132-135 *)
        if capacity_ok (seq_bytes lib) n then (set_cs s [], Ok tt) else (s, Err EPanic)
    | PolygonEnd tagged _ =>                                                          (* 136-160 *)
        match s_cs s with
        | [] => (s, Err EGeometry)
        | e :: i =>
            if negb (ring_ok lib e) then (set_cs s i, Err geos_error)
            else if forallb (ring_ok lib) i && poly_ok lib e i then
              let s' := set_cs s [] in
              if tagged then (set_geom s' (KPolygon (Flat e) (map Flat i)), Ok tt)
              else (set_polys s' (s_polys s ++ [(e, i)]), Ok tt)
            else (set_cs s [], Err geos_error)
        end
    | MultiPolygonBegin n _ =>                                                        (* 161-164 *)
        if capacity_ok (geom_bytes lib) n then (set_polys s [], Ok tt) else (s, Err EPanic)
    | MultiPolygonEnd _ =>                                                            (* 165-171 *)
        (set_geom (set_polys s []) (KMultiPolygon (map flat_poly (s_polys s))), Ok tt)
    | _ => default_step s e
    end.
  (** dimensions() is the default: XY *)
  Definition geos_writer : proc gs := mkProc xy_dims geos_step default_prop.

  (** mod.rs:18-24 (ToGeos::to_geos) *)
  Definition to_geos (src : dims -> prog unit) : res gval :=
    match exec geos_writer (src xy_dims) gs_init with
    | (s, Ok _) => Ok (s_geom s)
    | (_, Err e) => Err e
    end.
  (** mod.rs:35-41 (FromWkb for geos::Geometry) *)
  Definition geos_from_wkb (dl : WkbModel.dialect) (b : list byte) : res gval :=
    match exec geos_writer (WkbModel.process_wkb_type_geom dl xy_dims b) gs_init with
    | (s, Ok _) => Ok (s_geom s)
    | (_, Err e) => Err e
    end.
End Writer.
