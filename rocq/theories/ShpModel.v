(** Model of the shapefile reader: /repo/geozero/src/shp/{shp_reader,header,shx_reader,reader,
    property_processor}.rs.  [ck]: is the crate built with overflow checks (debug builds: an
    arithmetic overflow panics; release builds: it wraps)?  usize has 64 bits. *)
From Coq Require Import String Ascii.
From Coq Require Import List NArith ZArith Lia Bool.
From Coq Require Import Init.Byte.
From Verif Require Import Base Float Event WkbModel.
Import ListNotations.
Local Open Scope N_scope.
Local Open Scope list_scope.

(** ** Machine arithmetic *)
Definition usize_limit : N := 2 ^ 64.
(** `a + b`, `a * b`, `a - b` on usize *)
Definition uadd (ck : bool) (a b : N) : res N :=
  if a + b <? usize_limit then Ok (a + b)
  else if ck then Err EPanic else Ok ((a + b) mod usize_limit).
Definition umul (ck : bool) (a b : N) : res N :=
  if a * b <? usize_limit then Ok (a * b)
  else if ck then Err EPanic else Ok ((a * b) mod usize_limit).
Definition usub (ck : bool) (a b : N) : res N :=
  if b <=? a then Ok (a - b) else if ck then Err EPanic else Ok (a + usize_limit - b).
(** wrapping of an i32 result *)
Definition wrap_i32 (z : Z) : Z := u32_to_i32 (i32_to_u32 z).
Definition fits_i32 (z : Z) : bool := ((- 2 ^ 31 <=? z) && (z <? 2 ^ 31))%Z.
(** an i32 operation with mathematical result [z] *)
Definition i32_op (ck : bool) (z : Z) : res Z :=
  if fits_i32 z then Ok z else if ck then Err EPanic else Ok (wrap_i32 z).
(** `z as usize` for z: i32 (sign extension) *)
Definition as_usize (z : Z) : N := Z.to_N (z mod 2 ^ 64)%Z.
(** Vec::with_capacity(n), vec![0; n]: "capacity overflow" panic beyond isize::MAX bytes; an
    allocation failure below that limit is not modelled *)
Definition reserve (elem n : N) : res unit :=
  if n * elem <? 2 ^ 63 then Ok tt else Err EPanic.

Definition rlift {A} (r : res A) : rd A :=
  fun b => match r with Ok a => pret (a, b) | Err e => pfail e end.
(** callbacks made after reading *)
Definition rprog {A} (g : prog A) : rd A := fun b => pbind g (fun a => pret (a, b)).
Definition rthen {A B} (r : res A) (g : A -> rd B) : rd B := rbind (rlift r) g.
Notation "x <-! r ;; g" := (rthen r (fun x => g)) (at level 61, r at next level, right associativity).

(** `[..; n]` of values read one after the other *)
Fixpoint r_list {A} (f : rd A) (n : nat) : rd (list A) :=
  match n with
  | O => rret []
  | S n' => x <- f ;; l <- r_list f n' ;; rret (x :: l)
  end.

(** ** header.rs *)

(** shp/mod.rs:38-76 (Error), by position; IoError is EIo and GeozeroError(e) is e itself *)
Definition InvalidFileCode := EShp 1.
Definition InvalidShapeType := EShp 2.
Definition InvalidShapeRecordSize := EShp 5.
Definition DbaseError := EShp 6.
Definition MissingDbf := EShp 7.

(** header.rs:81-99 *)
Inductive shape_type :=
| NullShape | Point | Polyline | Polygon | Multipoint
| PointZ | PolylineZ | PolygonZ | MultipointZ
| PointM | PolylineM | PolygonM | MultipointM | Multipatch.

(** header.rs:115-134 *)
Definition shape_type_of (code : Z) : option shape_type :=
  match code with
  | 0 => Some NullShape
  | 1 => Some Point
  | 3 => Some Polyline
  | 5 => Some Polygon
  | 8 => Some Multipoint
  | 11 => Some PointZ
  | 13 => Some PolylineZ
  | 15 => Some PolygonZ
  | 18 => Some MultipointZ
  | 21 => Some PointM
  | 23 => Some PolylineM
  | 25 => Some PolygonM
  | 28 => Some MultipointM
  | 31 => Some Multipatch
  | _ => None
  end%Z.

(** header.rs:102-105 *)
Definition read_shape_type : rd shape_type :=
  code <- r_i32 LE ;;
  match shape_type_of code with Some t => rret t | None => rfail InvalidShapeType end.

(** header.rs:17-30; [h_bbox]: min.x min.y max.x max.y min.z max.z min.m max.m *)
Record header := mkHeader {
  h_length : Z;
  h_bbox : list f64;
  h_type : shape_type;
  h_version : Z
}.
Definition HEADER_SIZE : Z := 100.
Definition FILE_CODE : Z := 9994.

(** header.rs:44-75 *)
Definition read_header : rd header :=
  file_code <- r_i32 BE ;;
  (if (file_code =? FILE_CODE)%Z then rret tt else rfail InvalidFileCode) ;;;
  _ <- rtake 20 ;;
  file_length <- r_i32 BE ;;
  version <- r_i32 LE ;;
  t <- read_shape_type ;;
  bbox <- r_f64s LE 8 ;;
  rret (mkHeader file_length bbox t version).

(** shx_reader.rs:17-31; an index entry is (offset, record_size).  The division is by 8. *)
Definition read_index_file (ck : bool) : rd (list (Z * Z)) :=
  header <- read_header ;;
  bytes <-! i32_op ck (h_length header * 2)%Z ;;
  body <-! i32_op ck (bytes - HEADER_SIZE)%Z ;;
  let num_shapes := Z.quot body 8 in
  _ <-! reserve 8 (as_usize num_shapes) ;;
  r_list (offset <- r_i32 BE ;; record_size <- r_i32 BE ;; rret (offset, record_size))
    (Z.to_nat num_shapes).

(** ** shp_reader.rs *)

(** shp_reader.rs:366-369 *)
Definition multipart_dim_value_size (ck : bool) (num_points : N) : res N :=
  res_bind (umul ck num_points 8) (fun v => uadd ck 16 v).

(** shp_reader.rs:356-364 *)
Definition multipart_record_size (ck : bool) (num_points num_parts : N) : res N :=
  res_bind (umul ck 4 num_parts) (fun a =>
  res_bind (uadd ck 40 a) (fun size =>
  res_bind (umul ck 16 num_points) (fun v => uadd ck size v))).

(** shp_reader.rs:371-377 *)
Definition read_bbox (dims : nat) : rd (list f64) := r_f64s LE (2 * dims).

(** shp_reader.rs:379-387 *)
Definition read_xy (num_points : N) : rd (list (f64 * f64)) :=
  _ <-! reserve 16 num_points ;;
  r_list (x <- r_f64 LE ;; y <- r_f64 LE ;; rret (x, y)) (N.to_nat num_points).

(** shp_reader.rs:389-396 *)
Definition read_dim_values (num_points : N) : rd (list f64) :=
  _ <- read_bbox 1 ;;
  _ <-! reserve 8 num_points ;;
  r_list (r_f64 LE) (N.to_nat num_points).

(** shp_reader.rs:81-124 *)
Definition read_point (d : dims) (record_size : N) (t : shape_type) : rd unit :=
  let has_z := match t with PointZ => true | _ => false end in
  let has_m := match t with PointM => true | PointZ => record_size =? 32 | _ => false end in
  let dims := 2 + (if has_z then 1 else 0) + (if has_m then 1 else 0) in
  (if record_size =? dims * 8 then rret tt else rfail InvalidShapeRecordSize) ;;;
  x <- r_f64 LE ;;
  y <- r_f64 LE ;;
  z <- (if has_z then rmap Some (r_f64 LE) else rret None) ;;
  m <- (if has_m then rmap Some (r_f64 LE) else rret None) ;;
  rcall (PointBegin 0) ;;;
  (if multi_dim d
   then rcall (Coord x y (if dz d then z else None) (if dm d then m else None) None None 0)
   else rcall (Xy x y 0)) ;;;
  rcall (PointEnd 0).

(** `v[i]` *)
Definition at_index {A} (l : list A) (i : N) : res A :=
  if i <? N.of_nat (length l)
  then match nth_error l (N.to_nat i) with Some a => Ok a | None => Err EPanic end
  else Err EPanic.
Definition plift {A} (r : res A) : prog A := Done r.

(** shp_reader.rs:170-177, 323-338: the callback for the coordinate at [ofs], with index [idx] *)
Definition emit_point (multi get_z get_m : bool) (coords : list (f64 * f64)) (zs ms : list f64)
    (ofs : N) (idx : nat) : prog unit :=
  pbind (plift (at_index coords ofs)) (fun c =>
  if multi then
    pbind (if get_z then plift (res_map Some (at_index zs ofs)) else pret None) (fun z =>
    pbind (if get_m then plift (res_map Some (at_index ms ofs)) else pret None) (fun m =>
    pcall (Coord (fst c) (snd c) z m None None idx)))
  else pcall (Xy (fst c) (snd c) idx)).

(** `for ofs in start..start+n { let idx = ofs - start; ... }` *)
Fixpoint emit_points (multi get_z get_m : bool) (coords : list (f64 * f64)) (zs ms : list f64)
    (start : N) (n idx : nat) : prog unit :=
  match n with
  | O => pret tt
  | S n' =>
      pthen (emit_point multi get_z get_m coords zs ms (start + N.of_nat idx) idx)
            (emit_points multi get_z get_m coords zs ms start n' (S idx))
  end.

(** `!v.is_empty()` *)
Definition filled {A} (l : list A) : bool := match l with [] => false | _ => true end.

(** shp_reader.rs:126-181; [has_z]: the shape type is MultipointZ *)
Definition read_multipoint (ck : bool) (d : dims) (record_size : N) (has_z : bool) : rd unit :=
  _ <- read_bbox 2 ;;
  num <- r_i32 LE ;;
  let num_points := as_usize num in
  v <-! umul ck 16 num_points ;;
  size <-! uadd ck 36 v ;;
  dim_size <-! multipart_dim_value_size ck num_points ;;
  size <-! (if has_z then uadd ck size dim_size else Ok size) ;;
  with_m <-! uadd ck size dim_size ;;
  let has_m := record_size =? with_m in
  let size := if has_m then with_m else size in
  (if record_size =? size then rret tt else rfail InvalidShapeRecordSize) ;;;
  coords <- read_xy num_points ;;
  zs <- (if has_z then read_dim_values num_points else rret []) ;;
  ms <- (if has_m then read_dim_values num_points else rret []) ;;
  rprog (
    pthen (pcall (MultiPointBegin (N.to_nat num_points) 0))
    (pthen (emit_points (multi_dim d) (dz d && filled zs) (dm d && filled ms) coords zs ms 0
              (N.to_nat num_points) 0)
    (pcall (MultiPointEnd 0)))).

(** shp_reader.rs:218-223 *)
Record multipart := mkMultipart {
  mp_parts : list N;
  mp_coords : list (f64 * f64);
  mp_z : list f64;
  mp_m : list f64
}.

(** shp_reader.rs:231-269 *)
Definition read_multipart (ck : bool) (record_size : N) (has_z : bool) : rd multipart :=
  _ <- read_bbox 2 ;;
  parts <- r_i32 LE ;;
  points <- r_i32 LE ;;
  let num_parts := as_usize parts in
  let num_points := as_usize points in
  rec_size <-! multipart_record_size ck num_points num_parts ;;
  dim_size <-! multipart_dim_value_size ck num_points ;;
  rec_size <-! (if has_z then uadd ck rec_size dim_size else Ok rec_size) ;;
  with_m <-! uadd ck rec_size dim_size ;;
  let has_m := record_size =? with_m in
  (if (record_size =? rec_size) || has_m then rret tt else rfail InvalidShapeRecordSize) ;;;
  cap <-! uadd ck num_parts 1 ;;
  _ <-! reserve 8 cap ;;
  index <- r_list (rmap as_usize (r_i32 LE)) (N.to_nat num_parts) ;;
  coords <- read_xy num_points ;;
  zs <- (if has_z then read_dim_values num_points else rret []) ;;
  ms <- (if has_m then read_dim_values num_points else rret []) ;;
  rret (mkMultipart (index ++ [num_points]) coords zs ms).

(** slice::windows(2) *)
Fixpoint windows2 {A} (l : list A) : list (A * A) :=
  match l with
  | [] => []
  | a :: r => match r with [] => [] | b :: _ => (a, b) :: windows2 r end
  end.

(** `&v[start..end]` *)
Definition slice {A} (l : list A) (start end_ : N) : res (list A) :=
  if (start <=? end_) && (end_ <=? N.of_nat (length l))
  then Ok (firstn (N.to_nat (end_ - start)) (skipn (N.to_nat start) l))
  else Err EPanic.

(** 2.0f64 *)
Definition f64_two : f64 := 0x4000000000000000.

(** shp_reader.rs:420-432, true for RingType::OuterRing.  The sum starts at 0.0 (some versions of
    the standard library start at -0.0: the comparison cannot tell). *)
Definition outer_ring (points : list (f64 * f64)) : bool :=
  let terms := map (fun w : (f64 * f64) * (f64 * f64) =>
                      let '((x0, y0), (x1, y1)) := w in f64_mul (f64_sub x1 x0) (f64_add y1 y0))
                   (windows2 points) in
  negb (f64_ltb (f64_div (fold_left f64_add terms 0) f64_two) 0).

(** shp_reader.rs:277-285 *)
Fixpoint detect_loop (coords : list (f64 * f64)) (l : list (N * N)) (idx : nat) : res (list nat) :=
  match l with
  | [] => Ok []
  | (start, end_) :: r =>
      res_bind (if Nat.eqb idx 0 then Ok true else res_map outer_ring (slice coords start end_))
        (fun first => res_map (fun polys => if first then idx :: polys else polys)
                              (detect_loop coords r (S idx)))
  end.
(** shp_reader.rs:271-288; mp_parts is never empty *)
Definition num_parts (mp : multipart) : nat := length (mp_parts mp) - 1.
Definition detect_polys (mp : multipart) : res (list nat) :=
  res_map (fun polys => polys ++ [num_parts mp])
          (detect_loop (mp_coords mp) (windows2 (mp_parts mp)) 0).

(** shp_reader.rs:314-341: one ring or line *)
Definition process_part (ck multi get_z get_m : bool) (mp : multipart) (ring_idx : nat)
    (start_end : N * N) : prog unit :=
  let '(start, end_) := start_end in
  pbind (plift (usub ck end_ start)) (fun num_points_in_part =>
  pthen (pcall (LineStringBegin false (N.to_nat num_points_in_part) ring_idx))
  (pthen (emit_points multi get_z get_m (mp_coords mp) (mp_z mp) (mp_m mp) start
            (N.to_nat (end_ - start)) 0)
  (pcall (LineStringEnd false ring_idx)))).

(** shp_reader.rs:308-345: `self.parts_index[geom_start..=geom_end]` *)
Definition process_geom_part (ck multi get_z get_m as_poly : bool) (mp : multipart)
    (geom_idx : nat) (start_end : nat * nat) : prog unit :=
  let '(geom_start, geom_end) := start_end in
  pbind (plift (usub ck (N.of_nat geom_end) (N.of_nat geom_start))) (fun num_rings =>
  pthen (if as_poly then pcall (PolygonBegin false (N.to_nat num_rings) geom_idx) else pret tt)
  (pbind (plift (slice (mp_parts mp) (N.of_nat geom_start) (N.of_nat geom_end + 1))) (fun index =>
  pthen (pfor (process_part ck multi get_z get_m mp) 0 (windows2 index))
  (if as_poly then pcall (PolygonEnd false geom_idx) else pret tt)))).

(** shp_reader.rs:290-353 *)
Definition process_multipart (ck : bool) (d : dims) (as_poly : bool) (mp : multipart) : prog unit :=
  let multi := dz d || dm d in
  let get_z := dz d && filled (mp_z mp) in
  let get_m := dm d && filled (mp_m mp) in
  pbind (if as_poly then plift (detect_polys mp) else pret [0%nat; num_parts mp]) (fun geom_parts =>
  pthen (if as_poly then pcall (MultiPolygonBegin (length geom_parts - 1) 0)
         else pcall (MultiLineStringBegin (num_parts mp) 0))
  (pthen (pfor (process_geom_part ck multi get_z get_m as_poly mp) 0 (windows2 geom_parts))
  (if as_poly then pcall (MultiPolygonEnd 0) else pcall (MultiLineStringEnd 0)))).

(** shp_reader.rs:183-203 *)
Definition read_parts (ck : bool) (d : dims) (record_size : N) (has_z as_poly : bool) : rd unit :=
  mp <- read_multipart ck record_size has_z ;;
  rprog (process_multipart ck d as_poly mp).

(** shp_reader.rs:205-214 *)
Definition read_multipatch (record_size : N) : rd unit :=
  _ <-! reserve 1 record_size ;;
  _ <- rtake (N.to_nat record_size) ;;
  rret tt.

(** shp_reader.rs:47-79 *)
Definition read_shape_rec (ck : bool) (d : dims) (record_size : N) : rd unit :=
  t <- read_shape_type ;;
  record_size <-! usub ck record_size 4 ;;
  match t with
  | Point | PointM | PointZ => read_point d record_size t
  | Multipoint => read_multipoint ck d record_size false
  | MultipointM => read_multipoint ck d record_size false
  | MultipointZ => read_multipoint ck d record_size true
  | Polyline => read_parts ck d record_size false false
  | PolylineM => read_parts ck d record_size false false
  | PolylineZ => read_parts ck d record_size true false
  | Polygon => read_parts ck d record_size false true
  | PolygonM => read_parts ck d record_size false true
  | PolygonZ => read_parts ck d record_size true true
  | Multipatch => read_multipatch record_size
  | NullShape => rret tt
  end.

(** shp_reader.rs:26-45: the result is the record header (number, size in 16 bit words) *)
Definition read_shape (ck : bool) (d : dims) : rd (Z * Z) :=
  record_number <- r_i32 BE ;;
  record_size <- r_i32 BE ;;
  doubled <-! i32_op ck (record_size * 2)%Z ;;
  read_shape_rec ck d (as_usize doubled) ;;;
  rret (record_number, record_size).

(** ** property_processor.rs *)

(** dbase::FieldValue; dates carry the text of `value.to_string()` *)
Inductive field_value :=
| Character (v : option string)
| Numeric (v : option f64)
| Logical (v : option bool)
| Date (v : option string)
| Float (v : option N)
| Integer (v : Z)
| Double (v : f64)
| Currency (v : f64)
| DateTime (v : string)
| Memo (v : string).

(** property_processor.rs:12-48: the column value offered; [None] for a NULL field *)
Definition column_value (v : field_value) : option colval :=
  match v with
  | Character (Some s) => Some (CString s)
  | Numeric (Some x) => Some (CDouble x)
  | Logical (Some b) => Some (CBool b)
  | Date (Some s) => Some (CDateTime s)
  | Float (Some x) => Some (CFloat x)
  | Integer z => Some (CInt z)
  | Double x => Some (CDouble x)
  | Currency x => Some (CDouble x)
  | DateTime s => Some (CDateTime s)
  | Memo s => Some (CString s)
  | Character None | Numeric None | Logical None | Date None | Float None => None
  end.

(** dbase::Record: fields in the order in which the record's map iterates *)
Definition dbf_record := list (string * field_value).

(** property_processor.rs:9-55 *)
Fixpoint process_properties (i : nat) (r : dbf_record) : prog bool :=
  match r with
  | [] => pret false
  | (name, value) :: rest =>
      match column_value value with
      | Some v => CallProp i name v
                    (fun finish => if finish then pret true else process_properties (S i) rest)
      | None => process_properties i rest
      end
  end.

(** ** reader.rs *)

(** reader.rs:14-19; the processor is kept apart *)
Record shape_iter := mkIter { it_source : list byte; it_pos : N; it_length : N }.

(** reader.rs:155-165 *)
Definition iter_geometries (ck : bool) (h : header) (source : list byte) : res shape_iter :=
  res_map (fun z => mkIter source (as_usize HEADER_SIZE) (as_usize z))
          (i32_op ck (h_length h * 2)%Z).

(** reader.rs:32-33 *)
Definition advance (ck : bool) (pos : N) (record_size : Z) : res N :=
  res_bind (uadd ck pos 8) (fun p =>
  res_bind (umul ck (as_usize record_size) 2) (fun v => uadd ck p v)).

Section Iterators.
  Variable ck : bool.
  (** what a failed read_shape leaves of the source is not modelled: any function *)
  Variable leftover : list byte -> list byte.

  (** reader.rs:24-36 *)
  Definition shape_next {S} (p : proc S) (it : shape_iter) (s : S)
    : shape_iter * S * option (res unit) :=
    if it_length it <=? it_pos it then (it, s, None)
    else
      match exec p (read_shape ck (p_dims p) (it_source it)) s with
      | (s', Err e) => (mkIter (leftover (it_source it)) (it_pos it) (it_length it), s', Some (Err e))
      | (s', Ok (hdr, rest)) =>
          match advance ck (it_pos it) (snd hdr) with
          | Ok pos => (mkIter rest pos (it_length it), s', Some (Ok tt))
          | Err e => (mkIter rest (it_pos it) (it_length it), s', Some (Err e))
          end
      end.

  (** reader.rs:41-45; dbase::Reader as the items iter_records().next() will return, [fi_after]
      once these are used up *)
  Record feature_iter := mkFIter {
    fi_shapes : shape_iter;
    fi_records : list (res dbf_record);
    fi_after : option (res dbf_record);
    fi_no : nat
  }.
  Definition dbf_next (it : feature_iter) : option (res dbf_record) :=
    match fi_records it with r :: _ => Some r | [] => fi_after it end.

  (** `processor.e().ok()`: an error is dropped, a panic is not *)
  Definition told {S} (p : proc S) (s : S) (e : event) : S * res unit :=
    match p_step p s e with
    | (s', Err EPanic) => (s', Err EPanic)
    | (s', _) => (s', Ok tt)
    end.
  (** several of these in a row *)
  Definition tell {S} (p : proc S) (l : list event) (s : S) : S * res unit :=
    run (mkProc (p_dims p) (told p) (p_prop p)) l s.

  (** reader.rs:54-96; a panic ends the call with [Err EPanic] *)
  Definition feature_next {S} (p : proc S) (it : feature_iter) (s : S)
    : feature_iter * S * option (res dbf_record) :=
    match tell p (if Nat.eqb (fi_no it) 0 then [DatasetBegin None] else []) s with
    | (s, Err e) => (it, s, Some (Err e))
    | (s, Ok _) =>
        let it1 := mkFIter (fi_shapes it) (tl (fi_records it)) (fi_after it) (fi_no it) in
        let finish it s :=
          match tell p [DatasetEnd] s with
          | (s, Ok _) => (it, s, None)
          | (s, Err e) => (it, s, Some (Err e))
          end in
        if it_length (fi_shapes it) <=? it_pos (fi_shapes it) then finish it s
        else
          match dbf_next it with
          | None => finish it1 s
          | Some (Err _) => (it1, s, Some (Err DbaseError))
          | Some (Ok record) =>
              match tell p [FeatureBegin (fi_no it); PropertiesBegin] s with
              | (s, Err e) => (it1, s, Some (Err e))
              | (s, Ok _) =>
                  match exec p (process_properties 0 record) s with
                  | (s, Err e) => (it1, s, Some (Err e))
                  | (s, Ok _) =>
                      match tell p [PropertiesEnd; GeometryBegin] s with
                      | (s, Err e) => (it1, s, Some (Err e))
                      | (s, Ok _) =>
                          match shape_next p (fi_shapes it) s with
                          | (shapes, s, None) =>
                              (mkFIter shapes (tl (fi_records it)) (fi_after it) (fi_no it), s, None)
                          | (shapes, s, Some (Err e)) =>
                              (mkFIter shapes (tl (fi_records it)) (fi_after it) (fi_no it), s, Some (Err e))
                          | (shapes, s, Some (Ok _)) =>
                              match tell p [GeometryEnd; FeatureEnd (fi_no it)] s with
                              | (s, Err e) =>
                                  (mkFIter shapes (tl (fi_records it)) (fi_after it) (fi_no it), s, Some (Err e))
                              | (s, Ok _) =>
                                  (mkFIter shapes (tl (fi_records it)) (fi_after it) (Datatypes.S (fi_no it)), s,
                                   Some (Ok record))
                              end
                          end
                      end
                  end
              end
          end
    end.

  (** reader.rs:172-187; [dbf]: the dbf reader, if there is one *)
  Definition iter_features (h : header) (source : list byte)
      (dbf : option (list (res dbf_record) * option (res dbf_record))) : res feature_iter :=
    match dbf with
    | None => Err MissingDbf
    | Some (records, after) =>
        res_map (fun shapes => mkFIter shapes records after 0) (iter_geometries ck h source)
    end.

  (** the caller's `for record in reader.iter_features(&mut p)? { record?; }`, at most [n] calls of
      next; [None]: not finished after these *)
  Fixpoint consume {S} (p : proc S) (n : nat) (it : feature_iter) (s : S) : S * option (res unit) :=
    match n with
    | O => (s, None)
    | Datatypes.S n' =>
        match feature_next p it s with
        | (_, s, None) => (s, Some (Ok tt))
        | (_, s, Some (Err e)) => (s, Some (Err e))
        | (it, s, Some (Ok _)) => consume p n' it s
        end
    end.

  (** the caller's `for item in reader.iter_geometries(&mut p) { item?; }` *)
  Fixpoint consume_shapes {S} (p : proc S) (n : nat) (it : shape_iter) (s : S) : S * option (res unit) :=
    match n with
    | O => (s, None)
    | Datatypes.S n' =>
        match shape_next p it s with
        | (_, s, None) => (s, Some (Ok tt))
        | (_, s, Some (Err e)) => (s, Some (Err e))
        | (it, s, Some (Ok _)) => consume_shapes p n' it s
        end
    end.

  (** [n] calls of next, with their items *)
  Fixpoint features {S} (p : proc S) (n : nat) (it : feature_iter) (s : S)
    : feature_iter * S * list (option (res dbf_record)) :=
    match n with
    | O => (it, s, [])
    | Datatypes.S n' =>
        let '(it, s, x) := feature_next p it s in
        let '(it, s, l) := features p n' it s in
        (it, s, x :: l)
    end.
  Fixpoint shapes {S} (p : proc S) (n : nat) (it : shape_iter) (s : S)
    : shape_iter * S * list (option (res unit)) :=
    match n with
    | O => (it, s, [])
    | Datatypes.S n' =>
        let '(it, s, x) := shape_next p it s in
        let '(it, s, l) := shapes p n' it s in
        (it, s, x :: l)
    end.
End Iterators.

(** ** Answers of ShapeType (header.rs:135-170) *)
Definition type_has_z (t : shape_type) : bool :=                             (* 136-141 *)
  match t with PointZ | PolylineZ | PolygonZ | MultipointZ => true | _ => false end.
Definition type_has_m (t : shape_type) : bool :=                             (* 144-156 *)
  match t with
  | PointZ | PolylineZ | PolygonZ | MultipointZ | PointM | PolylineM | PolygonM | MultipointM => true
  | _ => false
  end.
Definition type_multipart (t : shape_type) : bool :=                      (* 159-169 *)
  match t with
  | Point | PointM | PointZ | Multipoint | MultipointM | MultipointZ => false
  | _ => true
  end.
(** shp_reader.rs:10: -10e38, the nearest f64 *)
Definition NO_DATA : f64 := 0xC8078287F49C4A1D.

(** ** Opening the files (reader.rs:101-151, 189-231) *)

(** dbase::Reader (third party) as what it will answer: the descriptors of the fields, by name; the
    result of `read()`; the items of iter_records().next(), as in [feature_iter] *)
Record dbf_reader := mkDbf {
  dr_fields : list string;
  dr_read : res (list dbf_record);
  dr_records : list (res dbf_record);
  dr_after : option (res dbf_record)
}.
(** reader.rs:102-107 *)
Record shp_reader := mkReader {
  sr_source : list byte;
  sr_header : header;
  sr_index : option (list (Z * Z));
  sr_dbf : option dbf_reader
}.
(** the file system: [fs_exists] is Path::exists, [fs_open] is File::open and what can then be read *)
Record file_system := mkFiles { fs_exists : string -> bool; fs_open : string -> res (list byte) }.

Section Opening.
  Variable ck : bool.
  (** dbase::Reader::new *)
  Variable dbase : list byte -> res dbf_reader.
  (** Path::with_extension *)
  Variable with_extension : string -> string -> string.

  (** reader.rs:121-130; [observe]: reading a header has no processor and makes no callbacks *)
  Definition reader_new (source : list byte) : res shp_reader :=
    match snd (observe (read_header source)) with
    | Ok (h, rest) => Ok (mkReader rest h None None)
    | Err e => Err e
    end.
  (** reader.rs:193-196 *)
  Definition add_index_source (r : shp_reader) (source : list byte) : res shp_reader :=
    match snd (observe (read_index_file ck source)) with
    | Ok (l, _) => Ok (mkReader (sr_source r) (sr_header r) (Some l) (sr_dbf r))
    | Err e => Err e
    end.
  (** reader.rs:199-203; whatever dbase reports becomes a DbaseError *)
  Definition add_dbf_source (r : shp_reader) (source : list byte) : res shp_reader :=
    match dbase source with
    | Ok d => Ok (mkReader (sr_source r) (sr_header r) (sr_index r) (Some d))
    | Err _ => Err DbaseError
    end.
  (** reader.rs:212-230 *)
  Definition from_path (fs : file_system) (path : string) : res shp_reader :=
    let shx := with_extension path "shx"%string in
    let dbf := with_extension path "dbf"%string in
    res_bind (fs_open fs path) (fun source =>
    res_bind (reader_new source) (fun r =>
    res_bind (if fs_exists fs shx then res_bind (fs_open fs shx) (add_index_source r) else Ok r) (fun r =>
    if fs_exists fs dbf then res_bind (fs_open fs dbf) (add_dbf_source r) else Ok r))).
End Opening.

(** reader.rs:138-141 *)
Definition read_records (r : shp_reader) : res (list dbf_record) :=
  match sr_dbf r with
  | None => Err MissingDbf
  | Some d => match dr_read d with Ok l => Ok l | Err _ => Err DbaseError end
  end.
(** reader.rs:144-153 *)
Definition dbf_fields (r : shp_reader) : res (list string) :=
  match sr_dbf r with
  | None => Err MissingDbf
  | Some d => Ok (filter (fun n => negb (String.eqb n "DeletionFlag")) (dr_fields d))
  end.
(** reader.rs:155-187 on a reader *)
Definition reader_geometries (ck : bool) (r : shp_reader) : res shape_iter :=
  iter_geometries ck (sr_header r) (sr_source r).
Definition reader_features (ck : bool) (r : shp_reader) : res feature_iter :=
  iter_features ck (sr_header r) (sr_source r)
    (option_map (fun d => (dr_records d, dr_after d)) (sr_dbf r)).
