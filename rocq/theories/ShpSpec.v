(** Specification side for shapefiles: the record layouts of the ESRI whitepaper, the geometries
    the records stand for and the callbacks of a file.  (Only data types are taken from the model.) *)
From Coq Require Import String Ascii.
From Coq Require Import List NArith ZArith Lia Bool.
From Coq Require Import Init.Byte.
From Verif Require Import Base Float Event Claims Geom FeatureSpec ShpModel.
Import ListNotations.
Local Open Scope list_scope.

(** ** Shapes *)

(** the three families of shape types: without extra values, with measures, with z values and
    optional measures *)
Inductive variant := Flat | Measured | Tall.
(** shape type codes: 1 point, 3 polyline, 5 polygon, 8 multipoint; +20 and +10 for the variants *)
Definition type_code (base : Z) (v : variant) : Z :=
  match v with Flat => base | Measured => (base + 20)%Z | Tall => (base + 10)%Z end.

(** bounding box and value ranges: stored in the record, of no consequence *)
Record extent := mkExtent { e_box : list f64; e_z : list f64; e_m : list f64 }.

(** [m]: is the optional M block present? *)
Inductive shape :=
| Null
| OnePoint (v : variant) (c : coord)
| ManyPoints (v : variant) (m : bool) (e : extent) (l : list coord)
| Lines (v : variant) (m : bool) (e : extent) (parts : list (list coord))
| Areas (v : variant) (m : bool) (e : extent) (rings : list (list coord))
(** a multipatch: what it holds is not interpreted *)
| Patches (b : list byte).

(** ** Layout *)
Definition le32 (z : Z) : list byte := bytes_of LE 4 (i32_to_u32 z).
Definition be32 (z : Z) : list byte := bytes_of BE 4 (i32_to_u32 z).
Definition le64 (x : f64) : list byte := bytes_of LE 8 x.
Definition count32 (n : nat) : list byte := le32 (Z.of_nat n).
Definition value (o : option f64) : f64 := opt_default 0%N o.

Definition is_tall (v : variant) : bool := match v with Tall => true | _ => false end.
Definition xy_bytes (c : coord) : list byte := le64 (cx c) ++ le64 (cy c).
Definition points_bytes (v : variant) (m : bool) (e : extent) (l : list coord) : list byte :=
  flat_map xy_bytes l ++
  (if is_tall v then flat_map le64 (e_z e) ++ flat_map (fun c => le64 (value (cz c))) l else []) ++
  (if m then flat_map le64 (e_m e) ++ flat_map (fun c => le64 (value (cm c))) l else []).

(** index of the first point of each part *)
Fixpoint starts {A} (k : nat) (parts : list (list A)) : list nat :=
  match parts with
  | [] => []
  | p :: r => k :: starts (k + length p) r
  end.
Definition parts_bytes (v : variant) (m : bool) (e : extent) (parts : list (list coord)) : list byte :=
  flat_map le64 (e_box e) ++ count32 (length parts) ++ count32 (length (concat parts)) ++
  flat_map count32 (starts 0 parts) ++ points_bytes v m e (concat parts).

Definition content (sh : shape) : list byte :=
  match sh with
  | Null => le32 0
  | OnePoint v c =>
      le32 (type_code 1 v) ++ xy_bytes c ++
      (if is_tall v then le64 (value (cz c)) else []) ++
      match cm c with Some x => le64 x | None => [] end
  | ManyPoints v m e l =>
      le32 (type_code 8 v) ++ flat_map le64 (e_box e) ++ count32 (length l) ++ points_bytes v m e l
  | Lines v m e parts => le32 (type_code 3 v) ++ parts_bytes v m e parts
  | Areas v m e rings => le32 (type_code 5 v) ++ parts_bytes v m e rings
  | Patches b => le32 31 ++ b
  end.

(** length of the content in 16 bit words *)
Definition words (sh : shape) : Z := (Z.of_nat (length (content sh)) / 2)%Z.
(** a record: number, length, content *)
Definition record_bytes (n : Z) (sh : shape) : list byte := be32 n ++ be32 (words sh) ++ content sh.

(** ** Well-formed shapes *)
Definition some {A} (o : option A) : bool := match o with Some _ => true | None => false end.
Definition opt_ok (o : option f64) : Prop := match o with Some x => f64_ok x | None => True end.
(** a position whose extra values are those of the variant *)
Definition coord_fits (v : variant) (m : bool) (c : coord) : Prop :=
  f64_ok (cx c) /\ f64_ok (cy c) /\ opt_ok (cz c) /\ opt_ok (cm c) /\
  some (cz c) = is_tall v /\ some (cm c) = m.
Definition extent_ok (e : extent) : Prop :=
  length (e_box e) = 4 /\ length (e_z e) = 2 /\ length (e_m e) = 2 /\
  Forall f64_ok (e_box e) /\ Forall f64_ok (e_z e) /\ Forall f64_ok (e_m e).
Definition measure_allowed (v : variant) (m : bool) : Prop :=
  match v with Flat => m = false | _ => True end.
(** a shape that has an encoding: the length of the content fits the field *)
Definition well_formed (sh : shape) : Prop :=
  (N.of_nat (length (content sh)) < 2 ^ 31)%N /\
  match sh with
  | Null => True
  | OnePoint v c =>
      coord_fits v (some (cm c)) c /\
      match v with Flat => cm c = None | Measured => cm c <> None | Tall => True end
  | ManyPoints v m e l => measure_allowed v m /\ extent_ok e /\ Forall (coord_fits v m) l
  | Lines v m e parts | Areas v m e parts =>
      measure_allowed v m /\ extent_ok e /\ Forall (Forall (coord_fits v m)) parts
  | Patches b => Nat.Even (length b)
  end.

(** ** The geometry of a shape *)

(** twice the signed area, summed in f64 from left to right; clockwise rings have a positive sum *)
Fixpoint shoelace (acc : f64) (l : list coord) : f64 :=
  match l with
  | [] => acc
  | a :: r =>
      match r with
      | [] => acc
      | b :: _ =>
          shoelace (f64_add acc (f64_mul (f64_sub (cx b) (cx a)) (f64_add (cy b) (cy a)))) r
      end
  end.
Definition two : f64 := 0x4000000000000000%N.
(** not counter-clockwise *)
Definition clockwise (l : list coord) : bool :=
  negb (f64_ltb (f64_div (shoelace 0%N l) two) 0%N).

(** [grouped cw rings polys]: the polygons are the rings in order, none lost or repeated; every
    polygon after the first starts with a clockwise ring; rings other than the first of a polygon
    are not clockwise *)
Definition grouped {A} (cw : A -> bool) (rings : list A) (polys : list (list A)) : Prop :=
  concat polys = rings /\
  Forall (fun p => exists r holes, p = r :: holes /\ Forall (fun h => cw h = false) holes) polys /\
  Forall (fun p => exists r holes, p = r :: holes /\ cw r = true) (tl polys).

(** what the consumer asked for *)
Definition visible (d : dims) (c : coord) : coord :=
  mkC (cx c) (cy c) (if dz d then cz c else None) (if dm d then cm c else None).

Inductive represents (d : dims) : shape -> geom -> Prop :=
| rep_point : forall v c, represents d (OnePoint v c) (GPoint (visible d c))
| rep_points : forall v m e l, represents d (ManyPoints v m e l) (GMultiPoint (map (visible d) l))
| rep_lines : forall v m e parts,
    represents d (Lines v m e parts) (GMultiLineString (map (map (visible d)) parts))
| rep_areas : forall v m e rings polys,
    grouped clockwise rings polys ->
    represents d (Areas v m e rings) (GMultiPolygon (map (map (map (visible d))) polys)).

(** Does the reader use `coordinate` (rather than `xy`)?  For lines and polygons a consumer that
    asks only for t or tm values gets `xy`. *)
Definition uses_coordinate (d : dims) (sh : shape) : bool :=
  match sh with
  | Lines _ _ _ _ | Areas _ _ _ _ => dz d || dm d
  | _ => multi_dim d
  end.

(** the callbacks of a shape; none for the null shape and for multipatches *)
Definition shape_events (d : dims) (sh : shape) (l : list event) : Prop :=
  match sh with
  | Null | Patches _ => l = []
  | _ => exists g, represents d sh g /\ l = gevents (uses_coordinate d sh) 0 g
  end.

(** ** Files *)

(** one feature of a file: attributes, record number and shape *)
Record entry := mkEntry { en_record : dbf_record; en_number : Z; en_shape : shape }.
Definition entry_ok (f : entry) : Prop := is_i32 (en_number f) /\ well_formed (en_shape f).
(** the .shp file after its header *)
Definition shp_body (l : list entry) : list byte :=
  flat_map (fun f => record_bytes (en_number f) (en_shape f)) l.

(** the column value of an attribute; a null attribute has none *)
Definition shown (v : field_value) : option colval :=
  match v with
  | Character o => option_map CString o
  | Numeric o => option_map CDouble o
  | Logical o => option_map CBool o
  | Date o => option_map CDateTime o
  | Float o => option_map CFloat o
  | Integer z => Some (CInt z)
  | Double x | Currency x => Some (CDouble x)
  | DateTime s => Some (CDateTime s)
  | Memo s => Some (CString s)
  end.
(** the attributes that are not null, in order *)
Fixpoint offered (r : dbf_record) : list (string * colval) :=
  match r with
  | [] => []
  | (n, v) :: rest =>
      match shown v with Some c => (n, c) :: offered rest | None => offered rest end
  end.

(** What the reader does: [Tell e] makes a callback whose error is dropped (a panic is not), [Do e]
    one whose failure ends the iteration; [Offer l] offers attributes with indices 0, 1, ... until one is
    answered with `true`, a failure ends the iteration. *)
Inductive act := Tell (e : event) | Do (e : event) | Offer (l : list (string * colval)).
Fixpoint offer {S} (p : proc S) (i : nat) (l : list (string * colval)) (s : S) : S * res unit :=
  match l with
  | [] => (s, Ok tt)
  | (n, v) :: r =>
      match p_prop p s i n v with
      | (s, Ok true) => (s, Ok tt)
      | (s, Ok false) => offer p (Datatypes.S i) r s
      | (s, Err e) => (s, Err e)
      end
  end.
Fixpoint perform {S} (p : proc S) (l : list act) (s : S) : S * res unit :=
  match l with
  | [] => (s, Ok tt)
  | Tell e :: r =>
      match p_step p s e with
      | (s, Err EPanic) => (s, Err EPanic)
      | (s, _) => perform p r s
      end
  | Do e :: r =>
      match p_step p s e with
      | (s, Ok _) => perform p r s
      | (s, Err x) => (s, Err x)
      end
  | Offer props :: r =>
      match offer p 0 props s with
      | (s, Ok _) => perform p r s
      | (s, Err x) => (s, Err x)
      end
  end.

(** feature number [i] with the callbacks [l] of its shape *)
Definition feature_acts (i : nat) (f : entry * list event) : list act :=
  [Tell (FeatureBegin i); Tell PropertiesBegin; Offer (offered (en_record (fst f)));
   Tell PropertiesEnd; Tell GeometryBegin] ++
  map Do (snd f) ++ [Tell GeometryEnd; Tell (FeatureEnd i)].
Definition file_acts (l : list (entry * list event)) : list act :=
  Tell (DatasetBegin None) :: flat_mapi feature_acts 0 l ++ [Tell DatasetEnd].

(** the same as an observer sees it who goes on whatever happens *)
Definition feature_seen (i : nat) (f : entry * list event) : list obs :=
  [OEv (FeatureBegin i); OEv PropertiesBegin] ++
  mapi (fun k q => OProp k (fst q) (snd q)) 0 (offered (en_record (fst f))) ++
  [OEv PropertiesEnd; OEv GeometryBegin] ++
  map OEv (snd f) ++ [OEv GeometryEnd; OEv (FeatureEnd i)].
Definition file_seen (l : list (entry * list event)) : list obs :=
  OEv (DatasetBegin None) :: flat_mapi feature_seen 0 l ++ [OEv DatasetEnd].

(** [events_of d l evs]: callbacks of the shapes of the file *)
Definition events_of (d : dims) (l : list entry) (evs : list (list event)) : Prop :=
  Forall2 (fun f ev => shape_events d (en_shape f) ev) l evs.

(** ** The raw fields of a record *)

(** the 32 bit integer at offset [k], if the bytes are there *)
Definition int_at (e : endian) (b : list byte) (k : nat) : option Z :=
  let f := firstn 4 (skipn k b) in
  if Nat.eqb (length f) 4 then Some (u32_to_i32 (val_of e f)) else None.

(** the first point of part [i] according to the part table at offset 52; the part after the last
    one begins after the last point *)
Definition part_at (b : list byte) (parts points : Z) (i : nat) : option Z :=
  if (Z.of_nat i <? parts)%Z then int_at LE b (52 + 4 * i) else Some points.

(** no negative or overflowing sizes and counts, part tables in ascending order; about whatever of
    these fields is present *)
Definition sane (b : list byte) : Prop :=
  (forall size, int_at BE b 4 = Some size -> (2 <= size < 2 ^ 30)%Z) /\
  (forall t points, int_at LE b 8 = Some t -> In t [8; 18; 28]%Z ->
     int_at LE b 44 = Some points -> (0 <= points)%Z) /\
  (forall t parts points, int_at LE b 8 = Some t -> In t [3; 13; 23; 5; 15; 25]%Z ->
     int_at LE b 44 = Some parts -> int_at LE b 48 = Some points ->
     (0 <= parts)%Z /\ (0 <= points)%Z /\
     forall i a c, (Z.of_nat i < parts)%Z ->
       part_at b parts points i = Some a -> part_at b parts points (S i) = Some c ->
       (0 <= a <= c)%Z).

(** ** Headers and index files *)
Definition type_number (t : shape_type) : Z :=
  match t with
  | NullShape => 0
  | Point => type_code 1 Flat | PointM => type_code 1 Measured | PointZ => type_code 1 Tall
  | Polyline => type_code 3 Flat | PolylineM => type_code 3 Measured | PolylineZ => type_code 3 Tall
  | Polygon => type_code 5 Flat | PolygonM => type_code 5 Measured | PolygonZ => type_code 5 Tall
  | Multipoint => type_code 8 Flat | MultipointM => type_code 8 Measured | MultipointZ => type_code 8 Tall
  | Multipatch => 31
  end%Z.
(** the 100 bytes of a header; 20 of them are unused *)
Definition header_bytes (unused : list byte) (h : header) : list byte :=
  be32 9994 ++ unused ++ be32 (h_length h) ++ le32 (h_version h) ++ le32 (type_number (h_type h)) ++
  flat_map le64 (h_bbox h).
Definition header_ok (h : header) : Prop :=
  is_i32 (h_length h) /\ is_i32 (h_version h) /\ length (h_bbox h) = 8 /\ Forall f64_ok (h_bbox h).
(** index entries: offset and length of a record *)
Definition index_bytes (l : list (Z * Z)) : list byte :=
  flat_map (fun r => be32 (fst r) ++ be32 (snd r)) l.

(** the header announces the length of the file *)
Definition announces (h : header) (l : list entry) : Prop :=
  (h_length h * 2 = 100 + Z.of_nat (length (shp_body l)))%Z /\ (h_length h < 2 ^ 30)%Z.

(** a processor whose callbacks never fail and that wants all attributes *)
Definition accepts {S} (p : proc S) : Prop :=
  (forall s e, snd (p_step p s e) = Ok tt) /\ (forall s i n v, snd (p_prop p s i n v) = Ok false).
