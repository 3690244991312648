(** Vocabulary of the WKB claims (specification side). *)
From Coq Require Import String Ascii.
From Coq Require Import List NArith ZArith Lia Bool.
From Coq Require Import Init.Byte.
From Verif Require Import Base Float Event Geom WkbModel WkbSpec.
From Verif Require Export Claims.
Import ListNotations.
Local Open Scope N_scope.
Local Open Scope list_scope.

(** SRIDs a dialect can store: 32 bit signed, MySQL only non-negative ones *)
Definition srid_ok (dl : dialect) (srid : option Z) : Prop :=
  match srid with
  | None => True
  | Some s => match dl with MySQL => (0 <= s < 2 ^ 31)%Z | _ => is_i32 s end
  end.

(** envelopes a dialect can store *)
Definition env_ok (dl : dialect) (ed : dims) (env : list f64) : Prop :=
  match dl with
  | Geopackage =>
      (env = [] \/ length env = 4 + (if dz ed then 2 else 0) + (if dm ed then 2 else 0))%nat /\
      Forall f64_ok env
  | SpatiaLite => (env = [] \/ length env = 4%nat) /\ Forall f64_ok env
  | _ => True
  end.

(** the SRID a reader reports for a blob written with SRID [srid] *)
Definition reported_srid (dl : dialect) (srid : option Z) : option Z :=
  match dl with
  | Wkb => None
  | Ewkb => srid
  | Geopackage | MySQL => Some (opt_default 0%Z srid)
  | SpatiaLite => match srid with Some 0%Z => None | s => s end
  end.

(** the complete standard encoding in a dialect; [o] gives the byte order of every
    (sub)geometry *)
Definition std (dl : dialect) (d : dims) (srid : option Z) (env : list f64) (ed : dims)
    (extended empty : bool) (o : list nat -> endian) (g : geom) : list byte :=
  let z := dz d in let m := dm d in
  match dl with
  | Wkb => enc_wkb z m o g
  | Ewkb => enc_ewkb z m o srid g
  | Geopackage => enc_gpkg z m o (o []) extended empty (dz ed) (dm ed) (opt_default 0%Z srid) env g
  | MySQL => enc_mysql z m o (opt_default 0%Z srid) g
  | SpatiaLite => enc_spatialite z m o (opt_default 0%Z srid) env g
  end.

(** byte orders a dialect allows: MySQL is always little endian at the top *)
Definition order_ok (dl : dialect) (o : list nat -> endian) : Prop :=
  match dl with MySQL => o [] = LE | _ => True end.

Definition little : list nat -> endian := fun _ => LE.

(** bytes a reader leaves after a complete encoding: SpatiaLite's end mark is not read *)
Definition trailer (dl : dialect) : list byte := match dl with SpatiaLite => [xfe] | _ => [] end.

(** a writer that asks its source for no extra dimension stores none *)
Definition asks_for_all (d rd : dims) : Prop :=
  multi_dim rd = false -> dz d = false /\ dm d = false.

(** kinds whose outermost container either counts as a nesting level in the SpatiaLite writer
    or has no members *)
Definition spatialite_safe (g : geom) : Prop :=
  match g with
  | GPolygon [] | GTriangle [] | GCompoundCurve [] | GCurvePolygon []
  | GPolyhedralSurface [] | GTin [] => True
  | GPolygon _ | GTriangle _ | GCompoundCurve _ | GCurvePolygon _
  | GPolyhedralSurface _ | GTin _ => False
  | _ => True
  end.

(** *** Compressed SpatiaLite lines *)
(** one inner vertex: single precision differences of x, y, z; m as a double *)
Record cdelta := mkD { ddx : N; ddy : N; ddz : N; dm_ : f64 }.
Definition delta_ok (d : cdelta) : Prop := ddx d < 2 ^ 32 /\ ddy d < 2 ^ 32 /\ ddz d < 2 ^ 32 /\ f64_ok (dm_ d).
Definition delta_bytes (z m : bool) (e : endian) (d : cdelta) : list byte :=
  bytes_of e 4 (ddx d) ++ bytes_of e 4 (ddy d) ++
  (if z then bytes_of e 4 (ddz d) else []) ++ (if m then bytes_of e 8 (dm_ d) else []).
(** count, first vertex, inner vertices, last vertex *)
Definition compressed_bytes (z m : bool) (e : endian) (first : coord) (ds : list cdelta)
    (last : coord) : list byte :=
  count_bytes e (2 + length ds) ++ coord_bytes z m e first ++ flat_map (delta_bytes z m e) ds ++
  coord_bytes z m e last.
(** the inner vertices: running sums *)
Fixpoint running (z m : bool) (prev : coord) (ds : list cdelta) : list coord :=
  match ds with
  | [] => []
  | d :: r =>
      let c := mkC (f64_add (cx prev) (f32_to_f64 (ddx d)))
                   (f64_add (cy prev) (f32_to_f64 (ddy d)))
                   (if z then Some (f64_add (opt_default 0 (cz prev)) (f32_to_f64 (ddz d))) else None)
                   (if m then Some (dm_ d) else None) in
      c :: running z m c r
  end.
(** blob header with the compressed marker (type code + 1000000) *)
Definition compressed_header (z m : bool) (srid : Z) (env : list f64) (e : endian) (code : N)
  : list byte :=
  [x00; order_byte e] ++ bytes_of e 4 (i32_to_u32 srid) ++ flat_map (bytes_of e 8) env ++
  [x7c] ++ bytes_of e 4 (1000000 + iso_code z m code).

(** *** Further vocabulary *)
(** everything except the positions *)
Definition not_position (e : event) : bool :=
  match e with Xy _ _ _ | Coord _ _ _ _ _ _ _ => false | _ => true end.

(** [n] collections around [g] *)
Fixpoint wrap (n : nat) (g : geom) : geom :=
  match n with O => g | S k => GCollection [wrap k g] end.

(** Read [n] geometries one after another from the same source. *)
Fixpoint read_many (dl : dialect) (d : dims) (n : nat) (b : list byte) : prog (unit * list byte) :=
  match n with
  | O => pret (tt, b)
  | S k => pbind (process_wkb_type_geom dl d b) (fun r => read_many dl d k (snd r))
  end.

(** *** SpatiaLite TinyPoint: start mark, 0x80 plus byte order, SRID, dimension code (1 XY, 2 XYZ,
    3 XYM, 4 XYZM), ordinates, end mark *)
Definition tiny_code (z m : bool) : byte :=
  match z, m with false, false => x01 | true, false => x02 | false, true => x03 | true, true => x04 end.
Definition tiny_point (z m : bool) (e : endian) (srid : Z) (c : coord) : list byte :=
  [x00; match e with BE => x80 | LE => x81 end] ++ bytes_of e 4 (i32_to_u32 srid) ++
  [tiny_code z m] ++ coord_bytes z m e c ++ [xfe].

(** *** Headers *)
(** the marks a blob must carry: GeoPackage "GP" and an envelope indicator of at most 4; SpatiaLite a
    zero byte, and 0x7C after the 4 + 32 bytes of SRID and rectangle unless it is a TinyPoint;
    MySQL an SRID below 2^31 and a little endian geometry *)
Definition marks_ok (dl : dialect) (b : list byte) : Prop :=
  match dl with
  | Wkb | Ewkb => True
  | Geopackage => exists v flags rest, b = [x47; x50; v; flags] ++ rest /\ (val flags / 2) mod 8 <= 4
  | SpatiaLite => exists flags rest, b = [x00; flags] ++ rest /\
                    (128 <= val flags \/ nth_error rest 36 = Some x7c)
  | MySQL => exists srid order rest, b = bytes_of LE 4 srid ++ order :: rest /\ srid < 2 ^ 31 /\ order <> x00
  end.
(** the kind codes of the standard that geozero knows *)
Definition known_code (n : N) : Prop := In n [1; 2; 3; 4; 5; 6; 7; 8; 9; 10; 11; 12; 15; 16; 17].

(** *** SpatiaLite end marks as written *)
(** [marked hdr cb p g]: the body of a top-level [g] with the end mark 0xFE that the writer puts
    after every part of a container it does not count as a nesting level *)
Section Marked.
  Variable hdr : endian -> N -> list byte.
  Variable cb : endian -> coord -> list byte.
  Definition marked_rings (r : rings) : list byte :=
    count_bytes LE (length r) ++ flat_map (fun l => line_bytes cb LE l ++ [xfe]) r.
  Definition marked_segments (p : list nat) (l : list segment) : list byte :=
    members little p (fun q s => segment_bytes hdr cb little q s ++ [xfe]) l.
  Definition marked_curve (p : list nat) (c : curve) : list byte :=
    match c with
    | CvCompound s => (hdr LE 9 ++ marked_segments p s) ++ [xfe]
    | _ => curve_bytes hdr cb little p c ++ [xfe]
    end.
  Definition marked (p : list nat) (g : geom) : list byte :=
    match g with
    | GPolygon r | GTriangle r => marked_rings r
    | GCompoundCurve l => marked_segments p l
    | GCurvePolygon l => members little p marked_curve l
    | GPolyhedralSurface l => members little p (fun _ r => (hdr LE 3 ++ marked_rings r) ++ [xfe]) l
    | GTin l => members little p (fun _ r => (hdr LE 17 ++ marked_rings r) ++ [xfe]) l
    | _ => body hdr cb little p g
    end.
End Marked.
(** what SpatiaLite output consists of *)
Definition spatialite_blob (z m : bool) (srid : Z) (env : list f64) (g : geom) : list byte :=
  spatialite_header z m srid env LE (kind_code g) ++
  marked (spatialite_sub_header z m) (coord_bytes z m) [] g ++ [xfe].

(** at most one part in those containers: no end mark is followed by data *)
Definition at_most_one {A} (l : list A) : Prop := (length l <= 1)%nat.
Definition single_curve (c : curve) : Prop :=
  match c with CvCompound s => at_most_one s | _ => True end.
Definition single_part (g : geom) : Prop :=
  match g with
  | GPolygon r | GTriangle r => at_most_one r
  | GCompoundCurve l => at_most_one l
  | GCurvePolygon l => at_most_one l /\ Forall single_curve l
  | GPolyhedralSurface l | GTin l => at_most_one l /\ Forall at_most_one l
  | _ => True
  end.
(** no ring has 0xFEFEFEFE positions: that count reads the same behind an end mark *)
Definition ordinary (g : geom) : Prop :=
  match g with
  | GPolygon r | GTriangle r => Forall (fun l => N.of_nat (length l) <> 0xFEFEFEFE) r
  | GPolyhedralSurface l | GTin l => Forall (Forall (fun l => N.of_nat (length l) <> 0xFEFEFEFE)) l
  | _ => True
  end.

(** *** Several geometries through one writer *)
(** what a source delivers for one geometry: SRIDs, and the geometry under some number *)
Definition piece : Type := (list (option Z) * nat * geom)%type.
Definition piece_events (multi : bool) (q : piece) : list event :=
  map Srid (fst (fst q)) ++ gevents multi (snd (fst q)) (snd q).
(** how a writer that has already written a geometry encodes the next one: as a member of a
    collection would be encoded *)
Definition later (dl : dialect) (d : dims) (g : geom) : list byte :=
  match dl with
  | Wkb | Geopackage | MySQL => enc_wkb (dz d) (dm d) little g
  | Ewkb => enc_ewkb (dz d) (dm d) little None g
  | SpatiaLite => spatialite_sub_header (dz d) (dm d) LE (kind_code g) ++
      body (spatialite_sub_header (dz d) (dm d)) (coord_bytes (dz d) (dm d)) little [] g ++ [xfe]
  end.

(** ** Compressed lines of SpatiaLite blobs *)
(** [slips multi l l']: [l] is [l'] except that in some lines the last position comes with the index
    [n] in place of [n - 1], or a line of one vertex has a second position. *)
Inductive slips (multi : bool) : list event -> list event -> Prop :=
| slips_nil : slips multi [] []
| slips_same : forall e l l', slips multi l l' -> slips multi (e :: l) (e :: l')
| slips_last : forall t k c0 cs cl l l', slips multi l l' ->
    slips multi (LineStringBegin t (2 + length cs) k :: mapi (ev_coord multi) 0 (c0 :: cs) ++
                 ev_coord multi (2 + length cs) cl :: LineStringEnd t k :: l)
                (ev_line multi t k (c0 :: cs ++ [cl]) ++ l')
| slips_single : forall t k c c' l l', slips multi l l' ->
    slips multi (LineStringBegin t 1 k :: ev_coord multi 0 c :: ev_coord multi 1 c' :: LineStringEnd t k :: l)
                (ev_line multi t k [c] ++ l').
(** the counts of members and positions fit in 32 bits *)
Definition counted (g : geom) : Prop :=
  on_geom True (fun _ => True) (fun _ => True) (fun n => N.of_nat n < 2 ^ 32)%N g.
