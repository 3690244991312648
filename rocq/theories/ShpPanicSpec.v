(** When exactly the reader of shapefile records panics (C40), in terms of the raw fields of the
    record: the length in words at offset 4 (big endian), the type at offset 8, the numbers of
    parts and points at 44 and 48 (of a multipoint: the number of points at 44), the part table
    at 52. *)
From Coq Require Import List NArith ZArith.
From Coq Require Import Init.Byte.
From Verif Require Import Base WkbModel ShpModel ShpSpec.
Import ListNotations.
Local Open Scope nat_scope.
Local Open Scope list_scope.

Definition known_types : list Z := [0; 1; 3; 5; 8; 11; 13; 15; 18; 21; 23; 25; 28; 31]%Z.
Definition multipoints : list Z := [8; 18; 28]%Z.
Definition polylines : list Z := [3; 13; 23]%Z.
Definition polygons : list Z := [5; 15; 25]%Z.
Definition with_z : list Z := [13; 15; 18]%Z.

(** the content has [n] bytes: [fixed] bytes, two coordinates for each point, and perhaps a Z
    block and an M block (a range and one value for each point).  Types with Z have the Z block,
    the M block is optional, whatever the type. *)
Definition fits (t n fixed points : Z) : Prop :=
  let block := (16 + 8 * points)%Z in
  let base := (fixed + 16 * points + (if existsb (Z.eqb t) with_z then block else 0))%Z in
  n = base \/ n = (base + block)%Z.

(** two entries of the part table that follow each other; after the last one comes the number of
    points *)
Definition neighbours (b : list byte) (parts points : Z) (i : nat) (a c : Z) : Prop :=
  (Z.of_nat i < parts)%Z /\ part_at b parts points i = Some a /\ part_at b parts points (S i) = Some c.

(** Overflow checks on (debug builds).  The reader panics if
    - the length in bytes has no 32 bit representation, or
    - the type is known and the length does not even leave room for it, or
    - a multipatch has a negative length, or
    - a number of points or parts is negative, or
    - the record is complete, its length fits the numbers of parts and points, and the part table
      is not in ascending order from a number of at least 0 to the number of points. *)
Definition breaks_checked (b : list byte) : Prop :=
  exists size, int_at BE b 4 = Some size /\
  (~ (- 2 ^ 30 <= size < 2 ^ 30)%Z \/
   exists t, int_at LE b 8 = Some t /\
   ((In t known_types /\ (0 <= size < 2)%Z) \/
    (t = 31%Z /\ (size < 0)%Z) \/
    (In t multipoints /\ exists points, int_at LE b 44 = Some points /\ (points < 0)%Z) \/
    (In t (polylines ++ polygons) /\ exists parts points,
       int_at LE b 44 = Some parts /\ int_at LE b 48 = Some points /\
       ((parts < 0)%Z \/ (points < 0)%Z \/
        (fits t (2 * size) (44 + 4 * parts) points /\
         (8 + 2 * size <= Z.of_nat (length b))%Z /\
         exists i a c, neighbours b parts points i a c /\ ~ (0 <= a <= c)%Z))))).

(** the signed 32 bit number congruent to [z] *)
Definition low32 (z : Z) : Z := ((z + 2 ^ 31) mod 2 ^ 32 - 2 ^ 31)%Z.
(** a signed number taken as an unsigned one *)
Definition unsigned (z : Z) : Z := (z mod 2 ^ 64)%Z.

(** Overflow checks off (release builds).  [n]: the length in bytes after wrapping.  The reader
    panics if
    - a multipatch has not even room for the type, or
    - a multipoint has a negative number of points and a length that fits it, or
    - the length fits the numbers of parts and points of a polyline or polygon, and there are fewer
      than -1 parts, or fewer than 0 points after a complete part table, or
    - these numbers are not negative, the record is complete, and
      a part of the polyline ends, after its beginning, behind the last point, or
      a part of the polygon other than the first ends before its beginning. *)
Definition breaks_unchecked (b : list byte) : Prop :=
  exists size t, int_at BE b 4 = Some size /\ int_at LE b 8 = Some t /\
  let n := low32 (2 * size) in
  ((t = 31%Z /\ (n < 4)%Z) \/
   (In t multipoints /\ exists points, int_at LE b 44 = Some points /\
      fits t n 40 points /\ (points < 0)%Z) \/
   (In t (polylines ++ polygons) /\ exists parts points,
      int_at LE b 44 = Some parts /\ int_at LE b 48 = Some points /\
      fits t n (44 + 4 * parts) points /\
      ((parts < -1)%Z \/
       ((0 <= parts)%Z /\ (52 + 4 * parts <= Z.of_nat (length b))%Z /\ (points < 0)%Z) \/
       ((0 <= parts)%Z /\ (0 <= points)%Z /\ (8 + n <= Z.of_nat (length b))%Z /\
        exists i a c, neighbours b parts points i a c /\
          if existsb (Z.eqb t) polygons
          then 1 <= i /\ (unsigned c < unsigned a)%Z
          else (unsigned a < unsigned c)%Z /\ (points < unsigned c)%Z)))).

(** ** Index files *)

(** a file header: 100 bytes, the file code, a known type *)
Definition header_there (b : list byte) : Prop :=
  100 <= length b /\ int_at BE b 0 = Some 9994%Z /\
  exists t, int_at LE b 32 = Some t /\ In t known_types.

(** The reader of index files panics if there is a header and the length it announces (in words, at
    offset 24) is less than that of the header by 8 bytes or more, or has no 32 bit representation
    in bytes; without overflow checks it is the wrapped difference that counts. *)
Definition index_breaks (ck : bool) (b : list byte) : Prop :=
  header_there b /\ exists len, int_at BE b 24 = Some len /\
  if ck then (len < 47 \/ 2 ^ 30 <= len)%Z else (low32 (2 * len - 100) <= -8)%Z.
