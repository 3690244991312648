(** Which records of a shapefile are refused for their type and which for their length (C86), in terms of the raw fields:
    see ShpPanicSpec.v for [int_at], [low32], [fits] and the lists of types. *)
From Coq Require Import List NArith ZArith.
From Coq Require Import Init.Byte.
From Verif Require Import Base WkbModel ShpModel ShpSpec ShpPanicSpec.
Import ListNotations.
Local Open Scope nat_scope.
Local Open Scope list_scope.

(** the record announces [n] bytes of type [t].  With overflow checks ([ck]) the length has to have a representation. *)
Definition announces (ck : bool) (b : list byte) (n t : Z) : Prop :=
  exists size, int_at BE b 4 = Some size /\ (ck = true -> - 2 ^ 30 <= size < 2 ^ 30)%Z /\
    n = low32 (2 * size) /\ int_at LE b 8 = Some t.

Definition unknown_type (ck : bool) (b : list byte) : Prop :=
  exists n t, announces ck b n t /\ ~ In t known_types.

(** a point: two, three or four numbers after the type.  The others: as [fits] says; with overflow checks no number
    of points or parts is negative. *)
Definition wrong_size (ck : bool) (b : list byte) : Prop :=
  exists n t, announces ck b n t /\ (ck = true -> ~ (0 <= n < 4)%Z) /\
  ((t = 1%Z /\ n <> 20%Z) \/
   (t = 11%Z /\ n <> 28%Z /\ n <> 36%Z) \/
   (t = 21%Z /\ n <> 28%Z) \/
   (In t multipoints /\ exists points, int_at LE b 44 = Some points /\
      (ck = true -> 0 <= points)%Z /\ ~ fits t n 40 points) \/
   (In t (polylines ++ polygons) /\ exists parts points, int_at LE b 44 = Some parts /\ int_at LE b 48 = Some points /\
      (ck = true -> 0 <= parts /\ 0 <= points)%Z /\ ~ fits t n (44 + 4 * parts) points)).
