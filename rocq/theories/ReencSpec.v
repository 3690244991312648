(** Vocabulary of claim C67 (specification side): arbitrary bytes that a WKB reader accepts. *)
From Coq Require Import String Ascii.
From Coq Require Import List NArith ZArith Bool.
From Coq Require Import Init.Byte.
From Verif Require Import Base Event Claims Geom WkbModel WkbSpec WkbClaims DbModel.
Import ListNotations.
Local Open Scope list_scope.

(** the bytes as a source: [Wkb(b)], [Ewkb(b)], [GpkgWkb(b)], [MySQLWkb(b)], ... *)
Definition bytes_source (dl : dialect) (b : list byte) : dims -> prog unit := so_process (wkb_source dl b).
(** some processor that accepts every callback gets to the end of the geometry, with the callbacks [l] *)
Definition accepted (dl : dialect) (b : list byte) : Prop :=
  exists d l, makes (bytes_source dl b d) l (Ok tt).
(** a geometry within the limits of the formats, no point of which is all NaN *)
Definition sound (g : geom) : Prop :=
  on_geom True (fun c => all_nanb c = false) coord64 (fun n => N.of_nat n < 2 ^ 32)%N g /\ (levels g <= 128)%nat.
(** a source that says nothing but an SRID and the geometry [g] *)
Definition says (src : dims -> prog unit) (srid : option Z) (g : geom) : Prop :=
  delivers src (fun multi => Srid srid :: gevents multi 0 g) (Ok tt).
