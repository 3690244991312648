(** Examples for claim C67. *)
From Coq Require Import String Ascii.
From Coq Require Import List NArith ZArith Bool.
From Coq Require Import Init.Byte.
From Verif Require Import Base Event Claims Geom WkbModel WkbSpec WkbClaims WkbRead WkbTop DbModel ReencSpec ReencTop.
Import ListNotations.
Local Open Scope N_scope.
Local Open Scope list_scope.

(** EWKB that no writer makes: a big endian collection of a little endian point with a height and an
    SRID of its own and a big endian line without, a foreign byte at the end *)
Definition odd_ends : list byte :=
  ewkb_header false false (Some 4326%Z) BE 7 ++ bytes_of BE 4 2 ++
  ewkb_header true false (Some 5%Z) LE 1 ++ coord_bytes true false LE (mkC 1 2 (Some 3%N) None) ++
  ewkb_header false false None BE 2 ++ bytes_of BE 4 1 ++ coord_bytes false false BE (mkC 4 5 None None) ++ [x2a].
Definition odd_geom : geom :=
  GCollection [GPoint (mkC 1 2 (Some 3%N) None); GLineString [mkC 4 5 None None]].
(** the same in one byte order and without the surplus *)
Definition even_ends : list byte :=
  ewkb_header false false None LE 7 ++ bytes_of LE 4 2 ++
  ewkb_header true false None LE 1 ++ coord_bytes true false LE (mkC 1 2 (Some 3%N) None) ++
  ewkb_header false false None LE 2 ++ bytes_of LE 4 1 ++ coord_bytes false false LE (mkC 4 5 None None).

Lemma odd_makes : makes (bytes_source Ewkb odd_ends xyzm_dims) (Srid (Some 4326%Z) :: gevents true 0 odd_geom) (Ok tt).
Proof. vm_compute. reflexivity. Qed.
Lemma odd_accepted : accepted Ewkb odd_ends.
Proof. exists xyzm_dims. eexists. exact odd_makes. Qed.
Lemma even_makes : makes (bytes_source Ewkb even_ends xyzm_dims) (Srid None :: gevents true 0 odd_geom) (Ok tt).
Proof. vm_compute. reflexivity. Qed.
Lemma odd_sound : sound odd_geom.
Proof. split; [concrete|vm_compute; repeat constructor]. Qed.
Lemma odd_full : no_empty odd_geom /\ no_empty (retained true false odd_geom) /\ ~ conforming true false odd_geom.
Proof. split; [concrete|]. split; [concrete|]. intros [_ [_ [[_ H] _]]]. inversion H as [|? ? [H1 _] _]. apply H1. reflexivity. Qed.
(** a blob with an empty point in it *)
Definition hollow : list byte := iso_header false false LE 1 ++ coord_bytes false false LE nan_coord.
Lemma hollow_accepted : accepted Wkb hollow.
Proof. exists xy_dims, [Srid None; EmptyPoint 0]. vm_compute. reflexivity. Qed.
