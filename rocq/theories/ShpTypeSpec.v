(** Specification side for C73 and C74: what a record type says about the callbacks of its records,
    and the files of a shapefile on disk. *)
From Coq Require Import String Ascii.
From Coq Require Import List NArith ZArith Lia Bool.
From Coq Require Import Init.Byte.
From Verif Require Import Base Float Event Claims Geom FeatureSpec ShpModel ShpSpec.
Import ListNotations.
Local Open Scope list_scope.

(** ** Callbacks *)

(** the position of a callback carries a z value / a measure exactly if [z] / [m], and never t or tm *)
Definition carries (z m : bool) (e : event) : Prop :=
  match e with
  | Coord _ _ z' m' t tm _ => some z' = z /\ some m' = m /\ t = None /\ tm = None
  | Xy _ _ _ => z = false /\ m = false
  | _ => True
  end.

(** single points, lists of points, lines, areas; [Silent]: no callbacks at all *)
Inductive family := Silent | Single | Scattered | Lined | Filled.
Definition family_of (t : shape_type) : family :=
  match t with
  | NullShape | Multipatch => Silent
  | Point | PointM | PointZ => Single
  | Multipoint | MultipointM | MultipointZ => Scattered
  | Polyline | PolylineM | PolylineZ => Lined
  | Polygon | PolygonM | PolygonZ => Filled
  end.
(** the callbacks of a family *)
Definition belongs (f : family) (e : event) : Prop :=
  match e with
  | Xy _ _ _ | Coord _ _ _ _ _ _ _ => f <> Silent
  | PointBegin _ | PointEnd _ => f = Single
  | MultiPointBegin _ _ | MultiPointEnd _ => f = Scattered
  | MultiLineStringBegin _ _ | MultiLineStringEnd _ => f = Lined
  | MultiPolygonBegin _ _ | MultiPolygonEnd _ | PolygonBegin false _ _ | PolygonEnd false _ => f = Filled
  | LineStringBegin false _ _ | LineStringEnd false _ => f = Lined \/ f = Filled
  | _ => False
  end.

(** a callback about a part of a shape (a line or a ring), resp. about points on their own *)
Definition about_part (e : event) : bool :=
  match e with
  | LineStringBegin _ _ _ | LineStringEnd _ _ | MultiLineStringBegin _ _ | MultiLineStringEnd _
  | PolygonBegin _ _ _ | PolygonEnd _ _ | MultiPolygonBegin _ _ | MultiPolygonEnd _ => true
  | _ => false
  end.
Definition about_point (e : event) : bool :=
  match e with
  | PointBegin _ | PointEnd _ | MultiPointBegin _ _ | MultiPointEnd _ => true
  | _ => false
  end.

(** ** Files *)

(** the file is there and can be read, resp. is not there *)
Definition holds (fs : file_system) (path : string) (b : list byte) : Prop :=
  fs_exists fs path = true /\ fs_open fs path = Ok b.
Definition missing (fs : file_system) (path : string) : Prop := fs_exists fs path = false.
(** the index is not there, or can be read *)
Definition index_harmless (ck : bool) (fs : file_system) (path : string) : Prop :=
  missing fs path \/ exists b, holds fs path b /\ exists l rest, makes (read_index_file ck b) [] (Ok (l, rest)).
(** [dbf]: the attributes that dbase finds in the file, if it is there *)
Definition attributes (dbase : list byte -> res dbf_reader) (fs : file_system) (path : string)
    (dbf : option dbf_reader) : Prop :=
  match dbf with
  | None => missing fs path
  | Some d => exists b, holds fs path b /\ dbase b = Ok d
  end.
