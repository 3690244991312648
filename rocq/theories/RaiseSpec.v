(** What C86 is stated with: the errors that a reader adds to those of the writer it drives. *)
From Coq Require Import String.
From Coq Require Import List NArith ZArith Bool.
From Verif Require Import Base Float Event Claims GeoJsonModel FaultSpec.
Import ListNotations.

(** if the reader fails then with an error of its own, or because the writer refused a callback after taking all
    callbacks before it; the error and the state are then those of the writer *)
Definition adds {A} (src : dims -> prog A) (own : list error) : Prop :=
  forall S (p : proc S) s s' x, exec p (src (p_dims p)) s = (s', Err x) ->
    In x own \/ exists l o, snd (feed p l s) = Ok tt /\ feed p (l ++ [o]) s = (s', Err x).
(** the reader fails with the error although the processor takes everything *)
Definition raises {A} (src : dims -> prog A) (x : error) : Prop :=
  forall d, snd (exec (recorder d false) (src d) []) = Err x.

Definition wkb_own : list error := [EIo; EGeometryFormat; EMaxNesting 128].
(** what the parser of the text refused *)
Definition unread {A} (r : res A) : list error := match r with Err x => [x] | Ok _ => [] end.
(** records of a shapefile: short input, types 2 and sizes 5 of shp::Error, panics *)
Definition shape_own : list error := [EIo; EShp 2; EShp 5; EPanic].

(** ** GeoJSON: positions with fewer than two numbers *)
Fixpoint json_positions (g : gjgeom) : list (list f64) :=
  match g with
  | GjPoint p => [p]
  | GjMultiPoint l | GjLineString l => l
  | GjMultiLineString l | GjPolygon l => concat l
  | GjMultiPolygon l => concat (concat l)
  | GjCollection l => flat_map json_positions l
  end.
Definition short (p : list f64) : bool := Nat.ltb (length p) 2.
Definition short_geom (g : gjgeom) : bool := existsb short (json_positions g).
Definition short_feature (f : gjfeature) : bool := match gf_geometry f with Some g => short_geom g | None => false end.
Definition short_doc (d : gj) : bool :=
  match d with GjFeatures l => existsb short_feature l | GjFeature f => short_feature f | GjGeometry g => short_geom g end.
Definition is_collection (d : gj) : bool := match d with GjFeatures _ => true | _ => false end.
(** of something that was read: [f] holds *)
Definition holds {A} (f : A -> bool) (r : res A) : bool := match r with Ok a => f a | Err _ => false end.
(** errors of a reader of lines *)
Definition lines_own (l : list (res gj)) : list error :=
  given (existsb (holds short_doc) l) EPanic ++ given (existsb (holds is_collection) l) EDataset ++ flat_map unread l.

(** ** What comes of a run with a processor that takes everything *)
Definition comes_to {A} (src : dims -> prog A) (r : res A) : Prop :=
  forall d, snd (exec (recorder d false) (src d) []) = r.
(** the first complaint decides *)
Fixpoint first_of (l : list (option error)) : res unit :=
  match l with
  | [] => Ok tt
  | Some x :: _ => Err x
  | None :: r => first_of r
  end.
(** complaints about a document, about a line *)
Definition of_doc (r : res gj) : option error :=
  match r with Err x => Some x | Ok g => if short_doc g then Some EPanic else None end.
Definition of_feature (r : res gjfeature) : option error :=
  match r with Err x => Some x | Ok f => if short_feature f then Some EPanic else None end.
Definition of_line (r : res gj) : option error :=
  match r with Ok (GjFeatures _) => Some EDataset | r => of_doc r end.
(** complaints about a record: read, and column [gi] has text that is a geometry; an empty one will do for features *)
Definition of_record {W} (parse : string -> option W) (gi : nat) (features : bool) (r : res (list string)) : option error :=
  match r with
  | Err x => Some x
  | Ok l =>
      match nth_error l gi with
      | None => Some (ECsv 0)
      | Some t => if features && String.eqb t "" then None
                  else match parse t with Some _ => None | None => Some (if features then EGeometry else ECsv 1) end
      end
  end.
(** the first column of this name *)
Definition is_column (name : string) (headers : list string) (gi : nat) : Prop :=
  nth_error headers gi = Some name /\ forall k, k < gi -> nth_error headers k <> Some name.
