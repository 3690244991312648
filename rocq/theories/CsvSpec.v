(** Vocabulary of the CSV claims (specification side). *)
From Coq Require Import String Ascii.
From Coq Require Import List NArith ZArith Lia Bool.
From Verif Require Import Base Event Geom WkbSpec ProcSpec WktModel WktSpec FeatureSpec.
Import ListNotations.
Local Open Scope string_scope.
Local Open Scope list_scope.

(** ** Writing *)
Definition the_props (f : feature) : list (nat * string * colval) :=
  match f_props f with Some l => l | None => [] end.
(** the properties of [f] are exactly the columns [names], in this order and numbered from 0 *)
Definition has_columns (names : list string) (f : feature) : Prop :=
  map fst (the_props f) = combine (seq 0 (length names)) names.
(** the properties of [f] are numbered from 0 *)
Definition numbered_props (f : feature) : Prop :=
  map (fun q => fst (fst q)) (the_props f) = seq 0 (length (the_props f)).

Section Table.
  Variable fmt32 : N -> string.
  Variable fmt : f64 -> string.
  Variable multi : bool.
  (** the record of a feature: its geometry as WKT (empty without geometry), then the texts of its
      properties in order *)
  Definition is_row (f : feature) (r : list string) : Prop :=
    exists texts,
      r = (match f_geom f with Some g => wkt_text fmt multi multi g | None => "" end) :: texts /\
      Forall2 (fun q t => text_of fmt32 fmt (snd q) t) (the_props f) texts.
  (** the header, then one record per feature; nothing for no features *)
  Definition is_table (names : list string) (l : list feature) (records : list (list string)) : Prop :=
    match l with
    | [] => records = []
    | _ => exists rows, records = ("geometry" :: names) :: rows /\ Forall2 is_row l rows
    end.
  (** the callbacks for a dataset whose [i]-th geometry is delivered with index [gi i] *)
  Definition dataset_at (gi : nat -> nat) (name : option string) (l : list feature) : list obs :=
    OEv (DatasetBegin name) :: flat_mapi (fun i f => feature_obs multi i (gi i) f) 0 l ++ [OEv DatasetEnd].
End Table.

(** ** Reading *)
(** without the element at position [i] *)
Definition without {A} (i : nat) (l : list A) : list A := firstn i l ++ skipn (S i) l.
(** the first position of [column] *)
Definition first_at (column : string) (headers : list string) (i : nat) : Prop :=
  nth_error headers i = Some column /\ ~ In column (firstn i headers).
(** the feature of a record: all other columns as numbered string properties, and the geometry that
    the field at [gi] parses to (none if the field is empty) *)
Definition columns (gi : nat) (headers record : list string) : list (nat * string * colval) :=
  combine (combine (seq 0 (length headers - 1)) (without gi headers)) (map CString (without gi record)).
Definition parses (parse : string -> option wkt) (t : string) (g : geom) : Prop :=
  exists w, parse t = Some w /\ wkt_geom w = Some g.
Definition is_record (parse : string -> option wkt) (headers : list string) (gi : nat) (r : list string) (f : feature)
    : Prop :=
  length r = length headers /\ f_props f = Some (columns gi headers r) /\
  exists t, nth_error r gi = Some t /\
    match f_geom f with Some g => t <> "" /\ parses parse t g | None => t = "" end.
(** the geometry of a record *)
Definition is_member (parse : string -> option wkt) (gi : nat) (r : list string) (g : geom) : Prop :=
  exists t, nth_error r gi = Some t /\ parses parse t g.
(** a record that cannot be read, has no geometry field, or whose field is not WKT *)
Definition bad_member (parse : string -> option wkt) (gi : nat) (r : res (list string)) (e : error) : Prop :=
  match r with
  | Err x => e = x
  | Ok r =>
      match nth_error r gi with
      | None => e = ECsv 0
      | Some t => parse t = None /\ e = ECsv 1
      end
  end.
(** the values as texts, the geometry in two dimensions *)
Definition as_text (fmt32 : N -> string) (fmt : f64 -> string) (f f' : feature) : Prop :=
  f_geom f' = option_map (WkbSpec.retained false false) (f_geom f) /\
  exists texts, Forall2 (fun q t => text_of fmt32 fmt (snd q) t) (the_props f) texts /\
    f_props f' = Some (combine (map fst (the_props f)) (map CString texts)).
