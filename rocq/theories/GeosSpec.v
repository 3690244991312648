(** Vocabulary of the GEOS claims (specification side). *)
From Coq Require Import String Ascii.
From Coq Require Import List NArith ZArith Lia Bool.
From Verif Require Import Base Event Geom GeosModel.
Import ListNotations.
Local Open Scope N_scope.
Local Open Scope list_scope.

(** ** The geometry tree of a GEOS value *)
Definition seq_line (s : cseq) : line :=
  match s with
  | Flat l => map (fun p => mkC (fst p) (snd p) None None) l
  | Tall l => map (fun p => mkC (fst (fst p)) (snd (fst p)) (Some (snd p)) None) l
  end.
(** (a multi point has no place for an empty member: it is left out) *)
Fixpoint gtree (g : gg) : geom :=
  match g with
  | KPoint s => match seq_line s with c :: _ => GPoint c | [] => GEmptyPoint end
  | KLineString s | KLinearRing s => GLineString (seq_line s)
  | KPolygon e i => GPolygon (seq_line e :: map seq_line i)
  | KMultiPoint l => GMultiPoint (flat_map seq_line l)
  | KMultiLineString l => GMultiLineString (map seq_line l)
  | KMultiPolygon l => GMultiPolygon (map (fun p => seq_line (fst p) :: map seq_line (snd p)) l)
  | KCollection l => GCollection (map gtree l)
  end.
(** no point of [g] is empty *)
Definition one (s : cseq) : Prop := exists c, seq_line s = [c].
Fixpoint filled (g : gg) : Prop :=
  match g with
  | KPoint s => one s
  | KMultiPoint l => Forall one l
  | KCollection l => (fix all l := match l with [] => True | a :: r => filled a /\ all r end) l
  | _ => True
  end.

(** ** The GEOS value of a geometry tree: two dimensions *)
Definition seq_of (l : line) : list pos := map (fun c => (cx c, cy c)) l.
Definition flat (l : line) : cseq := Flat (seq_of l).
Definition poly_value (r : rings) : cseq * list cseq :=
  match r with [] => (Flat [], []) | e :: i => (flat e, map flat i) end.
(** the kinds GEOS has in common with the callbacks, except collections *)
Definition simple (g : geom) : bool :=
  match g with
  | GPoint _ | GMultiPoint _ | GLineString _ | GMultiLineString _ | GPolygon _ | GMultiPolygon _ => true
  | _ => false
  end.
(** (the last case is not used for simple geometries) *)
Fixpoint gvalue (g : geom) : gg :=
  match g with
  | GPoint c => KPoint (flat [c])
  | GMultiPoint l => KMultiPoint (map (fun c => flat [c]) l)
  | GLineString l => KLineString (flat l)
  | GMultiLineString l => KMultiLineString (map flat l)
  | GPolygon r => KPolygon (fst (poly_value r)) (snd (poly_value r))
  | GMultiPolygon l => KMultiPolygon (map poly_value l)
  | GCollection l => KCollection (map gvalue l)
  | _ => KCollection []
  end.
(** the library accepts the lines and rings of [g] *)
Definition rings_ok (lib : geos_lib) (r : rings) : bool :=
  match r with
  | [] => false
  | e :: i => ring_ok lib (seq_of e) && forallb (fun l => ring_ok lib (seq_of l)) i &&
              poly_ok lib (seq_of e) (map seq_of i)
  end.
Definition accepted (lib : geos_lib) (g : geom) : bool :=
  match g with
  | GLineString l => line_ok lib (seq_of l)
  | GMultiLineString l => forallb (fun l => line_ok lib (seq_of l)) l
  | GPolygon r => rings_ok lib r
  | GMultiPolygon l => forallb (rings_ok lib) l
  | _ => true
  end.
(** lengths below 2^32, and vectors of them can be allocated *)
Definition short {A} (l : list A) : Prop := N.of_nat (length l) < 2 ^ 32.
Definition short_rings (r : rings) : Prop := short r /\ Forall short r.
Definition short_geom (g : geom) : Prop :=
  match g with
  | GMultiPoint l => short l
  | GLineString l => short l
  | GMultiLineString l => short l /\ Forall short l
  | GPolygon r => short_rings r
  | GMultiPolygon l => short l /\ Forall short_rings l
  | _ => True
  end.
(** the Rust values the vectors hold have less than 2 GiB *)
Definition sane (lib : geos_lib) : Prop := seq_bytes lib <= 2 ^ 31 /\ geom_bytes lib <= 2 ^ 31.
(** the SRID announced last *)
Fixpoint last_srid (v : option Z) (l : list event) : option Z :=
  match l with
  | [] => v
  | Srid w :: r => last_srid w r
  | _ :: r => last_srid v r
  end.
Definition srids (l : list event) : Prop := Forall (fun e => exists v, e = Srid v) l.
Definition empty_point : gg := KPoint (Flat []).

(** two dimensions; no linear rings, no collections *)
Definition two_dim (g : gg) : Prop :=
  let flat s := exists l, s = Flat l in
  match g with
  | KPoint s | KLineString s => flat s
  | KPolygon e i => flat e /\ Forall flat i
  | KMultiPoint l | KMultiLineString l => Forall flat l
  | KMultiPolygon l => Forall (fun p => flat (fst p) /\ Forall flat (snd p)) l
  | KLinearRing _ | KCollection _ => False
  end.

(** What libgeos asks of rings and lines, for examples *)
Definition sample_lib : geos_lib :=
  mkLib (fun l => negb (Nat.eqb (length l) 1))
        (fun l => Nat.eqb (length l) 0 || Nat.ltb 3 (length l))
        (fun e i => negb (Nat.eqb (length e) 0) || Nat.eqb (length i) 0) EPanic 32 24.
