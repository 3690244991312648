(** Vocabulary of the claims about the form in which ordinates arrive (specification side). *)
From Coq Require Import String Ascii.
From Coq Require Import List NArith ZArith Lia Bool.
From Verif Require Import Base Event.
Import ListNotations.
Local Open Scope list_scope.

(** a processor that does what [p] does and writes down the callbacks it gets, also those that fail *)
Definition logged {S} (p : proc S) : proc (S * list event) :=
  mkProc (p_dims p)
    (fun s e => let (s', r) := p_step p (fst s) e in ((s', snd s ++ [e]), r))
    (fun s i n v => let (s', r) := p_prop p (fst s) i n v in ((s', snd s), r)).
(** the callbacks [p] gets from a source, whatever it answers *)
Definition received {S A} (p : proc S) (g : prog A) (s : S) : list event :=
  snd (fst (exec (logged p) g (s, []))).

(** a position is given by xy *)
Definition is_xy (e : event) : bool := match e with Xy _ _ _ => true | _ => false end.
(** a position is given by coordinate *)
Definition is_coord (e : event) : bool := match e with Coord _ _ _ _ _ _ _ => true | _ => false end.
(** no time is made up *)
Definition timeless (e : event) : Prop :=
  match e with Coord _ _ _ _ t tm _ => t = None /\ tm = None | _ => True end.
(** positions come by coordinate if [full], by xy if not, and never with a time *)
Definition form (full : bool) (e : event) : Prop :=
  (if full then is_xy e = false else is_coord e = false) /\ timeless e.
(** a height or a measure comes only to who asked for it *)
Definition modest (d : dims) (e : event) : Prop :=
  match e with
  | Coord _ _ z m _ _ _ => (dz d = false -> z = None) /\ (dm d = false -> m = None)
  | _ => True
  end.
(** a source gives positions to each processor in the form that [f] names for its dimensions *)
Definition gives {A} (f : dims -> bool) (src : dims -> prog A) : Prop :=
  forall S (p : proc S) (s : S), Forall (form (f (p_dims p))) (received p (src (p_dims p)) s).

(** a processor that looks at x and y only *)
Definition flat_minded {S} (p : proc S) : Prop :=
  forall s x y z m t tm i, p_step p s (Coord x y z m t tm i) = p_step p s (Xy x y i).
(** [p], but asking for the dimensions [d] *)
Definition asking {S} (d : dims) (p : proc S) : proc S := mkProc d (p_step p) (p_prop p).
(** what such a processor asks for changes neither what becomes of it nor the result *)
Definition indifferent {A} (src : dims -> prog A) : Prop :=
  forall S (p : proc S), flat_minded p -> forall d d' s,
    exec (asking d p) (src d) s = exec (asking d' p) (src d') s.
(** seen by a processor that records positions without height and measure *)
Definition shadow (e : event) : event := match e with Coord x y _ _ _ _ i => Xy x y i | _ => e end.
Definition shadows : proc (list obs) :=
  mkProc xy_dims (fun s e => (s ++ [OEv (shadow e)], Ok tt)) (fun s i n v => (s ++ [OProp i n v], Ok false)).
