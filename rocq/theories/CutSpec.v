(** Vocabulary of the claims about input that breaks off (specification side). *)
From Coq Require Import String Ascii.
From Coq Require Import List NArith ZArith Lia Bool.
From Coq Require Import Init.Byte.
From Verif Require Import Base Event.
Import ListNotations.
Local Open Scope list_scope.

(** [goes_on q s s']: a processor in state [s] gets to [s'] by further callbacks *)
Inductive goes_on {S} (q : proc S) : S -> S -> Prop :=
| on_stop s : goes_on q s s
| on_call s e s' : goes_on q (fst (p_step q s e)) s' -> goes_on q s s'
| on_prop s i n v s' : goes_on q (fst (p_prop q s i n v)) s' -> goes_on q s s'.

(** The end of a conversion of input that is cut, and of the whole input, with the same processor:
    the first one fails.  Either the second one fails in the same way after the same callbacks, or
    the first one fails with [e], and the second one goes on from there. *)
Definition stops_at {S A} (q : proc S) (e : error) (cut whole : S * res A) : Prop :=
  (exists x, snd cut = Err x) /\
  (whole = cut \/ (snd cut = Err e /\ goes_on q (fst cut) (fst whole))).

(** [reads_ahead read]: with every processor, if a conversion of bytes [p] succeeds, then more bytes
    [t] behind them change nothing but what is left over; if it fails, it fails for the want of bytes
    and more of them let it go on, or it fails in the same way whatever follows. *)
Definition reads_ahead {A} (read : dims -> list byte -> prog (A * list byte)) : Prop :=
  forall p t S (q : proc S) s,
    let cut := exec q (read (p_dims q) p) s in
    let whole := exec q (read (p_dims q) (p ++ t)) s in
    match snd cut with
    | Ok (a, rest) => whole = (fst cut, Ok (a, rest ++ t))
    | Err _ => stops_at q EIo cut whole
    end.
(** the same for input in pieces (lines, records): the reader meets an unreadable piece [Err e] after
    the pieces [l1], or reads on *)
Definition reads_in_turn {X A} (read : dims -> list (res X) -> prog A) : Prop :=
  forall l1 l2 e S (q : proc S) s,
    stops_at q e (exec q (read (p_dims q) (l1 ++ [Err e])) s) (exec q (read (p_dims q) (l1 ++ l2)) s).
(** the same for the loops over shapefiles, which may be stopped after some steps ([None]) *)
Definition loops_ahead {S A} (q : proc S) (cut whole : S * option (res A)) : Prop :=
  whole = cut \/ (snd cut = Some (Err EIo) /\ goes_on q (fst cut) (fst whole)).

(** texts *)
Definition begins_with (a b : string) : Prop := exists m, b = (a ++ m)%string.
