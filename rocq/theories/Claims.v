(** Vocabulary shared by the claims (specification side). *)
From Coq Require Import String Ascii.
From Coq Require Import List NArith ZArith Lia Bool.
From Verif Require Import Base Event.
Import ListNotations.
Local Open Scope list_scope.

(** [delivers src stream r]: against every processor, [src] makes exactly the callbacks
    [stream multi] ([multi]: does the processor ask for extra dimensions?), stops at the first
    one that fails with that error, and otherwise returns [r]. *)
Definition delivers {A} (src : dims -> prog A) (stream : bool -> list event) (r : res A) : Prop :=
  forall S (p : proc S) (s : S),
    exec p (src (p_dims p)) s =
    match run p (stream (multi_dim (p_dims p))) s with
    | (s', Ok _) => (s', r)
    | (s', Err x) => (s', Err x)
    end.

(** [makes g l r]: against a processor that accepts every callback, [g] makes the callbacks [l]
    and returns [r] *)
Definition makes {A} (g : prog A) (l : list event) (r : res A) : Prop :=
  observe g = (map OEv l, r).

(** Feed a list of callbacks, property callbacks included, to a processor; stops at the first one
    that fails.  The answer to a property callback (stop or go on) is dropped. *)
Fixpoint feed {S} (p : proc S) (l : list obs) (s : S) : S * res unit :=
  match l with
  | [] => (s, Ok tt)
  | OEv e :: r =>
      match p_step p s e with
      | (s', Ok _) => feed p r s'
      | (s', Err x) => (s', Err x)
      end
  | OProp i n v :: r =>
      match p_prop p s i n v with
      | (s', Ok _) => feed p r s'
      | (s', Err x) => (s', Err x)
      end
  end.
