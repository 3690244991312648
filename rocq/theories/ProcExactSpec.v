(** Vocabulary of the exact claims about the multiplexer and the geometry view (specification side). *)
From Coq Require Import List Bool.
From Verif Require Import Base Event Claims ProcSpec.
Import ListNotations.
Local Open Scope list_scope.

(** the callbacks before the first empty point *)
Fixpoint before_empty (l : list obs) : list obs :=
  match l with [] => [] | o :: r => if is_empty_point o then [] else o :: before_empty r end.
