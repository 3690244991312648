(** Vocabulary of the claims about failing destinations (specification side). *)
From Coq Require Import String Ascii.
From Coq Require Import List NArith ZArith Lia Bool.
From Verif Require Import Base Event FeatureSpec SinkModel.
Import ListNotations.
Local Open Scope list_scope.

(** callbacks only add to what was written *)
Definition appends {S X} (out : S -> list X) (p : proc S) : Prop :=
  (forall s e, exists l, out (fst (p_step p s e)) = out s ++ l) /\
  (forall s i n v, exists l, out (fst (p_prop p s i n v)) = out s ++ l).

(** what a writer may do with its output: pass on some of it, from the start, and later more *)
Definition passes_on (sent : nat -> nat) : Prop :=
  (forall n, sent n <= n) /\ (forall n m, n <= m -> sent n <= sent m).
(** [run] converts something with the given processor; [failed] is the result that tells of an I/O
    error.  With every destination, if what is passed on of the output fits the conversion goes as it
    does without a limit, and if not it fails with an I/O error and the destination holds as much of
    the output as fits. *)
Definition reports {S X R} (out : S -> list X) (sent : nat -> nat) (p : proc S)
    (run : proc S -> S -> S * R) (failed : R) : Prop :=
  forall s cap, length (out s) <= cap ->
    let (s1, r1) := run p s in
    if Nat.leb (sent (length (out s1))) cap then run (limited out sent cap p) s = (s1, r1)
    else exists s2, run (limited out sent cap p) s = (s2, failed) /\
                    stored out cap s2 = firstn cap (out s1).
(** the same for a source of callbacks and every writer *)
Definition source_reports {A} (src : dims -> prog A) : Prop :=
  forall S X (out : S -> list X) sent (p : proc S), appends out p -> passes_on sent ->
    reports out sent p (fun q s => exec q (src (p_dims q)) s) (Err EIo).
(** dataset, feature, properties and geometry brackets do not panic *)
Definition calm_framing {S} (p : proc S) : Prop :=
  forall s e, is_feature_event e = true -> snd (p_step p s e) <> Err EPanic.
