(** Specification side of the exact extents of C15 and C16. *)
From Coq Require Import String Ascii.
From Coq Require Import List NArith ZArith Lia Bool.
From Verif Require Import Base Event Geom WkbSpec WktSpec.
Import ListNotations.

(** no number is shown with a space in it *)
Fixpoint no_space (s : string) : bool :=
  match s with
  | EmptyString => true
  | String a r => negb (Ascii.eqb a " "%char) && no_space r
  end.
Definition spaceless (fmt : f64 -> string) : Prop := forall x, f64_ok x -> no_space (fmt x) = true.

(** a position whose text does not depend on the configuration: it carries no ordinate outside the
    configured ones, or all it carries is NaN (shown as EMPTY either way) *)
Definition settled (z m : bool) (g : geom) : Prop :=
  on_geom True (fun _ => True)
    (fun c => ((z = false -> cz c = None) /\ (m = false -> cm c = None)) \/ all_nanb c = true)
    (fun _ => True) g.

(** all NaNs are shown alike *)
Definition one_nan (fmt : f64 -> string) : Prop :=
  forall x, f64_ok x -> f64_is_nan x = true -> fmt x = fmt qnan.

(** 64-bit ordinates *)
Definition ordinates64 (g : geom) : Prop := on_geom True (fun _ => True) coord64 (fun _ => True) g.

(** What is left of a position in the text: its numbers in order, without telling whether a third
    number was a z or an m (the field [cz] holds the third number, [cm] the fourth); nothing but
    EMPTY if they are all NaN.  [extra]: are numbers after x and y written at all? *)
Definition numbers (extra : bool) (c : coord) : coord :=
  let c := if extra then c else mkC (cx c) (cy c) None None in
  if all_nanb c then mkC qnan qnan None None
  else mkC (canon (cx c)) (canon (cy c))
         (match cz c with Some z => Some (canon z) | None => option_map canon (cm c) end)
         (match cz c with Some _ => option_map canon (cm c) | None => None end).
Definition as_written (extra : bool) : geom -> geom := map_geom GPoint (numbers extra).
