(** Numbers as decimal texts: the Display and FromStr of Rust's f64 and f32 (specification side; code of
    the standard library, not of /repo).  [mw], [ew]: bits of the fraction and of the exponent. *)
From Coq Require Import String Ascii.
From Coq Require Import List NArith ZArith Lia Bool.
From Verif Require Import Base Event.
Import ListNotations.
Local Open Scope string_scope.
Local Open Scope N_scope.

(** ** Decimal digits *)
Definition digit_char (d : N) : ascii := ascii_of_N (48 + d).
Definition digit_of (c : ascii) : option N :=
  let n := N_of_ascii c in if (48 <=? n) && (n <=? 57) then Some (n - 48) else None.
(** the last [k] decimal digits of [n] *)
Fixpoint pad (k : nat) (n : N) : string :=
  match k with
  | O => ""
  | S k' => pad k' (n / 10) ++ String (digit_char (n mod 10)) ""
  end.
(** how many digits [n] has (at least one); [fuel] bounds them *)
Fixpoint digits_from (fuel : nat) (n : N) : nat :=
  match fuel with
  | O => 1%nat
  | S f => if n <? 10 then 1%nat else S (digits_from f (n / 10))
  end.
Definition digit_count (n : N) : nat := digits_from (N.size_nat n) n.
Definition show_nat (n : N) : string := pad (digit_count n) n.
(** D / 10^k in positional notation *)
Definition dec_text (D : N) (k : nat) : string :=
  show_nat (D / 10 ^ N.of_nat k) ++ match k with O => "" | _ => String "." (pad k D) end.

(** the digits a text begins with: their value after [v], their number, the rest *)
Fixpoint take_digits (v : N) (s : string) : N * nat * string :=
  match s with
  | "" => (v, O, "")
  | String c r =>
      match digit_of c with
      | Some d => match take_digits (10 * v + d) r with (v', k, t) => (v', S k, t) end
      | None => (v, O, s)
      end
  end.
(** [e] or [E], a sign, digits *)
Definition take_exp (s : string) : option Z :=
  match s with
  | "" => Some 0%Z
  | String c r =>
      if Ascii.eqb c "e" || Ascii.eqb c "E" then
        let '(neg, r) := match r with
                         | String a t => if Ascii.eqb a "-" then (true, t)
                                         else if Ascii.eqb a "+" then (false, t) else (false, r)
                         | "" => (false, r) end in
        match take_digits 0 r with
        | (v, S _, "") => Some (if neg then - Z.of_N v else Z.of_N v)%Z
        | _ => None
        end
      else None
  end.
(** an unsigned numeral as D * 10^q *)
Definition numeral (s : string) : option (N * Z) :=
  match take_digits 0 s with
  | (v, k, r) =>
      let '(v, f, k', r) := match r with
                            | String c t =>
                                if Ascii.eqb c "." then match take_digits v t with (v', f, t') => (v', f, (k + f)%nat, t') end
                                else (v, O, k, r)
                            | "" => (v, O, k, r) end in
      match k', take_exp r with
      | S _, Some q => Some (v, (q - Z.of_nat f)%Z)
      | _, _ => None
      end
  end.

(** ** Binary fractions *)
(** a / b to the nearest integer, halves to the even one *)
Definition nearest (a b : N) : N :=
  match (2 * (a mod b)) ?= b with
  | Lt => a / b
  | Gt => a / b + 1
  | Eq => if N.even (a / b) then a / b else a / b + 1
  end.
Definition shl (a : N) (e : Z) : N := a * 2 ^ Z.to_N e.
(** the greatest l with 2^l <= a / b *)
Definition log2_ratio (a b : N) : Z :=
  let l := (Z.of_N (N.log2 a) - Z.of_N (N.log2 b))%Z in
  if shl b l <=? shl a (- l) then l else (l - 1)%Z.

Section Kind.
  Variables mw ew : N.
  (** the exponent of the smallest number *)
  Definition emin : Z := (2 - 2 ^ (Z.of_N ew - 1) - Z.of_N mw)%Z.
  Definition infinite : N := (2 ^ ew - 1) * 2 ^ mw.
  Definition sign_bit : N := 2 ^ (ew + mw).
  (** the number nearest to a / b, without its sign bit *)
  Definition magnitude (a b : N) : N :=
    if a =? 0 then 0
    else
      let e := Z.max emin (log2_ratio a b - Z.of_N mw) in
      N.min infinite (Z.to_N (e - emin) * 2 ^ mw + nearest (shl a (- e)) (shl b e)).
  (** a finite number (without sign) as m * 2^e *)
  Definition parts (y : N) : N * Z :=
    let E := y / 2 ^ mw in
    let F := y mod 2 ^ mw in
    if E =? 0 then (F, emin) else (2 ^ mw + F, (emin + Z.of_N E - 1)%Z).
  (** … and as a fraction *)
  Definition ratio (y : N) : N * N := let (m, e) := parts y in (shl m e, shl 1 (- e)).

  (** *** FromStr: decimal numerals, inf, NaN (as Display writes them), with a sign *)
  Definition scaled (D : N) (q : Z) : N * N := (D * 10 ^ Z.to_N q, 10 ^ Z.to_N (- q)).
  Definition read_unsigned (s : string) : option N :=
    if String.eqb s "inf" then Some infinite
    else if String.eqb s "NaN" then Some (infinite + 2 ^ (mw - 1))
    else match numeral s with
         | Some (D, q) => let (a, b) := scaled D q in Some (magnitude a b)
         | None => None
         end.
  Definition read_float (s : string) : option N :=
    match s with
    | String c r =>
        if Ascii.eqb c "-" then option_map (fun y => sign_bit + y) (read_unsigned r)
        else if Ascii.eqb c "+" then read_unsigned r else read_unsigned s
    | "" => None
    end.

  (** *** Display: the shortest decimal that is read back, in positional notation *)
  Definition place_text (D : N) (q : Z) : string :=
    if (0 <=? q)%Z then dec_text (D * 10 ^ Z.to_N q) 0 else dec_text D (Z.to_nat (- q)).
  Definition reads_back (y D : N) (q : Z) : bool := let (a, b) := scaled D q in magnitude a b =? y.
  (** the two multiples of 10^q around the number, the nearer one first *)
  Definition at_place (y : N) (q : Z) : option string :=
    let (a, b) := ratio y in
    let a := a * 10 ^ Z.to_N (- q) in
    let b := b * 10 ^ Z.to_N q in
    let lo := a / b in
    let (D, D') := if 2 * (a mod b) <=? b then (lo, lo + 1) else (lo + 1, lo) in
    if reads_back y D q then Some (place_text D q)
    else if reads_back y D' q then Some (place_text D' q) else None.
  Fixpoint first_place (n : nat) (y : N) (q : Z) : option string :=
    match n with
    | O => None
    | S n' => match at_place y q with Some t => Some t | None => first_place n' y (q - 1) end
    end.
  (** all digits *)
  Definition exact_text (y : N) : string :=
    let (m, e) := parts y in
    if (0 <=? e)%Z then dec_text (shl m e) 0 else dec_text (m * 5 ^ Z.to_N (- e)) (Z.to_nat (- e)).
  Definition show_unsigned (y : N) : string :=
    if y =? infinite then "inf"
    else
      let top := Z.of_nat (digit_count (shl 1 (2 ^ (Z.of_N ew - 1)))) in
      match first_place (Z.to_nat (top - emin)) y top with
      | Some t => t
      | None => exact_text y
      end.
  Definition show_float (x : N) : string :=
    if infinite <? x mod sign_bit then "NaN"
    else if x / sign_bit =? 0 then show_unsigned x else String "-" (show_unsigned (x mod sign_bit)).
End Kind.

Definition read_f64 : string -> option f64 := read_float 52 11.
Definition read_f32 : string -> option N := read_float 23 8.
Definition show_f64 : f64 -> string := show_float 52 11.
Definition show_f32 : N -> string := show_float 23 8.

(** a number in positional decimal notation *)
Definition decimal (t : string) : Prop := exists D k, t = dec_text D k \/ t = String "-" (dec_text D k).
(** What is relied on of a Display: finite numbers are shown as decimals that are read back, the others
    as inf, -inf and NaN.  Nothing is said about which of the decimals it is. *)
Definition displays (mw ew : N) (fmt : N -> string) : Prop :=
  forall x, x < 2 * sign_bit mw ew ->
    match x mod sign_bit mw ew ?= infinite mw ew with
    | Lt => decimal (fmt x) /\ read_float mw ew (fmt x) = Some x
    | Eq => fmt x = if x <? sign_bit mw ew then "inf" else "-inf"
    | Gt => fmt x = "NaN"
    end.
