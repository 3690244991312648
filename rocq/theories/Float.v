(** IEEE-754 operations on bit patterns, through Coq.Floats.SpecFloat (stdlib, axiom free).
    SpecFloat has one NaN; operations producing NaN return the quiet NaN 0x7FF8....  Rust
    leaves sign and payload of a computed NaN unspecified. *)
From Coq Require Import NArith ZArith Lia Bool.
From Coq Require Import Floats.SpecFloat.
From Verif Require Import Base.
Local Open Scope N_scope.

Definition f64_nan : f64 := 0x7FF8000000000000.

(** generic decoding: [mw] mantissa bits, [ew] exponent bits *)
Definition sf_decode (mw ew : N) (x : N) : spec_float :=
  let s := N.odd (x / 2 ^ (mw + ew)) in
  let e := (x / 2 ^ mw) mod 2 ^ ew in
  let m := x mod 2 ^ mw in
  let bias := Z.of_N (2 ^ (ew - 1) - 1) in
  if e =? 0 then
    match m with
    | 0 => S754_zero s
    | Npos p => S754_finite s p (1 - bias - Z.of_N mw)
    end
  else if e =? 2 ^ ew - 1 then
    (if m =? 0 then S754_infinity s else S754_nan)
  else
    match m + 2 ^ mw with
    | 0 => S754_zero s
    | Npos p => S754_finite s p (Z.of_N e - bias - Z.of_N mw)
    end.

Definition f64_decode (x : f64) : spec_float := sf_decode 52 11 x.
Definition f32_decode (x : N) : spec_float := sf_decode 23 8 x.

Definition f64_encode (x : spec_float) : f64 :=
  match x with
  | S754_zero s => if s then 2 ^ 63 else 0
  | S754_infinity s => (if s then 2 ^ 63 else 0) + 2047 * 2 ^ 52
  | S754_nan => f64_nan
  | S754_finite s m e =>
      (if s then 2 ^ 63 else 0) +
      (if Npos m <? 2 ^ 52 then Npos m
       else Z.to_N (e + 1075) * 2 ^ 52 + (Npos m - 2 ^ 52))
  end.

Definition f64_add (x y : f64) : f64 := f64_encode (SFadd 53 1024 (f64_decode x) (f64_decode y)).
Definition f64_sub (x y : f64) : f64 := f64_encode (SFsub 53 1024 (f64_decode x) (f64_decode y)).
Definition f64_mul (x y : f64) : f64 := f64_encode (SFmul 53 1024 (f64_decode x) (f64_decode y)).
Definition f64_div (x y : f64) : f64 := f64_encode (SFdiv 53 1024 (f64_decode x) (f64_decode y)).

(** unary minus flips the sign bit (also of NaN) *)
Definition f64_neg (x : f64) : f64 := if x <? 2 ^ 63 then x + 2 ^ 63 else x - 2 ^ 63.

(** partial comparison; None iff one side is NaN *)
Definition f64_cmp (x y : f64) : option comparison := SFcompare (f64_decode x) (f64_decode y).
Definition f64_ltb (x y : f64) : bool := match f64_cmp x y with Some Lt => true | _ => false end.
Definition f64_leb (x y : f64) : bool :=
  match f64_cmp x y with Some Lt | Some Eq => true | _ => false end.
Definition f64_eqb (x y : f64) : bool := match f64_cmp x y with Some Eq => true | _ => false end.

(** `f32 as f64` / Into<f64>: exact *)
Definition f32_to_f64 (x : N) : f64 :=
  match f32_decode x with
  | S754_finite s m e =>
      f64_encode (binary_normalize 53 1024 (if s then Zneg m else Zpos m) e s)
  | o => f64_encode o
  end.

Example f32_to_f64_1_5 : f32_to_f64 0x3FC00000 = 0x3FF8000000000000. Proof. reflexivity. Qed.
Example f64_add_ex : f64_add 0x3FF8000000000000 0x4000000000000000 = 0x400C000000000000.
Proof. vm_compute. reflexivity. Qed.
Example f64_add_tiny : f64_add 1 2 = 3. Proof. vm_compute. reflexivity. Qed.
Example f64_cmp_ex : f64_ltb 0xC000000000000000 0x3FF8000000000000 = true. Proof. reflexivity. Qed.
