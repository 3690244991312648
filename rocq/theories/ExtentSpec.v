(** Vocabulary of ExtentProps.v. *)
From Coq Require Import List NArith ZArith Bool.
From Verif Require Import Base Geom WkbModel.
Local Open Scope N_scope.

(** the type code the WKB reader takes [n] for: the kind modulo 1000, dimensions only for the thousands 1
    to 3 *)
Definition seen_code (n : N) : N := n mod 1000 + (if n / 1000 <? 4 then 1000 * (n / 1000) else 0).

(** the other byte order; a double and a position with the bytes of every double reversed (an ordinate
    that is missing is stored as 0) *)
Definition other (e : endian) : endian := match e with LE => BE | BE => LE end.
Definition reversed (x : f64) : f64 := val_of BE (bytes_of LE 8 x).
Definition reversed_coord (c : coord) : coord :=
  mkC (reversed (cx c)) (reversed (cy c)) (Some (reversed (opt_default 0 (cz c)))) (Some (reversed (opt_default 0 (cm c)))).
