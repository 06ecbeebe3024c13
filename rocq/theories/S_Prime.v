(** What a Miller-Rabin test with one base decides (FIPS 186-5 appendix B.3.1, steps 1, 2 and 4.3 to 4.6), on integers. *)
Require Import ZArith Znumtheory.
Open Scope Z_scope.

(** [w] is a strong probable prime to the base [b]: with w - 1 = 2^a m and m odd, one of the powers
    b^m, b^(2m), b^(4m), ..., b^(2^(a-1) m) is -1 modulo w, or the first of them is 1. *)
Definition strong_probable_prime (w b : Z) : Prop :=
  exists a m, 0 < a /\ w - 1 = 2 ^ a * m /\ Z.odd m = true /\
    (b ^ m mod w = 1 \/ exists j, 0 <= j < a /\ b ^ (2 ^ j * m) mod w = w - 1).
