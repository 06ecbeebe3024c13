(** What a valid two-prime RSA key is (RFC 8017 sections 3.1 and 3.2), on integers. *)
Require Import ZArith Znumtheory.
Open Scope Z_scope.

Record rsa_valid (p q n e d dp dq qinv : Z) : Prop := mkValid {
  rv_p : prime p; rv_q : prime q; rv_odd_p : 2 < p; rv_odd_q : 2 < q; rv_distinct : p <> q;
  rv_n : n = p * q;
  rv_e : 0 < e;
  (** e d = 1 modulo lambda(n) = lcm(p-1, q-1), that is modulo both *)
  rv_d : 0 < d /\ (e * d) mod (p - 1) = 1 /\ (e * d) mod (q - 1) = 1;
  rv_dp : 0 < dp < p /\ (e * dp) mod (p - 1) = 1;
  rv_dq : 0 < dq < q /\ (e * dq) mod (q - 1) = 1;
  rv_qinv : 0 < qinv < p /\ (q * qinv) mod p = 1
}.
