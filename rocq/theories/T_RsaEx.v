(** The hypotheses of the RSA theorems can be met: the contract of the assembly has a reference implementation, and
    concrete keys satisfy the conditions. *)
Require Import Verif.Base Verif.L_Base Verif.M_Util Verif.L_Util Verif.M_PosInt Verif.S_Bignum Verif.L_PosInt Verif.L_Mont Verif.L_BignumRef.
Require Import Verif.M_Rsa Verif.S_Rsa Verif.L_Rsa Verif.L_RsaCrt Verif.T_Rsa.
Require Import ZifyNat Znumtheory.

Example ref_demont_fills : demont_fills ref_bignum.
Proof. intros x m. cbn. apply to_words_ok. apply zlen_nonneg. Qed.

(** small numbers *)
Definition pint (N v : Z) : posint := pfill N 1 [v].
Lemma pint_ok N v : 1 <= N -> 0 <= v < 2 ^ 64 -> wf N (pint N v) /\ val (pint N v) = v /\ p_used (pint N v) = 1.
Proof.
  intros HN Hv. assert (W : words 1 [v]) by (split; [reflexivity|constructor; [exact Hv|constructor]]).
  destruct (pfill_ok N 1 [v] W HN) as (A & B & C). split; [exact A|]. split; [|exact C]. unfold pint. rewrite B. cbn. lia.
Qed.
Lemma prime_small p : 1 < p -> (forall n, 1 <= n < p -> Z.gcd n p = 1) -> prime p.
Proof. intros H G. constructor; [exact H|]. intros n Hn. apply Zgcd_1_rel_prime. now apply G. Qed.
Lemma prime_11 : prime 11.
Proof.
  apply prime_small; [lia|]. intros n Hn. assert (n = 1 \/ n = 2 \/ n = 3 \/ n = 4 \/ n = 5 \/ n = 6 \/ n = 7 \/ n = 8 \/ n = 9 \/ n = 10) as D by lia.
  repeat destruct D as [->|D]; try subst n; reflexivity.
Qed.
Lemma prime_7 : prime 7.
Proof.
  apply prime_small; [lia|]. intros n Hn. assert (n = 1 \/ n = 2 \/ n = 3 \/ n = 4 \/ n = 5 \/ n = 6) as D by lia.
  repeat destruct D as [->|D]; try subst n; reflexivity.
Qed.
Example valid_77 : rsa_valid 11 7 77 7 43 3 1 8.
Proof. constructor; try lia; try apply prime_11; try apply prime_7; repeat split; reflexivity. Qed.
Example valid_77_swapped : rsa_valid 7 11 77 7 43 1 3 2.
Proof. constructor; try lia; try apply prime_11; try apply prime_7; repeat split; reflexivity. Qed.

Example C21_crt_exact_ex : exists m,
  private_op ref_bignum (priv_make ref_bignum (pub_make ref_bignum (pint 128 77) 7) (pint 64 11) (pint 64 7) (pint 128 43) (pint 64 3) (pint 64 1) (pint 64 8)) (pint 128 5) = Ok m
  /\ val m = 26.
Proof.
  destruct (C21_crt_exact ref_bignum ref_bignum_ok (pint 64 11) (pint 64 7) (pint 128 43) (pint 64 3) (pint 64 1) (pint 64 8) (pint 128 77) 7 (pint 128 5))
    as (m & E & _ & V); try (apply pint_ok; lia); try exact valid_77; try reflexivity.
  exists m. split; [exact E|]. rewrite V. reflexivity.
Qed.
(** the refutation applies to the same key with the primes in the other order *)
Example C21_p_below_q_ex : exists c, val c < 77 /\
  is_ok (private_op ref_bignum (priv_make ref_bignum (pub_make ref_bignum (pint 128 77) 7) (pint 64 7) (pint 64 11) (pint 128 43) (pint 64 1) (pint 64 3) (pint 64 2)) c) = false.
Proof.
  destruct (C21_p_below_q_refuted ref_bignum ref_bignum_ok (pint 64 7) (pint 64 11) (pint 128 43) (pint 64 1) (pint 64 3) (pint 64 2) (pint 128 77) 7)
    as (c & _ & L & E); try (apply pint_ok; lia); try exact valid_77_swapped; try reflexivity.
  exists c. split; [exact L|exact E].
Qed.

(** a modulus of 2048 bits: 2^2047 + 1 *)
Definition n2048 : posint := pfill 128 32 (to_words 32 (2 ^ 2047 + 1)).
Lemma n2048_ok : wf 128 n2048 /\ val n2048 = 2 ^ 2047 + 1.
Proof.
  destruct (pfill_ok 128 32 _ (to_words_ok 32 (2 ^ 2047 + 1) ltac:(lia)) ltac:(lia)) as (A & B & _). split; [exact A|].
  unfold n2048. change 32%nat with (Z.to_nat 32). rewrite B. apply to_words_small; [lia|]. split; [discriminate|reflexivity].
Qed.
Example C19_ex : exists key m, pub_new ref_bignum n2048 65537 = Ok key /\ public_op ref_bignum key (pint 128 2) = Ok m /\
  val m = 2 ^ 65537 mod (2 ^ 2047 + 1).
Proof.
  destruct n2048_ok as [W V]. destruct (C19_public_key ref_bignum n2048 65537 W) as [[_ I] _].
  specialize (I ltac:(rewrite V; split; [reflexivity|split; [split; [discriminate|reflexivity]|lia]])).
  destruct (pint_ok 128 2 ltac:(lia) ltac:(lia)) as (Wc & Vc & _).
  destruct (C19_public_op ref_bignum ref_bignum_ok n2048 65537 _ (pint 128 2) W ltac:(lia) I Wc) as [A _].
  rewrite V, Vc in A. destruct (A eq_refl) as (m & E & Vm). exists (pub_make ref_bignum n2048 65537), m. auto.
Qed.
