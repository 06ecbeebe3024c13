(** Contract of the assembly routines in the record [bignum] (M_PosInt.v), transcribed from the
    documentation in graviola/src/low/x86_64/bignum_*.rs.  Nothing is promised when a precondition fails. *)
Require Import Verif.Base Verif.M_Util Verif.L_Util Verif.M_PosInt.

(** x[k]: exactly k 64-bit words *)
Definition words (k : Z) (x : list Z) : Prop := zlen x = k /\ Forall u64 x.
Notation "⟦ x ⟧" := (limbs_val x) (at level 0, x at level 99).

Record bignum_ok (bn : bignum) : Prop := mkBnOk {
  (** bignum_montmul.rs:140-146: z := (x * y / 2^{64k}) mod m, assuming x * y <= 2^{64k} * m (m odd) *)
  ok_montmul : forall k x y m, words k x -> words k y -> words k m -> Z.odd ⟦m⟧ = true ->
    ⟦x⟧ * ⟦y⟧ <= 2 ^ (64 * k) * ⟦m⟧ ->
    let z := bn_montmul bn x y m in
    words k z /\ ⟦z⟧ < ⟦m⟧ /\ (⟦z⟧ * 2 ^ (64 * k)) mod ⟦m⟧ = (⟦x⟧ * ⟦y⟧) mod ⟦m⟧;
  (** bignum_montsqr.rs:125-131 *)
  ok_montsqr : forall k x m, words k x -> words k m -> Z.odd ⟦m⟧ = true -> ⟦x⟧ * ⟦x⟧ <= 2 ^ (64 * k) * ⟦m⟧ ->
    let z := bn_montsqr bn x m in
    words k z /\ ⟦z⟧ < ⟦m⟧ /\ (⟦z⟧ * 2 ^ (64 * k)) mod ⟦m⟧ = (⟦x⟧ * ⟦x⟧) mod ⟦m⟧;
  (** bignum_demont.rs:115-121: z := (x / 2^{64k}) mod m for any k-digit x *)
  ok_demont : forall k x m, words k x -> words k m -> Z.odd ⟦m⟧ = true ->
    let z := bn_demont bn x m in
    words k z /\ ⟦z⟧ < ⟦m⟧ /\ (⟦z⟧ * 2 ^ (64 * k)) mod ⟦m⟧ = ⟦x⟧ mod ⟦m⟧;
  (** bignum_montredc.rs:142-149: z := (x' / 2^{64p}) mod m, x' the lowest p+k digits of x,
      assuming x' <= 2^{64p} * m *)
  ok_montredc : forall k n p x m, 0 <= p -> words n x -> words k m -> Z.odd ⟦m⟧ = true ->
    ⟦x⟧ mod 2 ^ (64 * (p + k)) <= 2 ^ (64 * p) * ⟦m⟧ ->
    let z := bn_montredc bn x m p in
    words k z /\ ⟦z⟧ < ⟦m⟧ /\ (⟦z⟧ * 2 ^ (64 * p)) mod ⟦m⟧ = (⟦x⟧ mod 2 ^ (64 * (p + k))) mod ⟦m⟧;
  (** bignum_emontredc_8n.rs:22-27 (referring to bignum_emontredc of s2n-bignum): for m odd and
      m * w = -1 mod 2^64 the buffer ends up holding q (low half) and r (high half and carry) with
      z + q * m = 2^{64k} * r; k a multiple of 8 *)
  ok_emontredc : forall k z m w, (8 | k) -> words (2 * k) z -> words k m -> Z.odd ⟦m⟧ = true ->
    (⟦m⟧ * w + 1) mod 2 ^ 64 = 0 ->
    let (z', c) := bn_emontredc_8n bn z m w in
    words (2 * k) z' /\ (c = 0 \/ c = 1) /\
    ⟦z⟧ + ⟦ztake k z'⟧ * ⟦m⟧ = 2 ^ (64 * k) * (c * 2 ^ (64 * k) + ⟦zdrop k z'⟧);
  (** bignum_montifier.rs:139-146: z := 2^{128k} mod m *)
  ok_montifier : forall k m, words k m -> Z.odd ⟦m⟧ = true ->
    words k (bn_montifier bn m) /\ ⟦bn_montifier bn m⟧ = 2 ^ (128 * k) mod ⟦m⟧;
  (** bignum_negmodinv.rs:93-101: x * z + 1 == 0 (mod 2^{64k}) for odd x *)
  ok_negmodinv : forall k x, words k x -> Z.odd ⟦x⟧ = true ->
    words k (bn_negmodinv bn x) /\ (⟦x⟧ * ⟦bn_negmodinv bn x⟧ + 1) mod 2 ^ (64 * k) = 0;
  (** bignum_modinv.rs:260-266: z := a^-1 mod b, b odd and > 1, coprime *)
  ok_modinv : forall k a b, words k a -> words k b -> Z.odd ⟦b⟧ = true -> 1 < ⟦b⟧ -> Z.gcd ⟦a⟧ ⟦b⟧ = 1 ->
    let z := bn_modinv bn a b in
    words k z /\ ⟦z⟧ < ⟦b⟧ /\ (⟦a⟧ * ⟦z⟧) mod ⟦b⟧ = 1;
  (** bignum_modadd.rs:65-67: z := (x + y) mod m, x and y reduced *)
  ok_modadd : forall k x y m, words k x -> words k y -> words k m -> ⟦x⟧ < ⟦m⟧ -> ⟦y⟧ < ⟦m⟧ ->
    let z := bn_modadd bn x y m in words k z /\ ⟦z⟧ = (⟦x⟧ + ⟦y⟧) mod ⟦m⟧
}.
