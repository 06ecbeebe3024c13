(** Functions meeting the contracts of S_Ec, and the constants of p256.rs and
    p384.rs checked against the curves. *)
Require Import Verif.Base Verif.L_Base Verif.M_Util Verif.M_Ec Verif.S_Curve Verif.S_Ec.
Require Import Verif.L_Fp Verif.L_Curve Verif.L_EcPoint Verif.L_EcMul Verif.L_CurveEx.
Require Import ZifyNat Znumtheory Zpow_facts.

(** Field and scalar routines by their meaning.  They model no lines of /repo:
    they show that the contracts can be met. *)
Definition ref_field (p R : Z) : field_asm := {|
  f_montmul := fun x y => (x * y * inv_mod p R) mod p;
  f_montsqr := fun x => (x * x * inv_mod p R) mod p;
  f_amontsqr := fun x => (x * x * inv_mod p R) mod p;
  f_add := fun x y => (x + y) mod p;
  f_weakadd := fun x y => (x + y) mod p;
  f_sub := fun x y => (x - y) mod p;
  f_neg := fun x => (- x) mod p;
  f_cmsub := fun c x d y => (c * x - d * y) mod p;
  f_demont := fun x => (x * inv_mod p R) mod p;
  f_tomont := fun x => (x * R) mod p;
  f_inv := fun x => if x =? 0 then 0 else inv_mod p x |}.

(** As above. *)
Definition ref_scalar (n R : Z) : scalar_asm := {|
  s_mod_n := fun x => x mod n;
  s_montmul := fun x y m => (x * y * inv_mod n R) mod n;
  s_demont := fun x m => (x * inv_mod n R) mod n;
  s_modinv := fun x m => inv_mod n x;
  s_modadd := fun x y m => (x + y) mod n |}.

(** As above: the Jacobian table and the affine rows, computed from the curve. *)
Definition ref_jac (c : curve) (R : Z) (Q : point) : jac :=
  match Q with
  | Some (x, y) => ((x * R) mod c_p c, (y * R) mod c_p c, R mod c_p c)
  | None => (1, 1, 0)
  end.
Definition ref_w5 (c : curve) (R : Z) : list jac :=
  map (fun d => ref_jac c R (pt_mul c (Z.of_nat d) (Some (c_g c)))) (seq 1 16).
Definition ref_w7 (c : curve) (R : Z) : list (list aff) :=
  map (fun i => map (fun d => fst (ref_jac c R (pt_mul c (Z.of_nat d * 2 ^ (7 * Z.of_nat i)) (Some (c_g c))))) (seq 1 64)) (seq 0 37).

Section Ref.
Variable p R : Z.
Hypothesis pp : prime p.
Hypothesis Rn : ~ feq p R 0.
Hypothesis pR : p <= R.

Lemma ref_fix v : (v * inv_mod p R * R) mod p = v mod p.
Proof.
  pose proof (finv_ok p pp R Rn) as H. change (feq p (v * inv_mod p R * R) v).
  transitivity (v * (inv_mod p R * R)); [apply feq_ring; ring|]. rewrite H. apply feq_ring. ring.
Qed.

Lemma ref_fixm v : ((v * inv_mod p R) mod p * R) mod p = v mod p.
Proof. rewrite Z.mul_mod_idemp_l by (destruct pp; lia). apply ref_fix. Qed.

Theorem ref_field_ok : field_ok p R (ref_field p R).
Proof.
  assert (P1 : 1 < p) by (destruct pp; lia).
  assert (MR : forall z, 0 <= z mod p < p) by (intros z; apply Z.mod_pos_bound; lia).
  constructor; cbn [ref_field f_montmul f_montsqr f_amontsqr f_add f_weakadd f_sub f_neg f_cmsub f_demont f_tomont f_inv]; intros;
    try reflexivity; try (split; [apply MR|apply ref_fixm]).
  - split; [|apply ref_fixm]. pose proof (MR (x * x * inv_mod p R)). lia.
  - split; [|apply Zmod_mod]. pose proof (MR (x + y)). lia.
  - split; [intros ->; reflexivity|]. intros X0. destruct (Z.eqb_spec x 0); [contradiction|].
    split; [apply inv_mod_range; exact pp|].
    pose proof (finv_ok p pp x) as HI. unfold feq in HI. rewrite HI; [apply Z.mod_small; lia|].
    rewrite Z.mod_small, Z.mod_0_l by lia. exact X0.
Qed.

Theorem ref_scalar_ok : scalar_ok p R (ref_scalar p R).
Proof.
  assert (P1 : 1 < p) by (destruct pp; lia).
  assert (MR : forall z, 0 <= z mod p < p) by (intros z; apply Z.mod_pos_bound; lia).
  constructor; cbn [ref_scalar s_mod_n s_montmul s_demont s_modinv s_modadd]; intros;
    try reflexivity; try (split; [apply MR|apply ref_fixm]).
  split; [apply inv_mod_range; exact pp|].
  pose proof (finv_ok p pp x) as HI. unfold feq in HI. rewrite HI; [apply Z.mod_small; lia|].
  rewrite Z.mod_small, Z.mod_0_l by lia. lia.
Qed.
End Ref.

Section RefBase.
Variable c : curve.
Hypothesis cg : curve_group c.
Variable R : Z.
Hypothesis Rn : ~ feq (c_p c) R 0.

Lemma dm_R v : feq (c_p c) (dm (c_p c) R ((v * R) mod c_p c)) v.
Proof.
  unfold dm. rewrite feq_mod. pose proof (finv_ok (c_p c) (cg_p c cg) R Rn) as H.
  transitivity (v * (inv_mod (c_p c) R * R)); [apply feq_ring; ring|]. rewrite H. apply feq_ring. ring.
Qed.

Lemma ref_jac_ok Q : on_curve c Q -> jac_is c R (ref_jac c R Q) Q.
Proof.
  pose proof (cg_p3 c cg) as P3. assert (MR : forall z, 0 <= z mod c_p c < c_p c) by (intros z; apply Z.mod_pos_bound; lia).
  destruct Q as [[x y]|]; intros O; unfold ref_jac, jac_is; [|lia].
  destruct O as (X & Y & _). repeat split; try apply MR; try lia.
  - intros Z0. apply Rn. unfold feq. rewrite Z0, Z.mod_0_l by lia. reflexivity.
  - assert (D1 : feq (c_p c) (dm (c_p c) R (R mod c_p c)) 1) by (replace (R mod c_p c) with ((1 * R) mod c_p c) by (f_equal; lia); apply dm_R).
    change (feq (c_p c) (dm (c_p c) R ((x * R) mod c_p c)) (x * (dm (c_p c) R (R mod c_p c) * dm (c_p c) R (R mod c_p c)))).
    rewrite dm_R, D1. apply feq_ring. ring.
  - assert (D1 : feq (c_p c) (dm (c_p c) R (R mod c_p c)) 1) by (replace (R mod c_p c) with ((1 * R) mod c_p c) by (f_equal; lia); apply dm_R).
    change (feq (c_p c) (dm (c_p c) R ((y * R) mod c_p c)) (y * (dm (c_p c) R (R mod c_p c) * dm (c_p c) R (R mod c_p c) * dm (c_p c) R (R mod c_p c)))).
    rewrite dm_R, D1. apply feq_ring. ring.
Qed.

Lemma nth_error_map_seq {A} (f : nat -> A) a m i : (i < m)%nat -> nth_error (map f (seq a m)) i = Some (f (a + i)%nat).
Proof.
  intros H. rewrite nth_error_map. rewrite (nth_error_nth' (seq a m) 0%nat) by (rewrite seq_length; exact H).
  cbn [option_map]. rewrite seq_nth by exact H. reflexivity.
Qed.

Theorem ref_w5_ok : base_ok c R (BaseW5 (ref_w5 c R)).
Proof.
  intros d D. exists (ref_jac c R (pt_mul c d (Some (c_g c)))). split.
  - unfold ref_w5. rewrite nth_error_map_seq by lia. do 4 f_equal. lia.
  - apply ref_jac_ok. apply mul_closed; [exact cg|exact (cg_g c cg)].
Qed.

(** no multiple in the table of width 7 is the point at infinity, as long as
    the order is above 64 *)
Theorem ref_w7_ok : 64 < c_n c -> base_ok c R (BaseW7 (ref_w7 c R)).
Proof.
  intros N i d Hi D.
  destruct (pt_mul c (d * 2 ^ (7 * i)) (Some (c_g c))) as [[x y]|] eqn:M.
  - exists (map (fun d => fst (ref_jac c R (pt_mul c (Z.of_nat d * 2 ^ (7 * i)) (Some (c_g c))))) (seq 1 64)),
      (fst (ref_jac c R (Some (x, y)))), x, y.
    split; [|split; [|split; [reflexivity|]]].
    + unfold ref_w7. rewrite nth_error_map_seq by lia. do 2 f_equal. replace (Z.of_nat (0 + Z.to_nat i)) with i by lia. reflexivity.
    + rewrite nth_error_map_seq by lia. rewrite <- M. do 6 f_equal. lia.
    + assert (O : on_curve c (Some (x, y))) by (rewrite <- M; apply mul_closed; [exact cg|exact (cg_g c cg)]).
      destruct O as (X & Y & _). pose proof (cg_p3 c cg).
      repeat split; cbn [fst snd ref_jac]; try (apply Z.mod_pos_bound; lia); try lia; apply dm_R.
  - exfalso. apply (mul_none_iff c cg _ _ (cg_g c cg)) in M; [|discriminate].
    apply prime_mult in M; [|exact (cg_n c cg)]. destruct M as [M|M].
    + apply Z.divide_pos_le in M; lia.
    + apply prime_power_prime in M; [lia|lia|exact (cg_n c cg)|exact prime_2].
Qed.
End RefBase.

(** a power of two is invertible modulo an odd prime *)
Lemma pow2_nz p k : prime p -> 2 < p -> 0 <= k -> ~ feq p (2 ^ k) 0.
Proof. intros pp P K H. apply feq_0_div in H; [|lia]. apply prime_power_prime in H; [lia|exact K|exact pp|exact prime_2]. Qed.

(** *** the constants of the two files belong to the curves *)
Theorem par256_ok F S t : par_ok P256 {| e_par := par256; e_f := F; e_s := S; e_base := BaseW7 t |}.
Proof.
  constructor; cbn [e_par e_base].
  - constructor; try (vm_compute; reflexivity). exists 256. split; [lia|reflexivity].
  - vm_compute. reflexivity.
  - vm_compute. reflexivity.
  - vm_compute. reflexivity.
  - vm_compute. reflexivity.
  - vm_compute. discriminate.
  - vm_compute. reflexivity.
  - exists 51%nat. repeat split; try lia; vm_compute; discriminate.
  - split; [reflexivity|]. split; vm_compute; reflexivity.
Qed.

Theorem par384_ok F S t : par_ok P384 {| e_par := par384; e_f := F; e_s := S; e_base := BaseW5 t |}.
Proof.
  constructor; cbn [e_par e_base].
  - constructor; try (vm_compute; reflexivity). exists 384. split; [lia|reflexivity].
  - vm_compute. reflexivity.
  - vm_compute. reflexivity.
  - vm_compute. reflexivity.
  - vm_compute. reflexivity.
  - vm_compute. discriminate.
  - vm_compute. reflexivity.
  - exists 76%nat. repeat split; try lia; vm_compute; discriminate.
  - exact Logic.I.
Qed.

(** *** an implementation of the small curve, with one word of 64 bits *)
Definition tiny_par : params := {|
  ec_limbs := 1;
  ec_a_mont := (- 3 * 2 ^ 64) mod 43;
  ec_b_mont := (38 * 2 ^ 64) mod 43;
  ec_one_mont := 2 ^ 64 mod 43;
  ec_order := 53;
  ec_order_mm := (2 ^ 64 * 2 ^ 64) mod 53;
  ec_w5_start := 60 |}.
(** As above. *)
Definition tiny_ec : ec := {|
  e_par := tiny_par; e_f := ref_field 43 (2 ^ 64); e_s := ref_scalar 53 (2 ^ 64);
  e_base := BaseW5 (ref_w5 tiny (2 ^ 64)) |}.

Theorem tiny_impl : ec_impl tiny tiny_ec.
Proof.
  constructor.
  - exact tiny_group.
  - constructor; cbn [tiny_ec e_par e_f e_s e_base tiny_par ec_limbs].
    + lia.
    + apply ref_field_ok; [exact (cg_p _ tiny_group)| |vm_compute; discriminate].
      apply pow2_nz; [exact (cg_p _ tiny_group)| |]; cbn; lia.
    + apply ref_scalar_ok; [exact (cg_n _ tiny_group)|].
      apply pow2_nz; [exact (cg_n _ tiny_group)| |]; cbn; lia.
    + apply ref_w5_ok; [exact tiny_group|]. apply pow2_nz; [exact (cg_p _ tiny_group)| |]; cbn; lia.
  - constructor; cbn [tiny_ec e_par e_base].
    + constructor; try (vm_compute; reflexivity). exists 64. split; [lia|reflexivity].
    + reflexivity.
    + vm_compute. reflexivity.
    + vm_compute. reflexivity.
    + vm_compute. reflexivity.
    + vm_compute. discriminate.
    + vm_compute. reflexivity.
    + exists 12%nat. cbn [tiny_par ec_w5_start ec_limbs]. repeat split; lia.
    + exact Logic.I.
Qed.
