(** The CRT exponentiation of mid/rsa_priv.rs. *)
Require Import Verif.Base Verif.L_Base Verif.L_Blocks Verif.M_Util Verif.L_Util Verif.M_PosInt Verif.S_Bignum Verif.L_PosInt Verif.L_Mont Verif.L_Fermat.
Require Import Verif.M_Rsa Verif.S_Rsa Verif.L_Rsa.
Require Import ZifyNat Znumtheory.

Lemma sub_mod_raw N x y p : wf N x -> wf N y -> wf N p -> val x < 2 ^ (64 * p_used p) -> val y < 2 ^ (64 * p_used p) ->
  let r := sub_mod x y p in
  wf N r /\ p_used r = p_used p /\ val r = (val x - val y + (if val x <? val y then val p else 0)) mod 2 ^ (64 * p_used p).
Proof.
  intros Wx Wy Wp Hx Hy. pose proof (wf_used N p Wp) as U. unfold sub_mod. rewrite (wf_cap N x Wx). cbv zeta. unfold as_words_len_of, bn_modsub.
  rewrite (len_of_val_small N x), (len_of_val_small N y) by (auto; lia). fold (val p).
  destruct (pfill_ok N (p_used p) _ (to_words_ok (p_used p) (val x - val y + (if val x <? val y then val p else 0)) ltac:(lia)) ltac:(lia)) as (A & B & C).
  split; [exact A|]. split; [exact C|]. rewrite B, to_words_val, Z2Nat.id by lia. reflexivity.
Qed.

Lemma one_used N e : wf N e -> 0 < val e -> 1 <= p_used e.
Proof.
  intros W H. pose proof (wf_used N e W). pose proof (val_bound N e W) as B. destruct (Z.eq_dec (p_used e) 0) as [E|]; [|lia].
  rewrite E in B. change (2 ^ (64 * 0)) with 1 in B. lia.
Qed.

Section Crt.
Variable bn : bignum.
Hypothesis OK : bignum_ok bn.
Variables p q d dp dq iqmp n c : posint.
Variable e : Z.
Hypothesis Wp : wf 64 p.
Hypothesis Wq : wf 64 q.
Hypothesis Wdp : wf 64 dp.
Hypothesis Wdq : wf 64 dq.
Hypothesis Wi : wf 64 iqmp.
Hypothesis Wc : wf 128 c.
Hypothesis Op : Z.odd (val p) = true.
Hypothesis Oq : Z.odd (val q) = true.
Hypothesis Hdp : 0 < val dp.
Hypothesis Hdq : 0 < val dq.
Let Rp := 2 ^ (64 * p_used p).
Let Rq := 2 ^ (64 * p_used q).
Hypothesis Cp : val c <= Rp * val p.
Hypothesis Cq : val c <= Rq * val q.
Hypothesis Hi : val iqmp < Rp.
Hypothesis Same : p_used p = p_used q.
Let key := priv_make bn (pub_make bn n e) p q d dp dq iqmp.

Lemma crt_ok :
  let m1 := val c ^ val dp mod val p in
  let m2 := val c ^ val dq mod val q in
  let s := (m1 - m2 + (if m1 <? m2 then val p else 0)) mod Rp in
  exists m h, private_crt bn key c = Ok m /\ wf 128 m /\ val m = m2 + val q * h /\ 0 <= h <= val p /\
    cong (val p) h (s * val iqmp) /\ (prime (val p) -> s < val p -> h < val p).
Proof.
  intros m1 m2 s. pose proof (n_pos 64 p Wp Op) as Np. pose proof (n_pos 64 q Wq Oq) as Nq.
  pose proof (k_pos 64 p Wp Op) as Kp. pose proof (k_pos 64 q Wq Oq) as Kq. fold Rp in Np. fold Rq in Nq.
  pose proof (neg_inverse_ok bn OK 64 p Wp Op) as P0. pose proof (neg_inverse_ok bn OK 64 q Wq Oq) as Q0.
  pose proof (montifier_ok bn OK 64 p Wp Op) as Mp. pose proof (montifier_ok bn OK 64 q Wq Oq) as Mq.
  unfold private_crt. change (pr_p key) with p. change (pr_q key) with q. change (pr_p_mf key) with (montifier bn p).
  change (pr_q_mf key) with (montifier bn q). change (pr_p0 key) with (mont_neg_inverse bn p). change (pr_q0 key) with (mont_neg_inverse bn q).
  change (pr_dp key) with dp. change (pr_dq key) with dq. change (pr_iqmp_mont key) with (to_montgomery bn iqmp (montifier bn p) p).
  destruct (reduce_ok bn OK 64 p Wp Op 128 c (montifier bn p) Wc ltac:(lia) Cp Mp) as (cp & E1 & Wcp & Ucp & Bcp & Ccp).
  rewrite E1. cbn [bind].
  destruct (mod_exp_ok bn OK 64 p _ _ cp 64 dp Wp Op P0 Mp) as (x1 & E2 & Wx1 & Ux1 & Vx1); [split; [exact Wcp|exact (Z.le_lt_trans _ _ _ Bcp (proj2 Np))]|exact Wdp|now apply one_used with 64|].
  rewrite E2. cbn [bind].
  destruct (reduce_ok bn OK 64 q Wq Oq 128 c (montifier bn q) Wc ltac:(lia) Cq Mq) as (cq & E3 & Wcq & Ucq & Bcq & Ccq).
  rewrite E3. cbn [bind].
  destruct (mod_exp_ok bn OK 64 q _ _ cq 64 dq Wq Oq Q0 Mq) as (x2 & E4 & Wx2 & Ux2 & Vx2); [split; [exact Wcq|exact (Z.le_lt_trans _ _ _ Bcq (proj2 Nq))]|exact Wdq|now apply one_used with 64|].
  rewrite E4. cbn [bind].
  assert (V1 : val x1 = m1) by (rewrite Vx1; apply cong_eq; [clear - Np; lia|]; now apply cong_pow).
  assert (V2 : val x2 = m2) by (rewrite Vx2; apply cong_eq; [clear - Nq; lia|]; now apply cong_pow).
  clear Vx1 Vx2 E1 E2 E3 E4.
  assert (B1 : 0 <= m1 < val p) by (apply Z.mod_pos_bound; apply Np). assert (B2 : 0 <= m2 < val q) by (apply Z.mod_pos_bound; apply Nq).
  clearbody m1 m2.
  assert (RR : Rp = Rq) by (unfold Rp, Rq; now rewrite Same).
  destruct (sub_mod_raw 64 x1 x2 p Wx1 Wx2 Wp) as (Ws & Us & Vs); [rewrite V1; exact (Z.lt_trans _ _ _ (proj2 B1) (proj2 Np))|rewrite V2; fold Rp; rewrite RR; exact (Z.lt_trans _ _ _ (proj2 B2) (proj2 Nq))|]. rewrite V1, V2 in Vs. fold Rp s in Vs.
  set (sm := sub_mod x1 x2 p) in *.
  pose proof (to_montgomery_ok bn OK 64 p Wp Op iqmp (montifier bn p) ltac:(split; [exact Wi|exact Hi]) Mp) as (Wim & Uim & Bim & Cim).
  pose proof (to_montgomery_lt bn 64 p iqmp (montifier bn p) OK Wp Op ltac:(split; [exact Wi|exact Hi]) Mp) as Lim.
  set (im := to_montgomery bn iqmp (montifier bn p) p) in *.
  assert (Bs : 0 <= s < Rp) by (apply Z.mod_pos_bound; clear - Np; lia).
  destruct (mont_mul_ok bn OK 64 p Wp Op _ P0 sm im Ws Wim) as (Wh & Uh & Bh & Ch); [rewrite Vs; apply Bs|exact Bim|].
  pose proof (fun P L => mont_mul_lt bn OK 64 p Wp Op _ P0 sm im P Ws Wim L Lim) as Lh. rewrite Vs in Lh.
  set (h := mont_mul bn sm im p (mont_neg_inverse bn p)) in *. pose proof (val_nonneg 64 h Wh) as Hh0. fold Rp in Ch, Cim.
  change MAX_PUBLIC_MODULUS_WORDS with 128.
  destruct (pwiden_ok 64 128 x2 Wx2 ltac:(lia)) as (Ww & Vw & _). destruct (pmul_ok 64 128 q h Wq Wh ltac:(lia)) as (Wm & Vm & _).
  destruct (padd_ok 128 (pwiden 128 x2) (pmul 128 q h) Ww Wm) as (Wr & Vr).
  { rewrite Vw, Vm, V2. pose proof (val_boundN 64 p Wp). pose proof (val_boundN 64 q Wq).
    replace (64 * 128) with (64 * (64 + 64)) by lia. rewrite (pow64_add 64 64) by lia. set (T := 2 ^ (64 * 64)) in *. clearbody T. clear - B2 Bh Hh0 H H0. nia. }
  exists (padd (pwiden 128 x2) (pmul 128 q h)), (val h). split; [reflexivity|]. split; [exact Wr|]. split; [rewrite Vr, Vw, Vm, V2; reflexivity|].
  split; [split; assumption|]. split; [|exact Lh].
  apply cong_cancel with Rp; [apply (R_coprime 64 p Wp Op)|]. apply cong_trans with (1 := Ch). rewrite Vs.
  rewrite <- Z.mul_assoc. apply cong_mul; [apply cong_refl|exact Cim].
Qed.
End Crt.
