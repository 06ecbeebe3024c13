(** A reference meeting the contract of S_Bignum.v, showing that the contract is satisfiable.  Nothing else depends on
    it; it models no code (it computes what graviola/src/low/x86_64/bignum_*.rs document, by other means). *)
Require Import Verif.Base Verif.L_Base Verif.L_Blocks Verif.M_Util Verif.L_Util Verif.M_PosInt Verif.S_Bignum Verif.L_PosInt Verif.L_Mont.
Require Import ZifyNat Znumtheory.

(** v / 2^j mod m for odd m *)
Definition ref_div (m j v : Z) : Z := v * ((m + 1) / 2) ^ j mod m.
(** -1/m mod 2^j, by Hensel lifting *)
Definition ref_inv_step (m r x : Z) : Z := x * (2 - m * x) mod r.
Definition ref_inv (m j : Z) : Z := Nat.iter (Z.to_nat (Z.log2_up j)) (ref_inv_step m (2 ^ j)) (1 mod 2 ^ j).
Definition ref_neginv (m j : Z) : Z := (- ref_inv m j) mod 2 ^ j.
(** the inverse of a modulo b, by search *)
Definition ref_find (a b : Z) : Z :=
  match find (fun i => (a * Z.of_nat i) mod b =? 1) (seq 0 (Z.to_nat b)) with Some i => Z.of_nat i | None => 0 end.
Definition wd (k : Z) (v : Z) : list Z := to_words (Z.to_nat k) v.
Definition ref_bignum : bignum := mkBignum
  (fun x y m => wd (zlen m) (ref_div (limbs_val m) (64 * zlen m) (limbs_val x * limbs_val y)))
  (fun x m => wd (zlen m) (ref_div (limbs_val m) (64 * zlen m) (limbs_val x * limbs_val x)))
  (fun x m => wd (zlen m) (ref_div (limbs_val m) (64 * zlen m) (limbs_val x)))
  (fun x m p => wd (zlen m) (ref_div (limbs_val m) (64 * p) (limbs_val x mod 2 ^ (64 * (p + zlen m)))))
  (fun z m w => let k := zlen m in let R := 2 ^ (64 * k) in let q := (limbs_val z * ref_neginv (limbs_val m) (64 * k)) mod R in
     let r := (limbs_val z + q * limbs_val m) / R in (wd k q ++ wd k r, r / R))
  (fun m => wd (zlen m) (2 ^ (128 * zlen m) mod limbs_val m))
  (fun x => wd (zlen x) (ref_neginv (limbs_val x) (64 * zlen x)))
  (fun a b => wd (zlen b) (ref_find (limbs_val a) (limbs_val b)))
  (fun x y m => wd (zlen m) ((limbs_val x + limbs_val y) mod limbs_val m)).

Lemma wd_ok k v b : 0 <= k -> 0 <= v < b -> b <= 2 ^ (64 * k) -> words k (wd k v) /\ limbs_val (wd k v) = v.
Proof. intros. split; [apply to_words_ok; lia|apply to_words_small; lia]. Qed.
Lemma ref_div_ok m j v : 0 < m -> Z.odd m = true -> 0 <= j -> 0 <= ref_div m j v < m /\ (ref_div m j v * 2 ^ j) mod m = v mod m.
Proof.
  intros Hm Ho Hj. split; [apply Z.mod_pos_bound; lia|]. unfold ref_div. apply cong_eq; [lia|].
  apply cong_trans with (v * ((m + 1) / 2) ^ j * 2 ^ j); [apply cong_mul; [apply cong_mod; lia|apply cong_refl]|].
  rewrite <- Z.mul_assoc, <- Z.pow_mul_l. rewrite <- (Z.mul_1_r v) at 2. apply cong_mul; [apply cong_refl|].
  enough (Q : cong m (((m + 1) / 2 * 2) ^ j) (1 ^ j)) by (now rewrite (Z.pow_1_l j) in Q by lia). apply cong_pow. exists 1. apply Z.odd_spec in Ho as [i ->].
  replace (2 * i + 1 + 1) with ((i + 1) * 2) by ring. rewrite Z.div_mul by lia. ring.
Qed.
Lemma ref_inv_ok m j : Z.odd m = true -> 0 <= j -> 0 <= ref_inv m j < 2 ^ j /\ cong (2 ^ j) (m * ref_inv m j) 1.
Proof.
  intros Ho Hj. assert (Pj : 0 < 2 ^ j) by (apply Z.pow_pos_nonneg; lia).
  assert (G : forall i, (let x := Nat.iter i (ref_inv_step m (2 ^ j)) (1 mod 2 ^ j) in
              0 <= x < 2 ^ j /\ cong (2 ^ Z.min j (2 ^ Z.of_nat i)) (m * x) 1)).
  { induction i as [|i [IB [c IC]]]; cbn [Nat.iter nat_rect] in *.
    - split; [apply Z.mod_pos_bound; lia|]. apply cong_weak with (2 ^ Z.min j 1).
      { apply Z.divide_refl. }
      apply cong_trans with (m * 1).
      + apply cong_mul; [apply cong_refl|]. apply cong_weak with (2 ^ j); [|apply cong_mod; lia].
        exists (2 ^ (j - Z.min j 1)). rewrite <- Z.pow_add_r by lia. f_equal. lia.
      + rewrite Z.mul_1_r. destruct (Z.eq_dec j 0) as [->|]; [exists (m - 1); cbn; lia|]. replace (Z.min j 1) with 1 by lia.
        apply Z.odd_spec in Ho as [t ->]. exists t. change (2 ^ 1) with 2. lia.
    - unfold Nat.iter in *. set (x := nat_rect _ _ _ i) in *. split; [apply Z.mod_pos_bound; lia|].
      set (e := 2 ^ Z.of_nat i) in *. assert (0 < e) by (apply Z.pow_pos_nonneg; lia).
      replace (2 ^ Z.of_nat (S i)) with (e + e) by (unfold e; replace (Z.of_nat (S i)) with (1 + Z.of_nat i) by lia; rewrite Z.pow_add_r by lia; lia).
      apply cong_trans with (m * (x * (2 - m * x))).
      + apply cong_mul; [apply cong_refl|]. unfold ref_inv_step. apply cong_weak with (2 ^ j); [|apply cong_mod; lia].
        exists (2 ^ (j - Z.min j (e + e))). rewrite <- Z.pow_add_r by lia. f_equal. lia.
      + apply cong_weak with (2 ^ Z.min j e * 2 ^ Z.min j e).
        * rewrite <- Z.pow_add_r by lia. exists (2 ^ (Z.min j e + Z.min j e - Z.min j (e + e))). rewrite <- Z.pow_add_r by lia. f_equal. lia.
        * exists (- (c * c)). replace (m * (x * (2 - m * x)) - 1) with (- ((m * x - 1) * (m * x - 1))) by ring. rewrite IC. ring. }
  unfold ref_inv. specialize (G (Z.to_nat (Z.log2_up j))). cbv zeta in G. destruct G as [A B]. split; [exact A|].
  destruct (Z.eq_dec j 0) as [->|]; [exists (m * ref_inv m 0 - 1); cbn; lia|].
  rewrite Z2Nat.id in B by apply Z.log2_up_nonneg.
  assert (j <= 2 ^ Z.log2_up j) by (destruct (Z.eq_dec j 1) as [->|]; [cbn; lia|apply Z.log2_up_spec; lia]).
  rewrite Z.min_l in B by lia. exact B.
Qed.
Lemma ref_neginv_ok m j : Z.odd m = true -> 0 <= j -> 0 <= ref_neginv m j < 2 ^ j /\ cong (2 ^ j) (m * ref_neginv m j) (-1).
Proof.
  intros Ho Hj. assert (Pj : 0 < 2 ^ j) by (apply Z.pow_pos_nonneg; lia). destruct (ref_inv_ok m j Ho Hj) as [_ C]. split; [apply Z.mod_pos_bound; lia|].
  apply cong_trans with (m * - ref_inv m j); [apply cong_mul; [apply cong_refl|apply cong_mod; lia]|].
  destruct C as [k E]. exists (-k). lia.
Qed.
Lemma ref_find_ok a b : 1 < b -> Z.gcd a b = 1 -> 0 <= ref_find a b < b /\ (a * ref_find a b) mod b = 1.
Proof.
  intros Hb Hg. unfold ref_find. destruct (find _ _) as [i|] eqn:F.
  - apply find_some in F as [I E]. apply in_seq in I. split; [lia|]. now apply Z.eqb_eq.
  - exfalso. apply Zgcd_1_rel_prime in Hg. destruct (rel_prime_bezout _ _ Hg) as [u v Buv].
    set (r := u mod b). assert (Br : 0 <= r < b) by (apply Z.mod_pos_bound; lia).
    pose proof (find_none _ _ F (Z.to_nat r)) as FN. cbv beta in FN. rewrite Z2Nat.id in FN by lia.
    assert ((a * r) mod b = 1) as E.
    { symmetry. apply cong_small; [lia|]. apply cong_sym. apply cong_trans with (a * u); [apply cong_mul; [apply cong_refl|apply cong_mod; lia]|]. exists (-v). lia. }
    rewrite E in FN. assert (In (Z.to_nat r) (seq 0 (Z.to_nat b))) as I by (apply in_seq; lia). specialize (FN I). discriminate.
Qed.
Lemma odd_words_pos k m : words k m -> Z.odd (limbs_val m) = true -> 0 < limbs_val m < 2 ^ (64 * k).
Proof. intros W O. pose proof (words_bound _ _ W). destruct (Z.eq_dec (limbs_val m) 0) as [E|]; [rewrite E in O; discriminate|lia]. Qed.

Lemma ref_mont k m j v : words k m -> Z.odd (limbs_val m) = true -> 0 <= j ->
  let z := wd k (ref_div (limbs_val m) j v) in
  words k z /\ limbs_val z < limbs_val m /\ (limbs_val z * 2 ^ j) mod limbs_val m = v mod limbs_val m.
Proof.
  intros W O Hj. pose proof (odd_words_pos _ _ W O) as B. pose proof (words_nonneg _ _ W). destruct (ref_div_ok (limbs_val m) j v) as [D1 D2]; auto; [lia|].
  destruct (wd_ok k _ (limbs_val m) H D1 ltac:(lia)) as [A E]. cbv zeta. rewrite E. split; [exact A|]. split; [lia|exact D2].
Qed.

Theorem ref_bignum_ok : bignum_ok ref_bignum.
Proof.
  constructor; cbn [ref_bignum bn_montmul bn_montsqr bn_demont bn_montredc bn_emontredc_8n bn_montifier bn_negmodinv bn_modinv bn_modadd].
  - intros k x y m Wx Wy Wm O _. destruct Wm as [<- Um]. apply ref_mont; [split; auto|auto|pose proof (zlen_nonneg m); lia].
  - intros k x m Wx Wm O _. destruct Wm as [<- Um]. apply ref_mont; [split; auto|auto|pose proof (zlen_nonneg m); lia].
  - intros k x m Wx Wm O. destruct Wm as [<- Um]. apply ref_mont; [split; auto|auto|pose proof (zlen_nonneg m); lia].
  - intros k n p x m Hp Wx Wm O _. destruct Wm as [<- Um]. apply ref_mont; [split; auto|auto|lia].
  - intros k z m w _ Wz Wm O _. pose proof (odd_words_pos _ _ Wm O) as B. pose proof (words_nonneg _ _ Wm) as K.
    destruct Wm as [Lm Um]. rewrite Lm. cbv zeta. pose proof (words_bound _ _ Wz) as Bz.
    destruct (ref_neginv_ok (limbs_val m) (64 * k) O ltac:(lia)) as [NB NC]. set (ni := ref_neginv _ _) in *. clearbody ni.
    replace (2 ^ (64 * (2 * k))) with (2 ^ (64 * k) * 2 ^ (64 * k)) in Bz by (rewrite <- pow64_add by lia; f_equal; lia).
    set (R := 2 ^ (64 * k)) in *. assert (R0 : 0 < R) by lia. set (M := limbs_val m) in *. set (Z1 := limbs_val z) in *.
    set (q := (Z1 * ni) mod R). assert (Bq : 0 <= q < R) by (apply Z.mod_pos_bound; lia).
    assert (Dv : (R | Z1 + q * M)).
    { assert (C : cong R (Z1 + q * M) (Z1 + Z1 * -1)).
      { apply cong_add; [apply cong_refl|]. apply cong_trans with (Z1 * ni * M); [apply cong_mul; [apply cong_mod; lia|apply cong_refl]|].
        rewrite <- Z.mul_assoc, (Z.mul_comm ni). apply cong_mul; [apply cong_refl|exact NC]. }
      destruct C as [c C]. exists c. lia. }
    destruct Dv as [r Er]. rewrite Er, Z.div_mul by lia.
    assert (Br : 0 <= r < 2 * R) by (clearbody q R; nia).
    destruct (wd_ok k q R K Bq ltac:(unfold R; lia)) as [Wq Vq].
    pose proof (to_words_ok k r K) as Wr. pose proof (to_words_val (Z.to_nat k) r) as Vr. rewrite Z2Nat.id in Vr by lia. fold R in Vr.
    fold (wd k r) in Wr, Vr. assert (Lq : zlen (wd k q) = k) by apply Wq.
    split; [|split].
    + split; [rewrite zlen_app, Lq; destruct Wr as [-> _]; lia|apply Forall_app; split; [apply Wq|apply Wr]].
    + assert (0 <= r / R < 2) by (split; [apply Z.div_pos; lia|apply Z.div_lt_upper_bound; lia]). lia.
    + rewrite ztake_app_le by lia. rewrite ztake_all by lia. rewrite zdrop_app_ge by lia. rewrite Lq, Z.sub_diag, zdrop_0.
      rewrite Vq, Vr, Er. pose proof (Z.div_mod r R ltac:(lia)). rewrite Z.mul_comm. f_equal. lia.
  - intros k m Wm O. pose proof (odd_words_pos _ _ Wm O) as B. pose proof (words_nonneg _ _ Wm) as K. destruct Wm as [-> Um].
    apply wd_ok with (limbs_val m); [lia|apply Z.mod_pos_bound; lia|lia].
  - intros k x Wx O. pose proof (words_nonneg _ _ Wx) as K. destruct Wx as [-> Ux].
    destruct (ref_neginv_ok (limbs_val x) (64 * k) O ltac:(lia)) as [NB NC]. destruct (wd_ok k _ _ K NB (Z.le_refl _)) as [A E].
    split; [exact A|]. rewrite E. destruct NC as [c C]. apply Z.mod_divide; [apply Z.pow_nonzero; lia|]. exists c. lia.
  - intros k a b Wa Wb O Hb Hg. pose proof (words_nonneg _ _ Wb) as K. pose proof (words_bound _ _ Wb). destruct Wb as [-> Ub].
    destruct (ref_find_ok _ _ Hb Hg) as [FB FC]. destruct (wd_ok k _ _ K FB ltac:(lia)) as [A E]. cbv zeta. rewrite E. split; [exact A|]. split; [lia|exact FC].
  - intros k x y m Wx Wy Wm Lx Ly. pose proof (words_nonneg _ _ Wm) as K. pose proof (words_bound _ _ Wm). pose proof (words_bound _ _ Wx).
    destruct Wm as [-> Um]. apply wd_ok with (limbs_val m); [lia|apply Z.mod_pos_bound; lia|lia].
Qed.
