(** Lemmas on little-endian word arrays and 8-byte chunks. *)
Require Import Verif.Base Verif.L_Base Verif.L_Blocks Verif.M_Util.
Require Import ZifyNat.

Definition u64 (x : Z) : Prop := 0 <= x < 2 ^ 64.

Lemma limbs_val_app a b : limbs_val (a ++ b) = limbs_val a + 2 ^ (64 * zlen a) * limbs_val b.
Proof.
  induction a as [|x a IH].
  - change (zlen (@nil Z)) with 0. cbn [app limbs_val]. rewrite Z.mul_0_r, Z.pow_0_r. lia.
  - cbn [app limbs_val]. rewrite IH, zlen_cons. replace (64 * (1 + zlen a)) with (64 + 64 * zlen a) by lia.
    pose proof (zlen_nonneg a). rewrite Z.pow_add_r by lia. lia.
Qed.
Lemma limbs_val_bound l : Forall u64 l -> 0 <= limbs_val l < 2 ^ (64 * zlen l).
Proof.
  induction 1 as [|x l Hx Hl IH].
  - change (zlen (@nil Z)) with 0. cbn. lia.
  - cbn [limbs_val]. rewrite zlen_cons. replace (64 * (1 + zlen l)) with (64 + 64 * zlen l) by lia.
    pose proof (zlen_nonneg l). rewrite Z.pow_add_r by lia. unfold u64 in Hx. nia.
Qed.
Lemma limbs_val_inj a b : Forall u64 a -> Forall u64 b -> length a = length b -> limbs_val a = limbs_val b -> a = b.
Proof.
  intros Ha. revert b. induction Ha as [|x a Hx Ha IH]; intros b Hb L E.
  - destruct b; [reflexivity|discriminate].
  - destruct b as [|y b]; [discriminate|]. inversion Hb as [|? ? Hy Hb']; subst. cbn [limbs_val length] in *.
    unfold u64 in Hx, Hy.
    assert (x = y).
    { apply (f_equal (fun z => z mod 2 ^ 64)) in E. rewrite !(Z.mul_comm (2 ^ 64)), !Z.mod_add in E by lia.
      rewrite !Z.mod_small in E by lia. exact E. }
    subst y. f_equal. apply IH; auto; lia.
Qed.

(** chunk induction *)
Lemma chunk8_ind (P : list Z -> Prop) :
  P [] -> (forall c r q, 0 <= q -> zlen c = 8 -> zlen r = 8 * q -> P r -> P (c ++ r)) ->
  forall q b, 0 <= q -> zlen b = 8 * q -> P b.
Proof.
  intros H0 HS q b Hq. revert b. pattern q. apply natlike_ind; [| |exact Hq]; clear q Hq.
  - intros b Hb. rewrite (zlen_0_nil b) by lia. exact H0.
  - intros q Hq IH b Hb. rewrite <- (ztake_zdrop 8 b).
    apply (HS _ _ q); auto. + rewrite zlen_ztake; lia. + rewrite zlen_zdrop; lia.
    + apply IH. rewrite zlen_zdrop; lia.
Qed.
Lemma chunks8_app (c r : list Z) : zlen c = 8 -> chunks_exact 8 (c ++ r) = c :: chunks_exact 8 r.
Proof.
  intros. rewrite (chunks_exact_app 8 1) by lia. rewrite (chunks_exact_cons 8 c) by lia.
  rewrite ztake_all by lia. rewrite zdrop_all by lia. reflexivity.
Qed.

Lemma pow256 n : 0 <= n -> 256 ^ n = 2 ^ (8 * n).
Proof. intros. change 256 with (2 ^ 8). rewrite <- Z.pow_mul_r by lia. reflexivity. Qed.

