(** The hypotheses of the ML-KEM theorems can be met: a concrete implementation of the assembly
    contract, and seeds for which rejection sampling ends. *)
Require Import Verif.Base Verif.L_Base Verif.S_Sha3 Verif.S_MlKem Verif.M_MlKem Verif.S_MlKemAsm Verif.L_MlKemEnc Verif.L_MlKem Verif.L_MlKemKem.
Require Import ZifyNat Permutation.
Local Open Scope Z_scope.

Definition ideal_asm : asm := {|
  a_ntt := fun f => NTT (map (fun x => x mod q) f);
  a_intt := fun F => map (fun x => (2 ^ 16 * x) mod q) (NTT_inv F);
  a_mulcache := fun f => f;
  a_basemul := fun a b _ => map (fun x => (169 * x) mod q) (dot (chunks_exact 256 a) (chunks_exact 256 b));
  a_reduce := map (fun x => x mod q);
  a_tomont := map (fun x => (2 ^ 16 * x) mod q);
  a_frombytes := ByteDecode_raw 12;
  a_tobytes := ByteEncode 12;
  a_unpack := fun f => f;
  a_rej := fun r buf => let acc := firstn n256 (accepted buf) in (acc ++ skipn (length acc) r, zlen acc)
|}.

Lemma coef_congr a b i : congr a b -> coef a i mod q = coef b i mod q.
Proof. intros H. unfold coef. revert i. induction H; intros [|i]; cbn [nth]; auto. Qed.
Lemma zsum_congr m f g : (forall i, f i mod q = g i mod q) -> zsum m f mod q = zsum m g mod q.
Proof. intros H. induction m as [|m IH]; cbn [zsum]; auto. apply add_congr; auto. Qed.
Lemma mul_congr x y x' y' : x mod q = x' mod q -> y mod q = y' mod q -> (x * y) mod q = (x' * y') mod q.
Proof. intros H1 H2. rewrite (Z.mul_mod x), (Z.mul_mod x'), H1, H2 by (unfold q; lia). reflexivity. Qed.
Lemma poly_congr f g : (forall i, f i mod q = g i mod q) -> poly f = poly g.
Proof. intros H. unfold poly. apply map_ext. auto. Qed.
Lemma NTT_inv_congr F G : congr F G -> NTT_inv F = NTT_inv G.
Proof. intros H. apply poly_congr. intros i. apply mul_congr; auto. apply zsum_congr. intros j. apply mul_congr; auto. apply coef_congr; auto. Qed.
Lemma Mult_congr F F' G G' : congr F F' -> congr G G' -> MultiplyNTTs F G = MultiplyNTTs F' G'.
Proof.
  intros H1 H2. apply poly_congr. intros i. cbv zeta. destruct (i mod 2 =? 0)%nat; apply add_congr; repeat apply mul_congr; auto using coef_congr.
Qed.
Lemma dot_congr Fs Fs' Gs Gs' : Forall2 congr Fs Fs' -> Forall2 congr Gs Gs' -> dot Fs Gs = dot Fs' Gs'.
Proof.
  unfold dot. intros H. revert Gs Gs'. induction H as [|F F' Fs Fs' HF H IH]; intros Gs Gs' HG; [reflexivity|].
  destruct HG as [|G G' Gs Gs' HG1 HG]; [reflexivity|]. cbn [combine fold_right]. rewrite (Mult_congr F F' G G' HF HG1). f_equal. apply IH; auto.
Qed.
Lemma NTT_len f : length (NTT f) = n256. Proof. apply poly_len. Qed.
Lemma NTT_canon f : canon (NTT f). Proof. apply canon_poly. Qed.
Lemma NTTi_len f : length (NTT_inv f) = n256. Proof. apply poly_len. Qed.
Local Opaque NTT NTT_inv dot.
Lemma congr_scale_mod k l : congr (map (fun x => (k * x) mod q) l) (map (fun x => k * x) l).
Proof. induction l as [|x l IH]; constructor; auto. apply Z.mod_mod. unfold q; lia. Qed.
Lemma mod_bound {A} (f : A -> Z) b l : q <= b -> Forall (fun x => - b < x < b) (map (fun x => f x mod q) l).
Proof. intros. apply Forall_map, Forall_forall. intros x _. pose proof (Z.mod_pos_bound (f x) q ltac:(unfold q; lia)). lia. Qed.
Lemma chunks_of (F Fs : list (list Z)) (P Q : list Z -> list Z -> Prop) : Forall2 (fun f' f => P f' f /\ i16s f' /\ Q f' f) F Fs -> chunks_exact 256 (concat F) = F.
Proof.
  intros H. assert (L : Forall (fun f => zlen f = 256) F) by (induction H as [|? ? ? ? (_ & [X _] & _) ? IH]; constructor; auto; unfold zlen; rewrite X; reflexivity).
  clear H. apply chunks_concat; auto; lia.
Qed.
Example ideal_asm_ok : asm_ok nat_order ideal_asm.
Proof.
  assert (Q : q = 3329) by reflexivity.
  constructor.
  - apply Permutation_refl.
  - intros f L B. cbn [a_ntt ideal_asm]. rewrite place_nat by apply NTT_len. split; [apply congr_refl|].
    eapply Forall_impl; [|apply NTT_canon]. intros x Hx. cbv beta in *. lia.
  - intros F F' L [L' _] C. cbn [a_intt ideal_asm]. rewrite place_nat in C by auto. rewrite (NTT_inv_congr _ _ C). split; [apply congr_scale_mod|].
    apply (mod_bound (fun x => 2 ^ 16 * x)). lia.
  - intros F G Fs Gs LF LG HF HG. cbn [a_basemul a_mulcache ideal_asm]. cbv zeta.
    rewrite (chunks_of F Fs (fun _ f => length f = n256) (fun f' f => Forall (fun x => 0 <= x < 2 ^ 12) f' /\ congr f' (place nat_order f)) HF).
    rewrite (chunks_of G Gs (fun _ f => length f = n256) (fun f' f => congr f' (place nat_order f)) HG).
    assert (CF : Forall2 congr F Fs).
    { clear -HF. induction HF as [|? ? ? ? (L & _ & _ & C) ? IH]; constructor; auto. rewrite place_nat in C; auto. }
    assert (CG : Forall2 congr G Gs).
    { clear -HG. induction HG as [|? ? ? ? (L & _ & C) ? IH]; constructor; auto. rewrite place_nat in C; auto. }
    rewrite (dot_congr F Fs G Gs CF CG). split.
    + split; [rewrite map_length; apply dot_len|]. eapply Forall_impl; [|apply (mod_bound (fun x => 169 * x) q); lia]. unfold i16. cbv beta. intros; lia.
    + rewrite place_nat by apply dot_len. generalize (dot Fs Gs). intros l. clear -l. unfold congr. induction l as [|x l IH]; cbn [map]; constructor; auto.
      rewrite Z.mul_mod_idemp_r by (unfold q; lia). rewrite Z.mul_assoc. rewrite <- Z.mul_mod_idemp_l by (unfold q; lia). change ((2 ^ 16 * 169) mod q) with 1. f_equal. lia.
  - intros f _. reflexivity.
  - intros f _. cbn [a_tomont ideal_asm]. split; [apply congr_scale_mod|apply (mod_bound (fun x => 2 ^ 16 * x)); lia].
  - intros b B L. cbn [a_frombytes ideal_asm]. rewrite place_nat; auto.
    destruct (decode_facts 12 256 b ltac:(lia) B) as [D _]; [unfold zlen in L; lia|exact D].
  - intros f L _. cbn [a_tobytes ideal_asm]. rewrite place_nat; auto.
  - intros f L. cbn [a_unpack ideal_asm]. rewrite place_nat; auto.
  - intros r buf L B _. cbn [a_rej ideal_asm]. cbv zeta. generalize (accepted buf). intros acc.
    assert (LA : zlen (firstn n256 acc) = Z.min 256 (zlen acc)) by (unfold zlen; rewrite firstn_length; unfold n256; lia).
    split; [|split]; [|exact LA|].
    + rewrite app_length, skipn_length, L. unfold zlen in LA. rewrite firstn_length. unfold n256. lia.
    + unfold zlen. rewrite Nat2Z.id, firstn_app, Nat.sub_diag, app_nil_r, firstn_all2; auto.
Qed.

(** 168 iterations (three SHAKE128 blocks) give 274 candidates for the two-byte seed 00 00 *)
Example sampled_ex : sampled 168 [0; 0].
Proof. vm_compute. reflexivity. Qed.
